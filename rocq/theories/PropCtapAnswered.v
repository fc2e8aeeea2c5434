(** C90: every request to the FIDO applet is answered.  [exec] gives no answer where the code leaves the defined behaviour of C (it sends memory that was never written, or
    writes behind the end of the response buffer). *)
From Verif Require Import Frame PropCtapPin PropCtapToken PropCtapCred CtapToy.
Open Scope string_scope. Open Scope list_scope. Open Scope Z_scope.

(** ** Three reachable devices and requests that are not answered *)
Definition unanswered (K : fcrypto) (d : dev) (x : cmd) : Prop := ev_ok d (Do x) /\ step K d (Do x) = None.
(** A host that enumerates the RPs and asks for one more than there are: metadata that were never read are sent (ctap.c:1742-1776). *)
Definition start90 : list ev := make81 ++ [pin_at 20004 (ask_perm pin_a 4 None); do_at 20005 (OCbor (RCm (inr (mkCm 2 [] (repeat 0 32) (repeat 0 70) (repeat 0 195) 1 (tag_at 20004 [2])))))].
Definition more90 : cmd := cmd_at 20006 (OCbor (RCm (inr (mkCm 3 [] (repeat 0 32) (repeat 0 70) (repeat 0 195) 1 (repeat 0 32))))).
Theorem C90_one_rp_too_many_refuted : exists tr d, hist toyf fresh_dev tr d /\ map code_of tr = [-1; 0; 0; 0; 0; 0] /\ unanswered toyf d more90.
Proof.
  destruct (play_case toyf fresh_dev start90 (fun tr d => beqb (map code_of tr) [-1; 0; 0; 0; 0; 0] && match step toyf d (Do more90) with None => true | _ => false end)) as (tr & d & H1 & H2 & H3); [vm_compute; reflexivity|].
  apply andb_true_iff in H2. destruct H2 as (H2 & H4). apply beqb_eq in H2. exists tr, d. split; [exact H1|]. split; [exact H2|]. split; [apply ev_okb_ok; reflexivity|].
  destruct (step toyf d (Do more90)); [discriminate|reflexivity].
Qed.
(** An allow list with an id of the device in which the algorithm, which the tag does not cover, is replaced by a number that the device does not know: the signature routine
    reports -1, which is taken for an unsigned length (ctap.c:1160-1161). *)
Definition odd90 : bytes := firstn 66 id55' ++ to_le 4 (-9).
Definition sign90 : cmd := cmd_at 20003 (OCbor (RGet (inr (ga_of 7 [odd90] None)))).
Theorem C90_unknown_algorithm_refuted : exists tr d, hist toyf fresh_dev tr d /\ forallb oks tr = true /\ flat_map made tr = ids55 /\ In id55' ids55 /\ unanswered toyf d sign90.
Proof.
  destruct (play_case toyf fresh_dev reg55 (fun tr d => forallb oks tr && same_ids (flat_map made tr) ids55 && match step toyf d (Do sign90) with None => true | _ => false end)) as (tr & d & H1 & H2 & H3); [vm_compute; reflexivity|].
  apply andb_true_iff in H2. destruct H2 as (H2 & H4). apply andb_true_iff in H2. destruct H2 as (H2 & H5). exists tr, d. split; [exact H1|]. split; [exact H2|]. split; [apply same_ids_eq; exact H5|]. split; [right; left; reflexivity|].
  split; [apply ev_okb_ok; reflexivity|]. destruct (step toyf d (Do sign90)); [discriminate|reflexivity].
Qed.
(** An attestation certificate of the greatest size that the device accepts: the response of makeCredential does not fit the buffer of 1300 bytes. *)
Definition cert90 : list ev := [do_at 20000 (OKey (repeat 6 32)); do_at 20001 (OCert (repeat 1 1152))].
Definition make90 : cmd := cmd_at 20002 (OCbor (RMake (inr (mc_of 7 1 0 None)))).
Theorem C90_long_certificate_refuted : exists tr d, hist toyf fresh_dev tr d /\ forallb oks tr = true /\ unanswered toyf d make90.
Proof.
  destruct (play_case toyf fresh_dev cert90 (fun tr d => forallb oks tr && match step toyf d (Do make90) with None => true | _ => false end)) as (tr & d & H1 & H2 & H3); [vm_compute; reflexivity|].
  apply andb_true_iff in H2. destruct H2 as (H2 & H4). exists tr, d. split; [exact H1|]. split; [exact H2|]. split; [apply ev_okb_ok; reflexivity|]. destruct (step toyf d (Do make90)); [discriminate|reflexivity].
Qed.

(** ** What is always answered *)
(** Cryptography that works: AES-CBC gives as many bytes as it is given; every derived secret is the secret of some key and signs. *)
Definition aes_works (K : fcrypto) : Prop := forall k iv d, exists c, f_aes_enc K k iv d = Some c /\ zlen c = zlen d.
Definition keys_work (K : fcrypto) : Prop :=
  (forall kt k, exists p, f_pub K kt k = Some p /\ zlen p <= 64) /\ (forall kt k m, exists s, f_sign K kt k m = Some s /\ zlen s <= 72).
(** The commands: getInfo, clientPIN with any parameters, reset, selection, reading the large-blob array, unknown commands, every command whose parameters the parser rejected,
    credentialManagement where nothing is enumerated, and, with a certificate that leaves place for the rest of the response, makeCredential; U2F registration (as before) and
    authentication; the administration commands. *)
Definition certificate (d : dev) : bytes := match d_fs d "ctap_cert" with Some f => firstn 1152 (f_data f) | None => [] end.
Definition covered (d : dev) (x : cmd) : Prop :=
  match x_op x with
  | OCbor (RMake (inr q)) => mc_ok q /\ zlen (certificate d) <= 750
  | OCbor (RCm (inr q)) => ~ In (cm_sub q) [2; 3; 4; 5]
  | OCbor (RLarge (inr q)) => lb_ok q /\ lb_get q <> None
  | OCbor (RGet (inr _)) | OCbor RNext => False
  | ORegister _ => 209 + zlen (certificate d) <= x_cap x
  | _ => True
  end.

Section S.
Variable K : fcrypto.
Variable N : Z.           (* a bound of the size of the certificate *)
Variable FA : bool.       (* whether returning -1 is an answer (it is for U2F) *)
Definition small (e : env) : Prop := match e_fs e CTAP_CERT_FILE with Some f => zlen (firstn 1152 (f_data f)) <= N | None => True end.
Definition fine {A} (P : A -> Prop) (o : out A) : Prop := match o with Ret a => P a | Exc _ => True | Fail => FA = true | UB => False end.
Definition calm {A} (P : A -> Prop) (m : Mc A) : Prop := forall s e, small e -> wp m (fun o _ e' => small e' /\ fine P o) s e.
Definition any {A} (_ : A) : Prop := True.
Lemma cl_bind {A B} (P : A -> Prop) (Q : B -> Prop) (m : Mc A) k : calm P m -> (forall a, P a -> calm Q (k a)) -> calm Q (bind m k).
Proof. intros H1 H2 s e Hs. apply wp_bind. eapply wp_mono; [apply H1, Hs|]. intros [a|w| |] s' e' (H3 & H); cbn [fine] in *; [apply H2; assumption|auto|auto|destruct H]. Qed.
Lemma cl_any {A B} (Q : B -> Prop) (m : Mc A) k : calm any m -> (forall a, calm Q (k a)) -> calm Q (bind m k).
Proof. intros H1 H2. eapply cl_bind; [exact H1|]. intros a _. apply H2. Qed.
Lemma cl_ret {A} (P : A -> Prop) a : P a -> calm P (ret a). Proof. intros H s e Hs. split; [exact Hs|exact H]. Qed.
Lemma cl_exc {A} (P : A -> Prop) w : calm P (except w). Proof. intros s e Hs. split; [exact Hs|exact I]. Qed.
Lemma cl_get : calm any get. Proof. intros s e Hs. split; [exact Hs|exact I]. Qed.
Lemma cl_modify f : calm any (modify f). Proof. intros s e Hs. split; [exact Hs|exact I]. Qed.
Lemma cl_guard b w : calm any (guard b w). Proof. destruct b; [apply cl_ret; exact I|apply cl_exc]. Qed.
Lemma cl_guard_if b w : calm (fun _ => b = true) (guard b w). Proof. destruct b; [apply cl_ret; reflexivity|apply cl_exc]. Qed.
Lemma cl_random n : calm any (random_buffer n). Proof. intros s e Hs. split; [exact Hs|exact I]. Qed.
Lemma cl_wait : calm any wait_touch. Proof. intros s e Hs. unfold wp, wait_touch. destruct (e_tch e); (split; [exact Hs|exact I]). Qed.
Lemma cl_read_attr p a : calm any (read_attr p a). Proof. intros s [F L X R T O] Hs. apply wp_read_attr. intros. split; [exact Hs|exact I]. Qed.
Lemma cl_size p : calm any (get_file_size p). Proof. intros s [F L X R T O] Hs. apply wp_get_file_size. intros. split; [exact Hs|exact I]. Qed.
Lemma cl_read_file p o n : calm any (read_file p o n). Proof. intros s [F L X R T O] Hs. apply wp_read_file. intros. split; [exact Hs|exact I]. Qed.
Lemma cl_write_attr p a v : calm any (write_attr p a v).
Proof.
  intros s [F L X R T O] Hs. unfold small in Hs. cbn [e_fs] in Hs. apply wp_write_attr; intros; (split; [|exact I]); unfold small; cbn [e_fs]; [|exact Hs]. unfold fsetattr. destruct (F p) as [f|] eqn:E; [|exact Hs].
  unfold fset. destruct (String.eqb CTAP_CERT_FILE p) eqn:Ep; [|exact Hs]. apply String.eqb_eq in Ep. subst p. rewrite E in Hs. exact Hs.
Qed.
(** Writes that leave the certificate, or any write if the bound is that of the device *)
Definition leaves (p : path) (d : bytes) (t : bool) : Prop := p <> CTAP_CERT_FILE \/ (d = [] /\ t = false) \/ (0 <= N /\ 1152 <= N).
Lemma small_wide e : 1152 <= N -> small e.
Proof. intros H. unfold small. destruct (e_fs e CTAP_CERT_FILE); [|exact I]. unfold zlen. rewrite firstn_length. lia. Qed.
Definition cert_of (F : fs) : bytes := match F CTAP_CERT_FILE with Some f => f_data f | None => [] end.
Lemma create_cert F p : cert_of (fcreate F p) = cert_of F.
Proof. unfold cert_of, fcreate. destruct (F p) eqn:E; [reflexivity|]. unfold fset. destruct (String.eqb CTAP_CERT_FILE p) eqn:Ep; [|reflexivity]. apply String.eqb_eq in Ep. subst p. rewrite E. reflexivity. Qed.
Lemma write_cert F p d o t : p <> CTAP_CERT_FILE \/ (d = [] /\ t = false) -> cert_of (fwrite F p d o t) = cert_of F.
Proof.
  intros H. rewrite <- (create_cert F p). unfold fwrite. destruct (fcreate F p p) as [f|] eqn:E.
  - unfold cert_of. unfold fset at 1. destruct (String.eqb CTAP_CERT_FILE p) eqn:Ep; [|reflexivity]. apply String.eqb_eq in Ep. destruct H as [H|(-> & ->)]; [congruence|]. subst p. rewrite E. reflexivity.
  - exfalso. revert E. unfold fcreate. destruct (F p) eqn:E; [congruence|]. rewrite fset_same. discriminate.
Qed.
Lemma small_is e : 0 <= N -> small e <-> zlen (firstn 1152 (cert_of (e_fs e))) <= N.
Proof. intros H. unfold small, cert_of. destruct (e_fs e CTAP_CERT_FILE); [tauto|]. rewrite firstn_nil. change (zlen (@nil Z)) with 0. tauto. Qed.
Lemma cl_write_file p d o t : leaves p d t -> 0 <= N -> calm any (write_file p d o t).
Proof.
  intros Hl HN s [F L X R T O] Hs. apply small_is in Hs; [|exact HN]. cbn [e_fs] in Hs. destruct (Z_le_gt_dec 1152 N) as [H|H].
  - eapply wp_mono with (Q := fun o' _ _ => fine any o'); [|intros o' s' e' Q; split; [apply small_wide, H|exact Q]]. apply wp_write_file; intros; exact I.
  - assert (Hc : p <> CTAP_CERT_FILE \/ (d = [] /\ t = false)) by (unfold leaves in Hl; intuition lia).
    apply wp_write_file; intros; (split; [|exact I]); apply small_is; try exact HN; cbn [e_fs]; rewrite ?create_cert, ?(write_cert F p d o t Hc); exact Hs.
Qed.
Lemma cl_weak {A} (P Q : A -> Prop) m : calm P m -> (forall a, P a -> Q a) -> calm Q m.
Proof. intros H1 H2 s e Hs. eapply wp_mono; [apply H1, Hs|]. intros [a|w| |] s' e' (H3 & H); cbn [fine] in *; auto. Qed.
Lemma cl_must m : calm any m -> calm any (must m). Proof. intros H. eapply cl_any; [exact H|]. intros b. apply cl_guard. Qed.
Lemma cl_got {A} (m : Mc (option A)) : calm any m -> calm any (got m). Proof. intros H. eapply cl_any; [exact H|]. intros [a|]; [apply cl_ret; exact I|apply cl_exc]. Qed.
Lemma cl_gets {A} (f : ctap -> A) : calm any (gets f). Proof. intros s e Hs. split; [exact Hs|exact I]. Qed.
Hypothesis HN : 0 <= N.
Ltac cl := repeat (match goal with
  | |- calm _ (bind _ _) => eapply cl_any; [|intros ?]
  | |- calm _ (ret _) => apply cl_ret; try exact I
  | |- calm _ (except _) => apply cl_exc
  | |- calm _ get => apply cl_get
  | |- calm _ (gets _) => apply cl_gets
  | |- calm _ (modify _) => apply cl_modify
  | |- calm _ (guard _ _) => apply cl_guard
  | |- calm _ (random_buffer _) => apply cl_random
  | |- calm _ (read_attr _ _) => apply cl_read_attr
  | |- calm _ (read_file _ _ _) => apply cl_read_file
  | |- calm _ (get_file_size _) => apply cl_size
  | |- calm _ (write_attr _ _ _) => apply cl_write_attr
  | |- calm _ (write_file _ _ _ _) => apply cl_write_file; [first [left; discriminate|right; left; split; reflexivity|idtac]|exact HN]
  | |- calm _ (must _) => apply cl_must
  | |- calm _ (got _) => apply cl_got
  | |- calm _ wait_touch => apply cl_wait
  | |- calm _ (if ?b then _ else _) => destruct b
  | |- calm _ (match ?x with _ => _ end) => destruct x eqn:?
  | |- calm _ (let _ := _ in _) => cbv zeta
  end).

(** The length of an item *)
Lemma head_len m n : zlen (cbor_head m n) <= 5.
Proof. unfold cbor_head. destruct (n <? 24); [unfold zlen; cbn; lia|]. destruct (n <? 256); [unfold zlen; cbn; lia|]. destruct (n <? 65536); unfold zlen; cbn [length]; rewrite ?to_be_length; lia. Qed.
Fixpoint bound (v : cbor) : Z :=
  match v with
  | CInt _ => 5 | CBytes b | CText b => 5 + zlen b | CBool _ => 1 | CRaw b => zlen b
  | CArr l => 5 + (fix go l := match l with [] => 0 | x :: r => bound x + go r end) l
  | CMap l => 5 + (fix go l := match l with [] => 0 | (k, x) :: r => bound k + bound x + go r end) l
  end.
Lemma enc_bound v : zlen (enc v) <= bound v.
Proof.
  revert v. fix IH 1. intros [z|b|b|b|l|l|b].
  - cbn [enc bound]. destruct (z <? 0); apply head_len.
  - cbn [enc bound]. rewrite zlen_app. pose proof (head_len 2 (zlen b)). lia.
  - cbn [enc bound]. rewrite zlen_app. pose proof (head_len 3 (zlen b)). lia.
  - destruct b; reflexivity || (cbn; lia).
  - cbn [enc bound]. rewrite zlen_app. pose proof (head_len 4 (zlen l)) as H. apply Z.add_le_mono; [exact H|]. clear H. induction l as [|x r IHr]; [reflexivity || (cbn; lia)|]. rewrite zlen_app. apply Z.add_le_mono; [apply IH|exact IHr].
  - cbn [enc bound]. rewrite zlen_app. pose proof (head_len 5 (zlen l)) as H. apply Z.add_le_mono; [exact H|]. clear H. induction l as [|[k x] r IHr]; [reflexivity || (cbn; lia)|]. rewrite !zlen_app, Z.add_assoc. apply Z.add_le_mono; [apply Z.add_le_mono; apply IH|exact IHr].
  - cbn [enc bound]. lia.
Qed.
Definition fits (n : Z) (v : option cbor) : Prop := match v with Some v => zlen (enc v) <= n | None => True end.

Lemma cl_install b : calm any (ctap_install K b).
Proof. unfold ctap_install, cp_initialize, cp_regenerate, cp_reset_token. cl. Qed.
Lemma cl_info : calm (fun v => zlen (enc v) <= 1000) ctap_get_info.
Proof. unfold ctap_get_info, has_pin. cl. eapply Z.le_trans; [apply enc_bound|]. destruct a; destruct (sm2_enabled _); apply Z.leb_le; vm_compute; reflexivity. Qed.
Lemma cl_decap pub proto : calm any (cp_decapsulate K pub proto). Proof. unfold cp_decapsulate. cl. Qed.
Lemma cl_new_pin d : calm any (new_pin K d). Proof. unfold new_pin, set_pin. cl. Qed.
Lemma cl_left : calm any pin_retries_left. Proof. unfold pin_retries_left, has_pin, get_pin_retries. cl. Qed.
Lemma cl_check key h proto r b : calm any (check_pin K key h proto r b). Proof. unfold check_pin, set_pin_retries, verify_pin_hash, cp_regenerate. cl. Qed.
Lemma random_len n : 0 <= n -> calm (fun r => zlen r = n) (random_buffer n).
Proof. intros Hn s e Hs. unfold wp, random_buffer. split; [exact Hs|]. cbn [fine]. unfold zlen. rewrite firstn_length, app_length. unfold zeros. rewrite repeat_length. lia. Qed.
Lemma slice_le off n l : 0 <= n -> zlen (slice off n l) <= n. Proof. intros H. unfold slice, zlen. rewrite firstn_length. lia. Qed.
Definition tail90 (t2 : Z) (q : cpreq) (key : bytes) : Mc cbor :=
  cp_reset_token ;;; cp_begin_using t2 false ;;;
  (if cp_sub q =? 5 then cp_set_permission (PERM_MC + PERM_GA)
   else cp_set_permission (cp_perm q) ;;; match cp_rp q with Some h => cp_associate_rp h | None => ret tt end) ;;;
  s <- get ;; c <- cp_encrypt K key (t_token (c_tok s)) (cp_proto q) ;; match c with None => ub | Some c => ret (CMap [(CInt 2, CBytes c)]) end.
Lemma cl_encrypt key d proto : aes_works K -> calm (fun c => exists v, c = Some v /\ zlen v <= 16 + zlen d) (cp_encrypt K key d proto).
Proof.
  intros HA. unfold cp_encrypt. destruct (proto =? 1).
  - apply cl_ret. destruct (HA key (zeros 16) d) as (c & E & L). exists c. rewrite E. split; [reflexivity|lia].
  - eapply cl_bind; [apply random_len; lia|]. intros iv Hiv. cbv beta in Hiv. apply cl_ret. destruct (HA (skipn 32 key) iv d) as (c & E & L). rewrite E. cbn [option_map]. eexists. split; [reflexivity|]. destruct (proto =? 2); rewrite ?zlen_app; lia.
Qed.
Lemma cl_tail t2 q key : aes_works K -> calm (fun v => zlen (enc v) <= 100) (tail90 t2 q key).
Proof.
  intros HA. unfold tail90, cp_reset_token. intros s e Hs0. do 2 apply wp_bind. eapply wp_mono; [apply (random_len 32); [lia|exact Hs0]|]. intros [r|w| |] s1 e1 (Hs1 & Hr); cbn [fine] in Hr; [|split; [exact Hs1|exact Hr]|split; [exact Hs1|exact Hr]|destruct Hr]. cbv beta in Hr.
  assert (W : forall tk, t_token (c_tok tk) = r -> wp (c <- cp_encrypt K key (t_token (c_tok tk)) (cp_proto q) ;; match c with None => ub | Some c => ret (CMap [(CInt 2, CBytes c)]) end)
                (fun o _ e' => small e' /\ fine (fun a => zlen (enc a) <= 100) o) tk e1).
  { intros tk Et. rewrite Et. apply wp_bind. eapply wp_mono; [apply (cl_encrypt key r (cp_proto q) HA); exact Hs1|]. intros [c|w| |] s2 e2 (Hs2 & Hc); cbn [fine] in Hc; [|split; [exact Hs2|exact Hc]|split; [exact Hs2|exact Hc]|destruct Hc]. destruct Hc as (v & -> & Hv). split; [exact Hs2|].
    cbn [fine]. eapply Z.le_trans; [apply enc_bound|]. cbn [bound]. lia. }
  unfold wp in *. unfold cp_begin_using, cp_set_permission, cp_associate_rp, modify, get, ret. cbv beta. unfold bind at 1 2.
  destruct (cp_sub q =? 5); [apply (W (set_tok _ _)); reflexivity|]. destruct (cp_rp q); apply (W (set_tok _ _)); reflexivity.
Qed.
Lemma cl_token t2 q : aes_works K -> calm (fun v => zlen (enc v) <= 100) (get_token_cmd K t2 q).
Proof.
  intros HA. unfold get_token_cmd. eapply cl_any; [apply cl_left|intros retries]. eapply cl_any; [apply cl_decap|intros key]. eapply cl_any; [apply cl_check|intros u]. eapply cl_any; [unfold set_pin_retries; cl|intros u'].
  apply (cl_tail t2 q key HA).
Qed.
Lemma cl_pin t2 p : aes_works K -> calm (fits 200) (ctap_client_pin K t2 p).
Proof.
  intros HA. destruct p as [err|q]; [apply cl_exc|]. unfold ctap_client_pin. destruct (cp_sub q =? 1); [|destruct (cp_sub q =? 2); [|destruct (cp_sub q =? 3); [|destruct (cp_sub q =? 4); [|destruct ((cp_sub q =? 5) || (cp_sub q =? 9))]]]].
  - unfold get_pin_retries. cl. cbn [fits]. eapply Z.le_trans; [apply enc_bound|]. cbn [bound]. lia.
  - cl. cbn [fits]. eapply Z.le_trans; [apply enc_bound|]. unfold ec_key. cbn [bound]. pose proof (slice_le 0 32 (snd (t_ka (c_tok a))) ltac:(lia)). pose proof (slice_le 32 32 (snd (t_ka (c_tok a))) ltac:(lia)). lia.
  - pose proof cl_decap. pose proof cl_new_pin. unfold set_pin_cmd, has_pin. cl; auto.
  - pose proof cl_decap. pose proof cl_new_pin. pose proof cl_left. pose proof cl_check. unfold change_pin_cmd. cl; auto.
  - eapply cl_bind; [apply (cl_token t2 q HA)|]. intros v Hv. cbv beta in Hv. apply cl_ret. cbn [fits]. lia.
  - cl.
Qed.

(** Records: a file of which the size was asked is as long as it said. *)
Definition has (e : env) (p : path) (z : Z) : Prop := exists f, e_fs e p = Some f /\ z <= zlen (f_data f).
Lemma has_same e e' p z : e_fs e' = e_fs e -> has e p z -> has e' p z. Proof. intros E (f & H). exists f. rewrite E. exact H. Qed.
Definition read_only {A} (P : A -> Prop) (e : env) (o : out A) (s : ctap) (e' : env) : Prop := e_fs e' = e_fs e /\ fine P o.
Lemma ro_rec p size i s e : 0 <= size -> has e p ((i + 1) * size) -> wp (read_rec p size i) (read_only (fun d => zlen d = size) e) s e.
Proof.
  intros Hz (f & Hf & Hl). destruct e as [F L X R T O]. cbn [e_fs] in Hf. unfold read_rec, got. apply wp_bind, wp_bind, wp_read_file. intros X' r _ Hr. destruct r as [d|]; [|split; [reflexivity|exact I]]. destruct Hr as [Hr|Hr]; [discriminate|].
  apply wp_ret. unfold fread in Hr. rewrite Hf in Hr. destruct (i * size <? 0) eqn:E; [discriminate|]. injection Hr as ->. assert (Ed : zlen (slice (i * size) size (f_data f)) = size) by (rewrite zlen_slice; lia). rewrite Ed, Z.eqb_refl. split; [reflexivity|exact Ed].
Qed.
Lemma cl_sized {B} (Q : B -> Prop) p (k : option Z -> Mc B) :
  calm Q (k None) -> (forall z s e, 0 <= z -> has e p z -> small e -> wp (k (Some z)) (fun o _ e' => small e' /\ fine Q o) s e) -> calm Q (z <- get_file_size p ;; k z).
Proof.
  intros H1 H2 s [F L X R T O] Hs. apply wp_bind, wp_get_file_size. intros X' r _ Hr. destruct r as [z|]; [|apply H1; exact Hs]. destruct Hr as [Hr|Hr]; [discriminate|]. unfold fsize in Hr. destruct (F p) as [f|] eqn:E; [|discriminate]. injection Hr as Ez.
  apply H2; [rewrite Ez; apply zlen_nonneg|exists f; split; [exact E|lia]|exact Hs].
Qed.
Lemma cl_counted {B} (Q : B -> Prop) p size (k : Z -> Mc B) : 0 < size ->
  (forall n s e, 0 <= n -> has e p (n * size) -> small e -> wp (k n) (fun o _ e' => small e' /\ fine Q o) s e) -> calm Q (n <- count_recs p size ;; k n).
Proof.
  intros Hz H s e Hs. unfold count_recs, got.
  assert (C : calm Q (z <- get_file_size p ;; match z with Some z => k (z / size) | None => except ERR_UNHANDLED end)).
  { apply cl_sized; [apply cl_exc|]. intros z s' e' H0 Hh Hs'. apply H; [apply Z.div_pos; lia| |exact Hs']. destruct Hh as (f & Hf & Hl). exists f. split; [exact Hf|]. pose proof (Z.mul_div_le z size Hz). lia. }
  specialize (C s e Hs). unfold wp, bind in *. destruct (get_file_size p s e) as [[[[z|]|w| |] s'] e']; exact C.
Qed.
Lemma cl_drop n : forall i idx s e, 0 <= i -> has e DC_META_FILE ((i + Z.of_nat n) * META_SIZE) -> small e -> wp (drop_slot n i idx) (fun o _ e' => small e' /\ fine any o) s e.
Proof.
  induction n as [|n IH]; intros i idx s e Hi Hh Hs; cbn [drop_slot]; [split; [exact Hs|exact I]|]. apply wp_bind. eapply wp_mono; [apply ro_rec; [unfold META_SIZE; lia|]|].
  - destruct Hh as (f & Hf & Hl). exists f. split; [exact Hf|]. unfold META_SIZE in *. lia.
  - intros [m|w| |] s' e' (E & Hm); cbn [fine] in Hm; try (split; [unfold small; rewrite E; exact Hs|exact Hm]). assert (Hs' : small e') by (unfold small; rewrite E; exact Hs). destruct (Z.testbit (m_slots m) idx).
    + apply (cl_must _); [|exact Hs']. apply cl_write_file; [left; discriminate|exact HN].
    + apply IH; [lia| |exact Hs']. apply (has_same e); [exact E|]. destruct Hh as (f & Hf & Hl). exists f. split; [exact Hf|]. unfold META_SIZE in *. lia.
Qed.
Lemma cl_consistency : calm any consistency_check.
Proof.
  unfold consistency_check. eapply cl_any; [unfold read_general; cl|intros a]. destruct (Z.land (ga_flags a) 3 =? 0); [cl|]. cbv zeta.
  assert (T : calm any (n <- count_recs DC_META_FILE META_SIZE ;; drop_slot (Z.to_nat n) 0 (ga_index a) ;;;
    must (write_attr DC_FILE DC_GENERAL_ATTR [if Z.testbit (ga_flags a) 1 then u8 (ga_numbers a - 1) else ga_numbers a; ga_index a; Z.land (ga_flags a) 252]))).
  { apply cl_counted; [reflexivity|]. intros n s e Hn Hh Hs. apply wp_bind. eapply wp_mono; [apply cl_drop; [lia|rewrite Z2Nat.id by lia; exact Hh|exact Hs]|]. intros [u|w| |] s' e' (Hs' & H); cbn [fine] in H; try (split; [exact Hs'|exact H]).
    apply (cl_must _ (cl_write_attr _ _ _)); exact Hs'. }
  apply cl_sized; [exact (cl_any _ _ _ (cl_ret _ _ I) (fun _ => T))|]. intros z s e Hz Hh Hs. apply wp_bind. destruct ((ga_index a + 1) * DC_SIZE <=? z) eqn:Ei; [|apply wp_ret, T; exact Hs].
  apply wp_bind. eapply wp_mono; [apply ro_rec; [unfold DC_SIZE; lia|]|].
  - destruct Hh as (f & Hf & Hl). exists f. split; [exact Hf|lia].
  - intros [d|w| |] s' e' (E & Hd); cbn [fine] in Hd; try (split; [unfold small; rewrite E; exact Hs|exact Hd]). assert (Hs' : small e') by (unfold small; rewrite E; exact Hs). destruct (dc_deleted d); [apply wp_ret, T; exact Hs'|].
    eapply wp_mono; [apply (cl_must _ (cl_write_file DC_FILE (dc_delete d) (ga_index a * DC_SIZE) false ltac:(left; discriminate) HN)); exact Hs'|]. intros [u|w| |] s2 e2 (Hs2 & H2); cbn [fine] in H2; try (split; [exact Hs2|exact H2]). apply T, Hs2.
Qed.
(** Loops over records that only read *)
Lemma ro_step {B} p size (Q : B -> Prop) i (k : bytes -> Mc B) s e : 0 <= size -> has e p ((i + 1) * size) -> (forall d s' e', e_fs e' = e_fs e -> wp (k d) (read_only Q e') s' e') -> wp (d <- read_rec p size i ;; k d) (read_only Q e) s e.
Proof.
  intros Hz Hh Hk. apply wp_bind. eapply wp_mono; [apply ro_rec; assumption|]. intros [d|w| |] s' e' (E & Hd); cbn [fine] in Hd; try (split; [exact E|exact Hd]). eapply wp_mono; [apply Hk, E|]. intros o s2 e2 (E2 & H2). split; [congruence|exact H2].
Qed.
Lemma has_sub e p n i size : 0 < size -> has e p ((i + Z.of_nat (S n)) * size) -> has e p ((i + 1) * size).
Proof. intros Hz (f & Hf & Hl). exists f. split; [exact Hf|]. nia. Qed.
Lemma has_next e e' p n i size : e_fs e' = e_fs e -> has e p ((i + Z.of_nat (S n)) * size) -> has e' p ((i + 1 + Z.of_nat n) * size).
Proof. intros E (f & Hf & Hl). exists f. rewrite E. split; [exact Hf|]. replace (i + 1 + Z.of_nat n) with (i + Z.of_nat (S n)) by lia. exact Hl. Qed.
Lemma ro_find_slot n : forall pos fd rp user buf s e, has e DC_FILE ((pos + Z.of_nat n) * DC_SIZE) -> wp (find_slot n pos fd rp user buf) (read_only any e) s e.
Proof.
  induction n as [|n IH]; intros pos fd rp user buf s e Hh; cbn [find_slot]; [split; [reflexivity|exact I]|]. apply ro_step; [unfold DC_SIZE; lia|apply (has_sub e _ n); [reflexivity|exact Hh]|]. intros d s' e' E. pose proof (has_next e e' _ n pos _ E Hh) as Hn.
  destruct (dc_deleted d); [apply IH, Hn|]. destruct (_ && _); [split; [reflexivity|exact I]|apply IH, Hn].
Qed.
Lemma ro_find_meta n : forall pos fd rp s e, has e DC_META_FILE ((pos + Z.of_nat n) * META_SIZE) -> wp (find_meta n pos fd rp) (read_only any e) s e.
Proof.
  induction n as [|n IH]; intros pos fd rp s e Hh; cbn [find_meta]; [split; [reflexivity|exact I]|]. apply ro_step; [unfold META_SIZE; lia|apply (has_sub e _ n); [reflexivity|exact Hh]|]. intros d s' e' E. pose proof (has_next e e' _ n pos _ E Hh) as Hn.
  destruct (m_slots d =? 0); [apply IH, Hn|]. destruct (beqb rp (m_hash d)); [split; [reflexivity|exact I]|apply IH, Hn].
Qed.
Lemma ro_find_id n : forall i id s e, has e DC_FILE ((i + Z.of_nat n) * DC_SIZE) -> wp (find_id n i id) (read_only any e) s e.
Proof.
  induction n as [|n IH]; intros i id s e Hh; cbn [find_id]; [split; [reflexivity|exact I]|]. apply ro_step; [unfold DC_SIZE; lia|apply (has_sub e _ n); [reflexivity|exact Hh]|]. intros d s' e' E. pose proof (has_next e e' _ n i _ E Hh) as Hn.
  destruct (_ || _); [apply IH, Hn|]. split; [reflexivity|exact I].
Qed.
Lemma ro_then {A B} (Q : B -> Prop) (m : Mc A) k s e : small e -> wp m (read_only any e) s e -> (forall a, calm Q (k a)) -> wp (bind m k) (fun o _ e' => small e' /\ fine Q o) s e.
Proof.
  intros Hs Hm Hk. apply wp_bind. eapply wp_mono; [exact Hm|]. intros [a|w| |] s' e' (E & H); cbn [fine] in H; assert (Hs' : small e') by (unfold small; rewrite E; exact Hs); try (split; [exact Hs'|exact H]). apply Hk, Hs'.
Qed.
Lemma has_less e p a b : a <= b -> has e p b -> has e p a. Proof. intros H (f & Hf & Hl). exists f. split; [exact Hf|lia]. Qed.
Lemma cl_store q id : calm any (mc_store q id).
Proof.
  unfold mc_store. apply cl_counted; [reflexivity|]. intros n s e Hn Hh Hs. apply ro_then; [exact Hs|apply ro_find_slot; rewrite Z2Nat.id by lia; exact Hh|]. intros [[pos fd] old]. cbv zeta.
  eapply cl_any; [apply cl_guard|intros _]. eapply cl_any; [unfold read_general; cl|intros a]. eapply cl_any; [cl|intros _]. eapply cl_any; [cl|intros _].
  apply cl_counted; [reflexivity|]. intros m s2 e2 Hm Hh2 Hs2. apply ro_then; [exact Hs2|apply ro_find_meta; rewrite Z2Nat.id by lia; exact Hh2|]. intros [[mpos mfd] slots]. cl.
Qed.
Lemma cl_drop_from n : forall i idx rp s e, has e DC_META_FILE ((i + Z.of_nat n) * META_SIZE) -> small e -> wp (drop_from_meta n i idx rp) (fun o _ e' => small e' /\ fine any o) s e.
Proof.
  induction n as [|n IH]; intros i idx rp s e Hh Hs; cbn [drop_from_meta]; [split; [exact Hs|exact I]|]. apply wp_bind. eapply wp_mono; [apply ro_rec; [unfold META_SIZE; lia|apply (has_sub e _ n); [reflexivity|exact Hh]]|].
  intros [m|w| |] s' e' (E & Hm); cbn [fine] in Hm; assert (Hs' : small e') by (unfold small; rewrite E; exact Hs); try (split; [exact Hs'|exact Hm]). destruct (beqb (m_hash m) rp).
  - apply (cl_must _); [|exact Hs']. apply cl_write_file; [left; discriminate|exact HN].
  - apply IH; [|exact Hs']. apply (has_next e e' _ n i _ E Hh).
Qed.
Lemma u8_le n : 0 <= n -> 0 <= u8 n <= n. Proof. intros H. unfold u8. pose proof (Z.mod_pos_bound n 256 ltac:(lia)). pose proof (Z.mod_le n 256 H ltac:(lia)). lia. Qed.
Lemma cl_delete q n : calm any (cm_delete q n).
Proof.
  unfold cm_delete, cp_verify_rp. eapply cl_any; [cl|intros ok]. eapply cl_any; [cl|intros _]. eapply cl_any; [cl|intros _]. apply cl_counted; [reflexivity|]. intros k s e Hk Hh Hs. pose proof (u8_le k Hk).
  apply ro_then; [exact Hs|apply ro_find_id; rewrite Z2Nat.id by lia; apply (has_less e _ _ (k * DC_SIZE)); [unfold DC_SIZE; lia|exact Hh]|]. intros [idx d].
  eapply cl_any; [unfold read_general; cl|intros a]. cbv zeta. eapply cl_any; [cl|intros _]. eapply cl_any; [cl|intros _]. apply cl_counted; [reflexivity|]. intros m s2 e2 Hm Hh2 Hs2. pose proof (u8_le m Hm).
  apply wp_bind. eapply wp_mono; [apply cl_drop_from; [rewrite Z2Nat.id by lia; apply (has_less e2 _ _ (m * META_SIZE)); [unfold META_SIZE; lia|exact Hh2]|exact Hs2]|]. intros [u|w| |] s' e' (Hs' & H'); cbn [fine] in H'; try (split; [exact Hs'|exact H']).
  apply (cl_must _ (cl_write_attr _ _ _)), Hs'.
Qed.
Lemma cl_update q n : calm any (cm_update q n).
Proof.
  unfold cm_update, cp_verify_rp. eapply cl_any; [cl|intros ok]. eapply cl_any; [cl|intros _]. eapply cl_any; [cl|intros _]. apply cl_counted; [reflexivity|]. intros k s e Hk Hh Hs. pose proof (u8_le k Hk).
  apply ro_then; [exact Hs|apply ro_find_id; rewrite Z2Nat.id by lia; apply (has_less e _ _ (k * DC_SIZE)); [unfold DC_SIZE; lia|exact Hh]|]. intros [idx d]. cl.
Qed.
Lemma cl_cm t2 q : ~ In (cm_sub q) [2; 3; 4; 5] -> calm (fits 100) (ctap_credential_management K t2 (inr q)).
Proof.
  intros Hq. assert (A : calm any (cm_auth K t2 q)) by (unfold cm_auth, read_general, cp_verify_token, cp_has_permission; cl). unfold ctap_credential_management. eapply cl_any; [apply cl_consistency|intros _]. cbv zeta.
  destruct (cm_sub q =? 1); [|destruct (cm_sub q =? 2) eqn:E2; [destruct Hq; left; lia|destruct (cm_sub q =? 3) eqn:E3; [destruct Hq; right; left; lia|destruct (cm_sub q =? 4) eqn:E4; [destruct Hq; do 2 right; left; lia|destruct (cm_sub q =? 5) eqn:E5; [destruct Hq; do 3 right; left; lia|]]]]].
  - eapply cl_any; [exact A|intros n]. eapply cl_bind with (P := fun v => zlen (enc v) <= 100); [|intros v Hv; apply cl_ret, Hv]. unfold cm_metadata, cp_has_rp. cl. eapply Z.le_trans; [apply enc_bound|]. cbn [bound]. lia.
  - destruct (cm_sub q =? 6); [|destruct (cm_sub q =? 7)].
    + eapply cl_any; [exact A|intros n]. eapply cl_any; [apply cl_delete|intros _]. cl.
    + eapply cl_any; [exact A|intros n]. eapply cl_any; [apply cl_update|intros _]. cl.
    + cl.
Qed.
(** Registration *)
Lemma cl_generate rp alg dc cp : keys_work K -> zlen rp <= 32 -> calm (fun r => match r with Some (id, pub) => zlen id <= 70 /\ zlen pub <= 64 | None => True end) (generate_key_handle K rp alg dc cp).
Proof.
  intros (HP & _) Ha. unfold generate_key_handle, read_key32, cose_alg_to_key_type. eapply cl_any; [cl|intros [kt|]]; [|cl]. eapply cl_any; [cl|intros [kh|]]; [|cl]. cbn [derive]. eapply cl_bind; [|intros r Hr; apply cl_ret; exact Hr].
  eapply cl_bind; [apply random_len; lia|]. intros r Hr. cbv beta in Hr. cbv zeta. destruct (HP kt (f_hmac K kh (r ++ [dc; cp]))) as (p & -> & Hp). apply cl_ret. split; [|exact Hp]. rewrite !zlen_app.
  assert (Hl : zlen (to_le 4 alg) = 4) by reflexivity. rewrite Hl, Hr.
  assert (Ht : zlen (firstn 16 (f_hmac K (f_hmac K kh (r ++ [dc; cp])) rp)) <= 16) by (unfold zlen; rewrite firstn_length; lia). change (zlen [dc; cp]) with 2. lia.
Qed.
Lemma cl_verify id : calm any (verify_key_handle K id). Proof. unfold verify_key_handle, read_key32. cl. Qed.
Lemma cl_WAIT nfc t : calm any (WAIT nfc t). Proof. unfold WAIT. cl. Qed.
Lemma cl_exclude nfc q uv l : forall buf, calm any (exclude K nfc q uv l buf).
Proof.
  induction l as [|i r IH]; intros buf; cbn [exclude]; [cl|]. cbv zeta. destruct (negb _); [apply IH|]. eapply cl_any; [apply cl_verify|intros v]. destruct v as [[pri|]|]; [|apply IH|cl]. destruct (_ || _); [|apply IH].
  eapply cl_any; [unfold cp_user_present; cl|intros up]. eapply cl_any; [destruct up; [cl|apply cl_WAIT]|intros _]. cl.
Qed.
Lemma cl_auth_data rp fl ext alg dc cp : keys_work K -> zlen rp = 32 -> calm (fun r => zlen (fst r) <= 343) (make_auth_data K rp fl ext (Some (alg, dc, cp))).
Proof.
  intros HK Hr. unfold make_auth_data, increase_counter. eapply cl_any; [cl|intros c]. cbv zeta. eapply cl_bind; [apply (cl_generate _ _ _ _ HK); lia|]. intros [[id pub]|] H; [|cl]. destruct H as (Hi & Hp). eapply cl_any; [cl|intros s]. eapply cl_any; [cl|intros key].
  eapply cl_bind; [apply cl_guard_if|]. intros u Hg. cbv beta in Hg. apply cl_ret. cbn [fst]. rewrite !zlen_app, Hr. change (zlen aaguid) with 16. change (zlen [0; 70]) with 2. change (zlen [fl]) with 1.
  assert (Hl : zlen (to_be 4 c) = 4) by (unfold zlen; rewrite to_be_length; reflexivity). rewrite Hl. lia.
Qed.
Lemma cl_make nfc t2 junk q : keys_work K -> hmac_sized K -> mc_ok q -> calm (fun v => zlen (enc v) <= 545 + N) (ctap_make_credential K nfc t2 junk (inr q)).
Proof.
  intros HK HH Hq. destruct Hq as (_ & (Hr & _) & _). unfold ctap_make_credential. eapply cl_any; [apply cl_consistency|intros _].
  eapply cl_any; [unfold touch_probe, has_pin; pose proof cl_WAIT; cl; auto|intros _].
  eapply cl_any; [unfold mc_auth, mc_token, has_pin, cp_verify_token, cp_has_permission, cp_verify_rp, cp_user_verified, cp_associate_rp; cl|intros uv].
  eapply cl_any; [apply cl_exclude|intros _]. eapply cl_any; [unfold ask_presence, cp_user_present; pose proof cl_WAIT; cl; auto|intros _]. eapply cl_any; [unfold cp_clear_flags; cl|intros _]. eapply cl_any; [cl|intros _]. cbv zeta.
  eapply cl_bind; [apply (cl_auth_data _ _ _ _ _ _ HK Hr)|]. intros [ad id] Had. cbn [fst] in Had. eapply cl_any; [destruct (mc_rk q =? 1); [apply cl_store|cl]|intros _].
  apply cl_bind with (P := fun v => bound v <= 119 + N); [|intros att Hatt].
  - unfold mc_att, sign_with_device_key, read_key32. apply cl_bind with (P := fun sg => match sg with Some v => zlen v <= 72 | None => True end).
    + eapply cl_any; [cl|intros k]. apply cl_ret. destruct k as [k|]; [|exact I]. destruct HK as (_ & HS). destruct (HS KP256 k (ad ++ mc_cdh q)) as (v & -> & Hv). exact Hv.
    + intros [sg|] Hs; [|cl]. apply cl_bind with (P := fun c => zlen c <= N).
      * intros s [F L X R T O] Hsm. unfold got. apply wp_bind, wp_read_file. intros X' r _ Hr'. destruct r as [c|]; [|split; [exact Hsm|exact I]]. destruct Hr' as [Hr'|Hr']; [discriminate|]. split; [exact Hsm|]. cbn [fine].
        unfold small in Hsm. cbn [e_fs] in Hsm. unfold fread in Hr'. destruct (F CTAP_CERT_FILE) as [f|]; [|discriminate]. change (0 <? 0) with false in Hr'. cbn iota in Hr'. injection Hr' as ->. exact Hsm.
      * intros c Hc. cbv beta in Hc. apply cl_ret. cbn [bound]. unfold txt. cbn [bound]. rewrite zlen_app. repeat match goal with |- context [zlen (chars ?t)] => let n := eval vm_compute in (zlen (chars t)) in change (zlen (chars t)) with n end.
        match goal with |- context [zlen [?a; ?b; ?c]] => change (zlen [a; b; c]) with 3 end. lia.
  - apply cl_bind with (P := fun l => match l with [] => True | [(CInt _, CBytes k)] => zlen k = 32 | _ => False end).
    + destruct (mc_lbk q); [|cl]. apply cl_bind with (P := fun k => zlen k = 32); [|intros k Hk; apply cl_ret; exact Hk]. unfold make_large_blob_key, read_key32. eapply cl_any; [cl|intros [he|]]; [|cl]. apply cl_ret. apply HH.
    + intros l Hl. apply cl_ret. eapply Z.le_trans; [apply enc_bound|]. cbv beta in Hatt, Hl.
      destruct l as [|[[z0|?|?|?|?|?|?] [?|k0|?|?|?|?|?]] [|? ?]]; try (exfalso; exact Hl); cbn [app bound]; unfold txt; cbn [bound]; change (zlen (chars "packed")) with 6; try lia.
Qed.
Lemma cl_fetch q n : 0 <= lb_off q -> 0 <= n <= 1236 -> calm (fun v => zlen (enc v) <= 1251) (lb_fetch q n).
Proof.
  intros H0 Hn s [F L X R T O] Hs. unfold lb_fetch, got. apply wp_bind, wp_bind, wp_get_file_size. intros X1 r _ Hr. destruct r as [size|]; [|split; [exact Hs|exact I]]. destruct Hr as [Hr|Hr]; [discriminate|]. apply wp_ret.
  apply wp_bind, wp_guard; [intros Hz|intros _; split; [exact Hs|exact I]]. cbv zeta. set (k := if size <? lb_off q + n then size - lb_off q else n).
  apply wp_bind, wp_bind, wp_read_file. intros X2 r2 _ Hr2. destruct r2 as [d|]; [|split; [exact Hs|exact I]]. destruct Hr2 as [Hr2|Hr2]; [discriminate|]. apply wp_ret.
  unfold fsize in Hr. unfold fread in Hr2. destruct (F LB_FILE) as [f|]; [|discriminate]. injection Hr as Hr. destruct (lb_off q <? 0) eqn:E0; [lia|]. injection Hr2 as ->.
  assert (Ek : 0 <= k /\ k <= 1236 /\ lb_off q + k <= zlen (f_data f)) by (unfold k; destruct (size <? lb_off q + n) eqn:E; lia).
  assert (Es : zlen (slice (lb_off q) k (f_data f)) = k) by (rewrite zlen_slice; lia). rewrite Es, Z.eqb_refl. split; [exact Hs|]. cbn [fine]. eapply Z.le_trans; [apply enc_bound|]. cbn [bound]. rewrite Es. lia.
Qed.
Lemma cl_set_out d : calm any (set_out d). Proof. intros s e Hs. split; [exact Hs|exact I]. Qed.
Lemma cl_count : calm any (fun s e => match increase_counter s e with (Exc _, s', e') => (Exc SW_CONDITIONS_NOT_SATISFIED, s', e') | r => r end).
Proof. assert (H : calm any increase_counter) by (unfold increase_counter; cl). intros s e Hs. specialize (H s e Hs). unfold wp in *. destruct (increase_counter s e) as [[[c|w| |] s'] e']; exact H. Qed.
Lemma cl_auth nfc p1 data : keys_work K -> calm any (u2f_authenticate K nfc p1 data).
Proof.
  intros (_ & HS). unfold u2f_authenticate, verify_key_handle, read_key32, u2f_touch. cbv zeta. cl; try apply cl_count; try apply cl_set_out.
  match goal with E : f_sign K KP256 ?k ?m = None |- _ => destruct (HS KP256 k m) as (sg & E2 & _); congruence end.
Qed.
Lemma cl_register nfc cap data : FA = true -> keys_work K -> 209 + N <= cap -> calm any (u2f_register K nfc cap data).
Proof.
  intros HF HK Hc. unfold u2f_register. eapply cl_any; [cl|intros _]. eapply cl_any; [unfold u2f_touch; cl|intros _]. cbv zeta. eapply cl_bind; [apply (cl_generate _ _ _ _ HK); apply slice_le; lia|]. 
  assert (CF : calm any (@fail ctap unit)) by (intros s e Hs; split; [exact Hs|exact HF]). intros [[id pub]|] H; [|exact CF]. destruct H as (Hi & Hp).
  apply cl_bind with (P := fun c => match c with Some c => zlen c <= N | None => True end).
  { intros s [F L X R T O] Hsm. apply wp_read_file. intros X' r _ Hr'. split; [exact Hsm|]. cbn [fine]. destruct r as [c|]; [|exact I]. destruct Hr' as [Hr'|Hr']; [discriminate|].
    unfold small in Hsm. cbn [e_fs] in Hsm. unfold fread in Hr'. destruct (F CTAP_CERT_FILE) as [f|]; [|discriminate]. change (0 <? 0) with false in Hr'. cbn iota in Hr'. injection Hr' as ->. exact Hsm. }
  intros [c|] Hcert; [|exact CF]. apply cl_bind with (P := fun sg => match sg with Some v => zlen v <= 72 | None => True end).
  - unfold sign_with_device_key, read_key32. eapply cl_any; [cl|intros k]. apply cl_ret. destruct k as [k|]; [|exact I]. destruct HK as (_ & HS). match goal with |- match f_sign K KP256 ?a ?b with _ => _ end => destruct (HS KP256 a b) as (v & -> & Hv) end. exact Hv.
  - intros sg Hs. cbv beta in Hs, Hcert. match goal with |- calm _ (if ?b then _ else _) => assert (Hb : b = true) end; [|rewrite Hb; apply cl_set_out].
    apply Z.leb_le. rewrite !zlen_app. change (zlen [5; 4]) with 2. change (zlen [70]) with 1. destruct sg as [v|]; [|change (zlen (@nil Z)) with 0]; lia.
Qed.
End S.

(** From a calm command to an answer *)
Lemma small_start d flt rnd tch : small (zlen (certificate d)) (start (d_fs d) flt rnd tch).
Proof. unfold small, certificate, start. cbn [e_fs]. change CTAP_CERT_FILE with "ctap_cert". destruct (d_fs d "ctap_cert"); [lia|exact I]. Qed.
Lemma answered_cbor K d x q n : x_op x = OCbor q -> 1300 <= x_cap x -> n < 1300 -> calm (zlen (certificate d)) false (fits n) (cbor_cmd K (x_nfc x) (x_t1 x) (x_t2 x) (x_junk x) q) -> exists r, fst (fst (exec K d x)) = Some r.
Proof.
  intros Hx Hc Hn HC. unfold exec. rewrite Hx. unfold cbor_body, process_cbor. specialize (HC (d_ram d) _ (small_start d (x_flt x) (x_rnd x) (x_tch x))). unfold wp in HC.
  destruct (cbor_cmd K _ _ _ _ _ _ _) as [[[v|w| |] s'] e']; destruct HC as (_ & HC); cbn [fine] in HC; [|eexists; reflexivity|discriminate|destruct HC].
  assert (Hm : zlen (message (0, v)) <= x_cap x). { unfold message. cbn [fst snd]. unfold fits in HC. destruct v as [v|]; unfold zlen in *; cbn [length]; lia. }
  apply Z.leb_le in Hm. rewrite Hm. eexists; reflexivity.
Qed.
Lemma answered_apdu K d x (m : Mc unit) N : (forall q, x_op x <> OCbor q) -> zlen (certificate d) <= N -> body K x = (m ;;; ret 0x9000) -> calm N true any m -> exists r, fst (fst (exec K d x)) = Some r.
Proof.
  intros Hx HN Hb HC. unfold exec. assert (E : (match run_apdu (body K x) (d_ram d) (start (d_fs d) (x_flt x) (x_rnd x) (x_tch x)) with (Some r, _, _) => True | (None, _, _) => False end)).
  { rewrite Hb. unfold run_apdu, start. cbn [e_fs e_log e_flt e_rnd e_tch]. assert (Hs : small N (mkE (d_fs d) [d_fs d] (x_flt x) (x_rnd x) (x_tch x) [])).
    { pose proof (small_start d (x_flt x) (x_rnd x) (x_tch x)) as H. unfold small, start in *. cbn [e_fs] in *. destruct (d_fs d CTAP_CERT_FILE); [lia|exact I]. }
    specialize (HC (d_ram d) _ Hs). unfold wp in HC. unfold bind. destruct (m _ _) as [[[v|w| |] s'] e']; destruct HC as (_ & HC); try exact I. destruct HC. }
  destruct (x_op x) eqn:Eo; [destruct (Hx q eq_refl)|..]; destruct (run_apdu _ _ _) as [[[r|] s'] e']; try destruct E; eexists; reflexivity.
Qed.
Theorem C90_answered_partial K d x : aes_works K -> keys_work K -> hmac_sized K -> 1300 <= x_cap x -> covered d x -> exists r, fst (fst (exec K d x)) = Some r.
Proof.
  intros HA HP HH Hc Hx. unfold covered in Hx. pose proof (zlen_nonneg (certificate d)) as HN.
  assert (HW : zlen (certificate d) <= 1152) by (unfold certificate; destruct (d_fs d "ctap_cert"); [unfold zlen; rewrite firstn_length; lia|unfold zlen; cbn; lia]).
  destruct (x_op x) as [q|data|p1 data| |data|data|data] eqn:Ex.
  - assert (C : forall n, n < 1300 -> calm (zlen (certificate d)) false (fits n) (cbor_cmd K (x_nfc x) (x_t1 x) (x_t2 x) (x_junk x) q) -> exists r, fst (fst (exec K d x)) = Some r).
    { intros n Hn H. apply (answered_cbor K d x q n Ex Hc Hn H). }
    destruct q as [[w|q]|[w|q]| | |p| |[w|q]| |[w|q]| ]; try (exfalso; exact Hx); apply (C 1299); try lia; unfold cbor_cmd; (eapply cl_any; [apply cl_modify|intros _]).
    + eapply (cl_bind _ _ (fun _ => False)); [apply cl_exc|intros v []].
    + destruct Hx as (Hq & Hcert). eapply cl_bind; [apply (cl_make K _ _ HN _ _ _ q HP HH Hq)|]. intros v Hv. cbv beta in Hv. apply cl_ret. cbn [fits]. lia.
    + eapply (cl_bind _ _ (fun _ => False)); [|intros v []]. unfold ctap_get_assertion. eapply cl_any; [apply cl_modify|intros _]. eapply cl_any; [apply cl_consistency, HN|intros _]. apply cl_exc.
    + eapply cl_bind; [apply cl_info|]. intros v Hv. cbv beta in Hv. apply cl_ret. cbn [fits]. lia.
    + eapply cl_weak; [apply (cl_pin K _ _ _ p HA)|]. intros [v|] Hv; cbn [fits] in *; [lia|exact I].
    + unfold ctap_reset_data. eapply cl_any; [eapply cl_any; [apply cl_guard|intros _; apply cl_install, HN]|intros v]. apply cl_ret. exact I.
    + apply cl_exc.
    + eapply cl_weak; [apply (cl_cm K _ _ HN _ q Hx)|]. intros [v|] Hv; cbn [fits] in *; [lia|exact I].
    + eapply cl_any; [apply cl_WAIT|intros u]. apply cl_ret. exact I.
    + apply cl_exc.
    + unfold ctap_large_blobs. destruct Hx as (H & Hg). destruct (lb_get q) as [n|] eqn:En; [|congruence]. destruct H as (H1 & _ & _ & H4). rewrite En in H4. eapply cl_bind; [apply (cl_fetch _ _ q n); lia|]. intros v Hv. cbv beta in Hv. apply cl_ret. cbn [fits]. lia.
    + apply cl_exc.
  - apply (answered_apdu K d x (u2f_register K (x_nfc x) (x_cap x) data) (zlen (certificate d))); [rewrite Ex; discriminate|lia|unfold body; rewrite Ex; reflexivity|apply cl_register; auto].
  - apply (answered_apdu K d x (u2f_authenticate K (x_nfc x) p1 data) 1152); [rewrite Ex; discriminate|exact HW|unfold body; rewrite Ex; reflexivity|apply cl_auth; assumption || lia].
  - apply (answered_apdu K d x (ctap_install K true) 1152); [rewrite Ex; discriminate|exact HW|unfold body; rewrite Ex; reflexivity|apply cl_install; lia].
  - apply (answered_apdu K d x (install_private_key data) 1152); [rewrite Ex; discriminate|exact HW|unfold body; rewrite Ex; reflexivity|].
    unfold install_private_key. eapply cl_any; [apply cl_guard|intros _]. cbv zeta. eapply cl_any; [apply cl_modify|intros _]. eapply cl_any; [apply cl_must, cl_write_attr|intros _]. apply cl_must, cl_write_attr.
  - apply (answered_apdu K d x (install_cert data) 1152); [rewrite Ex; discriminate|exact HW|unfold body; rewrite Ex; reflexivity|].
    unfold install_cert. eapply cl_any; [apply cl_guard|intros _]. apply cl_must, cl_write_file; [right; right; lia|lia].
  - apply (answered_apdu K d x (write_sm2_config data) 1152); [rewrite Ex; discriminate|exact HW|unfold body; rewrite Ex; reflexivity|].
    unfold write_sm2_config. eapply cl_any; [apply cl_guard|intros _]. eapply cl_any; [apply cl_write_attr|intros ok]. eapply cl_any; [apply cl_modify|intros _]. apply cl_guard.
Qed.

(** The hypotheses are met: after a PIN was set and a wrong one tried, with a certificate of 700 bytes, makeCredential and U2F registration are covered. *)
Lemma buf_len n (l : bytes) : 0 <= n -> zlen (attr_buf n l) = n.
Proof. intros H. unfold attr_buf, zlen. rewrite firstn_length, app_length. unfold zeros. rewrite repeat_length. lia. Qed.
Definition toy90 : fcrypto := mkFC (f_sha toyf) (f_hmac toyf) (f_gen toyf) (f_ecdh toyf) (f_aes_enc toyf) (f_aes_dec toyf) (fun _ k => Some (attr_buf 32 k ++ attr_buf 32 k)) (f_sign toyf).
Definition case90 : list ev := [do_at 20000 (OKey (repeat 6 32)); do_at 20001 (OCert (repeat 1 700)); pin_at 20002 (set_req fresh_dev pin_a); pin_at 20003 (token_req fresh_dev pin_b); do_at 20004 (OCbor RInfo)].
Definition reg90 : cmd := cmd_at 20005 (ORegister (repeat 4 32 ++ repeat 7 32)).
Example C90_case : aes_works toy90 /\ keys_work toy90 /\ hmac_sized toy90 /\ exists tr d, hist toy90 fresh_dev tr d /\ map code_of tr = [-1; -1; 0; 0x31; 0] /\ covered d reg90 /\ covered d make90 /\ (exists r, step toy90 d (Do reg90) = Some r) /\ (exists r, step toy90 d (Do make90) = Some r).
Proof.
  split; [intros k iv m; eexists; split; [reflexivity|apply zlen_map]|]. split.
  { split; [intros kt k; eexists; split; [reflexivity|]; rewrite zlen_app, !buf_len by lia; lia|]. intros kt k m. eexists. split; [reflexivity|]. cbn [toy90 f_sign toyf]. rewrite toy_sha_length. lia. }
  split; [intros k m; apply toy_sha_length|].
  destruct (play_case toy90 fresh_dev case90 (fun tr d => beqb (map code_of tr) [-1; -1; 0; 0x31; 0] && (zlen (certificate d) <=? 750) && (match step toy90 d (Do reg90) with None => false | _ => true end) && (match step toy90 d (Do make90) with None => false | _ => true end)))
    as (tr & d & H1 & H2 & H3); [vm_compute; reflexivity|].
  apply andb_true_iff in H2. destruct H2 as (H2 & H6). apply andb_true_iff in H2. destruct H2 as (H2 & H5). apply andb_true_iff in H2. destruct H2 as (H2 & H4). apply beqb_eq in H2. exists tr, d. split; [exact H1|]. split; [exact H2|].
  split; [cbn [covered reg90 cmd_at x_op x_cap]; lia|]. split; [split; [apply (creq_okb_ok (RMake (inr (mc_of 7 1 0 None)))); reflexivity|lia]|].
  split; [destruct (step toy90 d (Do reg90)) as [r|]; [exists r; reflexivity|discriminate]|destruct (step toy90 d (Do make90)) as [r|]; [exists r; reflexivity|discriminate]].
Qed.
Print Assumptions C90_one_rp_too_many_refuted.
Print Assumptions C90_unknown_algorithm_refuted.
Print Assumptions C90_long_certificate_refuted.
Print Assumptions C90_answered_partial.
