(** C58: resetting the FIDO applet. *)
From Verif Require Import CtapSpec CtapFrame CtapRel CtapCred CtapToy PropCtapPin PropCtapToken PropCtapCred.
Open Scope string_scope. Open Scope list_scope. Open Scope Z_scope.

(** ** Specification *)
Definition no_credentials (F : fs) : Prop := fdata F "ctap_dc" = Some [].
Definition no_pin (F : fs) : Prop := fattr F "ctap_cert" 2 = Some [].
(** The initial large-blob array (CTAP 2.1, 6.10): an empty CBOR array and its hash *)
Definition initial_blob : bytes := [0x80; 0x76; 0xbe; 0x8b; 0x52; 0x8d; 0x00; 0x75; 0xf7; 0xaa; 0xe9; 0x8d; 0x6f; 0xa5; 0x7a; 0x6d; 0x3c].
(** Nothing is left of credentials and PIN; [kh] and [he] are the new keys. *)
Record wiped (F : fs) (kh he : bytes) : Prop := {
  w_dc : no_credentials F; w_num : fattr F "ctap_dc" 0 = Some [0; 0; 0]; w_dm : fdata F "ctap_dm" = Some [];
  w_pin : no_pin F; w_ctr : fattr F "ctap_cert" 1 = Some [0; 0; 0; 0];
  w_kh : fattr F "ctap_cert" 4 = Some kh; w_he : fattr F "ctap_cert" 5 = Some he; w_lb : fdata F "ctap_lb" = Some initial_blob }.
(** The two commands that reset *)
Definition is_reset (x : cmd) : Prop := x_op x = OReset \/ x_op x = OCbor RReset.
Definition succeeded (a : ans) : Prop := match a with ACbor c _ => c = 0 | AApdu r => r_sw r = 0x9000 end.

Section S.
Variable K : fcrypto.
Lemma st_bind {A B} (m : Mc A) (k : A -> Mc B) (P : A -> ctap -> env -> Prop) (Q : B -> ctap -> env -> Prop) s e : wp m (fin P) s e -> (forall a s' e', P a s' e' -> wp (k a) (fin Q) s' e') -> wp (bind m k) (fin Q) s e.
Proof. intros H Hk. apply wp_bind. eapply wp_mono; [exact H|]. intros [a|?| |] s' e' Ha; try exact Logic.I. apply Hk. exact Ha. Qed.
Definition attrs (o : option file) : Z -> option bytes := match o with Some f => f_attr f | None => no_attr end.
Lemma st_attr p a v F R s e : e_fs e = F -> e_rnd e = R -> wp (must (write_attr p a v)) (fin (fun _ _ e' => exists f, F p = Some f /\ e_fs e' p = Some (mkF (f_data f) (aset (f_attr f) a v)) /\ (forall q, q <> p -> e_fs e' q = F q) /\ e_rnd e' = R)) s e.
Proof.
  intros <- <-. unfold must. apply wp_bind. destruct e as [F L X R T O]. unfold wp at 1, write_attr, pop_fault. destruct X as [|[| |] X]; cbn [e_flt e_fs]; try exact Logic.I; destruct (F p) as [f|] eqn:E; try exact Logic.I;
    (exists f; split; [first [exact E|reflexivity]|]; cbn [commit e_fs e_rnd]; split; [apply fset_same|]; split; [intros q Hq; apply fset_other; congruence|reflexivity]).
Qed.
Lemma st_file p d F R s e : e_fs e = F -> e_rnd e = R -> wp (must (write_file p d 0 true)) (fin (fun _ _ e' => e_fs e' p = Some (mkF d (attrs (F p))) /\ (forall q, q <> p -> e_fs e' q = F q) /\ e_rnd e' = R)) s e.
Proof.
  intros <- <-. unfold must. apply wp_bind. destruct e as [F L X R T O]. apply wp_write_file; [intros X' _|intros _ X'|intros _ X']; try exact Logic.I. cbn [guard]. unfold wp, guard, ret. cbn [fin e_fs e_rnd].
  unfold fwrite. destruct (F p) as [f|] eqn:E.
  - assert (fcreate F p = F) as -> by (unfold fcreate; rewrite E; reflexivity). rewrite E. split; [rewrite fset_same; cbn [attrs]; do 2 f_equal; destruct d; [reflexivity|unfold write_at; cbn; rewrite ?app_nil_r; reflexivity]|]. split; [intros q Hq; apply fset_other; congruence|reflexivity].
  - assert (fcreate F p = fset F p (Some (mkF [] no_attr))) as -> by (unfold fcreate; rewrite E; reflexivity). rewrite fset_same. split; [rewrite fset_same; cbn [attrs f_attr]; do 2 f_equal; destruct d; [reflexivity|unfold write_at; cbn; rewrite ?app_nil_r; reflexivity]|]. split; [intros q Hq; rewrite !fset_other by congruence; reflexivity|reflexivity].
Qed.
Lemma st_create p F R s e : e_fs e = F -> e_rnd e = R -> wp (must (write_file p [] 0 false)) (fin (fun _ _ e' => (exists f, e_fs e' p = Some f) /\ (forall q, q <> p -> e_fs e' q = F q) /\ e_rnd e' = R)) s e.
Proof.
  intros <- <-. unfold must. apply wp_bind. destruct e as [F L X R T O]. apply wp_write_file; [intros X' _|intros _ X'|intros _ X']; try exact Logic.I. unfold wp, guard, ret. cbn [fin e_fs e_rnd].
  unfold fwrite, fcreate. destruct (F p) as [f|] eqn:E; [rewrite E|rewrite fset_same]; (split; [eexists; apply fset_same|]); (split; [intros q Hq; rewrite ?fset_other by congruence; reflexivity|reflexivity]).
Qed.
Lemma st_random n R s e : e_rnd e = R -> 0 <= n <= zlen R -> wp (random_buffer n) (fin (fun r _ e' => r = slice 0 n R /\ e_fs e' = e_fs e /\ e_rnd e' = skipn (Z.to_nat n) R)) s e.
Proof. intros <- Hn. unfold wp, random_buffer. cbn [fin e_fs e_rnd]. split; [|auto]. unfold slice. cbn [skipn Z.to_nat]. rewrite firstn_app. unfold zlen in Hn. replace (Z.to_nat n - length (e_rnd e))%nat with O by lia. rewrite firstn_O, app_nil_r. reflexivity. Qed.
(** A reset that ends without an error has wiped everything. *)
Lemma install_wipes s e : 128 <= zlen (e_rnd e) -> wp (ctap_install K true) (fin (fun _ _ e' => wiped (e_fs e') (slice 64 32 (e_rnd e)) (slice 96 32 (e_rnd e)))) s e.
Proof.
  intros Hr. unfold ctap_install. apply wp_bind, wp_modify. apply wp_bind, wp_modify. set (s0 := set_last _ _). clearbody s0. set (R := e_rnd e) in *.
  eapply st_bind with (P := fun _ _ e' => e_rnd e' = skipn 64 R).
  { unfold cp_initialize, cp_regenerate, cp_reset_token. apply wp_bind, wp_bind. eapply wp_mono; [apply (st_random 32 R); [reflexivity|lia]|]. intros [r|?| |] s1 e1 H1; try exact Logic.I. destruct H1 as (_ & _ & H1). apply wp_modify. apply wp_bind.
    eapply wp_mono; [apply (st_random 32 (skipn (Z.to_nat 32) R)); [exact H1|unfold zlen in *; rewrite skipn_length; lia]|]. intros [r'|?| |] s2 e2 H2; try exact Logic.I. destruct H2 as (_ & _ & H2). apply wp_modify. cbn [fin]. rewrite H2, skipn_skipn. reflexivity. }
  intros _ s1 e1 R1. apply wp_bind, wp_ret.
  eapply st_bind; [apply (st_file DC_FILE [] _ _ _ _ eq_refl R1)|]. intros _ s2 e2 (A2 & B2 & R2).
  eapply st_bind; [apply (st_attr DC_FILE DC_GENERAL_ATTR [0; 0; 0] _ _ _ _ eq_refl R2)|]. intros _ s3 e3 (f3 & C3 & A3 & B3 & R3).
  eapply st_bind; [apply (st_file DC_META_FILE [] _ _ _ _ eq_refl R3)|]. intros _ s4 e4 (A4 & B4 & R4).
  eapply st_bind; [apply (st_create CTAP_CERT_FILE _ _ _ _ eq_refl R4)|]. intros _ s5 e5 ((f5 & A5) & B5 & R5).
  eapply st_bind; [apply (st_attr CTAP_CERT_FILE SIGN_CTR_ATTR [0; 0; 0; 0] _ _ _ _ eq_refl R5)|]. intros _ s6 e6 (f6 & C6 & A6 & B6 & R6).
  eapply st_bind; [apply (st_attr CTAP_CERT_FILE PIN_ATTR [] _ _ _ _ eq_refl R6)|]. intros _ s7 e7 (f7 & C7 & A7 & B7 & R7).
  eapply st_bind; [apply (st_random 32 _ _ _ R7); unfold zlen in *; rewrite skipn_length; lia|]. intros kh s8 e8 (Hkh & F8 & R8).
  eapply st_bind; [apply (st_attr CTAP_CERT_FILE KH_KEY_ATTR kh _ _ _ _ eq_refl R8)|]. intros _ s9 e9 (f9 & C9 & A9 & B9 & R9).
  eapply st_bind; [apply (st_random 32 _ _ _ R9); unfold zlen in *; rewrite !skipn_length; lia|]. intros he s10 e10 (Hhe & F10 & R10).
  eapply st_bind; [apply (st_attr CTAP_CERT_FILE HE_KEY_ATTR he _ _ _ _ eq_refl R10)|]. intros _ s11 e11 (f11 & C11 & A11 & B11 & R11).
  eapply wp_mono; [apply (st_file LB_FILE _ _ _ _ _ eq_refl R11)|]. intros [u|?| |] s12 e12 H12; try exact Logic.I. destruct H12 as (A12 & B12 & _). cbn [fin].
  rewrite F8 in C9, B9. rewrite F10 in C11, B11.
  assert (Edc : e_fs e12 "ctap_dc" = e_fs e3 "ctap_dc") by (rewrite B12, B11, B9, B7, B6, B5, B4 by discriminate; reflexivity).
  assert (Edm : e_fs e12 "ctap_dm" = e_fs e4 "ctap_dm") by (rewrite B12, B11, B9, B7, B6, B5 by discriminate; reflexivity).
  assert (Ece : e_fs e12 "ctap_cert" = e_fs e11 "ctap_cert") by (rewrite B12 by discriminate; reflexivity).
  change DC_FILE with "ctap_dc" in *. change DC_META_FILE with "ctap_dm" in *. change CTAP_CERT_FILE with "ctap_cert" in *. change LB_FILE with "ctap_lb" in *.
  assert (f11 = mkF (f_data f9) (aset (f_attr f9) KH_KEY_ATTR kh)) as -> by congruence. assert (f9 = mkF (f_data f7) (aset (f_attr f7) PIN_ATTR [])) as -> by congruence.
  assert (f7 = mkF (f_data f6) (aset (f_attr f6) SIGN_CTR_ATTR [0; 0; 0; 0])) as -> by congruence. assert (Hd3 : f_data f3 = []) by (rewrite A2 in C3; injection C3 as <-; reflexivity).
  split; unfold no_credentials, no_pin, fattr, fdata; rewrite ?Edc, ?Edm, ?Ece, ?A3, ?A4, ?A11, ?A12; cbn [f_attr f_data option_map]; rewrite ?aset_same, ?aset_other by discriminate; rewrite ?aset_same; try reflexivity; try (f_equal; assumption).
  rewrite Hhe, !skipn_skipn. reflexivity.
Qed.
Definition eo {A} (m : Mc A) : Prop := forall s e, wp m (fun o _ _ => match o with Exc w => w = ERR_UNHANDLED | Fail => False | _ => True end) s e.
Lemma eo_bind {A B} (m : Mc A) (k : A -> Mc B) : eo m -> (forall a, eo (k a)) -> eo (bind m k).
Proof. intros Hm Hk s e. apply wp_bind. eapply wp_mono; [apply Hm|]. intros [a|?| |] s' e' H; try exact H. apply Hk. Qed.
Lemma eo_write_file p d t : eo (must (write_file p d 0 t)).
Proof. intros s e. unfold must. apply wp_bind. destruct e as [F L X R T O]. apply wp_write_file; [intros X' _|intros _ X'|intros _ X']; cbn; auto; reflexivity. Qed.
Lemma eo_write_attr p a v : eo (must (write_attr p a v)).
Proof. intros s e. unfold must. apply wp_bind. destruct e as [F L X R T O]. unfold wp at 1, write_attr, pop_fault. destruct X as [|[| |] X]; cbn [e_flt e_fs]; try reflexivity; destruct (F p); cbn; auto; reflexivity. Qed.
Lemma eo_modify f : eo (modify f). Proof. intros s e. exact Logic.I. Qed.
Lemma eo_ret {A} (a : A) : eo (ret a). Proof. intros s e. exact Logic.I. Qed.
Lemma eo_random n : eo (random_buffer n). Proof. intros s e. exact Logic.I. Qed.
Lemma eo_install : eo (ctap_install K true).
Proof.
  unfold ctap_install, cp_initialize, cp_regenerate, cp_reset_token. repeat lazymatch goal with
    | |- eo (bind (modify _) _) => apply eo_bind; [apply eo_modify|intros ?]
    | |- eo (bind (random_buffer _) _) => apply eo_bind; [apply eo_random|intros ?]
    | |- eo (bind (must (write_attr _ _ _)) _) => apply eo_bind; [apply eo_write_attr|intros ?]
    | |- eo (bind (must (write_file _ _ _ _)) _) => apply eo_bind; [apply eo_write_file|intros ?]
    | |- eo (bind (ret _) _) => apply eo_bind; [apply eo_ret|intros ?]
    | |- eo (bind _ _) => apply eo_bind; [|intros ?]
    | |- eo (modify _) => apply eo_modify
    | |- eo (ret _) => apply eo_ret
    | |- eo (got _) => intros s e; unfold got; apply wp_bind; destruct e as [F L X R T O]; apply wp_read_attr; intros X' [r|] _ _; [exact Logic.I|reflexivity]
    | |- eo (must (write_file _ _ _ _)) => apply eo_write_file
    | |- eo (match ?x with _ => _ end) => destruct x
    end.
Qed.
Theorem C58_complete d x a s e : is_reset x -> 128 <= zlen (x_rnd x) -> exec K d x = (Some a, s, e) -> succeeded a -> wiped (e_fs e) (slice 64 32 (x_rnd x)) (slice 96 32 (x_rnd x)).
Proof.
  intros Hx Hr E Ha. unfold exec in E. set (e0 := start (d_fs d) (x_flt x) (x_rnd x) (x_tch x)) in E. destruct Hx as [Hx|Hx]; rewrite Hx in E.
  - unfold run_apdu, body in E. rewrite Hx in E. unfold bind, ret in E. match type of E with context [ctap_install K true ?s0 ?e1] => pose proof (install_wipes s0 e1 Hr) as W; pose proof (eo_install s0 e1) as W'; unfold wp in W, W'; destruct (ctap_install K true s0 e1) as [[[u|w| |] s1] e2] end; cbn in E; try discriminate.
    + assert (e = e2) as -> by congruence. exact W.
    + assert (a = AApdu (mkR (e_out e2) w)) as -> by congruence. cbn in Ha. rewrite W' in Ha. discriminate Ha.
    + destruct W'.
  - unfold cbor_body, process_cbor, cbor_cmd, ctap_reset_data, bind, cp_observer, modify, guard in E. destruct (x_t1 x <=? 10000) eqn:El; cbn [ret] in E.
    + match type of E with context [ctap_install K true ?s0 ?e1] => pose proof (install_wipes s0 e1 Hr) as W; pose proof (eo_install s0 e1) as W'; unfold wp in W, W'; destruct (ctap_install K true s0 e1) as [[[u|w| |] s1] e2] end; cbn in E; try discriminate.
      * destruct (zlen _ <=? x_cap x); [|discriminate]. assert (e = e2) as -> by congruence. exact W.
      * assert (a = ACbor w None) as -> by congruence. cbn in Ha. rewrite W' in Ha. discriminate Ha.
    + cbn in E. assert (a = ACbor ERR_NOT_ALLOWED None) as -> by congruence. discriminate Ha.
Qed.
(** While it runs, and after a power loss and the next start: the PIN is not removed as long as there are discoverable credentials. *)
Definition safe (F0 F : fs) : Prop := pin_of F = pin_of F0 \/ no_credentials F.
Ltac uk := repeat lazymatch goal with
    | |- keep _ _ _ (bind _ _) => apply kp_bind; [|intros ?]
    | |- keep _ _ _ (modify _) => apply kp_modify; auto
    | |- keep _ _ _ (ret _) => apply kp_ret
    | |- keep _ _ _ (must _) => apply kp_must
    | |- keep _ _ _ (got _) => apply kp_got
    | |- keep _ _ _ (random_buffer _) => apply kp_random
    | |- keep _ _ _ (read_attr _ _) => apply kp_read_attr
    | |- keep _ _ _ (get_file_size _) => apply kp_size
    | |- keep _ _ _ (if ?b then _ else _) => destruct b
    end.
Lemma none_indep p : p <> "ctap_dc" -> indep no_credentials p.
Proof. intros H F x HF. unfold no_credentials, fdata in *. rewrite fset_other by congruence. exact HF. Qed.
Lemma install_safe b F0 : keep (fun _ => True) (safe F0) (safe F0) (ctap_install K b).
Proof.
  assert (PQ : forall F, no_credentials F -> safe F0 F) by (intros F H; right; exact H).
  unfold ctap_install, cp_initialize, cp_regenerate, cp_reset_token. do 4 (apply kp_bind; [uk|intros ?]). 
  match goal with a : option Z |- _ => destruct a as [z|] end; [uk|]. intros s e (_ & H1 & H2). apply wp_bind. unfold must at 1. apply wp_bind. destruct e as [F L X R T O]. cbn [e_fs e_log] in *.
  assert (HC : safe F0 (fcreate F DC_FILE) /\ Forall (safe F0) (lcreate F L DC_FILE)).
  { unfold lcreate, fcreate. destruct (F DC_FILE) eqn:E; [auto|]. assert (N : safe F0 (fset F DC_FILE (Some (mkF [] no_attr)))) by (right; unfold no_credentials, fdata; change "ctap_dc" with DC_FILE; rewrite fset_same; reflexivity). split; [exact N|constructor; assumption]. }
  destruct HC as (HC1 & HC2). apply wp_write_file; [intros X' _|intros _ X'|intros _ X']; [|split; [exact Logic.I|split; assumption]|split; [exact Logic.I|split; assumption]].
  unfold wp at 1, guard, ret.
  assert (N : no_credentials (fwrite F DC_FILE [] 0 true)).
  { unfold fwrite, fcreate, no_credentials, fdata. change "ctap_dc" with DC_FILE. destruct (F DC_FILE) eqn:E; [rewrite E|rewrite fset_same]; rewrite fset_same; reflexivity. }
  set (e1 := mkE _ _ _ _ _ _). assert (G : kgood (fun _ => True) no_credentials (safe F0) s e1) by (split; [exact Logic.I|split; [exact N|constructor; [apply PQ; exact N|exact HC2]]]). clearbody e1.
  match goal with |- wp ?m _ _ _ => assert (Km : keep (fun _ => True) no_credentials (safe F0) m) end.
  { repeat lazymatch goal with
    | |- keep _ _ _ (must (write_attr DC_FILE _ _)) => apply kp_must, kp_write_attr_at; [exact PQ|]; intros F' f HF Hf; unfold no_credentials, fdata in *; change "ctap_dc" with DC_FILE in *; rewrite fset_same; rewrite Hf in HF; exact HF
    | |- keep _ _ _ (must (write_attr _ _ _)) => apply kp_must, kp_write_attr; [exact PQ|apply none_indep; discriminate]
    | |- keep _ _ _ (must (write_file _ _ _ _)) => apply kp_must, kp_write_file; [exact PQ|apply none_indep; discriminate]
    | |- keep _ _ _ (random_buffer _) => apply kp_random
    | |- keep _ _ _ (bind _ _) => apply kp_bind; [|intros ?]
    end. }
  eapply wp_mono; [apply Km, G|]. intros o s' e' (_ & H3 & H4). split; [exact Logic.I|]. split; [apply PQ; exact H3|exact H4].
Qed.
Lemma safe_refl F : safe F F. Proof. left. reflexivity. Qed.
Lemma exec_safe d x o s e : is_reset x -> exec K d x = (o, s, e) -> safe (d_fs d) (e_fs e) /\ Forall (safe (d_fs d)) (e_log e).
Proof.
  intros Hx E. pose proof (exec_wp K d x (fun _ s e => kgood (fun _ => True) (safe (d_fs d)) (safe (d_fs d)) s e)) as W. rewrite E in W. apply W. clear W E.
  assert (G0 : kgood (fun _ => True) (safe (d_fs d)) (safe (d_fs d)) (d_ram d) (start (d_fs d) (x_flt x) (x_rnd x) (x_tch x))) by (split; [exact Logic.I|split; [apply safe_refl|constructor; [apply safe_refl|constructor]]]).
  pose proof (install_safe true (d_fs d)) as KI. destruct Hx as [Hx|Hx]; rewrite Hx.
  - unfold body. rewrite Hx. apply wp_bind. eapply wp_mono; [apply KI, G0|]. intros [u|w| |] s1 e1 H1; try exact H1. 
  - assert (Kc : keep (fun _ => True) (safe (d_fs d)) (safe (d_fs d)) (cbor_body K x RReset)).
    { unfold cbor_body. apply kp_process; [auto|]. unfold cbor_cmd, ctap_reset_data, cp_observer. uk; [apply kp_guard|exact KI]. }
    eapply wp_mono; [apply Kc, G0|]. intros [[c v]|w| |] s1 e1 H1; exact H1.
Qed.
Theorem C58_power_loss_partial d x n flt rnd o d' : is_reset x -> step K d (Cut x n flt rnd) = Some (o, d') -> safe (d_fs d) (d_fs d').
Proof.
  intros Hx Hs. cbn [step] in Hs. destruct (exec K d x) as [[o1 s1] e1] eqn:E. injection Hs as _ <-. destruct (exec_safe d x o1 s1 e1 Hx E) as (H1 & H2). unfold boot.
  pose proof (kp_run _ _ _ (fun F H => H) (ctap_install K false) ctap_boot (nth n (e_log e1) (e_fs e1)) flt rnd [] (install_safe false (d_fs d)) Logic.I (Forall_nth_default _ _ _ _ H2 H1)) as W.
  destruct (ctap_install K false ctap_boot _) as [[o2 s2] e2]. apply W.
Qed.
End S.

(** The factory reset of a device with a PIN and a discoverable credential *)
Definition case58 : list ev := make81 ++ [do_at 20010 OReset].
Definition test58 (tr : list entry) (d : dev) : bool := forallb oks tr && match rev tr with (d1, _, _) :: _ => negb (match pin_of (d_fs d1) with Some [] | None => true | _ => false end) && (0 <? slots_of (d_fs d1)) | [] => false end && (slots_of (d_fs d) =? 0).
Example C58_case : exists tr d, hist toyf fresh_dev tr d /\ test58 tr d = true /\ map (fun e => snd (fst e)) tr = case58.
Proof. apply play_case. vm_compute. reflexivity. Qed.
(** Power loss during authenticatorReset, just after the PIN has been removed: the credential that needs user verification is still good, and now it can be used with a PIN of the finder's choice.  [n] counts the images from the last one. *)
Definition case58cut : list ev := make56 3 0 ++ [Cut (cmd_at 20010 (OCbor RInfo)) 0 [] (repeat 5 100); Cut (cmd_at 5000 (OCbor RReset)) 3 [] (repeat 5 100); pin_at 15001 (set_req fresh_dev pin_b); pin_at 15002 (token_req fresh_dev pin_b);
  do_at 15003 (OCbor (RGet (inr (ga_of 7 [id56] (Some (tag_at 15002 (repeat 4 32)))))))].
Definition test58cut (tr : list entry) (d : dev) : bool := same_ids (flat_map made tr) [id56] && (id_cp id56 =? 3) && forallb oks tr && last_uv tr.
Theorem C58_power_loss_refuted : exists tr d, hist toyf fresh_dev tr d /\ test58cut tr d = true /\ map (fun e => snd (fst e)) tr = case58cut.
Proof. apply play_case. vm_compute. reflexivity. Qed.
Print Assumptions C58_complete. Print Assumptions C58_power_loss_partial. Print Assumptions C58_power_loss_refuted.
