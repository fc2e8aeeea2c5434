(** C60: the PINs that can be set. *)
From Verif Require Import CtapFrame CtapToy CtapExec PropCtapPin.
Open Scope string_scope. Open Scope list_scope. Open Scope Z_scope.

(** ** Specification *)
(** [d] is the PIN [p] padded with zeros to 64 bytes *)
Definition padded (p d : bytes) : Prop := d = p ++ repeat 0 (64 - length p) /\ (length p <= 64)%nat /\ (p = [] \/ last p 0 <> 0).
Definition fits (p : bytes) : Prop := 4 <= zlen p <= 63.
Section S.
Variable K : fcrypto.
(** The new PIN, padded, that a request carries: newPinEnc decrypted with the shared secret *)
Definition enc_pin (q : cpreq) : bytes := firstn (if cp_proto q =? 1 then 64 else 80) (cp_new q).
Definition carries (d : dev) (q : cpreq) (b : bytes) : Prop := exists key, shared K d q = Some key /\ cp_decrypt K key (enc_pin q) (cp_proto q) = Some b.
(** The request is authenticated: pinUvAuthParam is the HMAC of the new PIN (and of the guess of the old one for changePIN) *)
Definition authentic (d : dev) (q : cpreq) : Prop := exists key, shared K d q = Some key /\
  let n := if cp_proto q =? 1 then 16%nat else 32%nat in
  firstn n (attr_buf 32 (cp_param q)) = firstn n (f_hmac K (firstn 32 key) (enc_pin q ++ (if cp_sub q =? 4 then firstn (if cp_proto q =? 1 then 16 else 32) (cp_hash q) else []))).
Definition hash_of (p : bytes) : bytes := firstn 16 (f_sha K p).

(** ** Proof *)
Lemma last_nz (i : nat) d : (forall j, (i < j <= 63)%nat -> nth j d 0 = 0) -> (i <= 63)%nat -> nth i d 0 <> 0 \/ i = O -> last_nonzero 63 d = Z.of_nat i.
Proof.
  intros H Hi Hn. assert (X : forall k, (i <= k <= 63)%nat -> last_nonzero k d = Z.of_nat i).
  { induction k as [|k IH]; intros Hk; cbn [last_nonzero]; [replace i with O by lia; reflexivity|].
    destruct (Nat.eq_dec i (S k)) as [->|N].
    - destruct Hn as [Hn|Hn]; [|lia]. destruct (nth (S k) d 0 =? 0) eqn:E; [lia|reflexivity].
    - rewrite H by lia. cbn. apply IH. lia. }
  apply X. lia.
Qed.
Lemma nth_last (p : bytes) : p <> [] -> nth (length p - 1) p 0 = last p 0.
Proof.
  induction p as [|a [|b p] IH]; intros H; [congruence|reflexivity|]. change (last (a :: b :: p) 0) with (last (b :: p) 0). rewrite <- IH by discriminate.
  cbn [length]. replace (S (S (length p)) - 1)%nat with (S (length p)) by lia. replace (S (length p) - 1)%nat with (length p) by lia. reflexivity.
Qed.
Lemma padded_last p d : padded p d -> last_nonzero 63 d = Z.of_nat (length p - 1).
Proof.
  intros (-> & Hl & Hn). apply last_nz; [|lia|].
  - intros j Hj. rewrite app_nth2 by lia. destruct (Nat.ltb_spec (j - length p) (64 - length p)); [apply nth_repeat|rewrite nth_overflow; [reflexivity|rewrite repeat_length; lia]].
  - destruct p as [|a p]; [right; reflexivity|]. left. destruct Hn as [Hn|Hn]; [discriminate|]. rewrite app_nth1 by (cbn [length]; lia). rewrite nth_last by discriminate. exact Hn.
Qed.
Lemma padded_fit p d : padded p d -> negb ((last_nonzero 63 d <? 3) || (63 <=? last_nonzero 63 d)) = true <-> fits p.
Proof. intros H. rewrite (padded_last p d H). unfold fits, zlen. destruct H as (_ & H & _). lia. Qed.
Lemma padded_pin p d : padded p d -> fits p -> firstn (Z.to_nat (last_nonzero 63 d + 1)) d = p.
Proof.
  intros H Hf. rewrite (padded_last p d H). destruct H as (-> & Hl & _). unfold fits, zlen in Hf.
  replace (Z.to_nat (Z.of_nat (length p - 1) + 1)) with (length p + 0)%nat by lia. rewrite firstn_app_2. cbn [firstn]. apply app_nil_r.
Qed.
(** every 64 bytes are the padding of a PIN *)
Lemma padded_ex d : length d = 64%nat -> exists p, padded p d.
Proof.
  intros Hd. assert (X : forall l : bytes, exists p, l = p ++ repeat 0 (length l - length p) /\ (length p <= length l)%nat /\ (p = [] \/ last p 0 <> 0)).
  { induction l as [|a l (p & E & Hl & Hp)]; [exists []; split; [reflexivity|]; split; [cbn; lia|auto]|]. destruct p as [|b p].
    - destruct (Z.eq_dec a 0) as [->|N].
      + exists []. split; [|split; [cbn; lia|auto]]. cbn [length app] in *. rewrite Nat.sub_0_r in *. cbn [repeat]. f_equal. exact E.
      + exists [a]. split; [|split; [cbn; lia|auto]]. cbn [length app] in *. rewrite Nat.sub_0_r in *. cbn [Nat.sub]. rewrite Nat.sub_0_r. f_equal. exact E.
    - exists (a :: b :: p). split; [cbn [length app] in *; cbn [Nat.sub]; f_equal; exact E|]. split; [cbn [length] in *; lia|]. right. destruct Hp as [Hp|Hp]; [discriminate|exact Hp]. }
  destruct (X d) as (p & E & Hl & Hp). exists p. unfold padded. rewrite Hd in *. auto.
Qed.
Definition pin_rest (key d : bytes) (proto : Z) : Mc unit := match cp_decrypt K key d proto with None => except ERR_UNHANDLED | Some pin => new_pin K pin end.
Lemma run_new p b s F L R T O : padded p b -> F "ctap_cert" <> None ->
  new_pin K b s (mkE F L [] R T O) =
  if (4 <=? zlen p) && (zlen p <=? 63) then
    let F1 := fsetattr F "ctap_cert" 2 (hash_of p) in let F2 := fsetattr F1 "ctap_cert" 3 [8] in (Ret tt, s, mkE F2 (F2 :: F1 :: L) [] R T O)
  else (Exc 0x37, s, mkE F L [] R T O).
Proof.
  intros Hp HF. pose proof (padded_fit p b Hp) as X. unfold fits in X. unfold new_pin. cbv zeta. unfold bind at 1.
  destruct ((4 <=? zlen p) && (zlen p <=? 63)) eqn:E.
  - rewrite (proj2 X) by lia. cbn [guard]. unfold ret at 1. unfold set_pin, must. rewrite (padded_pin p b Hp) by (unfold fits; lia).
    unfold bind. change CTAP_CERT_FILE with "ctap_cert". rewrite run_write_attr by exact HF. cbn [guard]. unfold ret. rewrite run_write_attr; [reflexivity|]. unfold fsetattr. destruct (F "ctap_cert"); [rewrite fset_same; discriminate|congruence].
  - destruct (negb _); [exfalso; assert (X' : 4 <= zlen p <= 63) by (apply X; reflexivity); lia|reflexivity].
Qed.
Lemma new_pin_of F p : F "ctap_cert" <> None -> pin_of (fsetattr (fsetattr F "ctap_cert" 2 (hash_of p)) "ctap_cert" 3 [8]) = Some (hash_of p) /\ left (fsetattr (fsetattr F "ctap_cert" 2 (hash_of p)) "ctap_cert" 3 [8]) = 8.
Proof.
  intros HF. unfold pin_of, left. assert (H : fsetattr F "ctap_cert" 2 (hash_of p) "ctap_cert" <> None) by (unfold fsetattr; destruct (F "ctap_cert"); [rewrite fset_same; discriminate|congruence]).
  split; [rewrite (fattr_fsetattr _ _ 3) by exact H; rewrite fattr_fsetattr by exact HF; reflexivity|rewrite (fattr_fsetattr _ _ 3) by exact H; reflexivity].
Qed.
Lemma ver_ok key m q : let n := if cp_proto q =? 1 then 16%nat else 32%nat in
  firstn n (attr_buf 32 (cp_param q)) = firstn n (f_hmac K key m) -> cp_verify K key m (cp_param q) (cp_proto q) = true.
Proof. cbv zeta. intros H. unfold cp_verify. cbv zeta. rewrite H. apply beqb_refl. Qed.
Lemma cp_cert F : pin_of F <> None -> F "ctap_cert" <> None.
Proof. unfold pin_of, fattr. destruct (F "ctap_cert"); congruence. Qed.

(** setPIN on a device without a PIN: the new PIN is stored exactly if it has 4 to 63 bytes; *)
Theorem C60_set_pin d x q b p : x_op x = OCbor (RPin (inr q)) -> cp_sub q = 3 -> x_flt x = [] -> 1 <= x_cap x -> pin_of (d_fs d) = Some [] ->
  carries d q b -> authentic d q -> padded p b ->
  let '(o, s, e) := exec K d x in
  if (4 <=? zlen p) && (zlen p <=? 63) then o = Some (ACbor 0 None) /\ pin_of (e_fs e) = Some (hash_of p) /\ left (e_fs e) = 8
  else o = Some (ACbor 0x37 None) /\ e_fs e = d_fs d.
Proof.
  intros Hx Hs Hf Hc Hn (key & K1 & K2) (key' & K3 & K4) Hp. rewrite K1 in K3. injection K3 as <-.
  unfold exec. rewrite Hx. unfold cbor_body, process_cbor, cbor_cmd, cp_observer, ctap_client_pin. rewrite Hs, Hf.
  change (3 =? 1) with false. change (3 =? 2) with false. change (3 =? 3) with true. rewrite Hs in K4. change (3 =? 4) with false in K4. cbn match in *. rewrite app_nil_r in K4.
  assert (HF : d_fs d "ctap_cert" <> None) by (apply cp_cert; congruence).
  set (s1 := set_tok (fun t => if negb (t_use t) then t else if t_end t <? x_t1 x then tok_stop t else t) (d_ram d)). assert (Ka : t_ka (c_tok s1) = t_ka (c_tok (d_ram d))) by (subst s1; unfold set_tok; cbn [c_tok]; destruct (negb _); [reflexivity|]; destruct (_ <? _); reflexivity).
  assert (X : set_pin_cmd K q s1 (start (d_fs d) [] (x_rnd x) (x_tch x)) = new_pin K b s1 (start (d_fs d) [] (x_rnd x) (x_tch x))).
  { unfold set_pin_cmd, has_pin, cp_decapsulate. cbv zeta. unfold bind at 1 2, start at 1. rewrite run_read_attr. change (fattr (d_fs d) CTAP_CERT_FILE PIN_ATTR) with (pin_of (d_fs d)). rewrite Hn. cbn match.
    unfold ret at 1. unfold bind at 1. cbn [negb guard]. unfold ret at 1. unfold bind at 1 2, get. rewrite Ka.
    unfold shared in K1. destruct (f_ecdh K _ _) as [z|]; [|discriminate]. cbn [option_map] in K1. injection K1 as K1. rewrite K1. unfold ret at 1. unfold bind.
    change (firstn (pin_enc_len (cp_proto q)) (cp_new q)) with (enc_pin q). rewrite (ver_ok (firstn 32 key) (enc_pin q) q K4). cbn [guard]. unfold ret. rewrite K2. reflexivity. }
  unfold bind, modify. fold s1. change (ret None) with (@ret ctap (option cbor) None). rewrite X. unfold start at 1. rewrite (run_new p b s1 _ _ _ _ _ Hp HF).
  destruct ((4 <=? zlen p) && (zlen p <=? 63)).
  - cbv zeta. unfold ret. change (zlen (message (0, None))) with 1. destruct (1 <=? x_cap x) eqn:E; [|lia]. cbn [e_fs]. split; [reflexivity|]. apply new_pin_of, HF.
  - cbn [e_fs]. auto.
Qed.
(** and changePIN with the right old PIN, on a device that takes guesses. *)
Theorem C60_change_pin d x q b p : x_op x = OCbor (RPin (inr q)) -> cp_sub q = 4 -> x_flt x = [] -> 1 <= x_cap x -> pin_of (d_fs d) <> Some [] ->
  taking d -> right K d q -> carries d q b -> authentic d q -> padded p b ->
  let '(o, s, e) := exec K d x in
  if (4 <=? zlen p) && (zlen p <=? 63) then o = Some (ACbor 0 None) /\ pin_of (e_fs e) = Some (hash_of p) /\ left (e_fs e) = 8
  else o = Some (ACbor 0x37 None) /\ pin_of (e_fs e) = pin_of (d_fs d).
Proof.
  intros Hx Hs Hf Hc Hn (T1 & T2) (h & v & G1 & G2 & G3) (key & K1 & K2) (key' & K3 & K4) Hp. rewrite K1 in K3. injection K3 as <-.
  unfold exec. rewrite Hx. unfold cbor_body, process_cbor, cbor_cmd, cp_observer, ctap_client_pin. rewrite Hs, Hf.
  change (4 =? 1) with false. change (4 =? 2) with false. change (4 =? 3) with false. change (4 =? 4) with true. rewrite Hs in K4. change (4 =? 4) with true in K4. cbn match in *.
  assert (HF : d_fs d "ctap_cert" <> None) by (apply cp_cert; congruence).
  set (s1 := set_tok (fun t => if negb (t_use t) then t else if t_end t <? x_t1 x then tok_stop t else t) (d_ram d)). assert (Ka : t_ka (c_tok s1) = t_ka (c_tok (d_ram d))) by (subst s1; unfold set_tok; cbn [c_tok]; destruct (negb _); [reflexivity|]; destruct (_ <? _); reflexivity).
  assert (Kc : c_cpc s1 = c_cpc (d_ram d)) by reflexivity.
  unfold guess in G1. rewrite K1 in G1. destruct (cp_decrypt K key (firstn _ (cp_hash q)) (cp_proto q)) as [g|] eqn:Dg; [|discriminate]. cbn [option_map] in G1. injection G1 as G1.
  set (r := left (d_fs d) - 1). set (F1 := fsetattr (d_fs d) "ctap_cert" 3 [u8 r]). 
  assert (HF1 : F1 "ctap_cert" <> None) by (unfold F1, fsetattr; destruct (d_fs d "ctap_cert"); [rewrite fset_same; discriminate|congruence]).
  assert (P1 : pin_of F1 = pin_of (d_fs d)) by (unfold pin_of, F1; rewrite fattr_fsetattr by exact HF; reflexivity).
  assert (X : change_pin_cmd K q s1 (start (d_fs d) [] (x_rnd x) (x_tch x)) = new_pin K b (set_cpc 3 s1) (mkE F1 [F1; d_fs d] [] (x_rnd x) (x_tch x) [])).
  { unfold change_pin_cmd, pin_retries_left, has_pin, get_pin_retries, cp_decapsulate, got, check_pin, set_pin_retries, must, verify_pin_hash. cbv zeta. unfold start. unfold bind at 1 2 3. rewrite run_read_attr. change (fattr (d_fs d) CTAP_CERT_FILE PIN_ATTR) with (pin_of (d_fs d)).
    assert (Er : match pin_of (d_fs d) with Some [] => false | _ => true end = true) by (rewrite G2; destruct v; [elim (Hn G2)|reflexivity]). unfold ret at 1. rewrite Er. unfold bind at 1. cbn [guard]. unfold ret at 1.
    unfold bind at 1 2 3. rewrite run_read_attr. unfold left in T1. change (fattr (d_fs d) CTAP_CERT_FILE PIN_CTR_ATTR) with (fattr (d_fs d) "ctap_cert" 3). destruct (fattr (d_fs d) "ctap_cert" 3) as [w|] eqn:W; [|congruence].
    unfold ret at 1. cbn [option_map]. unfold ret at 1. destruct (nth 0 w 0 =? 0) eqn:Z0; [lia|]. unfold bind at 1. cbn [negb guard]. unfold ret at 1. unfold bind at 1, get. rewrite Kc. destruct (c_cpc (d_ram d) =? 0) eqn:Z1; [lia|].
    unfold bind at 1. cbn [negb guard]. unfold ret at 1 2. unfold bind at 1 2. rewrite Ka.
    unfold shared in K1. destruct (f_ecdh K _ _) as [z|]; [|discriminate]. cbn [option_map] in K1. injection K1 as K1. rewrite K1. unfold ret at 1. unfold bind at 1.
    change (pin_hash_len (cp_proto q)) with (if cp_proto q =? 1 then 16%nat else 32%nat).
    change (firstn (pin_enc_len (cp_proto q)) (cp_new q)) with (enc_pin q). rewrite (ver_ok (firstn 32 key) _ q K4). cbn [guard]. unfold ret at 1. unfold bind at 1 2 3 4.
    change CTAP_CERT_FILE with "ctap_cert". rewrite run_write_attr by exact HF. cbn [guard]. unfold ret at 1.
    rewrite Dg.
    unfold got, bind. rewrite run_read_attr. change PIN_CTR_ATTR with 3. assert (Er2 : [u8 (nth 0 w 0 - 1)] = [u8 r]) by (unfold r, left; rewrite W; reflexivity). rewrite Er2. fold F1. change (fattr F1 "ctap_cert" PIN_ATTR) with (pin_of F1). rewrite P1, G2. unfold ret. rewrite <- G3, <- G1, beqb_refl. unfold modify. rewrite K2. reflexivity. }
  unfold bind, modify. fold s1. rewrite X. rewrite (run_new p b _ _ _ _ _ _ Hp HF1).
  destruct ((4 <=? zlen p) && (zlen p <=? 63)).
  - cbv zeta. unfold ret. change (zlen (message (0, None))) with 1. destruct (1 <=? x_cap x) eqn:E; [|lia]. cbn [e_fs]. split; [reflexivity|]. apply new_pin_of, HF1.
  - cbn [e_fs]. auto.
Qed.

(** ** Whatever happens *)
Section Keep.
Variable v0 : option bytes.
Variable C : bytes -> Prop.
Definition okpin (F : fs) : Prop := pin_of F = v0 \/ exists p, C p /\ pin_of F = Some p.
Notation kp := (keep anyst okpin okpin).
Lemma ok_other q : q <> "ctap_cert" -> indep okpin q.
Proof. intros N F x H. unfold okpin, pin_of, fattr in *. rewrite fset_other by congruence. exact H. Qed.
Lemma ok_rename : kp (fs_rename LB_FILE_TMP LB_FILE).
Proof. apply kp_rename_at; [auto|]. intros F f H E. apply (ok_other "ctap_lb"); [discriminate|]. apply (ok_other "ctap_lbt"); [discriminate|]. exact H. Qed.
Lemma ok_attr a v : (a = 2 -> C v) -> kp (write_attr CTAP_CERT_FILE a v).
Proof.
  intros N. apply kp_write_attr_at; [auto|]. intros F f H E. unfold okpin, pin_of, fattr in *. change CTAP_CERT_FILE with "ctap_cert" in *. rewrite fset_same. rewrite E in H. cbn [f_attr].
  destruct (Z.eq_dec a 2) as [->|Na]; [right; exists v; rewrite aset_same; auto|rewrite aset_other by congruence; exact H].
Qed.
Lemma ok_cert d o t : kp (write_file CTAP_CERT_FILE d o t).
Proof.
  assert (C' : forall F x, okpin F -> okpin (fset F CTAP_CERT_FILE (Some (mkF x (match F CTAP_CERT_FILE with Some f => f_attr f | None => no_attr end))))).
  { intros F x H. unfold okpin, pin_of, fattr in *. change CTAP_CERT_FILE with "ctap_cert" in *. rewrite fset_same. destruct (F "ctap_cert"); exact H. }
  intros s e H. apply kp_pop in H. unfold wp, write_file. destruct (pop_fault e) as [x e']. cbn [snd] in H. assert (H2 : okpin (e_fs e')) by apply H.
  assert (C1 := C' (e_fs e')). destruct (e_fs e' CTAP_CERT_FILE) as [f|] eqn:E.
  - destruct x; try exact H. rewrite E. apply kgood_commit; [auto|exact H|]. apply C1, H2.
  - assert (H' : kgood anyst okpin okpin s (commit (fset (e_fs e') CTAP_CERT_FILE (Some (mkF [] no_attr))) e')) by (apply kgood_commit; [auto|exact H|apply C1, H2]).
    destruct x; try exact H; try exact H'. cbn [e_fs commit]. rewrite fset_same. apply kgood_commit; [auto|exact H'|].
    assert (C2 := C' (fset (e_fs e') CTAP_CERT_FILE (Some (mkF [] no_attr)))). rewrite fset_same in C2. apply C2. apply H'.
Qed.
Lemma ok_new key d proto : (forall b, cp_decrypt K key d proto = Some b -> length b = 64%nat) ->
  (forall b p, cp_decrypt K key d proto = Some b -> padded p b -> fits p -> C (hash_of p)) -> kp (pin_rest key d proto).
Proof.
  intros Hl HC. unfold pin_rest. destruct (cp_decrypt K key d proto) as [b|]; [|apply kp_except]. destruct (padded_ex b (Hl b eq_refl)) as (p & Hp).
  unfold new_pin, set_pin. cbv zeta. pose proof (padded_fit p b Hp) as Hf. destruct (negb _); cbn [guard]; [|intros s e H; exact H].
  assert (Hf' : fits p) by (apply Hf; reflexivity). rewrite (padded_pin p b Hp Hf'). apply kp_bind; [apply kp_ret|intros _].
  apply kp_bind; [apply kp_must, ok_attr|intros _; apply kp_must, ok_attr]; [|discriminate]. intros _. apply (HC b p); auto.
Qed.
Ltac ck := repeat lazymatch goal with
  | |- keep _ _ _ (bind _ _) => apply kp_bind; [|intros ?]
  | |- keep _ _ _ (modify _) => apply kp_modify; intros; exact Logic.I
  | |- keep _ _ _ get => apply kp_get
  | |- keep _ _ _ (random_buffer _) => apply kp_random
  | |- keep _ _ _ (got _) => apply kp_got
  | |- keep _ _ _ (must _) => apply kp_must
  | |- keep _ _ _ (guard _ _) => apply kp_guard
  | |- keep _ _ _ (except _) => apply kp_except
  | |- keep _ _ _ ub => apply kp_ub
  | |- keep _ _ _ (read_attr _ _) => apply kp_read_attr
  | |- keep _ _ _ (write_attr CTAP_CERT_FILE _ _) => apply ok_attr; discriminate
  | |- keep _ _ _ (ret _) => apply kp_ret
  | |- keep _ _ _ (match ?x with _ => _ end) => destruct x
  end.
Lemma ok_check key h proto r b : kp (check_pin K key h proto r b).
Proof. unfold check_pin, set_pin_retries, verify_pin_hash, cp_regenerate. ck. Qed.
Lemma ok_token t2 q : kp (get_token_cmd K t2 q).
Proof.
  unfold get_token_cmd, pin_retries_left, has_pin, get_pin_retries, cp_decapsulate, set_pin_retries, cp_reset_token, cp_begin_using, cp_set_permission, cp_associate_rp, cp_encrypt.
  repeat (ck; try apply ok_check).
Qed.
Lemma ok_install b : C [] -> kp (ctap_install K b).
Proof.
  intros HC. unfold ctap_install, cp_initialize, cp_regenerate, cp_reset_token.
  repeat lazymatch goal with
  | |- keep _ _ _ (bind _ _) => apply kp_bind; [|intros ?]
  | |- keep _ _ _ (modify _) => apply kp_modify; intros; exact Logic.I
  | |- keep _ _ _ (random_buffer _) => apply kp_random
  | |- keep _ _ _ (got _) => apply kp_got
  | |- keep _ _ _ (must _) => apply kp_must
  | |- keep _ _ _ (read_attr _ _) => apply kp_read_attr
  | |- keep _ _ _ (get_file_size _) => apply kp_size
  | |- keep _ _ _ (write_file CTAP_CERT_FILE _ _ _) => apply ok_cert
  | |- keep _ _ _ (write_attr CTAP_CERT_FILE _ _) => apply ok_attr; first [discriminate|intros _; exact HC]
  | |- keep _ _ _ (write_file _ _ _ _) => apply kp_write_file; [auto|apply ok_other; discriminate]
  | |- keep _ _ _ (write_attr _ _ _) => apply kp_write_attr; [auto|apply ok_other; discriminate]
  | |- keep _ _ _ (ret _) => apply kp_ret
  | |- keep _ _ _ (match ?x with _ => _ end) => destruct x
  end.
Qed.
Variable ka : bytes * bytes.
Variable q : cpreq.
Hypothesis HC : forall key b p, option_map (fun z => if cp_proto q =? 1 then f_sha K z else cp2_kdf K z) (f_ecdh K (fst ka) (cp_key q)) = Some key ->
  cp_decrypt K key (enc_pin q) (cp_proto q) = Some b -> padded p b -> fits p -> C (hash_of p).
Hypothesis Hl : forall key b, option_map (fun z => if cp_proto q =? 1 then f_sha K z else cp2_kdf K z) (f_ecdh K (fst ka) (cp_key q)) = Some key ->
  cp_decrypt K key (enc_pin q) (cp_proto q) = Some b -> length b = 64%nat.
Definition good (s : ctap) (e : env) : Prop := kgood anyst okpin okpin s e.
Definition same_ka (s : ctap) : Prop := t_ka (c_tok s) = ka.
Lemma ok_decaps (k : bytes -> Mc unit) : (forall key, option_map (fun z => if cp_proto q =? 1 then f_sha K z else cp2_kdf K z) (f_ecdh K (fst ka) (cp_key q)) = Some key -> kp (k key)) ->
  forall s e, same_ka s -> good s e -> wp (bind (cp_decapsulate K (cp_key q) (cp_proto q)) k) (fun _ s e => good s e) s e.
Proof.
  intros Hk s e Es H. unfold cp_decapsulate. apply wp_bind, wp_bind, wp_get. rewrite Es. destruct (f_ecdh K (fst ka) (cp_key q)) as [z|]; [|apply wp_except; exact H]. apply wp_ret. apply Hk; [reflexivity|exact H].
Qed.
Lemma ok_pre {A} (m : Mc A) (k : A -> Mc unit) s e : keep same_ka okpin okpin m -> same_ka s -> good s e ->
  (forall a s e, same_ka s -> good s e -> wp (k a) (fun _ s e => good s e) s e) -> wp (bind m k) (fun _ s e => good s e) s e.
Proof.
  intros Hm Hs H Hk. apply wp_bind. eapply wp_mono; [apply (Hm s e); split; [exact Hs|apply H]|]. intros [a|w| |] s' e' (H1 & H2); try (split; [exact Logic.I|exact H2]). apply Hk; [exact H1|]. split; [exact Logic.I|exact H2].
Qed.
Lemma ok_set s e : same_ka s -> good s e -> wp (set_pin_cmd K q) (fun _ s e => good s e) s e.
Proof.
  intros Hs H. unfold set_pin_cmd, has_pin. cbv zeta.
  apply ok_pre; [apply kp_bind; [apply kp_read_attr|intros; apply kp_ret]|exact Hs|exact H|intros a s1 e1 Hs1 H1].
  apply ok_pre; [apply kp_guard|exact Hs1|exact H1|intros _ s2 e2 Hs2 H2]. revert s2 e2 Hs2 H2. apply ok_decaps. intros key Hk.
  apply kp_bind; [apply kp_guard|intros _]. apply (ok_new key (enc_pin q) (cp_proto q)); [intros b; apply Hl, Hk|intros b p; apply HC, Hk].
Qed.
Lemma ok_change s e : same_ka s -> good s e -> wp (change_pin_cmd K q) (fun _ s e => good s e) s e.
Proof.
  intros Hs H. unfold change_pin_cmd. cbv zeta.
  apply ok_pre; [|exact Hs|exact H|intros a s1 e1 Hs1 H1].
  { unfold pin_retries_left, has_pin, got, get_pin_retries. 
    apply kp_bind; [apply kp_bind; [apply kp_read_attr|intros; apply kp_ret]|intros b]. apply kp_bind; [apply kp_guard|intros _].
    apply kp_bind; [apply kp_bind; [apply kp_bind; [apply kp_read_attr|intros r; apply kp_ret]|intros [r|]; [apply kp_ret|apply kp_except]]|intros r].
    apply kp_bind; [apply kp_guard|intros _]. apply kp_bind; [apply kp_get|intros s0]. apply kp_bind; [apply kp_guard|intros _]. apply kp_ret. }
  revert s1 e1 Hs1 H1. apply ok_decaps. intros key Hk. apply kp_bind; [apply kp_guard|intros _]. apply kp_bind; [apply ok_check|intros _].
  apply (ok_new key (enc_pin q) (cp_proto q)); [intros b; apply Hl, Hk|intros b p; apply HC, Hk].
Qed.
End Keep.
(** A new value of the stored PIN in a command: *)
Definition new_value (d : dev) (x : cmd) (v : bytes) : Prop :=
  resets x /\ v = [] \/
  exists q b p, x_op x = OCbor (RPin (inr q)) /\ (cp_sub q = 3 \/ cp_sub q = 4) /\ carries d q b /\ padded p b /\ fits p /\ v = hash_of p.
(** Whatever command is executed, with whatever storage errors, at every moment of it the stored PIN is the old one, or, in a reset, none,
    or the hash of a new PIN with 4 to 63 bytes, exactly the one that the setPIN or changePIN carries. *)
Theorem C60_stored_pins d x : (forall q b, x_op x = OCbor (RPin (inr q)) -> carries d q b -> length b = 64%nat) ->
  let '(_, _, e) := exec K d x in Forall (fun G => pin_of G = pin_of (d_fs d) \/ exists v, new_value d x v /\ pin_of G = Some v) (e_fs e :: e_log e).
Proof.
  intros Hl. set (v0 := pin_of (d_fs d)). set (C := new_value d x). set (P := okpin v0 C).
  assert (HP : P (d_fs d)) by (left; reflexivity).
  assert (X : left_out K P P x \/ exists q, x_op x = OCbor (RPin (inr q)) /\ (cp_sub q = 3 \/ cp_sub q = 4)).
  { unfold left_out. destruct (x_op x) as [q| | | | | | ] eqn:Ex; try (left; exact I).
    - destruct q as [| | | |[err|q]| | | | | ]; cbn [is_pin is_reset orb]; try (left; exact I).
      + left. unfold cbor_cmd, cp_observer, ctap_client_pin. apply kp_bind; [apply kp_modify; exact (fun _ h => h)|intros _; apply kp_except].
      + destruct (Z.eq_dec (cp_sub q) 3) as [E3|N3]; [right; eauto|]. destruct (Z.eq_dec (cp_sub q) 4) as [E4|N4]; [right; eauto|]. left.
        unfold cbor_cmd, cp_observer, ctap_client_pin. apply kp_bind; [apply kp_modify; exact (fun _ h => h)|intros _].
        destruct (cp_sub q =? 1). { apply kp_bind; [apply kp_bind; [apply kp_read_attr|intros; apply kp_ret]|intros; apply kp_ret]. }
        destruct (cp_sub q =? 2). { apply kp_bind; [apply kp_get|intros; apply kp_ret]. }
        destruct (cp_sub q =? 3) eqn:E3; [lia|]. destruct (cp_sub q =? 4) eqn:E4; [lia|]. destruct ((cp_sub q =? 5) || (cp_sub q =? 9)); [|apply kp_ret].
        apply kp_bind; [apply ok_token|intros; apply kp_ret].
      + left. unfold cbor_cmd, cp_observer, ctap_reset_data. apply kp_bind; [apply kp_modify; exact (fun _ h => h)|intros _]. apply kp_bind; [|intros; apply kp_ret].
        destruct (x_t1 x <=? 10000) eqn:Et; cbn [guard].
        * apply kp_bind; [apply kp_ret|intros _]. apply ok_install. left. split; [right; split; [exact Ex|lia]|reflexivity].
        * intros s e H; exact H.
    - left. apply ok_install. left. split; [left; exact Ex|reflexivity]. }
  destruct X as [X|(q & Ex & Hs)].
  - pose proof (exec_keep K P P (fun _ h => h) (ok_other _ _ DC_FILE ltac:(discriminate)) (ok_other _ _ DC_META_FILE ltac:(discriminate)) (ok_other _ _ LB_FILE_TMP ltac:(discriminate)) (ok_rename _ _)) as W.
    specialize (W ltac:(intros a v Na _ _; apply ok_attr; intros E; elim (Na E)) ltac:(intros; apply ok_cert) d x HP X). destruct (exec K d x) as [[o s] e]. destruct W as (W1 & W2). constructor; [exact W1|exact W2].
  - pose proof (exec_wp K d x (fun _ _ e => P (e_fs e) /\ Forall P (e_log e))) as W. destruct (exec K d x) as [[o s] e].
    assert (W' : P (e_fs e) /\ Forall P (e_log e)); [|constructor; apply W']. apply W. clear W o s e. rewrite Ex. unfold cbor_body, process_cbor, wp.
    set (ka := t_ka (c_tok (d_ram d))).
    assert (H1 : forall key b p, option_map (fun z => if cp_proto q =? 1 then f_sha K z else cp2_kdf K z) (f_ecdh K (fst ka) (cp_key q)) = Some key ->
      cp_decrypt K key (enc_pin q) (cp_proto q) = Some b -> padded p b -> fits p -> C (hash_of p)).
    { intros key b p E1 E2 E3 E4. right. exists q, b, p. split; [exact Ex|]. split; [exact Hs|]. split; [exists key; auto|auto]. }
    assert (H2 : forall key b, option_map (fun z => if cp_proto q =? 1 then f_sha K z else cp2_kdf K z) (f_ecdh K (fst ka) (cp_key q)) = Some key ->
      cp_decrypt K key (enc_pin q) (cp_proto q) = Some b -> length b = 64%nat) by (intros key b E1 E2; apply (Hl q b Ex); exists key; auto).
    assert (W : wp (cbor_cmd K (x_nfc x) (x_t1 x) (x_t2 x) (x_junk x) (RPin (inr q))) (fun _ s e => good v0 C s e) (d_ram d) (start (d_fs d) (x_flt x) (x_rnd x) (x_tch x))).
    { unfold cbor_cmd, cp_observer, ctap_client_pin. apply wp_bind, wp_modify.
      set (s1 := set_tok _ (d_ram d)). assert (Ka : same_ka ka s1) by (subst s1; unfold same_ka, set_tok; cbn [c_tok]; destruct (negb _); [reflexivity|]; destruct (_ <? _); reflexivity).
      assert (G : good v0 C s1 (start (d_fs d) (x_flt x) (x_rnd x) (x_tch x))) by (split; [exact I|]; split; [exact HP|constructor; [exact HP|constructor]]).
      destruct Hs as [Hs|Hs]; rewrite Hs.
      - change (3 =? 1) with false. change (3 =? 2) with false. change (3 =? 3) with true. cbn match. apply wp_bind. eapply wp_mono; [apply (ok_set v0 C ka q H1 H2); assumption|]. intros [] s e H; try exact H; apply wp_ret; exact H.
      - change (4 =? 1) with false. change (4 =? 2) with false. change (4 =? 3) with false. change (4 =? 4) with true. cbn match. apply wp_bind. eapply wp_mono; [apply (ok_change v0 C ka q H1 H2); assumption|]. intros [] s e H; try exact H; apply wp_ret; exact H. }
    unfold wp in W. destruct (cbor_cmd _ _ _ _ _ _ _ _) as [[o s] e]. destruct W as (_ & W). destruct o as [v|c| |]; try exact W. destruct (_ <=? x_cap x); exact W.
Qed.
Lemma boot_pin F flt rnd : pin_of (d_fs (boot K F flt rnd)) = pin_of F \/ pin_of (d_fs (boot K F flt rnd)) = Some [].
Proof.
  unfold boot. set (P := okpin (pin_of F) (fun p => p = [])). pose proof (kp_run anyst P P (fun _ h => h) (ctap_install K false) ctap_boot F flt rnd []) as W.
  destruct (ctap_install K false ctap_boot (start F flt rnd [])) as [[o s] e]. cbn [d_fs].
  destruct W as (_ & W & _); [apply ok_install; reflexivity|exact I|left; reflexivity|]. destruct W as [W|(p & -> & W)]; auto.
Qed.
(** So the PIN stored after any history, with power cuts at any point, is none, or the hash of a PIN with 4 to 63 bytes.  The requests hold
    80 bytes of newPinEnc and the decryption keeps the length. *)
Definition pin_entry (e : entry) : Prop :=
  match e with
  | (_, Do x, _) | (_, Cut x _ _ _, _) => forall q, x_op x = OCbor (RPin (inr q)) -> (80 <= length (cp_new q))%nat
  | _ => True
  end.
Theorem C60_every_stored_pin d0 tr d : (forall k iv c m, f_aes_dec K k iv c = Some m -> length m = length c) ->
  (pin_of (d_fs d0) = None \/ pin_of (d_fs d0) = Some []) -> hist K d0 tr d -> Forall pin_entry tr ->
  pin_of (d_fs d) = None \/ pin_of (d_fs d) = Some [] \/ exists p, fits p /\ pin_of (d_fs d) = Some (hash_of p).
Proof.
  intros HK H0 H Ht. set (R := fun v => v = None \/ v = Some [] \/ exists p, fits p /\ v = Some (hash_of p)). change (R (pin_of (d_fs d))).
  assert (L : forall d q b, (80 <= length (cp_new q))%nat -> carries d q b -> length b = 64%nat).
  { intros d1 q b Hq (key & _ & E). unfold cp_decrypt, enc_pin in E. destruct (cp_proto q =? 1).
    - apply HK in E. rewrite E, firstn_length. lia.
    - destruct (_ <? 16); [discriminate|]. apply HK in E. rewrite E, skipn_length, firstn_length. lia. }
  assert (X : forall d x, R (pin_of (d_fs d)) -> (forall q, x_op x = OCbor (RPin (inr q)) -> (80 <= length (cp_new q))%nat) -> let '(_, _, e) := exec K d x in R (pin_of (e_fs e)) /\ Forall (fun G => R (pin_of G)) (e_log e)).
  { intros d1 x HR Hq. pose proof (C60_stored_pins d1 x ltac:(intros q b E1 E2; eapply L; eauto)) as W. destruct (exec K d1 x) as [[o s] e].
    assert (W' : Forall (fun G => R (pin_of G)) (e_fs e :: e_log e)).
    { eapply Forall_impl; [|exact W]. intros G [->|(v & [(_ & ->)|(q & b & p & _ & _ & _ & _ & E1 & ->)] & ->)]; [exact HR|right; auto|right; right; eauto]. }
    inversion W'; auto. }
  induction H as [d|d0 tr d v o d' H IH Hv Hs]; [destruct H0 as [->| ->]; [left|right; left]; reflexivity|].
  apply Forall_app in Ht. destruct Ht as (Ht & Ht1). inversion Ht1 as [|? ? Ht2 _]; subst. specialize (IH H0 Ht). destruct v as [x|x n flt rnd|F]; cbn [step pin_entry] in *.
  - specialize (X d x IH Ht2). destruct (exec K d x) as [[[r|] s] e]; [|discriminate]. injection Hs as <- <-. apply X.
  - specialize (X d x IH Ht2). destruct (exec K d x) as [[r s] e]. injection Hs as <- <-. destruct (boot_pin (nth n (e_log e) (e_fs e)) flt rnd) as [->| ->]; [|right; auto].
    apply (Forall_nth_default (fun G => R (pin_of G))); apply X.
  - injection Hs as <- <-. cbn [d_fs]. unfold pin_of, fattr. rewrite (Hv "ctap_cert") by (cbn; tauto). exact IH.
Qed.
End S.
Print Assumptions C60_set_pin.
Print Assumptions C60_change_pin.
Print Assumptions C60_stored_pins.
Print Assumptions C60_every_stored_pin.

(** ** Examples: PINs of 3, 4, 63 and 64 bytes; and the hypotheses *)
Definition answer (r : option ans * ctap * env) : option ans := fst (fst r).
Example C60_set_cases : pin_of (d_fs fresh_dev) = Some [] /\
  map (fun n => answer (exec toyf fresh_dev (cmd_at 20 (OCbor (RPin (inr (set_req fresh_dev (repeat 49 n)))))))) [3; 4; 63; 64]%nat
  = [Some (ACbor 0x37 None); Some (ACbor 0 None); Some (ACbor 0 None); Some (ACbor 0x37 None)].
Proof. split; vm_compute; reflexivity. Qed.
Example C60_set_hyp : let q := set_req fresh_dev [49; 50; 51; 52] in
  carries toyf fresh_dev q (attr_buf 64 [49; 50; 51; 52]) /\ authentic toyf fresh_dev q /\ padded [49; 50; 51; 52] (attr_buf 64 [49; 50; 51; 52]).
Proof.
  cbv zeta. split; [eexists; split; vm_compute; reflexivity|]. split; [eexists; split; [vm_compute; reflexivity|vm_compute; reflexivity]|].
  split; [reflexivity|]. split; [cbn; lia|]. right. discriminate.
Qed.
Example C60_change_cases : let q := change_req fresh_dev [49; 50; 51; 52] [53; 53; 53; 53; 53] in
  pin_of (d_fs dev49) <> Some [] /\ taking dev49 /\ rightb dev49 q = true /\ carries toyf dev49 q (attr_buf 64 [53; 53; 53; 53; 53]) /\ authentic toyf dev49 q /\
  map (fun n => answer (exec toyf dev49 (cmd_at 40 (OCbor (RPin (inr (change_req fresh_dev [49; 50; 51; 52] (repeat 53 n)))))))) [3; 4; 63; 64]%nat
  = [Some (ACbor 0x37 None); Some (ACbor 0 None); Some (ACbor 0 None); Some (ACbor 0x37 None)].
Proof.
  cbv zeta. split; [vm_compute; discriminate|]. split; [split; vm_compute; discriminate|]. split; [vm_compute; reflexivity|]. split; [eexists; split; vm_compute; reflexivity|].
  split; [eexists; split; [vm_compute; reflexivity|vm_compute; reflexivity]|]. vm_compute. reflexivity.
Qed.
