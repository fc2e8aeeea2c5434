(** C51: the signature counter of FIDO. *)
From Verif Require Import CtapFrame CtapToy.
Open Scope string_scope. Open Scope list_scope. Open Scope Z_scope.

(** ** Specification *)
(** The counter on the device *)
Definition counter (F : fs) (c : Z) : Prop := fattr F "ctap_cert" 1 = Some (to_le 4 c) /\ 0 <= c < 2 ^ 32.
Definition installed (F : fs) (c : Z) : Prop := F "ctap_lb" <> None /\ counter F c.
(** The counter in an answer: in the authenticator data of makeCredential, getAssertion and getNextAssertion (after the hash of the rp id
    and the flags), and after the presence byte of U2F AUTHENTICATE *)
Definition assertion (q : creq) : Prop := match q with RMake _ | RGet _ | RNext => True | _ => False end.
Definition shows (e : entry) (n : Z) : Prop :=
  (exists d x q m ad, e = (d, Do x, Some (ACbor 0 (Some (CMap m)))) /\ x_op x = OCbor q /\ assertion q /\
     In (CInt 2, CBytes ad) m /\ n = be (slice 33 4 ad)) \/
  (exists d x p1 data r, e = (d, Do x, Some (AApdu r)) /\ x_op x = OAuth p1 data /\ r_sw r = 0x9000 /\ n = be (slice 1 4 (r_data r))).
(** No reset: none by the admin applet; authenticatorReset only when it is refused (later than 10 s after power-on); boots without storage
    errors (with errors, the installation might think that it has never run) *)
Definition no_reset (e : entry) : Prop :=
  match e with
  | (_, Do x, _) => match x_op x with OReset => False | OCbor RReset => 10000 < x_t1 x | _ => True end
  | (_, Cut x _ flt _, _) => flt = [] /\ match x_op x with OReset => False | OCbor RReset => 10000 < x_t1 x | _ => True end
  | (_, Other _, _) => True
  end.
(** The counter has not reached its maximum. *)
Definition not_full (e : entry) : Prop := forall c, counter (d_fs (fst (fst e))) c -> c < 2 ^ 32 - 1.

(** ** Proof *)
Lemma le_to_le c : 0 <= c < 2 ^ 32 -> le (to_le 4 c) = c.
Proof.
  intros H. unfold le, to_le. rewrite rev_involutive, be_to_be. apply Z.mod_small. exact H.
Qed.
Lemma attr_buf_exact n v : zlen v = n -> attr_buf n v = v.
Proof.
  intros H. unfold attr_buf. subst n. unfold zlen. rewrite Nat2Z.id, firstn_app, firstn_all, Nat.sub_diag. cbn [firstn]. apply app_nil_r.
Qed.
Lemma zlen_to_le n c : zlen (to_le n c) = Z.of_nat n.
Proof. unfold to_le, zlen. rewrite rev_length, to_be_length. reflexivity. Qed.
Lemma counter_inj F a b : counter F a -> counter F b -> a = b.
Proof. intros (H1 & H2) (H3 & H4). rewrite H1 in H3. rewrite <- (le_to_le a H2), <- (le_to_le b H4). congruence. Qed.

Definition rp32 (q : gareq) : Prop := zlen (ga_rphash q) = 32.
Definition rp_ok (s : ctap) : Prop := rp32 (g_req (c_ga s)).
Section C.
Variable K : fcrypto.
Variable nfc : bool.
Variables t1 t2 : Z.
Variable junk : bytes.
Variable c0 : Z.
Definition Q (F : fs) : Prop := exists c, c0 <= c /\ installed F c.
Definition P (c : Z) (F : fs) : Prop := c0 <= c /\ installed F c.
Notation kp c := (keep rp_ok (P c) Q).
Lemma PQ c : forall F, P c F -> Q F. Proof. intros F (H1 & H2). exists c. auto. Qed.
Lemma P_other c q : q <> "ctap_cert" -> q <> "ctap_lb" -> indep (P c) q.
Proof.
  intros N1 N2 F x (H1 & H2 & H3 & H4). split; [exact H1|]. split; [rewrite fset_other by congruence; exact H2|].
  split; [|exact H4]. unfold fattr in *. rewrite fset_other by congruence. exact H3.
Qed.
Lemma P_rename c : kp c (fs_rename LB_FILE_TMP LB_FILE).
Proof.
  apply kp_rename_at; [apply PQ|]. intros F f (H1 & H2 & H3 & H4) E. split; [exact H1|]. split; [rewrite fset_same; discriminate|].
  split; [|exact H4]. unfold fattr in *. rewrite !fset_other by discriminate. exact H3.
Qed.
Lemma P_attr c a v : a <> 1 -> kp c (write_attr CTAP_CERT_FILE a v).
Proof.
  intros N. apply kp_write_attr_at; [apply PQ|]. intros F f (H1 & H2 & H3 & H4) E. split; [exact H1|]. split; [rewrite fset_other by discriminate; exact H2|].
  split; [|exact H4]. unfold fattr in *. change CTAP_CERT_FILE with "ctap_cert" in *. rewrite fset_same. rewrite E in H3. cbn [f_attr]. rewrite aset_other by congruence. exact H3.
Qed.
Lemma P_cert c d o t : kp c (write_file CTAP_CERT_FILE d o t).
Proof.
  apply kp_write_file_at; [apply PQ| |].
  - intros F (H1 & H2 & H3 & H4). unfold fattr in H3. change CTAP_CERT_FILE with "ctap_cert". destruct (F "ctap_cert"); discriminate.
  - intros F f x (H1 & H2 & H3 & H4) E. split; [exact H1|]. split; [rewrite fset_other by discriminate; exact H2|].
    split; [|exact H4]. unfold fattr in *. change CTAP_CERT_FILE with "ctap_cert" in *. rewrite fset_same. rewrite E in H3. exact H3.
Qed.
Ltac side := first
  [ apply PQ | apply P_rename | apply P_other; discriminate | intros; apply P_attr; discriminate
  | exact (fun _ _ H => H) | exact (fun _ _ _ H => H) | exact (fun _ H => H) | intros ? ? H ?; exact H
  | intros f s0 H H0; unfold rp_ok, rp32 in *; cbn [c_ga set_ga]; rewrite H; exact H0 ].
Ltac by_keep := first
  [ eapply kp_consistency | eapply kp_touch_probe | eapply kp_mc_auth | eapply kp_exclude | eapply kp_ask | eapply kp_generate | eapply kp_mc_store | eapply kp_mc_att
  | eapply kp_ga_begin | eapply kp_ga_select | eapply kp_ga_ext | eapply kp_info | eapply kp_cm | eapply kp_lb | eapply kp_register | eapply kp_pin ]; try side.
(** A part of a command that does not touch the counter *)
Lemma part {A B} c (m : Mc A) (k : A -> Mc B) (R : out B -> ctap -> env -> Prop) s e : kp c m -> kgood rp_ok (P c) Q s e ->
  (forall a s' e', kgood rp_ok (P c) Q s' e' -> wp (k a) R s' e') ->
  (forall o s' e', kgood rp_ok (P c) Q s' e' -> (forall b, o <> Ret b) -> R o s' e') ->
  wp (bind m k) R s e.
Proof.
  intros Hm H H1 H2. apply wp_bind. eapply wp_mono; [apply Hm, H|]. intros [a|w| |] s' e' G; auto; apply H2; auto; discriminate.
Qed.
Lemma last_part {A} c (m : Mc A) (R : out A -> ctap -> env -> Prop) s e : kp c m -> kgood rp_ok (P c) Q s e ->
  (forall o s' e', kgood rp_ok (P c) Q s' e' -> R o s' e') -> wp m R s e.
Proof. intros Hm H H1. eapply wp_mono; [apply Hm, H|]. auto. Qed.
Lemma count_up c (R : out Z -> ctap -> env -> Prop) s e : c < 2 ^ 32 - 1 -> kgood rp_ok (P c) Q s e ->
  (forall s' e', kgood rp_ok (P (c + 1)) Q s' e' -> R (Ret (c + 1)) s' e') ->
  (forall w s' e', kgood rp_ok (P c) Q s' e' -> R (Exc w) s' e') -> wp increase_counter R s e.
Proof.
  intros Hc (Hs & (H1 & H2 & H3 & H4) & HL) R1 R2. destruct e as [F L X Rn T O]. cbn [e_fs e_log] in *. unfold increase_counter, got, must.
  apply wp_bind, wp_bind, wp_read_attr. intros X1 r _ V. destruct r as [v|].
  2: { apply wp_except. apply R2. split; [exact Hs|]. split; [|exact HL]. split; [exact H1|]. split; [exact H2|]. split; [exact H3|exact H4]. }
  destruct V as [V|V]; [discriminate|]. change (fattr F CTAP_CERT_FILE SIGN_CTR_ATTR) with (fattr F "ctap_cert" 1) in V. rewrite H3 in V. injection V as ->.
  apply wp_ret. cbv zeta. rewrite attr_buf_exact by apply zlen_to_le. rewrite le_to_le by exact H4.
  assert (E : u32 (c + 1) = c + 1) by (unfold u32; apply Z.mod_small; lia). rewrite E. apply wp_bind, wp_bind, wp_write_attr.
  - intros V X' _. cbn [guard]. apply wp_ret. apply wp_ret. apply R1.
    assert (G : P (c + 1) (fsetattr F CTAP_CERT_FILE SIGN_CTR_ATTR (to_le 4 (c + 1)))).
    { split; [lia|]. split; [rewrite fsetattr_other by discriminate; exact H2|]. split; [|lia]. change "ctap_cert" with CTAP_CERT_FILE. rewrite fattr_fsetattr by exact V. reflexivity. }
    split; [exact Hs|]. split; [exact G|]. constructor; [eapply PQ; exact G|exact HL].
  - intros V X' _. cbn [guard]. apply wp_except. apply R2. split; [exact Hs|]. split; [|exact HL]. split; [exact H1|]. split; [exact H2|]. split; [exact H3|exact H4].
Qed.
(** The outcome of a command that may count *)
Definition counted {A} (val : A -> Z -> Prop) (o : out A) (s : ctap) (e : env) : Prop :=
  rp_ok s /\ Forall Q (e_log e) /\ exists c, P c (e_fs e) /\ forall v, o = Ret v -> c = c0 + 1 /\ val v c.
Lemma counted_none {A} (val : A -> Z -> Prop) c o s e : kgood rp_ok (P c) Q s e -> (forall v, o <> Ret v) -> counted val o s e.
Proof. intros (H1 & H2 & H3) N. split; [exact H1|]. split; [exact H3|]. exists c. split; [exact H2|]. intros v E. elim (N v E). Qed.
Lemma counted_some {A} (val : A -> Z -> Prop) v s e : kgood rp_ok (P (c0 + 1)) Q s e -> val v (c0 + 1) -> counted val (Ret v) s e.
Proof. intros (H1 & H2 & H3) N. split; [exact H1|]. split; [exact H3|]. exists (c0 + 1). split; [exact H2|]. intros v' E. injection E as <-. auto. Qed.
Hypothesis Hc : c0 < 2 ^ 32 - 1.
Lemma slice_33 (rp : bytes) fl c r : zlen rp = 32 -> 0 <= c < 2 ^ 32 -> be (slice 33 4 ((rp ++ [fl] ++ to_be 4 c) ++ r)) = c.
Proof.
  clear. intros H1 H2. unfold slice. replace (Z.to_nat 33) with (length (rp ++ [fl])) by (rewrite app_length; unfold zlen in H1; cbn [length]; lia).
  rewrite <- app_assoc. rewrite <- (app_assoc [fl]). rewrite (app_assoc rp). rewrite skipn_app, skipn_all, Nat.sub_diag. cbn [skipn app].
  rewrite firstn_app, to_be_length. replace (Z.to_nat 4 - 4)%nat with 0%nat by lia. cbn [firstn]. rewrite app_nil_r.
  rewrite firstn_all2 by (rewrite to_be_length; lia). rewrite be_to_be. apply Z.mod_small. exact H2.
Qed.
Lemma wp_auth_data rp fl ext at_ (R : out (bytes * bytes) -> ctap -> env -> Prop) s e : zlen rp = 32 -> kgood rp_ok (P c0) Q s e ->
  (forall ad id s' e', kgood rp_ok (P (c0 + 1)) Q s' e' -> be (slice 33 4 ad) = c0 + 1 -> R (Ret (ad, id)) s' e') ->
  (forall o c s' e', kgood rp_ok (P c) Q s' e' -> (forall b, o <> Ret b) -> R o s' e') ->
  wp (make_auth_data K rp fl ext at_) R s e.
Proof using Hc.
  intros Hrp G R1 R2. assert (B : 0 <= c0 + 1 < 2 ^ 32) by (destruct G as (_ & (_ & _ & _ & B) & _); lia).
  unfold make_auth_data. apply wp_bind, (count_up c0); [exact Hc|exact G| |intros w s' e' G'; eapply R2; [exact G'|discriminate]].
  intros s1 e1 G1. cbv zeta. destruct at_ as [[[alg dc] cp]|].
  2: { apply wp_ret. apply R1; [exact G1|]. apply slice_33; assumption. }
  apply (part (c0 + 1)); [by_keep|exact G1| |intros; eapply R2; eassumption]. intros [[id pub]|] s2 e2 G2; [|apply wp_except; eapply R2; [exact G2|discriminate]].
  apply (part (c0 + 1)); [apply kp_get|exact G2| |intros; eapply R2; eassumption]. intros a s3 e3 G3.
  apply (part (c0 + 1)); [|exact G3| |intros; eapply R2; eassumption].
  { destruct (alg =? ALG_ES256); [apply kp_ret|]. destruct (alg =? ALG_EDDSA); [apply kp_ret|]. destruct (alg =? _); [apply kp_ret|apply kp_except]. }
  intros key s4 e4 G4. apply (part (c0 + 1)); [apply kp_guard|exact G4| |intros; eapply R2; eassumption]. intros _ s5 e5 G5.
  apply wp_ret. apply R1; [exact G5|]. apply slice_33; assumption.
Qed.
Definition in_map (v : cbor) (c : Z) : Prop := exists m, v = CMap m /\ forall ad, In (CInt 2, CBytes ad) m -> be (slice 33 4 ad) = c.
Ltac none := let G := fresh in let N := fresh in intros ? ? ? G N; eapply counted_none; [exact G|first [exact N|discriminate]].
Ltac fc := repeat first [apply kp_bind; [|intros ?] | apply kp_read_attr | apply kp_ret | apply kp_except | apply kp_get
  | match goal with |- keep _ _ _ (match ?x with _ => _ end) => destruct x end].
Lemma kp_lbk c x : kp c (make_large_blob_key K x).
Proof. unfold make_large_blob_key, read_key32. fc. Qed.
Lemma wp_lbk {A} c (b : bool) x i (k : list (cbor * cbor) -> Mc A) (R : out A -> ctap -> env -> Prop) s e : kgood rp_ok (P c) Q s e -> i <> 2 ->
  (forall l s' e', kgood rp_ok (P c) Q s' e' -> (forall y, In (CInt 2, y) l -> False) -> wp (k l) R s' e') ->
  (forall o s' e', kgood rp_ok (P c) Q s' e' -> (forall b, o <> Ret b) -> R o s' e') ->
  wp (bind (if b then y <- make_large_blob_key K x ;; ret [(CInt i, CBytes y)] else ret []) k) R s e.
Proof.
  intros G N H1 H2. destruct b.
  - apply wp_bind, (part c); [apply kp_lbk|exact G| |].
    + intros y s' e' G'. apply wp_ret. apply H1; [exact G'|]. intros z [E|[]]. congruence.
    + intros [a|w| |] s' e' G' N'; try (apply H2; [exact G'|discriminate]). elim (N' _ eq_refl).
  - apply wp_bind, wp_ret, H1; [exact G|]. intros z [].
Qed.
Lemma wp_make p s e : (forall q, p = inr q -> zlen (mc_rphash q) = 32) -> kgood rp_ok (P c0) Q s e -> wp (ctap_make_credential K nfc t2 junk p) (counted in_map) s e.
Proof using Hc.
  intros Hp G. unfold ctap_make_credential. destruct p as [err|q]; [apply wp_except; eapply counted_none; [exact G|discriminate]|].
  apply (part c0); [by_keep|exact G| |none]. intros _ s1 e1 G1.
  apply (part c0); [by_keep|exact G1| |none]. intros _ s2 e2 G2.
  apply (part c0); [by_keep|exact G2| |none]. intros uv s3 e3 G3.
  apply (part c0); [by_keep|exact G3| |none]. intros _ s4 e4 G4.
  apply (part c0); [by_keep|exact G4| |none]. intros _ s5 e5 G5.
  apply (part c0); [apply kp_modify; side|exact G5| |none]. intros _ s6 e6 G6.
  apply (part c0); [apply kp_guard|exact G6| |none]. intros _ s7 e7 G7. cbv zeta.
  apply wp_bind, wp_auth_data; [apply Hp; reflexivity|exact G7| |intros [] c s' e' G' N; try (eapply counted_none; [exact G'|discriminate]); elim (N _ eq_refl)].
  intros ad id s8 e8 G8 Had.
  apply (part (c0 + 1)); [destruct (mc_rk q =? 1); [by_keep|apply kp_ret]|exact G8| |none]. intros _ s9 e9 G9.
  apply (part (c0 + 1)); [by_keep|exact G9| |none]. intros att sa ea Ga.
  apply (wp_lbk (c0 + 1)); [exact Ga|discriminate| |none]. intros l sb eb Gb Hl. apply wp_ret. apply counted_some; [exact Gb|].
  eexists. split; [reflexivity|]. intros ad' [E|[E|[E|E]]]; try discriminate; [congruence|elim (Hl _ E)].
Qed.
Lemma wp_ga_rest s e : kgood rp_ok (P c0) Q s e -> wp (ga_rest K nfc t2) (counted in_map) s e.
Proof using Hc.
  intros G. assert (Hq : rp32 (g_req (c_ga s))) by apply G. unfold ga_rest. unfold gets at 1. apply wp_bind, wp_bind, wp_get, wp_ret. set (q := g_req (c_ga s)) in *. clearbody q.
  apply (part c0); [by_keep|exact G| |none]. intros [dc pri] s1 e1 G1.
  unfold gets at 1. apply wp_bind, wp_bind, wp_get, wp_ret. set (g1 := c_ga s1). clearbody g1.
  apply (part c0); [|exact G1| |none].
  { destruct (_ && _); [|apply kp_ret]. apply kp_bind; [by_keep|intros _]. apply kp_bind; [apply kp_modify|intros _; apply kp_modify; side].
    intros s0 H. exact H. }
  intros _ s2 e2 G2. apply (part c0); [apply kp_guard|exact G2| |none]. intros _ s3 e3 G3.
  apply (part c0); [eapply (kp_ga_ext K rp_ok (P c0) Q) with (okq := rp32); try side; exact Hq|exact G3| |none].
  intros ext s4 e4 G4. unfold gets at 1. apply wp_bind, wp_bind, wp_get, wp_ret. set (g2 := c_ga s4). clearbody g2. cbv zeta.
  apply wp_bind, wp_auth_data; [exact Hq|exact G4| |intros [] c s' e' G' N; try (eapply counted_none; [exact G'|discriminate]); elim (N _ eq_refl)].
  intros ad id s5 e5 G5 Had. cbn [fst].
  apply (part (c0 + 1)); [unfold sign_with_private_key, cose_alg_to_key_type; fc|exact G5| |none]. intros [sig|] s6 e6 G6.
  2: { eapply counted_none; [exact G6|discriminate]. }
  replace (if dc_lbk dc =? 0 then ret [] else k <- make_large_blob_key K (id_nonce (dc_id dc)) ;; ret [(CInt 7, CBytes k)])
     with (if negb (dc_lbk dc =? 0) then k <- make_large_blob_key K (id_nonce (dc_id dc)) ;; ret [(CInt 7, CBytes k)] else ret []) by (destruct (dc_lbk dc =? 0); reflexivity).
  apply (wp_lbk (c0 + 1)); [exact G6|discriminate| |none]. intros l s7 e7 G7 Hl.
  apply (part (c0 + 1)); [apply kp_modify; intros s0 H; exact H|exact G7| |none]. intros _ s8 e8 G8. apply wp_ret. apply counted_some; [exact G8|].
  eexists. split; [reflexivity|]. intros ad' [E|[E|[E|E]]]; try discriminate; [congruence|]. cbn [app] in E. repeat (apply in_app_or in E; destruct E as [E|E]); try solve [elim (Hl _ E)].
  all: match type of E with In _ (if ?b then _ else _) => destruct b end; cbn [In] in E; intuition discriminate.
Qed.
Lemma wp_ga p s e : (forall q, p = inr q -> rp32 q) -> kgood rp_ok (P c0) Q s e -> wp (ctap_get_assertion K nfc t2 p) (counted in_map) s e.
Proof using Hc.
  intros Hp G. unfold ctap_get_assertion.
  apply (part c0); [apply kp_modify; intros s0 H; exact H|exact G| |none]. intros _ s1 e1 G1.
  apply (part c0); [by_keep|exact G1| |none]. intros _ s2 e2 G2. destruct p as [err|q]; [apply wp_except; eapply counted_none; [exact G2|discriminate]|].
  apply (part c0); [|exact G2| |none].
  - eapply (kp_ga_begin K nfc t2 rp_ok (P c0) Q) with (okq := rp32); try side. apply Hp; reflexivity.
  - intros _ s3 e3 G3. apply wp_ga_rest, G3.
Qed.
Lemma wp_gna s e : kgood rp_ok (P c0) Q s e -> wp (ctap_get_next_assertion K nfc t1 t2) (counted in_map) s e.
Proof using Hc.
  intros G. unfold ctap_get_next_assertion. apply wp_bind, wp_get. set (b1 := _ || _). set (b2 := _ <? _). set (b3 := _ <=? _). clearbody b1 b2 b3.
  do 3 (apply (part c0); [apply kp_guard|eassumption| |none]; intros _ ? ? ?). apply wp_ga_rest. assumption.
Qed.
(** The counter of the answer to U2F AUTHENTICATE *)
Definition auth_val (e : env) (c : Z) : Prop := be (slice 1 4 (e_out e)) = c.
Lemma wp_auth p1 d s e : kgood rp_ok (P c0) Q s e ->
  wp (u2f_authenticate K nfc p1 d) (fun o s e => counted (fun _ c => auth_val e c) o s e) s e.
Proof using Hc.
  intros G. unfold u2f_authenticate.
  do 2 (apply (part c0); [apply kp_guard|eassumption| |none]; intros _ ? ? ?). cbv zeta.
  apply (part c0); [apply kp_guard|eassumption| |none]. intros _ ? ? ?.
  apply (part c0); [unfold verify_key_handle, read_key32; fc|eassumption| |none]. intros v s1 e1 G1.
  destruct v as [[pri|]|]; try (apply wp_except; eapply counted_none; [exact G1|discriminate]).
  apply (part c0); [apply kp_guard|eassumption| |none]. intros _ s2 e2 G2.
  apply (part c0); [unfold u2f_touch; destruct nfc; [apply kp_ret|apply kp_bind; [apply kp_wait|intros ?; apply kp_guard]]|eassumption| |none]. intros _ s3 e3 G3.
  assert (B : 0 <= c0 + 1 < 2 ^ 32) by (destruct G3 as (_ & (_ & _ & _ & B) & _); lia).
  apply wp_bind. unfold wp at 1.
  pose proof (count_up c0 (fun o s e => match o with Ret c => c = c0 + 1 /\ kgood rp_ok (P (c0 + 1)) Q s e | _ => kgood rp_ok (P c0) Q s e end) s3 e3 Hc G3) as W.
  unfold wp in W. destruct (increase_counter s3 e3) as [[[c|w| |] s4] e4]; (assert (W' := W ltac:(auto) ltac:(auto)); clear W); try (eapply counted_none; [exact W'|discriminate]).
  destruct W' as (-> & G4). destruct (f_sign _ _ _ _) as [sig|]; [|eapply counted_none; [exact G4|discriminate]].
  destruct e4 as [F4 L4 X4 R4 T4 O4]. apply wp_set_out. apply counted_some; [exact G4|]. unfold auth_val. cbn [e_out]. unfold slice. change (Z.to_nat 1) with 1%nat. change (Z.to_nat 4) with 4%nat.
  cbn [app skipn]. rewrite firstn_app, to_be_length, Nat.sub_diag, firstn_all2 by (rewrite to_be_length; lia). cbn [firstn]. rewrite app_nil_r, be_to_be. apply Z.mod_small. exact B.
Qed.
Lemma wp_cbor q s e : creq_ok q -> (q = RReset -> 10000 < t1) -> kgood rp_ok (P c0) Q s e -> wp (cbor_cmd K nfc t1 t2 junk q)
  (fun o s e => rp_ok s /\ Forall Q (e_log e) /\ exists c, P c (e_fs e) /\ forall v, o = Ret v -> assertion q -> c = c0 + 1 /\ exists w, v = Some w /\ in_map w c) s e.
Proof using Hc.
  intros Hq Hr G. unfold cbor_cmd.
  assert (N : forall (o : out (option cbor)) s e, kgood rp_ok (P c0) Q s e -> ~ assertion q ->
    rp_ok s /\ Forall Q (e_log e) /\ exists c, P c (e_fs e) /\ forall v, o = Ret v -> assertion q -> c = c0 + 1 /\ exists w, v = Some w /\ in_map w c).
  { intros o s0 e0 (H1 & H2 & H3) N. split; [exact H1|]. split; [exact H3|]. exists c0. split; [exact H2|]. intros v _ H. elim (N H). }
  assert (Y : forall (m : Mc cbor) s e, wp m (counted in_map) s e -> wp (v <- m ;; ret (Some v)) (fun o s e => rp_ok s /\ Forall Q (e_log e) /\
     exists c, P c (e_fs e) /\ forall v, o = Ret v -> assertion q -> c = c0 + 1 /\ exists w, v = Some w /\ in_map w c) s e).
  { intros m s0 e0 W. apply wp_bind. eapply wp_mono; [exact W|]. intros [v|w| |] s' e' (H1 & H2 & c & H3 & H4); [|split; [exact H1|]; split; [exact H2|]; exists c; split; [exact H3|]; discriminate ..].
    apply wp_ret. split; [exact H1|]. split; [exact H2|]. exists c. split; [exact H3|]. intros v' E _. injection E as <-. destruct (H4 _ eq_refl). eauto. }
  apply wp_bind. eapply wp_mono; [apply (kp_modify rp_ok (P c0) Q); [side|exact G]|]. intros [u|w| |] s1 e1 G1.
  2-4: (split; [apply G1|]; split; [apply G1|]; exists c0; split; [apply G1|]; discriminate).
  destruct q as [p|p| | |p| |p| |p| ].
  - apply Y, wp_make; [|exact G1]. intros q ->. apply Hq.
  - apply Y, wp_ga; [|exact G1]. intros q ->. apply Hq.
  - apply Y, wp_gna, G1.
  - apply (last_part c0); [apply kp_bind; [by_keep|intros; apply kp_ret]|exact G1|]. intros o s' e' G'. apply N; auto.
  - apply (last_part c0); [by_keep|exact G1|]. intros o s' e' G'. apply N; auto.
  - assert (E : (t1 <=? 10000) = false) by (specialize (Hr eq_refl); lia). unfold ctap_reset_data. rewrite E. apply wp_bind, wp_bind. cbn [guard]. apply wp_except. apply N; auto.
  - apply (last_part c0); [by_keep|exact G1|]. intros o s' e' G'. apply N; auto.
  - apply (last_part c0); [|exact G1|intros o s' e' G'; apply N; auto]. unfold WAIT. destruct nfc; fc; apply kp_wait.
  - apply (last_part c0); [by_keep|exact G1|]. intros o s' e' G'. apply N; auto.
  - apply wp_except. apply N; auto.
Qed.
End C.

(** U2F AUTHENTICATE reports no error as a success. *)
Definition fair {A} (m : Mc A) : Prop := forall s e, wp m (fun o _ _ => o <> Exc 0x9000) s e.
Lemma fair_bind {A B} (m : Mc A) (k : A -> Mc B) : fair m -> (forall a, fair (k a)) -> fair (bind m k).
Proof. intros Hm Hk s e. apply wp_bind. eapply wp_mono; [apply Hm|]. intros [a|w| |] s' e' H; try discriminate; [apply Hk|]. intros E. apply H. injection E as ->. reflexivity. Qed.
Lemma fair_ret {A} (a : A) : fair (ret a). Proof. intros s e. discriminate. Qed.
Lemma fair_guard b w : w <> 0x9000 -> fair (guard b w). Proof. intros H s e. destruct b; [discriminate|]. intros E. injection E as E. exact (H E). Qed.
Lemma fair_read p a : fair (read_attr p a).
Proof. intros s e. unfold wp, read_attr, pop_fault. destruct (e_flt e) as [|[] l]; cbn [e_fs]; destruct (e_fs e p); discriminate. Qed.
Lemma fair_wait : fair wait_touch. Proof. intros s e. unfold wp, wait_touch. destruct (e_tch e); discriminate. Qed.
Lemma fair_auth K nfc p1 d : fair (u2f_authenticate K nfc p1 d).
Proof.
  unfold u2f_authenticate. do 2 (apply fair_bind; [apply fair_guard; discriminate|intros _]). cbv zeta.
  apply fair_bind; [apply fair_guard; discriminate|intros _]. apply fair_bind.
  { unfold verify_key_handle, read_key32. apply fair_bind; [apply fair_bind; [apply fair_read|]|]; intros; apply fair_ret. }
  intros [[pri|]|]; try (intros s e; discriminate). apply fair_bind; [apply fair_guard; discriminate|intros _].
  apply fair_bind. { unfold u2f_touch. destruct nfc; [apply fair_ret|]. apply fair_bind; [apply fair_wait|intros r; apply fair_guard; discriminate]. }
  intros _. apply fair_bind.
  { intros s e. unfold wp. destruct (increase_counter s e) as [[[] s'] e']; discriminate. }
  intros c. destruct (f_sign _ _ _ _); intros s e; discriminate.
Qed.
Lemma wp_conj {A} (m : Mc A) (R1 R2 : out A -> ctap -> env -> Prop) s e : wp m R1 s e -> wp m R2 s e -> wp m (fun o s e => R1 o s e /\ R2 o s e) s e.
Proof. unfold wp. destruct (m s e) as [[o s'] e']. auto. Qed.

Section H.
Variable K : fcrypto.
Ltac side := first
  [ apply PQ | apply P_rename | apply P_other; discriminate | intros; apply P_attr; discriminate
  | exact (fun _ _ H => H) | exact (fun _ _ _ H => H) | exact (fun _ H => H) | intros ? ? H ?; exact H ].
Lemma exec_count d x c : rp_ok (d_ram d) -> installed (d_fs d) c -> c < 2 ^ 32 - 1 -> ev_ok d (Do x) -> no_reset (d, Do x, None) ->
  let '(o, s, e) := exec K d x in rp_ok s /\ Forall (Q c) (e_log e) /\
    exists c', P c c' (e_fs e) /\ forall n, shows (d, Do x, o) n -> c' = c + 1 /\ n = c'.
Proof.
  intros Hs HF Hc Hx Hr.
  assert (G : kgood rp_ok (P c c) (Q c) (d_ram d) (start (d_fs d) (x_flt x) (x_rnd x) (x_tch x))).
  { split; [exact Hs|]. split; [split; [cbn; lia|exact HF]|]. constructor; [|constructor]. exists c. split; [lia|exact HF]. }
  assert (N : forall (m : Mc unit) (T : option ans -> Prop), (forall o n, shows (d, Do x, o) n -> False) -> keep rp_ok (P c c) (Q c) m ->
    wp (m ;;; ret 0x9000) (fun o s e =>
      let R := fun o s e => rp_ok s /\ Forall (Q c) (e_log e) /\ exists c', P c c' (e_fs e) /\ forall n, shows (d, Do x, o) n -> c' = c + 1 /\ n = c' in
      match o with
      | Ret w | Exc w => R (Some (AApdu (mkR (e_out e) w))) s e
      | Fail => R (Some (AApdu (mkR (e_out e) 0x6900))) s e
      | UB => R None s e end) (d_ram d) (start (d_fs d) (x_flt x) (x_rnd x) (x_tch x))).
  { intros m T Ns Hm. assert (Hm' : keep rp_ok (P c c) (Q c) (m ;;; ret 0x9000)) by (apply kp_bind; [exact Hm|intros; apply kp_ret]).
    eapply wp_mono; [apply Hm', G|]. intros o s' e' (H1 & H2 & H3).
    destruct o; (split; [exact H1|]; split; [exact H3|]; exists c; split; [exact H2|]; intros n H; elim (Ns _ _ H)). }
  apply exec_wp. cbv [ev_ok no_reset] in Hx, Hr. destruct (x_op x) as [q|da|p1 da| |da|da|da] eqn:Ex.
  - unfold cbor_body. assert (Hr' : q = RReset -> 10000 < x_t1 x) by (intros ->; exact Hr).
    pose proof (wp_cbor K (x_nfc x) (x_t1 x) (x_t2 x) (x_junk x) c Hc q _ _ Hx Hr' G) as W. unfold wp, process_cbor in *.
    destruct (cbor_cmd _ _ _ _ _ _ _ _) as [[[v|w| |] s'] e']; destruct W as (H1 & H2 & c' & H3 & H4).
    + destruct (_ <=? _).
      * split; [exact H1|]. split; [exact H2|]. exists c'. split; [exact H3|]. intros n [(d1 & x1 & q1 & m & ad & E1 & E2 & E3 & E4 & E5)|(d1 & x1 & p1 & da & r & E1 & _)]; [|discriminate].
        injection E1 as <- <- ->. rewrite Ex in E2. injection E2 as <-. destruct (H4 _ eq_refl E3) as (-> & w & E6 & m' & -> & H). injection E6 as <-.
        split; [reflexivity|]. rewrite E5. apply H, E4.
      * split; [exact H1|]. split; [exact H2|]. exists c'. split; [exact H3|]. intros n [(d1 & x1 & q1 & m & ad & E1 & _)|(d1 & x1 & p1 & da & r & E1 & _)]; discriminate.
    + split; [exact H1|]. split; [exact H2|]. exists c'. split; [exact H3|]. intros n [(d1 & x1 & q1 & m & ad & E1 & _)|(d1 & x1 & p1 & da & r & E1 & _)]; discriminate.
    + split; [exact H1|]. split; [exact H2|]. exists c'. split; [exact H3|]. intros n [(d1 & x1 & q1 & m & ad & E1 & _)|(d1 & x1 & p1 & da & r & E1 & _)]; discriminate.
    + split; [exact H1|]. split; [exact H2|]. exists c'. split; [exact H3|]. intros n [(d1 & x1 & q1 & m & ad & E1 & _)|(d1 & x1 & p1 & da & r & E1 & _)]; discriminate.
  - unfold body. rewrite Ex. apply N; [exact (fun _ => True)| |].
    + intros o n [(d1 & x1 & q1 & m & ad & E1 & E2 & _)|(d1 & x1 & p1 & db & r & E1 & E2 & _)]; injection E1 as <- <- ->; rewrite Ex in E2; discriminate.
    + eapply kp_register.
  - unfold body. rewrite Ex. apply wp_bind. eapply wp_mono; [apply wp_conj; [apply wp_auth; [exact Hc|exact G]|apply fair_auth]|].
    intros [[]|w| |] s' e' ((H1 & H2 & c' & H3 & H4) & H5); (split; [exact H1|]; split; [exact H2|]; exists c'; split; [exact H3|]).
    all: intros n [(d1 & x1 & q1 & m & ad & E1 & E2 & _)|(d1 & x1 & q1 & db & r & E1 & E2 & E3 & E4)]; try discriminate.
    all: assert (E5 := f_equal snd E1); cbn [snd] in E5; injection E5 as <-; cbn [r_sw r_data] in *.
    + destruct (H4 _ eq_refl) as (-> & H). split; [reflexivity|]. rewrite E4. exact H.
    + elim H5. rewrite E3. reflexivity.
    + discriminate.
  - elim Hr.
  - unfold body. rewrite Ex. apply N; [exact (fun _ => True)| |].
    + intros o n [(d1 & x1 & q1 & m & ad & E1 & E2 & _)|(d1 & x1 & p1 & db & r & E1 & E2 & _)]; injection E1 as <- <- ->; rewrite Ex in E2; discriminate.
    + unfold install_private_key. apply kp_bind; [apply kp_guard|intros _]. apply kp_bind; [apply kp_modify; side|intros _].
      apply kp_bind; [apply kp_must, P_attr; discriminate|intros _; apply kp_must, P_attr; discriminate].
  - unfold body. rewrite Ex. apply N; [exact (fun _ => True)| |].
    + intros o n [(d1 & x1 & q1 & m & ad & E1 & E2 & _)|(d1 & x1 & p1 & db & r & E1 & E2 & _)]; injection E1 as <- <- ->; rewrite Ex in E2; discriminate.
    + unfold install_cert. apply kp_bind; [apply kp_guard|intros _]. apply kp_must, P_cert.
  - unfold body. rewrite Ex. apply N; [exact (fun _ => True)| |].
    + intros o n [(d1 & x1 & q1 & m & ad & E1 & E2 & _)|(d1 & x1 & p1 & db & r & E1 & E2 & _)]; injection E1 as <- <- ->; rewrite Ex in E2; discriminate.
    + unfold write_sm2_config. apply kp_bind; [apply kp_guard|intros _]. apply kp_bind; [apply P_attr; discriminate|intros ok]. apply kp_bind; [apply kp_modify; side|intros _; apply kp_guard].
Qed.
Lemma boot_count F rnd c : installed F c -> let d := boot K F [] rnd in rp_ok (d_ram d) /\ d_fs d = F.
Proof.
  intros (H & _). cbv zeta. unfold boot.
  assert (W : wp (ctap_install K false) (fun _ s e => rp_ok s /\ e_fs e = F) ctap_boot (start F [] rnd [])).
  { unfold ctap_install, cp_initialize, cp_regenerate, cp_reset_token. do 2 (apply wp_bind; apply wp_modify). unfold start. apply wp_bind, wp_bind, wp_bind, wp_random. intros r1 R1.
    apply wp_modify. apply wp_bind, wp_random. intros r2 R2. apply wp_modify. apply wp_bind, wp_get_file_size. intros X r V _.
    destruct (V eq_refl) as (-> & ->). unfold fsize. change LB_FILE with "ctap_lb". destruct (F "ctap_lb") as [f|]; [|congruence]. cbn [option_map].
    unfold got. apply wp_bind, wp_bind, wp_read_attr. intros X r _ _. destruct r as [a|]; [|apply wp_except; split; reflexivity].
    apply wp_ret. apply wp_modify. split; reflexivity. }
  unfold wp in W. destruct (ctap_install K false ctap_boot (start F [] rnd [])) as [[o s] e]. exact W.
Qed.
Lemma step_count d v o d' c : rp_ok (d_ram d) -> installed (d_fs d) c -> c < 2 ^ 32 - 1 -> ev_ok d v -> no_reset (d, v, o) -> step K d v = Some (o, d') ->
  rp_ok (d_ram d') /\ exists c', c <= c' /\ installed (d_fs d') c' /\ forall n, shows (d, v, o) n -> c' = c + 1 /\ n = c'.
Proof.
  intros Hs HF Hc Hv Hr H. destruct v as [x|x n flt rnd|F]; unfold step in H.
  - pose proof (exec_count d x c Hs HF Hc Hv Hr) as W. destruct (exec K d x) as [[[r|] s] e]; [|discriminate]. injection H as <- <-.
    destruct W as (H1 & H2 & c' & (H3 & H4) & H5). split; [exact H1|]. exists c'. auto.
  - pose proof (exec_count d x c Hs HF Hc Hv (proj2 Hr)) as W. destruct (exec K d x) as [[r s] e]. injection H as <- <-.
    destruct W as (H1 & H2 & c' & H3 & _). assert (HQ : Q c (nth n (e_log e) (e_fs e))) by (apply Forall_nth_default; [exact H2|]; eapply PQ; exact H3).
    destruct HQ as (c2 & H4 & H5). destruct Hr as (-> & _). destruct (boot_count _ rnd c2 H5) as (B1 & B2). split; [exact B1|]. exists c2. rewrite B2.
    split; [exact H4|]. split; [exact H5|]. intros m [(d1 & x1 & q1 & m' & ad & E1 & _)|(d1 & x1 & p1 & da & r' & E1 & _)]; discriminate.
  - injection H as <- <-. split; [exact Hs|]. exists c. split; [lia|]. split; [|intros m [(d1 & x1 & q1 & m' & ad & E1 & _)|(d1 & x1 & p1 & da & r' & E1 & _)]; discriminate].
    destruct HF as (H1 & H2 & H3). cbn [d_fs]. split; [rewrite (Hv "ctap_lb") by (cbn; tauto); exact H1|]. split; [|exact H3]. unfold fattr in *. rewrite (Hv "ctap_cert") by (cbn; tauto). exact H2.
Qed.
Lemma hist_count d0 tr d c : rp_ok (d_ram d0) -> installed (d_fs d0) c -> hist K d0 tr d -> Forall no_reset tr -> Forall not_full tr ->
  rp_ok (d_ram d) /\ exists c', c <= c' /\ installed (d_fs d) c'.
Proof.
  intros Hs HF H. revert Hs HF. induction H as [d|d0 tr d v o d' H IH Hv Hstep]; intros Hs HF Hr Hn.
  - split; [exact Hs|]. exists c. split; [lia|exact HF].
  - apply Forall_app in Hr, Hn. destruct Hr as (Hr & Hr1). destruct Hn as (Hn & Hn1). inversion Hr1 as [|? ? Hr2 _]; subst. inversion Hn1 as [|? ? Hn2 _]; subst.
    destruct (IH Hs HF Hr Hn) as (I1 & c1 & I2 & I3). destruct (step_count d v o d' c1 I1 I3 (Hn2 c1 (proj2 I3)) Hv Hr2 Hstep) as (J1 & c2 & J2 & J3 & _).
    split; [exact J1|]. exists c2. split; [lia|exact J3].
Qed.
(** From any device that is installed: if two commands, one later than the other, both answer with a signature counter, the second one is
    larger, whatever happens in between (power cuts included), as long as there is no reset and the counter is not full. *)
Theorem C51_counter_increases d0 tr1 e1 tr2 e2 d c n1 n2 :
  zlen (ga_rphash (g_req (c_ga (d_ram d0)))) = 32 -> installed (d_fs d0) c ->
  hist K d0 (tr1 ++ e1 :: tr2 ++ [e2]) d ->
  Forall no_reset (tr1 ++ e1 :: tr2 ++ [e2]) -> Forall not_full (tr1 ++ e1 :: tr2 ++ [e2]) ->
  shows e1 n1 -> shows e2 n2 -> n1 < n2.
Proof.
  intros Hs HF H Hr Hn S1 S2. change (e1 :: tr2 ++ [e2]) with ([e1] ++ tr2 ++ [e2]) in *.
  apply hist_app in H. destruct H as (d1 & H1 & H). apply hist_app in H. destruct H as (d2 & H2 & H). apply hist_app in H. destruct H as (d3 & H3 & H4).
  apply Forall_app in Hr, Hn. destruct Hr as (R1 & Hr). destruct Hn as (N1 & Hn). apply Forall_app in Hr, Hn. destruct Hr as (R2 & Hr). destruct Hn as (N2 & Hn).
  apply Forall_app in Hr, Hn. destruct Hr as (R3 & R4). destruct Hn as (N3 & N4).
  destruct (hist_count _ _ _ _ Hs HF H1 R1 N1) as (A1 & c1 & A2 & A3).
  destruct (hist_one _ _ _ _ H2) as (v1 & o1 & -> & V1 & P1). destruct (hist_one _ _ _ _ H4) as (v2 & o2 & -> & V2 & P2).
  inversion R2 as [|? ? R2' _]; subst. inversion R4 as [|? ? R4' _]; subst. inversion N2 as [|? ? N2' _]; subst. inversion N4 as [|? ? N4' _]; subst.
  destruct (step_count _ _ _ _ _ A1 A3 (N2' _ (proj2 A3)) V1 R2' P1) as (B1 & c2 & B2 & B3 & B4). destruct (B4 _ S1) as (-> & ->).
  destruct (hist_count _ _ _ _ B1 B3 H3 R3 N3) as (C1 & c3 & C2 & C3).
  destruct (step_count _ _ _ _ _ C1 C3 (N4' _ (proj2 C3)) V2 R4' P2) as (D1 & c4 & D2 & D3 & D4). destruct (D4 _ S2) as (-> & ->). lia.
Qed.
(** And each such answer carries the counter that the device then holds, one more than it held before. *)
Theorem C51_counter_is_persistent d v o d' c n :
  zlen (ga_rphash (g_req (c_ga (d_ram d)))) = 32 -> installed (d_fs d) c -> c < 2 ^ 32 - 1 -> ev_ok d v -> no_reset (d, v, o) ->
  step K d v = Some (o, d') -> shows (d, v, o) n -> n = c + 1 /\ installed (d_fs d') n.
Proof.
  intros Hs HF Hc Hv Hr H S. destruct (step_count d v o d' c Hs HF Hc Hv Hr H) as (_ & c' & _ & H1 & H2). destruct (H2 n S) as (H3 & ->). rewrite H3 in *. auto.
Qed.
End H.
Print Assumptions C51_counter_increases.
Print Assumptions C51_counter_is_persistent.

(** A case: the attestation key is installed, a credential is made, the power fails while another one is made, after the counter was
    written, and a third one is made.  The answers carry 1 and 3. *)
Definition mc_ev (t : Z) : op := OCbor (RMake (inr (mc_of 7 1 2 None))).
Definition case51 : list ev := [do_at 20000 (OKey (repeat 6 32)); do_at 20001 (mc_ev 1); Cut (cmd_at 20002 (mc_ev 2)) 0 [] (repeat 7 100); do_at 20003 (mc_ev 3)].
Definition shown (e : entry) : option Z :=
  match e with
  | (_, Do x, Some (ACbor 0 (Some (CMap (_ :: (CInt 2, CBytes ad) :: _))))) =>
      match x_op x with OCbor (RMake _) => Some (be (slice 33 4 ad)) | _ => None end
  | _ => None
  end.
Lemma shown_ok e n : shown e = Some n -> shows e n.
Proof.
  destruct e as [[d [x|x k f r|F]] [[c [[| | | | |m|]|]|r']|]]; cbn [shown]; try (destruct c; discriminate); try discriminate.
  destruct c; try discriminate. destruct m as [|m0 [|[[k| | | | | | ] [|ad| | | | | ]] m]]; try discriminate; try (destruct k as [|[|[]|]|]; discriminate). destruct k as [|[|[]|]|]; try discriminate.
  destruct (x_op x) as [q| | | | | |] eqn:E; try discriminate. destruct q; try discriminate. intros H. injection H as <-. left.
  eexists d, x, _, _, _. split; [reflexivity|]. split; [exact E|]. split; [exact I|]. split; [right; left; reflexivity|reflexivity].
Qed.
Definition full_b (e : entry) : bool := match fattr (d_fs (fst (fst e))) "ctap_cert" 1 with Some v => le v <? 2 ^ 32 - 1 | None => true end.
Lemma full_b_ok e : full_b e = true -> not_full e.
Proof. unfold full_b. intros H c (H1 & H2). rewrite H1 in H. rewrite le_to_le in H by exact H2. lia. Qed.
Example C51_case : installed (d_fs fresh_dev) 0 /\ exists tr d, hist toyf fresh_dev tr d /\ Forall no_reset tr /\ Forall not_full tr /\
  exists a b c e, tr = [a; b; c; e] /\ shows b 1 /\ shows e 3.
Proof.
  split; [split; [vm_compute; discriminate|split; [vm_compute; reflexivity|lia]]|].
  destruct (play_case toyf fresh_dev case51
    (fun tr _ => forallb full_b tr && match map shown tr with [_; Some 1; _; Some 3] => true | _ => false end)) as (tr & d & H & Hok & M); [vm_compute; reflexivity|].
  exists tr, d. split; [exact H|]. apply andb_true_iff in Hok. destruct Hok as (H1 & H2).
  destruct tr as [|[[d1 v1] o1] [|[[d2 v2] o2] [|[[d3 v3] o3] [|[[d4 v4] o4] [|]]]]]; try discriminate M. cbn [map snd fst] in M. injection M as M1 M2 M3 M4.
  split; [subst; repeat constructor|]. split; [apply Forall_forall; intros e He; apply full_b_ok; rewrite forallb_forall in H1; exact (H1 e He)|].
  do 4 eexists. split; [reflexivity|]. cbn [map] in H2. destruct (shown (d2, v2, o2)) as [n|] eqn:E2; [|destruct (shown _); discriminate].
  split; apply shown_ok.
  - rewrite E2. destruct (shown (d1, v1, o1)); destruct n as [|[]|]; try discriminate; reflexivity.
  - destruct (shown (d1, v1, o1)); destruct n as [|[]|]; try discriminate; destruct (shown (d3, v3, o3)); destruct (shown (d4, v4, o4)) as [[|[[]|[]|]|]|]; try discriminate; reflexivity.
Qed.
