(** What the OpenPGP commands leave alone, and when they set the flags of the passwords. *)
From Verif Require Export Sys Apdu Applet Frame Pin PinProofs Tlv Key PropKey Pgp PgpSpec.
Open Scope string_scope. Open Scope list_scope. Open Scope Z_scope.

Ltac wif H := match goal with |- wp (if ?b then _ else _) _ _ _ => destruct b eqn:H end.
Section Rules.
Context {S : Type}.
Variable I : S -> Prop.
Variable P : fs -> Prop.
Lemma fr_get_bind {A} (k : S -> M S A) : (forall s, I s -> frame I P (k s)) -> frame I P (s <- get ;; k s).
Proof. intros H s e Hs. unfold wp, bind, get. apply (H s); [apply Hs|exact Hs]. Qed.
Lemma fr_write_attr_at p a v :
  (forall F f, P F -> F p = Some f -> P (fset F p (Some (mkF (f_data f) (aset (f_attr f) a v))))) -> frame I P (write_attr p a v).
Proof.
  intros Hp s e H. apply fr_pop in H. unfold wp, write_attr. destruct (pop_fault e) as [x e']. cbn [snd] in H.
  destruct x; try exact H. destruct (e_fs e' p) eqn:E; try exact H. apply fgood_commit; [exact H|]. apply Hp; [apply H|exact E].
Qed.
End Rules.
Lemma anyfs p : indep (fun _ => True) p. Proof. intros F x _. exact I. Qed.
Lemma fr_any {A} (I : pgp -> Prop) (m : M pgp A) s e : frame I (fun _ => True) m -> I s -> wp m (fun _ s' _ => I s') s e.
Proof.
  intros H Hs. eapply wp_mono; [apply H|].
  - split; [exact Hs|]. split; [exact Logic.I|]. induction (e_log e); constructor; auto.
  - intros o s' e' (H1 & _). exact H1.
Qed.

Ltac pgp_unfold :=
  unfold must, mustz, got, opt, ck_write_key, ck_write_key_metadata, ck_read_key, ck_read_key_metadata, ck_generate_key,
    attr_upto, attr_exact, reset_sig_counter, fill_attr, out_ok, retries_byte, count_signature, touch_if, pgp_touch, assert_admin,
    put_attr, pin_verify, pin_verify_gen, pin_update, pin_clear, pin_get_retries, pin_get_default_retries, pin_get_attr,
    pin_get_size, pin_create, Admin.fill_sn.
Ltac fr A := repeat first [ frame1
  | apply fr_write_file; apply A | apply fr_append_file; apply A | apply fr_write_attr; apply A ].

(** ** The flag of a password is set only by the right password *)
Section Flag.
Context {S : Type}.
Variable p : pin_t.
Variable setv : bool -> S -> S.
Notation P := (pin_path p).
Lemma verify_flag buf len (Q : out (Z * option Z) -> S -> env -> Prop) s F L X R T O : 0 <= len -> (len <= pin_max p -> len <= zlen buf) -> pin_max p <= 64 ->
  (forall F' L' X' r k v, (v = true -> tries F P <> 0 /\ value F P = Some (slice 0 len buf)) -> (r = 0 -> v = true) -> (v = true -> k <> None /\ k <> Some 0) ->
     r = 0 \/ r = PIN_IO_FAIL \/ (r = PIN_AUTH_FAIL /\ v = false /\ k <> None) \/ (r = PIN_LENGTH_INVALID /\ v = false /\ k = None) ->
     Q (Ret (r, k)) (if v then setv true (setv false s) else setv false s) (mkE F' L' X' R T O)) ->
  wp (pin_verify p setv buf len) Q s (mkE F L X R T O).
Proof.
  intros Hlen Hbuf H64 HQ. unfold pin_verify, pin_verify_gen. apply wp_bind, wp_modify.
  destruct ((len <? pin_min p) || (pin_max p <? len)) eqn:El.
  { apply wp_ret. apply (HQ F L X PIN_LENGTH_INVALID None false); try discriminate. auto 10. }
  specialize (Hbuf ltac:(lia)).
  apply wp_bind, wp_read_attr. intros X1 r1 _ V1. destruct r1 as [a|].
  2: { apply wp_ret. apply (HQ F L X1 PIN_IO_FAIL None false); try discriminate. auto 10. }
  destruct V1 as [V1|V1]; [discriminate|].
  destruct (Z.eqb_spec (attr1 a) 0) as [E0|E0].
  { apply wp_ret. apply (HQ F L X1 PIN_AUTH_FAIL _ false); try discriminate. right; right; left. repeat split; discriminate. }
  assert (Htr : tries F P = attr1 a) by (unfold tries; change 0 with RETRY_ATTR at 1; rewrite <- V1; destruct a; reflexivity).
  apply wp_bind, wp_read_file. intros X2 r2 _ V2. destruct r2 as [d|].
  2: { apply wp_ret. apply (HQ F L X2 PIN_IO_FAIL _ false); try discriminate. auto 10. }
  destruct V2 as [V2|V2]; [discriminate|]. unfold fread in V2. destruct (F P) as [f|] eqn:EF; [|discriminate]. cbn in V2. injection V2 as V2.
  assert (Hd : zlen d <= 64) by (rewrite V2; unfold slice, zlen, PIN_MAX_LENGTH; rewrite firstn_length; lia).
  assert (Hsub : sub buf 0 len = Some (slice 0 len buf)) by (apply sub_ok; lia).
  destruct (cmp_ok (-1) [] d buf len) as [y [Hy Hcmp]]; try assumption; try lia. cbv zeta in Hy, Hcmp.
  apply wp_bind. rewrite Hsub. unfold wp at 1, need, ret. apply wp_bind. rewrite Hy. unfold wp at 1, need, ret. rewrite Hcmp.
  destruct (beqb (slice 0 len buf) d && (zlen d =? len)) eqn:Em; cbn [negb].
  - apply andb_true_iff in Em. destruct Em as [Em1 Em2]. apply beqb_eq in Em1. apply Z.eqb_eq in Em2.
    assert (Hf : value F P = Some (slice 0 len buf)) by (unfold value, fdata; rewrite EF, Em1, V2; reflexivity).
    apply wp_bind, wp_modify, wp_bind, wp_read_attr. intros X3 r3 _ _. destruct r3 as [b|].
    2: { apply wp_ret. apply (HQ F L X3 PIN_IO_FAIL _ true); try discriminate; [intros _; rewrite Htr; auto|split; [discriminate|congruence]|auto 10]. }
    apply wp_bind, wp_write_attr.
    + intros _ X4 _. apply wp_ret. apply (HQ _ _ X4 0 _ true); [intros _; rewrite Htr; auto|reflexivity|split; [discriminate|congruence]|auto].
    + intros _ X4 _. apply wp_ret. apply (HQ _ _ X4 PIN_IO_FAIL _ true); try discriminate; [intros _; rewrite Htr; auto|split; [discriminate|congruence]|auto 10].
  - apply wp_bind, wp_write_attr.
    + intros _ X4 _. apply wp_ret. apply (HQ _ _ X4 PIN_AUTH_FAIL _ false); try discriminate. right; right; left. repeat split; discriminate.
    + intros _ X4 _. apply wp_ret. apply (HQ _ _ X4 PIN_IO_FAIL _ false); try discriminate. auto 10.
Qed.
Lemma update_flag buf len (Q : out Z -> S -> env -> Prop) s F L X R T O : 0 <= len ->
  (Q UB (setv false s) (mkE F L X R T O)) ->
  (forall F' L' X' r, r = 0 \/ r = PIN_IO_FAIL -> Q (Ret r) (setv false s) (mkE F' L' X' R T O)) ->
  (Q (Ret PIN_LENGTH_INVALID) s (mkE F L X R T O)) ->
  wp (pin_update p setv buf len) Q s (mkE F L X R T O).
Proof.
  intros Hl HU HQ HI. unfold pin_update. destruct (_ || _); [apply wp_ret, HI|].
  apply wp_bind, wp_modify. apply wp_bind. destruct (sub buf 0 len) as [x|]; unfold wp at 1, need, ret, ub; [|exact HU].
  apply wp_bind, wp_write_file; [intros X1 _|intros _ X1; apply wp_ret, HQ; auto|intros _ X1; apply wp_ret, HQ; auto].
  apply wp_bind, wp_read_attr. intros X2 r2 _ _. destruct r2; [|apply wp_ret, HQ; auto].
  apply wp_bind, wp_write_attr; intros _ X4 _; apply wp_ret, HQ; auto.
Qed.
End Flag.

(** ** Commands that leave the flags alone *)
Definition flags_are (a b c : bool) (s : pgp) : Prop := g_81 s = a /\ g_82 s = b /\ g_pw3 s = c.
Section Frames.
Variable K : crypto.
Variable nfc : bool.
Variables t1 t2 junk : Z.
Notation body := (pgp_body K nfc t1 t2 junk).
Lemma fr_selection (I : pgp -> Prop) P c : (forall n s, I s -> I (set_occ n s)) -> (forall n s, I s -> I (set_state n s)) -> frame I P (selection c).
Proof.
  intros H1 H2. unfold selection. apply fr_bind; [apply fr_get|intros s].
  repeat first [frame1 | apply fr_modify; auto].
Qed.
Lemma fr_flags a b f c tail : c_ins c <> 0x44 -> c_ins c <> 0x20 -> c_ins c <> 0x24 -> c_ins c <> 0x2A ->
  frame (flags_are a b f) (fun _ => True) (body c tail).
Proof.
  intros N1 N2 N3 N4. unfold pgp_body. pose proof anyfs as A. cbv zeta.
  apply fr_bind; [apply fr_guard|intros _]. apply fr_bind; [apply fr_selection; auto|intros _].
  apply fr_bind; [apply fr_read_attr|intros [v|]]; [|apply fr_except]. apply fr_bind; [apply fr_guard|intros _].
  destruct (c_ins c =? 0xA4); [unfold pgp_select; pgp_unfold; fr A|].
  destruct (Z.eqb_spec (c_ins c) 0x44); [contradiction|].
  destruct (c_ins c =? 0xCA); [unfold pgp_get_data, application_related_data, discretionary_data, cardholder_related_data, pw_status_bytes; pgp_unfold; fr A|].
  destruct (c_ins c =? 0xA5); [unfold pgp_select_data; pgp_unfold; fr A|].
  destruct (c_ins c =? 0xCC); [unfold pgp_get_next_data; pgp_unfold; fr A|].
  destruct (Z.eqb_spec (c_ins c) 0x20); [contradiction|].
  destruct (Z.eqb_spec (c_ins c) 0x24); [contradiction|].
  destruct (c_ins c =? 0x2C); [unfold pgp_reset_retry_counter, verify_prefix, update_rest; pgp_unfold; fr A|].
  destruct (c_ins c =? 0xDA); [unfold pgp_put_data, put_algorithm, put_uif, put_resetting_code; pgp_unfold; fr A|].
  destruct (c_ins c =? 0xDB); [unfold pgp_import; pgp_unfold; fr A|].
  destruct (c_ins c =? 0x47); [unfold pgp_generate; pgp_unfold; fr A|].
  destruct (Z.eqb_spec (c_ins c) 0x2A); [contradiction|].
  destruct (c_ins c =? 0x88); [unfold pgp_sign_or_auth; pgp_unfold; fr A|].
  destruct (c_ins c =? 0x84); [unfold pgp_get_challenge; pgp_unfold; fr A|].
  destruct (c_ins c =? 0xE6); [unfold pgp_terminate; pgp_unfold; fr A|].
  apply fr_except.
Qed.
End Frames.
