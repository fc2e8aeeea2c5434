(** C30: the PIN policy of PIV keys. *)
From Verif Require Import Sys Apdu Applet Frame Pin PinProofs Tlv Key PropKey Piv PivSpec PropPivGa PivFrame PropPivAuth.
Open Scope string_scope. Open Scope list_scope. Open Scope Z_scope.

(** ** The flag of a PIN is set only by the right PIN *)
Section Flag.
Context {S : Type}.
Variable p : pin_t.
Variable setv : bool -> S -> S.
Notation P := (pin_path p).
Definition tries (F : fs) : Z := match fattr F P RETRY_ATTR with Some (n :: _) => n | _ => 0 end.
Lemma verify_flag buf (Q : out (Z * option Z) -> S -> env -> Prop) s F L X R T O : pin_min p <= 8 <= pin_max p -> 8 <= zlen buf ->
  (forall F' L' X' r k v, (v = true -> tries F <> 0 /\ fdata F P = Some (slice 0 8 buf)) -> (r = 0 -> v = true) -> (v = true -> k <> None /\ k <> Some 0) ->
     r = 0 \/ r = PIN_IO_FAIL \/ r = PIN_AUTH_FAIL /\ v = false /\ (exists n, k = Some n /\ 0 <= n < 256) ->
     Q (Ret (r, k)) (if v then setv true (setv false s) else setv false s) (mkE F' L' X' R T O)) ->
  wp (pin_verify p setv buf 8) Q s (mkE F L X R T O).
Proof.
  intros Hmm Hbuf HQ. unfold pin_verify, pin_verify_gen. apply wp_bind, wp_modify.
  replace ((8 <? pin_min p) || (pin_max p <? 8)) with false by lia.
  apply wp_bind, wp_read_attr. intros X1 r1 _ V1. destruct r1 as [a|].
  2: { apply wp_ret. apply (HQ F L X1 PIN_IO_FAIL None false); try discriminate. auto. }
  destruct V1 as [V1|V1]; [discriminate|].
  destruct (Z.eqb_spec (attr1 a) 0) as [E0|E0].
  { apply wp_ret. apply (HQ F L X1 PIN_AUTH_FAIL _ false); try discriminate. right; right. split; [reflexivity|]. split; [reflexivity|]. exists (attr1 a). split; [reflexivity|lia]. }
  assert (Htr : tries F = attr1 a) by (unfold tries; rewrite <- V1; destruct a; reflexivity).
  apply wp_bind, wp_read_file. intros X2 r2 _ V2. destruct r2 as [d|].
  2: { apply wp_ret. apply (HQ F L X2 PIN_IO_FAIL _ false); try discriminate. auto. }
  destruct V2 as [V2|V2]; [discriminate|]. unfold fread in V2. destruct (F P) as [f|] eqn:EF; [|discriminate]. cbn in V2. injection V2 as V2.
  assert (Hd : zlen d <= 64) by (rewrite V2; unfold slice, zlen, PIN_MAX_LENGTH; rewrite firstn_length; lia).
  assert (Hsub : sub buf 0 8 = Some (slice 0 8 buf)) by (apply sub_ok; lia).
  destruct (cmp_ok (-1) [] d buf 8) as [y [Hy Hcmp]]; try assumption; try lia. cbv zeta in Hy, Hcmp.
  apply wp_bind. rewrite Hsub. unfold wp at 1, need, ret. apply wp_bind. rewrite Hy. unfold wp at 1, need, ret. rewrite Hcmp.
  destruct (beqb (slice 0 8 buf) d && (zlen d =? 8)) eqn:Em; cbn [negb].
  - apply andb_true_iff in Em. destruct Em as [Em1 Em2]. apply beqb_eq in Em1. apply Z.eqb_eq in Em2.
    assert (Hf : fdata F P = Some (slice 0 8 buf)).
    { unfold fdata. rewrite EF, Em1, V2. f_equal. unfold slice, PIN_MAX_LENGTH in *. change (Z.to_nat 0) with 0%nat. rewrite skipn_O. symmetry. apply firstn_all2.
      rewrite V2 in Em2. unfold zlen in Em2. rewrite firstn_length in Em2. change (Z.to_nat 0) with 0%nat in Em2. rewrite skipn_O in Em2. lia. }
    apply wp_bind, wp_modify, wp_bind, wp_read_attr. intros X3 r3 _ _. destruct r3 as [b|].
    2: { apply wp_ret. apply (HQ F L X3 PIN_IO_FAIL _ true); try discriminate; [intros _; rewrite Htr; auto|split; [discriminate|congruence]|auto]. }
    apply wp_bind, wp_write_attr.
    + intros _ X4 _. apply wp_ret. apply (HQ _ _ X4 0 _ true); [intros _; rewrite Htr; auto|reflexivity|split; [discriminate|congruence]|auto].
    + intros _ X4 _. apply wp_ret. apply (HQ _ _ X4 PIN_IO_FAIL _ true); try discriminate; [intros _; rewrite Htr; auto|split; [discriminate|congruence]|auto].
  - apply wp_bind, wp_write_attr.
    + intros _ X4 _. apply wp_ret. apply (HQ _ _ X4 PIN_AUTH_FAIL _ false); try discriminate. right; right. split; [reflexivity|]. split; [reflexivity|].
      eexists. split; [reflexivity|]. unfold u8. apply Z.mod_pos_bound. lia.
    + intros _ X4 _. apply wp_ret. apply (HQ _ _ X4 PIN_IO_FAIL _ false); try discriminate. auto.
Qed.
Lemma update_flag buf (Q : out Z -> S -> env -> Prop) s F L X R T O : pin_min p <= 8 <= pin_max p -> 8 <= zlen buf ->
  (forall F' L' X' r, r = 0 \/ r = PIN_IO_FAIL -> Q (Ret r) (setv false s) (mkE F' L' X' R T O)) ->
  wp (pin_update p setv buf 8) Q s (mkE F L X R T O).
Proof.
  intros Hmm Hbuf HQ. unfold pin_update. replace ((8 <? pin_min p) || (pin_max p <? 8)) with false by lia.
  apply wp_bind, wp_modify. rewrite (sub_ok buf 0 8) by lia. apply wp_bind. unfold wp at 1, need, ret.
  apply wp_bind, wp_write_file; [intros X1 _|intros _ X1; apply wp_ret, HQ; auto|intros _ X1; apply wp_ret, HQ; auto].
  apply wp_bind, wp_read_attr. intros X2 r2 _ _. destruct r2; [|apply wp_ret, HQ; auto].
  apply wp_bind, wp_write_attr; intros _ X4 _; apply wp_ret, HQ; auto.
Qed.
End Flag.

(** ** GENERAL AUTHENTICATE *)
Ltac wif H := match goal with |- wp (if ?b then _ else _) _ _ _ => destruct b eqn:H end.
Section Ga.
Variable K : crypto.
Variable nfc : bool.
Variables t1 t2 : Z.
Notation ga := (piv_general_authenticate K nfc t1 t2).
Definition allowed (F : fs) (p : path) (s : piv) : Prop :=
  exists a, fattr F p KEY_META_ATTR = Some a /\
  (m_pin (meta_of a) = PIN_POLICY_NEVER \/ v_pin s = true /\ (m_pin (meta_of a) = PIN_POLICY_ALWAYS -> v_used s = false)).
Definition ga_use (c : capdu) (s : piv) (F : fs) (o : out Z) (s' : piv) (e' : env) : Prop :=
  v_pin s' = v_pin s /\ (v_used s' = v_used s \/ v_used s' = true) /\
  (forall sw, o = Ret sw -> c_p2 c <> 0x9B -> v_used s' = true /\ exists p, get_key_path (c_p2 c) = Some p /\ allowed F p s) /\
  (forall sw, o = Exc sw -> sw <> 0x9000).
Ltac same := split; [reflexivity|]; split; [auto; left; reflexivity|]; split; [intros ? W; discriminate W|intros ? W; injection W as <-; discriminate].
Ltac used := split; [reflexivity|]; split; [right; reflexivity|]; split; [intros ? W; discriminate W|intros ? W; try discriminate W; injection W as <-; discriminate].

Lemma ga_used c tail s F L X R T : wp (ga c tail) (ga_use c s F) s (mkE F L X R T []).
Proof.
  unfold piv_general_authenticate. apply wp_bind, wp_guard; intros G1; [|same].
  apply wp_bind, wp_need_any; [intros b Hb0|intros; split; [reflexivity|split; [left; reflexivity|split; discriminate]]].
  apply wp_bind, wp_guard; intros G2; [|same].
  destruct (get_key_path (c_p2 c)) as [p|] eqn:Hp; [|apply wp_except; same].
  apply wp_bind, wp_guard; intros G3; [|same].
  apply wp_bind, wp_got. unfold ck_read_key_metadata. apply wp_bind, wp_read_attr. intros X' r _ Va. apply wp_ret.
  destruct r as [a|]; cbn [option_map]; [|split; [reflexivity|split; [left; reflexivity|split; discriminate]]].
  destruct Va as [Va|Va]; [discriminate|]. symmetry in Va.
  apply wp_bind, wp_guard; intros G4; [|same].
  apply wp_bind, wp_get, wp_bind, wp_guard; intros G5; [|same].
  apply wp_bind, wp_lift.
  destruct (ga_template (c_data c ++ tail) (c_lc c)) as [t|w| |] eqn:Eg.
  2: { apply ga_template_exc in Eg. destruct Eg as [-> | ->]; same. }
  2,3: split; [reflexivity|split; [left; reflexivity|split; discriminate]].
  assert (HC : forall s1 T', v_pin s1 = v_pin s -> v_used s1 = v_used s -> forall m, m = meta_of a -> wp (
    if negb (fst (t_w t) >? 0) && (fst (t_c t) >? 0) && (snd (t_c t) >? 0) && (fst (t_r t) >? 0) && (snd (t_r t) =? 0) then ga_internal K p m (c_data c ++ tail) t
    else if (fst (t_c t) >? 0) && (snd (t_c t) =? 0) then ga_external_request K p (c_p2 c)
    else if (fst (t_r t) >? 0) && (snd (t_r t) >? 0) then ga_external_response (c_p2 c) (c_data c ++ tail) t
    else if (fst (t_w t) >? 0) && (snd (t_w t) =? 0) then ga_mutual_request K p (c_p2 c) (c_data c ++ tail)
    else if (fst (t_w t) >? 0) && (snd (t_w t) >? 0) && (fst (t_c t) >? 0) && (snd (t_c t) >? 0) then ga_mutual_response K p (c_p2 c) (c_data c ++ tail) t
    else if (fst (t_r t) >? 0) && (snd (t_r t) =? 0) && (fst (t_x t) >? 0) && (snd (t_x t) >? 0) then ga_ecdh K p m (c_data c ++ tail) t
    else modify authenticate_reset ;;; except SW_WRONG_DATA) (ga_use c s F) s1 (mkE F L X' R T' [])).
  { intros s1 T' S1 S2 m Hm.
    assert (Hal : m_pin m = PIN_POLICY_NEVER \/ v_pin s1 = true /\ (m_pin m = PIN_POLICY_ALWAYS -> v_used s1 = false) ->
      exists q, Some p = Some q /\ allowed F q s).
    { intros H. exists p. split; [reflexivity|]. exists a. split; [exact Va|]. rewrite <- Hm, <- S1, <- S2. exact H. }
    assert (P1 : forall s2 e2 o, v_pin s2 = v_pin s1 -> v_used s2 = v_used s1 \/ v_used s2 = true -> (forall sw, o <> Ret sw) -> (forall sw, o = Exc sw -> sw <> 0x9000) -> ga_use c s F o s2 e2).
    { intros s2 e2 o H1 H2 H3 H4. split; [congruence|]. split; [destruct H2; [left; congruence|auto]|]. split; [intros sw W; elim (H3 sw W)|exact H4]. }
    assert (P2 : forall s2 e2 sw, v_pin s2 = v_pin s1 -> v_used s2 = true -> (exists q, Some p = Some q /\ allowed F q s) -> ga_use c s F (Ret sw) s2 e2).
    { intros s2 e2 sw H1 H2 H3. split; [congruence|]. split; [auto|]. split; [|discriminate]. intros sw' W N. split; [exact H2|]. rewrite Hp. exact H3. }
    assert (P3 : forall s2 e2 sw, v_pin s2 = v_pin s1 -> v_used s2 = v_used s1 -> c_p2 c = 0x9B -> ga_use c s F (Ret sw) s2 e2).
    { intros s2 e2 sw H1 H2 H3. split; [congruence|]. split; [left; congruence|]. split; [|discriminate]. intros sw' W N. contradiction. }
    Ltac pend P1 := apply P1; [reflexivity|(left; reflexivity) || (right; reflexivity)|discriminate|intros ? W; try discriminate W; injection W as <-; discriminate].
    wif C1; [|wif C2; [|wif C3; [|wif C4; [|wif C5; [|wif C6]]]]].
    - unfold ga_internal. destruct (t_c t) as [pos len]. apply wp_bind, wp_modify, wp_bind, wp_check.
      2: { apply wp_bind, wp_except. pend P1. }
      intros H. apply wp_bind, wp_ret. cbv zeta. apply wp_bind, wp_guard; intros G; [|pend P1].
      apply wp_bind, wp_got, wp_read_key. intros X2 [k|] _ _; [|pend P1].
      destruct (IS_RSA (m_type (k_meta k))).
      + apply wp_bind, wp_need_any; intros; [|pend P1]. apply wp_bind, wp_opt; intros; [|pend P1].
        apply wp_bind, wp_set_out, wp_ret. apply P2; [reflexivity|reflexivity|exact (Hal H)].
      + destruct (IS_ECC (m_type (k_meta k))); [|apply wp_fail; pend P1].
        apply wp_bind, wp_block; [|pend P1]. intros d. apply wp_bind, wp_opt; intros; [|pend P1].
        apply wp_bind, wp_set_out, wp_ret. apply P2; [reflexivity|reflexivity|exact (Hal H)].
    - unfold ga_external_request. apply wp_bind, wp_modify, wp_bind, wp_guard; intros G; [|pend P1].
      apply wp_bind, wp_random. intros r R'. apply wp_bind, wp_set_out, wp_bind, wp_modify, wp_bind, wp_got, wp_read_key.
      intros X2 [k|] _ _; [|pend P1]. apply wp_bind, wp_opt; intros; [|pend P1].
      apply wp_bind, wp_modify, wp_ret. apply P3; [reflexivity|reflexivity|lia].
    - unfold ga_external_response. apply wp_bind, wp_get, wp_bind, wp_need_any; [|intros; pend P1]. intros d Hsub.
      wif G; apply wp_bind, wp_modify; [apply wp_except; pend P1|]. apply wp_ret. apply P3; [reflexivity|reflexivity|lia].
    - unfold ga_mutual_request. apply wp_bind, wp_modify, wp_bind, wp_guard; intros G; [|pend P1].
      apply wp_bind, wp_random. intros r R'. apply wp_bind, wp_modify, wp_bind, wp_set_out, wp_bind, wp_got, wp_read_key.
      intros X2 [k|] _ _; [|pend P1]. apply wp_bind, wp_opt; intros; [|pend P1].
      apply wp_bind, wp_set_out, wp_ret. apply P3; [reflexivity|reflexivity|lia].
    - unfold ga_mutual_response. apply wp_bind, wp_get, wp_bind, wp_need_any; [|intros; pend P1]. intros d Hsub.
      wif G; [apply wp_bind, wp_modify, wp_except; pend P1|]. wif G'; [apply wp_bind, wp_modify, wp_except; pend P1|].
      apply wp_bind, wp_set_out, wp_bind, wp_got, wp_read_key. intros X2 [k|] _ _; [|pend P1].
      apply wp_bind, wp_need_any; [|intros; pend P1]. intros ch _. apply wp_bind, wp_opt; [|intros _; pend P1]. intros x _.
      apply wp_bind, wp_set_out, wp_bind, wp_modify, wp_ret. apply P3; [reflexivity|reflexivity|lia].
    - unfold ga_ecdh. destruct (t_x t) as [pos len]. apply wp_bind, wp_modify, wp_bind, wp_check.
      2: { apply wp_bind, wp_except. pend P1. }
      intros H. apply wp_bind, wp_ret. cbv zeta. apply wp_bind, wp_guard; intros G; [|pend P1].
      apply wp_bind, wp_got, wp_read_key. intros X2 [k|] _ _; [|pend P1].
      apply wp_bind, wp_need_any; intros; [|pend P1]. apply wp_bind, wp_opt; intros; [|pend P1].
      apply wp_bind, wp_set_out, wp_ret. apply P2; [reflexivity|reflexivity|exact (Hal H)].
    - apply wp_bind, wp_modify, wp_except. pend P1. }
  apply wp_bind, wp_touch. intros T'. split; [|split; [|same]]; apply HC; reflexivity.
Qed.
End Ga.

(** ** All commands *)
Section Cmds.
Variable K : crypto.
Definition use_is (a b : bool) (s : piv) : Prop := v_pin s = a /\ v_used s = b.

Lemma fr_use a b nfc t1 t2 c tail : c_ins c <> 0x87 -> c_ins c <> 0xA4 -> c_ins c <> 0xFB -> c_ins c <> 0x20 -> c_ins c <> 0x2C ->
  (c_ins c = 0x24 -> c_p2 c <> 0x80) ->
  frame (use_is a b) (fun _ => True) (piv_body K nfc t1 t2 c tail).
Proof.
  intros N1 N2 N3 N4 N5 N6. unfold piv_body. pose proof anyfs as A.
  apply fr_bind; [apply fr_guard|intros _]. apply fr_bind; [destruct (_ =? _); fr A|intros _]. apply fr_bind; [destruct (_ =? _); fr A|intros _].
  destruct (Z.eqb_spec (c_ins c) 0xA4); [contradiction|].
  destruct (c_ins c =? 0xCB); [unfold piv_get_data, piv_get_large_data; piv_unfold; fr A|].
  destruct (c_ins c =? 0xC0); [unfold piv_get_data_response; piv_unfold; fr A|].
  destruct (Z.eqb_spec (c_ins c) 0x20); [contradiction|].
  destruct (Z.eqb_spec (c_ins c) 0x24); [unfold piv_change_reference_data; piv_unfold; destruct (Z.eqb_spec (c_p2 c) 0x80); [elim (N6 ltac:(assumption)); assumption|fr A]|].
  destruct (Z.eqb_spec (c_ins c) 0x2C); [contradiction|].
  destruct (Z.eqb_spec (c_ins c) 0x87); [contradiction|].
  destruct (c_ins c =? 0xDB); [unfold piv_put_data, admin_only; piv_unfold; fr A|].
  destruct (c_ins c =? 0x47); [unfold piv_generate, admin_only; piv_unfold; fr A|].
  destruct (c_ins c =? 0xFF); [unfold piv_set_management_key, admin_only; piv_unfold; fr A|].
  destruct (Z.eqb_spec (c_ins c) 0xFB); [contradiction|].
  destruct (c_ins c =? 0xFE); [unfold piv_import, admin_only; piv_unfold; fr A|].
  destruct (c_ins c =? 0xFD); [unfold piv_get_version; piv_unfold; fr A|].
  destruct (c_ins c =? 0xF8); [unfold piv_get_serial; piv_unfold; fr A|].
  destruct (c_ins c =? 0xF7); [unfold piv_get_metadata; piv_unfold; fr A|].
  destruct (c_ins c =? 0xEE); [unfold piv_algorithm_extension, admin_only; piv_unfold; fr A|].
  apply fr_except.
Qed.

Definition use_post (d : dev) (x : cmd) (r : rapdu) (s' : piv) : Prop :=
  let e := (d, Do x, Some r) in
  v_pin s' = false \/ right_pin e \/
  v_pin s' = v_pin (d_ram d) /\ (v_used s' = v_used (d_ram d) \/ v_used s' = true) /\ session_goes_on e /\ (key_op e -> v_used s' = true).

Lemma install_use reset s e : wp (piv_install reset) (fun _ s' _ => v_pin s' = false) s e.
Proof.
  apply (fr_any (fun x => v_pin x = false) (piv_install reset) (piv_poweroff s) e); [|reflexivity].
  apply fr_install_tail; [apply anyfs| |]; intros; cbn; assumption || reflexivity.
Qed.
Lemma any_out {A} (m : M piv A) (Q : out A -> piv -> env -> Prop) s e : (forall o s' e', Q o s' e') -> wp m Q s e.
Proof. intros H. unfold wp. destruct (m s e) as [[o s'] e']. apply H. Qed.

Lemma slice8 d : zlen d = 8 -> slice 0 8 d = d.
Proof. intros H. unfold slice. change (Z.to_nat 0) with 0%nat. rewrite skipn_O. apply firstn_all2. unfold zlen in H. lia. Qed.

Lemma do_use d x r d' : step K d (Do x) = Some (Some r, d') -> use_post d x r (d_ram d').
Proof.
  intros Hs. cbn [step] in Hs.
  pose proof (exec_wp K d x (fun r' s' e' => forall r, r' = Some r -> use_post d x r s')) as HW.
  destruct (exec K d x) as [[[r'|] s'] e']; [|discriminate]. injection Hs as -> <-. cbn [d_ram].
  apply HW; clear HW; [|reflexivity]. clear r s' e'.
  set (c := x_apdu x) in *. set (s := d_ram d) in *.
  (* nothing changed *)
  assert (Hq : forall s' r, v_pin s' = v_pin s -> v_used s' = v_used s -> session_goes_on (d, Do x, Some r) -> ~ key_op (d, Do x, Some r) -> use_post d x r s').
  { intros s' r H1 H2 H3 H4. right; right. split; [exact H1|]. split; [left; exact H2|]. split; [exact H3|]. intros W. contradiction. }
  assert (Hk : c_ins c <> 0x87 -> forall r, ~ key_op (d, Do x, Some r)) by (intros N r [[_ W] _]; contradiction).
  destruct (Z.eq_dec (c_ins c) 0x87) as [E|N1]; [|specialize (Hk N1); destruct (Z.eq_dec (c_ins c) 0xA4) as [E|N2];
    [|destruct (Z.eq_dec (c_ins c) 0xFB) as [E|N3]; [|destruct (Z.eq_dec (c_ins c) 0x20) as [E|N4]; [|destruct (Z.eq_dec (c_ins c) 0x2C) as [E|N5]]]]].
  - (* GENERAL AUTHENTICATE *)
    assert (Hon : forall r, session_goes_on (d, Do x, Some r)).
    { intros r. split; [intros [W _]; fold c in W; congruence|]. unfold verify_cmd, change_cmd. fold c. rewrite E. repeat split; intros W; decompose [and] W; discriminate. }
    unfold piv_body. rewrite E. apply wp_bind, wp_guard; intros G.
    2: { intros r Hr. injection Hr as <-. apply Hq; [reflexivity|reflexivity|apply Hon|]. intros (_ & _ & W). discriminate. }
    cbn [Z.eqb Pos.eqb]. apply wp_bind, wp_modify, wp_bind, wp_modify.
    eapply wp_mono; [apply ga_used|]. intros o s' e' (H1 & H2 & H3 & H4) r Hr. right; right.
    split; [exact H1|]. split; [exact H2|]. split; [apply Hon|]. intros (_ & W1 & W2).
    destruct o as [sw|sw| |]; try discriminate Hr; injection Hr as <-.
    + apply (H3 sw eq_refl W1).
    + elim (H4 sw eq_refl W2).
    + discriminate.
  - (* SELECT *)
    assert (Hon : forall r, r_sw r <> 0x9000 -> session_goes_on (d, Do x, Some r)).
    { intros r Hr. split; [intros [_ W]; contradiction|]. unfold verify_cmd, change_cmd. fold c. rewrite E. repeat split; intros W; decompose [and] W; discriminate. }
    unfold piv_body. rewrite E. apply wp_bind, wp_guard; intros G.
    2: { intros r Hr. injection Hr as <-. apply Hq; [reflexivity|reflexivity|apply Hon; discriminate|apply Hk]. }
    cbn [Z.eqb Pos.eqb]. apply wp_bind, wp_modify, wp_bind, wp_modify. unfold piv_select. apply wp_bind, wp_guard; intros G2.
    2: { intros r Hr. injection Hr as <-. apply Hq; [reflexivity|reflexivity|apply Hon; discriminate|apply Hk]. }
    apply wp_bind, wp_modify, wp_bind, wp_set_out, wp_ret. intros r Hr. left. reflexivity.
  - (* RESET *)
    assert (Hon : forall r, r_sw r <> 0x9000 -> session_goes_on (d, Do x, Some r)).
    { intros r Hr. split; [intros [W _]; fold c in W; congruence|]. unfold verify_cmd, change_cmd. fold c. rewrite E. repeat split; intros W; decompose [and] W; try discriminate; contradiction. }
    unfold piv_body. rewrite E. apply wp_bind, wp_guard; intros G.
    2: { intros r Hr. injection Hr as <-. apply Hq; [reflexivity|reflexivity|apply Hon; discriminate|apply Hk]. }
    cbn [Z.eqb Pos.eqb]. apply wp_bind, wp_modify, wp_bind, wp_modify. unfold piv_reset.
    apply wp_bind, wp_guard; intros G1.
    2: { intros r Hr. injection Hr as <-. apply Hq; [reflexivity|reflexivity|apply Hon; discriminate|apply Hk]. }
    apply wp_bind, wp_guard; intros G2.
    2: { intros r Hr. injection Hr as <-. apply Hq; [reflexivity|reflexivity|apply Hon; discriminate|apply Hk]. }
    assert (HR : forall p s1 e1 (Q : out Z -> piv -> env -> Prop), (forall z e2, Q (Ret z) s1 e2) -> wp (pin_get_retries p) Q s1 e1).
    { intros p s1 [] Q HQ. unfold pin_get_retries, pin_get_attr, pin_get_size. apply wp_bind, wp_get_file_size. intros X' r _ _.
      assert (wp (a <- read_attr (pin_path p) RETRY_ATTR ;; match a with Some v => ret (attr1 v) | None => ret PIN_IO_FAIL end) Q s1 (mkE e_fs e_log X' e_rnd e_tch e_out))
        by (apply wp_bind, wp_read_attr; intros X2 [r2|] _ _; apply wp_ret, HQ).
      destruct r as [[| |]|]; try assumption. apply wp_ret, HQ. }
    apply wp_bind, HR. intros z e2. apply wp_bind, wp_guard; intros G3.
    2: { intros r Hr. injection Hr as <-. apply Hq; [reflexivity|reflexivity|apply Hon; discriminate|apply Hk]. }
    apply wp_bind, HR. intros z' e3. apply wp_bind, wp_guard; intros G4.
    2: { intros r Hr. injection Hr as <-. apply Hq; [reflexivity|reflexivity|apply Hon; discriminate|apply Hk]. }
    apply wp_bind. unfold ignore, wp.
    match goal with |- context [piv_install true ?s2 ?e4] => pose proof (install_use true s2 e4) as Hin end; unfold wp in Hin.
    destruct (piv_install true _ _) as [[[u|w| |] s'] e']; intros r Hr; try discriminate Hr; left; exact Hin.
  - (* VERIFY *)
    assert (Hon : forall r, ~ (c_p1 c = 0xFF /\ r_sw r = 0x9000) -> ~ (verify_cmd c) -> session_goes_on (d, Do x, Some r)).
    { intros r Hr Hv. split; [intros [W _]; fold c in W; congruence|]. unfold change_cmd. fold c. rewrite E.
      repeat split; intros W; try tauto; decompose [and] W; discriminate. }
    unfold piv_body. rewrite E. apply wp_bind, wp_guard; intros G.
    2: { intros r Hr. injection Hr as <-. apply Hq; [reflexivity|reflexivity|apply Hon; [intros [_ ?]; discriminate|]|apply Hk]. intros [W _]. rewrite W in G. discriminate. }
    cbn [Z.eqb Pos.eqb]. apply wp_bind, wp_modify, wp_bind, wp_modify. unfold piv_verify.
    apply wp_bind, wp_guard; intros G1.
    2: { intros r Hr. injection Hr as <-. apply Hq; [reflexivity|reflexivity|apply Hon; [intros [_ ?]; discriminate|]|apply Hk]. intros (_ & _ & W & _). rewrite W in G1. discriminate. }
    apply wp_bind, wp_guard; intros G2.
    2: { intros r Hr. injection Hr as <-. apply Hq; [reflexivity|reflexivity|apply Hon; [intros [_ ?]; discriminate|]|apply Hk]. intros (_ & _ & _ & W & _). rewrite W in G2. discriminate. }
    destruct (Z.eqb_spec (c_p1 c) 0xFF) as [E1|E1].
    { apply wp_bind, wp_guard; intros G3.
      - apply wp_bind, wp_modify, wp_ret. intros r Hr. left. reflexivity.
      - intros r Hr. injection Hr as <-. apply Hq; [reflexivity|reflexivity|apply Hon; [intros [_ ?]; discriminate|]|apply Hk]. intros (_ & _ & W & _). congruence. }
    destruct (Z.eqb_spec (c_lc c) 0) as [E2|E2].
    { assert (Hon' : forall r, session_goes_on (d, Do x, Some r)) by (intros r; apply Hon; [tauto|intros (_ & _ & _ & _ & W); lia]).
      apply wp_bind, wp_get. cbv beta iota. match goal with |- wp (if ?b then _ else _) _ _ _ => destruct b end; [apply wp_ret|apply wp_bind].
      - intros r Hr. injection Hr as <-. apply Hq; [reflexivity|reflexivity|apply Hon'|apply Hk].
      - unfold pin_get_retries, pin_get_attr, pin_get_size. apply wp_bind, wp_get_file_size. intros X' r1 _ _.
        assert (HQ : forall z e2, match Ret z with Ret a => wp (if a <? 0 then fail else except (SW_PIN_RETRIES + a)) 
            (fun o s' e' => forall r, match o with Ret w | Exc w => Some (mkR (e_out e') w) | Fail => Some (mkR (e_out e') SW_UNABLE_TO_PROCESS) | UB => None end = Some r -> use_post d x r s')
            (set_read (-1) (set_write (-1) s)) e2 | _ => True end).
        { intros z e2. cbv iota. destruct (z <? 0); intros r Hr; injection Hr as <-; (apply Hq; [reflexivity|reflexivity|apply Hon'|apply Hk]). }
        destruct r1 as [[| |]|]; [apply wp_ret, (HQ 0)| | |]; apply wp_bind, wp_read_attr; intros X2 [r2|] _ _; apply wp_ret, HQ. }
    apply wp_bind, wp_guard; intros G3.
    2: { intros r Hr. injection Hr as <-. apply Hq; [reflexivity|reflexivity|apply Hon; [tauto|]|apply Hk]. intros (_ & _ & _ & _ & W). rewrite W in G3. discriminate. }
    assert (Hlc : c_lc c = 8) by lia.
    assert (Hv : verify_cmd c) by (unfold verify_cmd; lia).
    apply wp_bind. unfold start. apply verify_flag; [cbn; lia|unfold c_lc in Hlc; lia|].
    intros F' L' X' z k v V1 V2 V3 V4.
    rewrite (slice8 (c_data c) Hlc) in V1. change (tries pin (d_fs d)) with (pin_tries d) in V1. change (fdata (d_fs d) (pin_path pin)) with (pin_value d) in V1.
    cbv beta iota. unfold verified.
    destruct (Z.eqb_spec z PIN_IO_FAIL) as [E3|E3].
    { intros r Hr. injection Hr as <-. destruct v; [|left; reflexivity]. destruct (V1 eq_refl) as [W1 W2]. right; left.
      exists d, x, (mkR [] SW_UNABLE_TO_PROCESS). split; [reflexivity|]. split; [exact W1|]. left. split; [exact Hv|]. split; [exact W2|right; reflexivity]. }
    destruct k as [k|]; [|apply wp_bind; intros r Hr; discriminate].
    apply wp_bind, wp_bind, wp_ret.
    destruct (Z.eqb_spec k 0) as [->|E4]; [intros r Hr; destruct v; [elim (proj2 (V3 eq_refl)); reflexivity|left; reflexivity]|].
    destruct (Z.eqb_spec z PIN_AUTH_FAIL) as [E5|E5].
    { intros r Hr. destruct V4 as [W|[W|(_ & W & _)]]; [rewrite W in E5; discriminate|contradiction|]. subst v. left. reflexivity. }
    apply wp_ret, wp_bind, wp_modify, wp_ret. intros r Hr. injection Hr as <-.
    destruct v; [|left; reflexivity]. destruct (V1 eq_refl) as [W1 W2]. right; left.
    exists d, x, (mkR [] SW_NO_ERROR). split; [reflexivity|]. split; [exact W1|]. left. split; [exact Hv|]. split; [exact W2|left; reflexivity].
  - (* RESET RETRY COUNTER *)
    assert (Hon : forall r, r_sw r <> 0x9000 -> session_goes_on (d, Do x, Some r)).
    { intros r Hr. split; [intros [W _]; fold c in W; congruence|]. unfold verify_cmd, change_cmd. fold c. rewrite E. repeat split; intros W; decompose [and] W; try discriminate; contradiction. }
    unfold piv_body. rewrite E. apply wp_bind, wp_guard; intros G.
    2: { intros r Hr. injection Hr as <-. apply Hq; [reflexivity|reflexivity|apply Hon; discriminate|apply Hk]. }
    cbn [Z.eqb Pos.eqb]. apply wp_bind, wp_modify, wp_bind, wp_modify. unfold piv_reset_retry_counter.
    apply wp_bind, wp_guard; intros G1.
    2: { intros r Hr. injection Hr as <-. apply Hq; [reflexivity|reflexivity|apply Hon; discriminate|apply Hk]. }
    apply wp_bind, wp_guard; intros G2.
    2: { intros r Hr. injection Hr as <-. apply Hq; [reflexivity|reflexivity|apply Hon; discriminate|apply Hk]. }
    apply wp_bind, wp_guard; intros G3.
    2: { intros r Hr. injection Hr as <-. apply Hq; [reflexivity|reflexivity|apply Hon; discriminate|apply Hk]. }
    unfold c_lc in G3. apply wp_bind. unfold start. apply verify_flag; [cbn; lia|lia|].
    intros F' L' X' z k v _ _ _ V4.
    assert (Q1 : forall sw e2, sw <> 0x9000 -> use_post d x (mkR e2 sw) (if v then setpuk true (setpuk false (set_read (-1) (set_write (-1) s))) else setpuk false (set_read (-1) (set_write (-1) s)))).
    { intros sw e2 Hsw. apply Hq; [destruct v; reflexivity|destruct v; reflexivity|apply Hon; exact Hsw|apply Hk]. }
    cbv beta iota. unfold verified.
    destruct (z =? PIN_IO_FAIL); [intros r Hr; injection Hr as <-; apply Q1; discriminate|].
    destruct k as [k|]; [|apply wp_bind; intros r Hr; discriminate].
    apply wp_bind, wp_bind, wp_ret.
    destruct (k =? 0); [intros r Hr; injection Hr as <-; apply Q1; discriminate|].
    destruct (Z.eqb_spec z PIN_AUTH_FAIL) as [E5|E5].
    { intros r Hr. apply (f_equal (fun o => match o with Some a => a | None => r end)) in Hr. cbv beta iota in Hr. subst r.
      destruct V4 as [W|[W|(_ & _ & n & W & B)]]; [rewrite W in E5; discriminate|rewrite W in E5; discriminate|].
      injection W as <-. apply Q1. unfold SW_PIN_RETRIES. lia. }
    apply wp_ret, wp_bind, update_flag; [cbn; lia|rewrite zlen_drop; lia|].
    intros F2 L2 X2 z2 _. destruct (z2 =? PIN_IO_FAIL); [|destruct (z2 =? PIN_LENGTH_INVALID)]; intros r Hr; left; destruct v; reflexivity.
  - (* CHANGE REFERENCE DATA of the PIN *)
    destruct (Z.eq_dec (c_ins c) 0x24) as [E|N6]; [destruct (Z.eq_dec (c_p2 c) 0x80) as [E0|N7]|].
    2,3: eapply wp_mono; [apply (fr_any (use_is (v_pin s) (v_used s))); [apply fr_use; auto; contradiction|split; reflexivity]|];
      intros o s' e' (H1 & H2) r Hr; apply Hq; [exact H1|exact H2| |apply Hk];
      (split; [intros [W _]; contradiction|]); unfold verify_cmd, change_cmd; fold c; repeat split; intros W; decompose [and] W; contradiction.
    assert (Hon : forall r, ~ change_cmd c -> session_goes_on (d, Do x, Some r)).
    { intros r Hr. split; [intros [W _]; fold c in W; congruence|]. unfold verify_cmd. fold c. rewrite E. repeat split; intros W; decompose [and] W; try discriminate; contradiction. }
    unfold piv_body. rewrite E. apply wp_bind, wp_guard; intros G.
    2: { intros r Hr. injection Hr as <-. apply Hq; [reflexivity|reflexivity|apply Hon|apply Hk]. intros [W _]. rewrite W in G. discriminate. }
    cbn [Z.eqb Pos.eqb]. apply wp_bind, wp_modify, wp_bind, wp_modify. unfold piv_change_reference_data.
    apply wp_bind, wp_guard; intros G1.
    2: { intros r Hr. injection Hr as <-. apply Hq; [reflexivity|reflexivity|apply Hon|apply Hk]. intros (_ & _ & W & _). rewrite W in G1. discriminate. }
    apply wp_bind, wp_guard; intros G2; [|lia]. rewrite E0. cbn [Z.eqb Pos.eqb]. cbv zeta.
    apply wp_bind, wp_guard; intros G3.
    2: { intros r Hr. injection Hr as <-. apply Hq; [reflexivity|reflexivity|apply Hon|apply Hk]. intros (_ & _ & _ & _ & W). rewrite W in G3. discriminate. }
    assert (Hv : change_cmd c) by (unfold change_cmd; lia). unfold c_lc in G3.
    apply wp_bind. unfold start. apply verify_flag; [cbn; lia|lia|].
    intros F' L' X' z k v V1 V2 V3 V4.
    assert (slice 0 8 (c_data c) = firstn 8 (c_data c)) as E8 by reflexivity. rewrite E8 in V1.
    change (tries pin (d_fs d)) with (pin_tries d) in V1. change (fdata (d_fs d) (pin_path pin)) with (pin_value d) in V1.
    cbv beta iota. unfold verified.
    destruct (Z.eqb_spec z PIN_IO_FAIL) as [E3|E3].
    { intros r Hr. injection Hr as <-. destruct v; [|left; reflexivity]. destruct (V1 eq_refl) as [W1 W2]. right; left.
      exists d, x, (mkR [] SW_UNABLE_TO_PROCESS). split; [reflexivity|]. split; [exact W1|]. right. split; [exact Hv|]. split; [exact W2|reflexivity]. }
    destruct k as [k|]; [|apply wp_bind; intros r Hr; discriminate].
    apply wp_bind, wp_bind, wp_ret.
    destruct (Z.eqb_spec k 0) as [->|E4]; [intros r Hr; destruct v; [elim (proj2 (V3 eq_refl)); reflexivity|left; reflexivity]|].
    destruct (Z.eqb_spec z PIN_AUTH_FAIL) as [E5|E5].
    { intros r Hr. destruct V4 as [W|[W|(_ & W & _)]]; [rewrite W in E5; discriminate|contradiction|]. subst v. left. reflexivity. }
    apply wp_ret, wp_bind, update_flag; [cbn; lia|rewrite zlen_drop; lia|].
    intros F2 L2 X2 z2 _. destruct (z2 =? PIN_IO_FAIL); [|destruct (z2 =? PIN_LENGTH_INVALID)]; [intros r Hr; left; destruct v; reflexivity|intros r Hr; left; destruct v; reflexivity|].
    apply wp_bind. unfold must. apply wp_bind, wp_write_attr; intros _ X3 _; [apply wp_ret, wp_ret|apply wp_fail]; intros r Hr; left; destruct v; reflexivity.
Qed.
End Cmds.

(** ** Histories *)
Section Main.
Variable K : crypto.
Definition pinv (tr : list entry) (s : piv) : Prop := v_pin s = true -> pin_given tr (v_used s = false).
Lemma boot_pinv tr F flt rnd : pinv tr (d_ram (boot F flt rnd)).
Proof.
  unfold boot, installed. pose proof (install_use false piv_boot (start F flt rnd [])) as H. unfold wp in H.
  destruct (piv_install _ _ _) as [[o s'] e']. cbn [d_ram]. intros W. congruence.
Qed.
Lemma given_more tr e (u v : Prop) : pin_given tr u -> session_goes_on e -> (v -> u /\ ~ key_op e) -> pin_given (tr ++ [e]) v.
Proof.
  intros (tr1 & e1 & tr2 & -> & H1 & H2 & H3) He Hv. exists tr1, e1, (tr2 ++ [e]). split; [rewrite <- !app_assoc; reflexivity|].
  split; [exact H1|]. split; [apply Forall_app; auto|]. intros V. destruct (Hv V). apply Forall_app. auto.
Qed.
Lemma hist_pinv tr d : since_boot K tr d -> pinv tr (d_ram d).
Proof.
  intros (F0 & flt0 & rnd0 & H). remember (boot F0 flt0 rnd0) as d0 eqn:E0. induction H as [d0|d0 tr d v o d' H IH Hok Hst].
  - subst. apply boot_pinv.
  - specialize (IH E0). destruct v as [x|x n flt rnd| |flt rnd|flt rnd n flt' rnd'|F].
    + assert (exists r, o = Some r) as [r ->].
      { cbn [step] in Hst. destruct (exec K d x) as [[[r|] s'] e']; [|discriminate]. injection Hst as <- _. eauto. }
      destruct (do_use K d x r d' Hst) as [W|[W|(W1 & W2 & W3 & W4)]]; intros V.
      * congruence.
      * exists tr, (d, Do x, Some r), []. split; [reflexivity|]. split; [exact W|]. split; constructor.
      * eapply given_more; [apply IH; congruence|exact W3|]. intros U. split; [destruct W2; congruence|]. intros Q. rewrite (W4 Q) in U. discriminate.
    + cbn [step] in Hst. destruct (exec K d x) as [[r s'] e']. injection Hst as <- <-. apply boot_pinv.
    + cbn [step] in Hst. injection Hst as <- <-. intros W. discriminate.
    + cbn [step] in Hst. unfold installed in Hst. pose proof (install_use true (d_ram d) (start (d_fs d) flt rnd [])) as Hin. unfold wp in Hin.
      destruct (piv_install _ _ _) as [[u s'] e']. injection Hst as <- <-. cbn [d_ram]. intros W. congruence.
    + cbn [step] in Hst. destruct (installed true (d_ram d) (d_fs d) flt rnd) as [[u s'] e']. injection Hst as <- <-. apply boot_pinv.
    + cbn [step] in Hst. injection Hst as <- <-. cbn [d_ram]. intros V. eapply given_more; [apply IH, V|split; [exact (fun x => x)|exact I]|].
      intros U. split; [exact U|exact (fun x => x)].
Qed.
End Main.

(** A private-key operation (GENERAL AUTHENTICATE with any other slot than 9B, answered 9000): the slot's PIN policy is "never", or
    the right PIN has been given in this session; and, when the policy is "always", no such operation has been done since then. *)
Theorem C30_pin_policy : forall K tr d x r d', since_boot K tr d -> step K d (Do x) = Some (Some r, d') ->
  key_op (d, Do x, Some r) ->
  exists p m, slot_file (c_p2 (x_apdu x)) = Some p /\ slot_meta d p = Some m /\
  (m_pin m = PIN_POLICY_NEVER \/ pin_given tr (m_pin m = PIN_POLICY_ALWAYS)).
Proof.
  intros K tr d x r d' Hb Hs ([Hc Hi] & Hp & Hw). pose proof (hist_pinv K tr d Hb) as HI.
  cbn [step] in Hs.
  pose proof (exec_wp K d x (fun r' s' e' => forall r, r' = Some r -> r_sw r = 0x9000 -> exists p, get_key_path (c_p2 (x_apdu x)) = Some p /\ allowed (d_fs d) p (d_ram d))) as HW.
  destruct (exec K d x) as [[[r'|] s'] e']; [|discriminate]. injection Hs as -> _.
  assert (Hex : exists p, get_key_path (c_p2 (x_apdu x)) = Some p /\ allowed (d_fs d) p (d_ram d)).
  { apply (fun H => HW H r eq_refl Hw). clear HW. unfold piv_body. rewrite Hi, Hc. cbn [Z.eqb Pos.eqb orb]. apply wp_bind, wp_bind, wp_modify, wp_bind, wp_modify.
    eapply wp_mono; [apply ga_used|]. intros o s1 e1 (_ & _ & U1 & U2) r1 Hr1 Hsw. destruct o as [sw|sw| |]; [|injection Hr1 as <-; elim (U2 sw eq_refl Hsw)|injection Hr1 as <-; discriminate|discriminate].
    destruct (U1 sw eq_refl Hp) as (_ & p & P1 & a & P2 & P3). exists p. split; [exact P1|]. exists a. split; [exact P2|exact P3]. }
  destruct Hex as (p & H1 & a & H2 & H3).
  rewrite slot_file_eq in H1. exists p, (meta_of a). split; [exact H1|]. split; [unfold slot_meta; rewrite H2; reflexivity|].
  destruct H3 as [H3|[H3 H4]]; [left; exact H3|right]. destruct (HI H3) as (tr1 & e & tr2 & T1 & T2 & T3 & T4).
  exists tr1, e, tr2. split; [exact T1|]. split; [exact T2|]. split; [exact T3|]. intros W. apply T4, H4, W.
Qed.
Print Assumptions C30_pin_policy.

(** A key with policy "always": one signature for each VERIFY. *)
Definition sign_cmd : capdu := mkC 0 0x87 0x11 0x9A ([0x7C; 36; 0x82; 0; 0x81; 32] ++ repeat 1 32) 256.
Definition verify_default : capdu := mkC 0 0x20 0 0x80 DEFAULT_PIN 256.
Definition ex_always : list ev :=
  ex_external ++ [Do (plain (mkC 0 0x47 0 0x9A [0xAC; 6; 0x80; 1; 0x11; 0xAA; 1; 3] 256)); Do (plain sign_cmd); Do (plain verify_default);
    Do (plain sign_cmd); Do (plain sign_cmd); Do (plain verify_default)].
Example C30_ex : exists tr d, since_boot toy tr d /\
  map (fun e => option_map r_sw (snd e)) tr =
    [Some 0x9000; Some 0x9000; Some 0x9000; Some 0x9000; Some 0x6982; Some 0x9000; Some 0x9000; Some 0x6982; Some 0x9000] /\
  option_map m_pin (slot_meta d "piv-pauk") = Some PIN_POLICY_ALWAYS /\
  exists r d', step toy d (Do (plain sign_cmd)) = Some (Some r, d') /\ key_op (d, Do (plain sign_cmd), Some r).
Proof.
  destruct (sees_ran (run_all toy (boot fs_empty [] []) ex_always)
    (fun tr d => (map (fun e => option_map r_sw (snd e)) tr, option_map m_pin (slot_meta d "piv-pauk"),
       match step toy d (Do (plain sign_cmd)) with Some (Some r, _) => Some (r_sw r) | _ => None end))
    ([Some 0x9000; Some 0x9000; Some 0x9000; Some 0x9000; Some 0x6982; Some 0x9000; Some 0x9000; Some 0x6982; Some 0x9000], Some 3, Some 0x9000)) as (tr & d & E & H);
    [vm_compute; reflexivity|].
  pose proof (f_equal snd H) as H3. pose proof (f_equal (fun x => snd (fst x)) H) as H2. pose proof (f_equal (fun x => fst (fst x)) H) as H1. cbn [fst snd] in H1, H2, H3. clear H.
  exists tr, d. split; [eapply run_all_since; [|exact E]; unfold ex_always, ex_external; cbn [app]; bytes_ok|]. split; [exact H1|]. split; [exact H2|].
  clear E H1 H2. destruct (step toy d (Do (plain sign_cmd))) as [[[r|] d']|]; [|discriminate H3|discriminate H3]. exists r, d'. split; [reflexivity|].
  split; [split; reflexivity|]. split; [discriminate|]. injection H3 as H3. exact H3.
Qed.
