(** C91: a credential that was registered can be used until the device is reset. *)
From Verif Require PropCtapCount.
From Verif Require Import CtapSpec CtapFrame CtapCred CtapToy CtapExec PropCtapPin PropCtapToken PropCtapCred PropCtapSign PropCtapExclude PropCtapAnswered.
Notation no_reset := PropCtapCount.no_reset.
Open Scope string_scope. Open Scope list_scope. Open Scope Z_scope.

(** ** What the commands rely on in the storage *)
(** The signature counter, the two files of the resident credentials with their attribute, and the large-blob array, by which ctap_install knows an installed device (ctap.c:55-113) *)
Definition alive (F : fs) : Prop :=
  F "ctap_lb" <> None /\ fattr F "ctap_cert" 1 <> None /\ fattr F "ctap_dc" 0 <> None /\ F "ctap_dm" <> None.
(** Writing does not remove anything. *)
Definition grown (f g : file) : Prop := forall a, f_attr f a <> None -> f_attr g a <> None.
Lemma alive_set F p f g : F p = Some f -> grown f g -> alive F -> alive (fset F p (Some g)).
Proof.
  intros Hf Hg (H1 & H2 & H3 & H4). unfold alive, fattr in *. unfold fset.
  repeat match goal with |- context [String.eqb ?a p] => let E := fresh in destruct (String.eqb a p) eqn:E; [apply String.eqb_eq in E; subst p; try rewrite Hf in *|] end;
  repeat split; try discriminate; try assumption; try (apply Hg; assumption).
Qed.
Lemma alive_new F p : F p = None -> alive F -> alive (fset F p (Some (mkF [] no_attr))).
Proof.
  intros Hf (H1 & H2 & H3 & H4). unfold alive, fattr in *. unfold fset.
  repeat match goal with |- context [String.eqb ?a p] => let E := fresh in destruct (String.eqb a p) eqn:E; [apply String.eqb_eq in E; subst p; rewrite Hf in *; congruence|] end;
  repeat split; assumption.
Qed.
Section L.
Variable K : fcrypto.
Variable nfc : bool.
Variables t1 t2 : Z.
Variable junk : bytes.
Notation lv := (CtapFrame.keep anyst alive alive).
Lemma aa : forall F, alive F -> alive F. Proof. auto. Qed.
Lemma lv_wf p d o t : lv (write_file p d o t).
Proof.
  intros s e H. apply kp_pop in H. unfold wp, write_file. destruct (pop_fault e) as [x e']. cbn [snd] in H.
  assert (G : forall e1 f y, kgood anyst alive alive s e1 -> e_fs e1 p = Some f -> kgood anyst alive alive s (commit (fset (e_fs e1) p (Some (mkF y (f_attr f)))) e1)).
  { intros e1 f y G1 Ef. apply kgood_commit; [exact aa|exact G1|]. eapply alive_set; [exact Ef|intros a Ha; exact Ha|apply G1]. }
  destruct x; try exact H; (destruct (e_fs e' p) as [f|] eqn:E;
    [ rewrite ?E; try exact H; apply G; assumption
    | assert (H1 : kgood anyst alive alive s (commit (fset (e_fs e') p (Some (mkF [] no_attr))) e')) by (apply kgood_commit; [exact aa|exact H|apply alive_new; [exact E|apply H]]); cbn [e_fs commit]; rewrite ?fset_same; try exact H1;
      refine (G _ (mkF [] no_attr) _ H1 _); cbn [e_fs commit]; apply fset_same ]).
Qed.
Lemma lv_wa p a v : lv (write_attr p a v).
Proof. apply kp_write_attr_at; [exact aa|]. intros F f HF Ef. eapply alive_set; [exact Ef| |exact HF]. intros b Hb. cbn [f_attr]. unfold aset. destruct (_ =? _); [discriminate|exact Hb]. Qed.
Lemma lv_ren : lv (fs_rename LB_FILE_TMP LB_FILE).
Proof.
  apply kp_rename_at; [exact aa|]. intros F f (H1 & H2 & H3 & H4) Ef. change LB_FILE with "ctap_lb". change LB_FILE_TMP with "ctap_lbt". unfold alive, fattr in *.
  split; [rewrite fset_same; discriminate|]. rewrite !fset_other by discriminate. auto.
Qed.
Ltac fc1 :=
  lazymatch goal with
  | |- CtapFrame.keep _ _ _ (bind _ _) => apply kp_bind; [|intros ?]
  | |- CtapFrame.keep _ _ _ (ret _) => apply kp_ret
  | |- CtapFrame.keep _ _ _ (got _) => apply kp_got
  | |- CtapFrame.keep _ _ _ (must _) => apply kp_must
  | |- CtapFrame.keep _ _ _ (gets _) => apply kp_gets
  | |- CtapFrame.keep _ _ _ get => apply kp_get
  | |- CtapFrame.keep _ _ _ ub => apply kp_ub
  | |- CtapFrame.keep _ _ _ fail => apply kp_fail
  | |- CtapFrame.keep _ _ _ (except _) => apply kp_except
  | |- CtapFrame.keep _ _ _ (guard _ _) => apply kp_guard
  | |- CtapFrame.keep _ _ _ (set_out _) => apply kp_set_out
  | |- CtapFrame.keep _ _ _ wait_touch => apply kp_wait
  | |- CtapFrame.keep _ _ _ (random_buffer _) => apply kp_random
  | |- CtapFrame.keep _ _ _ (read_file _ _ _) => apply kp_read_file
  | |- CtapFrame.keep _ _ _ (read_attr _ _) => apply kp_read_attr
  | |- CtapFrame.keep _ _ _ (get_file_size _) => apply kp_size
  | |- CtapFrame.keep _ _ _ (write_file _ _ _ _) => apply lv_wf
  | |- CtapFrame.keep _ _ _ (write_attr _ _ _) => apply lv_wa
  | |- CtapFrame.keep _ _ _ (fs_rename _ _) => apply lv_ren
  | |- CtapFrame.keep _ _ _ (modify _) => apply kp_modify; intros; exact Logic.I
  | |- CtapFrame.keep _ _ _ (let _ := _ in _) => cbv zeta
  | |- CtapFrame.keep _ _ _ (let '(_, _) := ?x in _) => destruct x
  | |- CtapFrame.keep _ _ _ (match ?x with _ => _ end) => destruct x
  | |- CtapFrame.keep _ _ _ _ => match goal with H : context [CtapFrame.keep] |- _ => simple apply H end
  end.
Ltac fc := repeat fc1.
Ltac un := unfold WAIT, has_pin, cp_user_present, cp_user_verified,
   cp_clear_flags, cp_has_permission, cp_has_rp, cp_verify_rp, cp_associate_rp, cp_verify_token, verify_key_handle,
   sign_with_device_key, sign_with_private_key, make_large_blob_key, cp_encrypt, cp_decapsulate, cp_observer, cp_regenerate, cp_begin_using,
   cp_reset_token, cp_set_permission, read_rec, count_recs, read_general, read_key32, cose_alg_to_key_type.
Lemma lv_ctr : lv increase_counter. Proof. unfold increase_counter. cbv zeta. fc. Qed.
Lemma lv_drop_slot n i idx : lv (drop_slot n i idx).
Proof. revert i; induction n; intros i; cbn [drop_slot]; un; fc. Qed.
Lemma lv_consistency : lv consistency_check.
Proof. pose proof lv_drop_slot. unfold consistency_check. un. fc. Qed.
Lemma lv_derive n kt kh rp alg dc cp : lv (derive K n kt kh rp alg dc cp).
Proof. induction n; cbn [derive]; cbv zeta; fc. Qed.
Lemma lv_generate rp alg dc cp : lv (generate_key_handle K rp alg dc cp).
Proof. pose proof (lv_derive 64). unfold generate_key_handle. un. fc. Qed.
Lemma lv_auth_data rp fl ext at_ : lv (make_auth_data K rp fl ext at_).
Proof. pose proof lv_generate. pose proof lv_ctr. unfold make_auth_data. cbv zeta. fc. Qed.
Lemma lv_exclude q uv l buf : lv (exclude K nfc q uv l buf).
Proof. revert buf; induction l; intros buf; cbn [exclude]; cbv zeta; un; fc. Qed.
Lemma lv_find_slot n pos fd rp user buf : lv (find_slot n pos fd rp user buf).
Proof. revert pos fd buf; induction n; intros pos fd buf; cbn [find_slot]; un; fc. Qed.
Lemma lv_find_meta n pos fd rp : lv (find_meta n pos fd rp).
Proof. revert pos fd; induction n; intros pos fd; cbn [find_meta]; un; fc. Qed.
Lemma lv_mc_store q id : lv (mc_store q id).
Proof. pose proof lv_find_slot. pose proof lv_find_meta. unfold mc_store. cbv zeta. un. fc. Qed.
Lemma lv_touch_probe p : lv (touch_probe nfc p). Proof. unfold touch_probe. un. fc. Qed.
Lemma lv_mc_token q sig : lv (mc_token K t2 q sig). Proof. unfold mc_token. un. fc. Qed.
Lemma lv_mc_auth q : lv (mc_auth K t2 q). Proof. pose proof lv_mc_token. unfold mc_auth. un. fc. Qed.
Lemma lv_ask b : lv (ask_presence nfc b). Proof. unfold ask_presence. un. fc. Qed.
Lemma lv_mc_att q ad : lv (mc_att K q ad). Proof. unfold mc_att. un. fc. Qed.
Lemma lv_make p : lv (ctap_make_credential K nfc t2 junk p).
Proof.
  pose proof lv_consistency. pose proof lv_touch_probe. pose proof lv_mc_auth. pose proof lv_exclude. pose proof lv_ask. pose proof lv_auth_data.
  pose proof lv_mc_store. pose proof lv_mc_att. unfold ctap_make_credential. cbv zeta. un. fc.
Qed.
Lemma lv_ga_begin q : lv (ga_begin K nfc t2 q). Proof. pose proof lv_touch_probe. unfold ga_begin, ga_token. un. fc. Qed.
Lemma lv_find_dc n j rp nonce buf : lv (find_dc n j rp nonce buf).
Proof. revert j buf; induction n; intros j buf; cbn [find_dc]; un; fc. Qed.
Lemma lv_allow rp uv l dc : lv (allow K rp uv l dc).
Proof. pose proof lv_find_dc. revert dc; induction l; intros dc; cbn [allow]; cbv zeta; un; fc. Qed.
Lemma lv_applicable n rp uv : lv (applicable n rp uv).
Proof. induction n; cbn [applicable]; cbv zeta; un; fc. Qed.
Lemma lv_ga_select q : lv (ga_select K q).
Proof. pose proof lv_allow. pose proof lv_applicable. unfold ga_select. un. fc. Qed.
Lemma lv_ga_ext q dc : lv (ga_ext K q dc).
Proof. unfold ga_ext, ga_hmac_secret. cbv zeta. un. fc. Qed.
Lemma lv_ga_rest : lv (ga_rest K nfc t2).
Proof. pose proof lv_ga_select. pose proof lv_ask. pose proof lv_ga_ext. pose proof lv_auth_data. unfold ga_rest. cbv zeta. un. fc. Qed.
Lemma lv_ga p : lv (ctap_get_assertion K nfc t2 p).
Proof. pose proof lv_consistency. pose proof lv_ga_begin. pose proof lv_ga_rest. unfold ctap_get_assertion. fc. Qed.
Lemma lv_gna : lv (ctap_get_next_assertion K nfc t1 t2).
Proof. pose proof lv_ga_rest. unfold ctap_get_next_assertion. fc. Qed.
Lemma lv_info : lv ctap_get_info. Proof. unfold ctap_get_info. un. fc. Qed.
Lemma lv_scan_rps n : lv (scan_rps n). Proof. induction n; cbn [scan_rps]; cbv zeta; un; fc. Qed.
Lemma lv_next_rp n i : lv (next_rp n i). Proof. revert i; induction n; intros i; cbn [next_rp]; un; fc. Qed.
Lemma lv_find_rp n i h : lv (find_rp n i h). Proof. revert i; induction n; intros i; cbn [find_rp]; un; fc. Qed.
Lemma lv_find_id n i h : lv (find_id n i h). Proof. revert i; induction n; intros i; cbn [find_id]; un; fc. Qed.
Lemma lv_drop_from n i x h : lv (drop_from_meta n i x h). Proof. revert i; induction n; intros i; cbn [drop_from_meta]; un; fc. Qed.
Lemma lv_cm_auth q : lv (cm_auth K t2 q). Proof. unfold cm_auth. un. fc. Qed.
Lemma lv_cm_credential b : lv (cm_credential K b).
Proof. unfold cm_credential, get_next_slot. cbv zeta. un. fc. Qed.
Lemma lv_cm_rps n : lv (cm_rps_begin n). Proof. pose proof lv_scan_rps. unfold cm_rps_begin. cbv zeta. un. fc. Qed.
Lemma lv_cm_next_rp q : lv (cm_next_rp q). Proof. pose proof lv_next_rp. unfold cm_next_rp, cm_next_allowed. cbv zeta. fc. Qed.
Lemma lv_cm_creds q n : lv (cm_creds_begin K q n). Proof. pose proof lv_find_rp. pose proof lv_cm_credential. unfold cm_creds_begin. cbv zeta. un. fc. Qed.
Lemma lv_cm_next_cred q : lv (cm_next_cred K q). Proof. pose proof lv_cm_credential. unfold cm_next_cred, cm_next_allowed. fc. Qed.
Lemma lv_cm_delete q n : lv (cm_delete q n). Proof. pose proof lv_find_id. pose proof lv_drop_from. unfold cm_delete. cbv zeta. un. fc. Qed.
Lemma lv_cm_update q n : lv (cm_update q n). Proof. pose proof lv_find_id. unfold cm_update. cbv zeta. un. fc. Qed.
Lemma lv_cm p : lv (ctap_credential_management K t2 p).
Proof.
  pose proof lv_consistency as H1. pose proof lv_cm_auth as H2. pose proof lv_cm_rps as H3. pose proof lv_cm_next_rp as H4. pose proof lv_cm_creds as H5. pose proof lv_cm_next_cred as H6.
  pose proof lv_cm_delete as H7. pose proof lv_cm_update as H8.
  assert (H9 : forall n, lv (cm_metadata n)) by (intros n; unfold cm_metadata; un; fc).
  unfold ctap_credential_management. cbv zeta. fc.
Qed.
Lemma lv_lb_read n off len : lv (lb_read n off len). Proof. revert off; induction n; intros off; cbn [lb_read]; cbv zeta; un; fc. Qed.
Lemma lv_lb_auth q : lv (lb_auth K t2 q). Proof. unfold lb_auth. un. fc. Qed.
Lemma lv_lb p : lv (ctap_large_blobs K t2 p).
Proof. pose proof lv_lb_read. pose proof lv_lb_auth. unfold ctap_large_blobs, lb_store, lb_fetch. cbv zeta. un. fc. Qed.
Lemma lv_register cap d : lv (u2f_register K nfc cap d).
Proof. pose proof lv_generate. unfold u2f_register, u2f_touch. cbv zeta. un. fc. Qed.
Lemma lv_auth p1 d : lv (u2f_authenticate K nfc p1 d).
Proof.
  unfold u2f_authenticate, u2f_touch. cbv zeta. un. 
  apply kp_bind; [fc|intros _]. apply kp_bind; [fc|intros _]. apply kp_bind; [fc|intros _]. apply kp_bind; [fc|intros a].
  destruct a as [[pri|]|]; try solve [fc]. apply kp_bind; [fc|intros _]. apply kp_bind; [fc|intros _]. apply kp_bind.
  - intros s e H. pose proof (lv_ctr s e H) as P_ctr. unfold wp in *. destruct (increase_counter s e) as [[[] s'] e']; exact P_ctr.
  - intros c. fc.
Qed.
Lemma lv_check_pin key h proto r b : lv (check_pin K key h proto r b).
Proof. unfold check_pin, verify_pin_hash, set_pin_retries. un. fc. Qed.
Lemma lv_new_pin d : lv (new_pin K d). Proof. unfold new_pin, set_pin. cbv zeta. fc. Qed.
Lemma lv_pin p : lv (ctap_client_pin K t2 p).
Proof.
  pose proof lv_check_pin. pose proof lv_new_pin.
  unfold ctap_client_pin, get_pin_retries, set_pin_cmd, change_pin_cmd, get_token_cmd, pin_retries_left, get_pin_retries, set_pin_retries. cbv zeta. un. fc.
Qed.
End L.
Section H.
Variable K : fcrypto.
Notation lv := (CtapFrame.keep anyst alive alive).
Lemma exec_alive d x : alive (d_fs d) -> no_reset (d, Do x, None) -> let '(_, _, e) := exec K d x in alive (e_fs e) /\ Forall alive (e_log e).
Proof.
  intros HF Hr. pose proof (exec_wp K d x (fun _ _ e => alive (e_fs e) /\ Forall alive (e_log e))) as W. destruct (exec K d x) as [[o s] e]. apply W. clear W o s e.
  assert (G : kgood anyst alive alive (d_ram d) (start (d_fs d) (x_flt x) (x_rnd x) (x_tch x))) by (split; [exact Logic.I|split; [exact HF|constructor; [exact HF|constructor]]]).
  assert (B : forall m : Mc Z, lv m -> wp m (fun o s e => match o with Ret w | Exc w => alive (e_fs e) /\ Forall alive (e_log e) | Fail => alive (e_fs e) /\ Forall alive (e_log e) | UB => alive (e_fs e) /\ Forall alive (e_log e) end) (d_ram d) (start (d_fs d) (x_flt x) (x_rnd x) (x_tch x))).
  { intros m Hm. eapply wp_mono; [apply Hm, G|]. intros [] s e (H1 & H2 & H3); auto. }
  cbv [PropCtapCount.no_reset] in Hr. destruct (x_op x) as [q|da|p1 da| |da|da|da] eqn:Ex.
  - eapply wp_mono; [refine (kp_process K (x_nfc x) (x_t1 x) (x_t2 x) (x_junk x) anyst alive alive (fun _ _ _ => Logic.I) (x_cap x) q _ _ _ G)|intros [[c v]| | |] s e (H1 & H2 & H3); auto].
    unfold cbor_cmd. apply kp_bind; [unfold cp_observer; apply kp_modify; intros; exact Logic.I|intros _].
    destruct q as [p|p| | |p| |p| |p| ]; try (apply kp_bind; [|intros; apply kp_ret]).
    + apply lv_make. + apply lv_ga. + apply lv_gna. + apply lv_info. + apply lv_pin.
    + unfold ctap_reset_data. intros s e H. unfold wp, bind, guard. destruct (x_t1 x <=? 10000) eqn:Et; [lia|exact H].
    + apply lv_cm. + unfold WAIT. destruct (x_nfc x); [apply kp_ret|]. apply kp_bind; [apply kp_wait|intros r]. destruct (r =? _); [apply kp_except|]. destruct (r =? _); [apply kp_except|apply kp_ret]. + apply lv_lb. + apply kp_except.
  - unfold body. rewrite Ex. apply B. apply kp_bind; [apply lv_register|intros; apply kp_ret].
  - unfold body. rewrite Ex. apply B. apply kp_bind; [apply lv_auth|intros; apply kp_ret].
  - destruct Hr.
  - unfold body. rewrite Ex. apply B. apply kp_bind; [|intros; apply kp_ret]. unfold install_private_key. apply kp_bind; [apply kp_guard|intros _]. apply kp_bind; [apply kp_modify; intros; exact Logic.I|intros _].
    apply kp_bind; [apply kp_must, lv_wa|intros _; apply kp_must, lv_wa].
  - unfold body. rewrite Ex. apply B. apply kp_bind; [|intros; apply kp_ret]. unfold install_cert. apply kp_bind; [apply kp_guard|intros _]. apply kp_must, lv_wf.
  - unfold body. rewrite Ex. apply B. apply kp_bind; [|intros; apply kp_ret]. unfold write_sm2_config. apply kp_bind; [apply kp_guard|intros _]. apply kp_bind; [apply lv_wa|intros ok]. apply kp_bind; [apply kp_modify; intros; exact Logic.I|intros _; apply kp_guard].
Qed.
Lemma step_alive d v o d' : alive (d_fs d) -> ev_ok d v -> no_reset (d, v, o) -> step K d v = Some (o, d') -> alive (d_fs d').
Proof.
  intros HF Hv Hr H. destruct v as [x|x n flt rnd|F]; unfold step in H.
  - pose proof (exec_alive d x HF Hr) as W. destruct (exec K d x) as [[[r|] s] e]; [|discriminate]. injection H as <- <-. apply W.
  - pose proof (exec_alive d x HF (proj2 Hr)) as W. destruct (exec K d x) as [[r s] e]. injection H as <- <-. destruct Hr as (-> & _). destruct W as (W1 & W2).
    assert (HN : alive (nth n (e_log e) (e_fs e))) by (apply Forall_nth_default; assumption). rewrite boot_kept by apply HN. exact HN.
  - injection H as <- <-. cbn [d_fs]. unfold alive, fattr in *. rewrite (Hv "ctap_lb"), (Hv "ctap_cert"), (Hv "ctap_dc"), (Hv "ctap_dm") by (cbn; tauto). exact HF.
Qed.
Lemma hist_alive d0 tr d : hist K d0 tr d -> Forall no_reset tr -> alive (d_fs d0) -> alive (d_fs d).
Proof.
  induction 1 as [d|d0 tr d v o d' H IH Hv Hs]; intros Hr HF; [exact HF|]. apply Forall_app in Hr. destruct Hr as (R1 & R2). inversion R2 as [|? ? R3 _]; subst. exact (step_alive d v o d' (IH R1 HF) Hv R3 Hs).
Qed.
(** A credential without residence (not "rk") and not of the level userVerificationRequired; U2F registers no other. *)
Definition plain (e : entry) : Prop := match e with (_, Do x, _) => match x_op x with OCbor (RMake (inr q)) => mc_rk q <> 1 /\ mc_cp q <> 3 | _ => True end | _ => True end.
Lemma u2f_plain d x data r s e : hmac_sized K -> points_sized K -> x_op x = ORegister data -> exec K d x = (Some (AApdu r), s, e) -> r_sw r = 0x9000 ->
  exists id pub rest, r_data r = [5; 4] ++ pub ++ [70] ++ id ++ rest /\ zlen pub = 64 /\ issued_id K (d_fs d) id (slice 32 32 data) (-7) 0 1.
Proof.
  intros Hsz Hp Hx E Hsw. set (G := fun out => exists id pub rest, out = [5; 4] ++ pub ++ [70] ++ id ++ rest /\ zlen pub = 64 /\ issued_id K (d_fs d) id (slice 32 32 data) (-7) 0 1). change (G (r_data r)). revert Hsw.
  pose proof (exec_wp K d x (fun o _ _ => match o with Some (AApdu r) => r_sw r = 0x9000 -> G (r_data r) | _ => True end)) as W. rewrite E, Hx in W. apply W. clear W E. unfold body. rewrite Hx.
  apply wp_bind. unfold u2f_register. apply wp_bind. apply wp_guard; [intros L1|intros _; cbn [r_sw]; discriminate]. apply wp_bind. cbv zeta.
  assert (Z32 : zlen (slice 32 32 data) = 32) by (rewrite zlen_slice; lia).
  match goal with |- wp _ ?Q _ _ => assert (W : forall s2 e2, e_fs e2 = d_fs d -> Q (Ret tt) s2 e2) end.
  { intros s2 e2 He. cbn. apply wp_bind. eapply wp_mono; [apply wp_and; [apply wp_and; [apply (generate_genuine K (d_fs d) (slice 32 32 data) ALG_ES256 0 1); [exact Hsz|rewrite He; reflexivity|exact Z32|unfold ALG_ES256; lia]|apply (generate_key K (d_fs d) (slice 32 32 data) ALG_ES256 0 1); [exact Hsz|rewrite He; reflexivity|exact Z32|unfold ALG_ES256; lia]]|apply (nz_generate K (slice 32 32 data) ALG_ES256 0 1)]|].
    intros [[[i p]|]|w| |] s3 e3 ((H3 & H4) & H3'); cbn [nx] in H3'; try contradiction; try exact Logic.I; try (cbn [r_sw]; discriminate). cbn [on_ret] in H3, H4. specialize (H3 i p eq_refl). destruct (H4 i p eq_refl) as (_ & _ & _ & pri & _ & H5). apply Hp in H5. clear H4.
    apply wp_bind. destruct e3 as [F3 L3 X3 R3 T3 O3]. apply wp_read_file. intros X' c _ _. destruct c as [cert|]; [|cbn [r_sw]; discriminate]. unfold sign_with_device_key, read_key32. apply wp_bind, wp_bind, wp_bind. apply wp_read_attr. intros X'' k _ _. apply wp_ret, wp_ret.
    destruct (zlen _ <=? x_cap x); [|exact Logic.I]. apply wp_set_out. intros _. cbn [r_data]. exists i, p. eexists. split; [cbn [app e_out]; rewrite <- ?app_assoc; reflexivity|split; [exact H5|exact H3]]. }
  unfold u2f_touch. destruct (x_nfc x); [apply wp_ret; apply W; reflexivity|]. apply wp_bind. unfold start. apply wp_wait_touch. apply wp_guard; [intros _; apply W; reflexivity|intros _; cbn [r_sw]; discriminate].
Qed.
(** What a registration tells about the id *)
Lemma registers_id d v o d' id alg rp pub0 : hmac_sized K -> points_sized K -> ev_ok d v -> step K d v = Some (o, d') -> registers (d, v, o) id alg rp pub0 ->
  zlen id = 70 /\ id_rp id = rp /\ id_alg id = alg /\ (plain (d, v, o) -> id_dc id = 0 /\ id_cp id <> 3) /\ exists pri, genuine K (d_fs d) id pri.
Proof.
  intros Hz Hp Hv Hs HR. inversion HR as [d1 x q c ad l id1 pub1 ext Hx H70 Had Hrp E|d1 x data r id1 pub1 rest Hx Hsw H64 H70 Hd E]; subst; cbn [step ev_ok] in *; destruct (exec K d x) as [[[a|] s] e] eqn:Ee; try discriminate; injection Hs as -> <-; rewrite Hx in Hv.
  - destruct (C55_make_credential K d x q _ s e Hz Hx Hv Ee) as (pri & G1 & G2 & _ & G3 & G4 & G5). cbn [new_id] in *.
    assert (Ei : slice 55 70 ad = id).
    { assert (L : (53 <= length ad)%nat). { pose proof (f_equal (@length Z) Had) as L. rewrite !app_length, firstn_length in L. unfold zlen in H70. cbn [length] in L. lia. }
      rewrite Had. rewrite (app_assoc _ [0; 70]). apply mid; [|exact H70]. rewrite zlen_app. unfold zlen. rewrite firstn_length, Nat.min_l by exact L. reflexivity. }
    rewrite Ei in *. split; [exact H70|]. split; [exact G2|]. split; [exact G3|]. split; [|eauto]. unfold plain. rewrite Hx. intros (P1 & P2). rewrite G4, G5. destruct (mc_rk q =? 1) eqn:E1; [lia|]. destruct (mc_cp q =? 0); lia.
  - destruct (u2f_plain d x data r s e Hz Hp Hx Ee Hsw) as (id' & pub & rest' & E1 & L64 & pri & G1 & G2 & L70 & G3 & G4 & G5).
    pose proof E1 as E7. rewrite Hd in E7. apply (app_inv_head [5; 4]) in E7. apply app_eq_len in E7; [|unfold zlen in *; lia]. destruct E7 as (-> & E7). apply (app_inv_head [70]) in E7. apply app_eq_len in E7; [|unfold zlen in *; lia]. destruct E7 as (-> & E7).
    split; [exact H70|]. split; [exact G2|]. split; [exact G3|]. split; [|eauto]. intros _. lia.
Qed.

(** ** Without errors of the storage *)
Variable kh : bytes.
Definition ready (e : env) : Prop := e_flt e = [] /\ alive (e_fs e) /\ fattr (e_fs e) "ctap_cert" 4 = Some kh.
Definition sure {A} (P : A -> Prop) (m : Mc A) : Prop := forall s e, ready e -> wp m (fun o s' e' => s' = s /\ ready e' /\ e_tch e' = e_tch e /\ exists a, o = Ret a /\ P a) s e.
Lemma su_bind {A B} (P : A -> Prop) (Q : B -> Prop) (m : Mc A) k : sure P m -> (forall a, P a -> sure Q (k a)) -> sure Q (bind m k).
Proof. intros H1 H2 s e He. apply wp_bind. eapply wp_mono; [apply H1, He|]. intros o s1 e1 (-> & R1 & T1 & a & -> & Pa). eapply wp_mono; [apply (H2 a Pa); exact R1|]. intros o2 s2 e2 (-> & R2 & T2 & H). rewrite T2, T1. auto. Qed.
Lemma su_ret {A} (P : A -> Prop) a : P a -> sure P (ret a). Proof. intros H s e He. repeat split; try apply He. eauto. Qed.
Lemma su_attr p a : sure (fun r => (p = "ctap_dc" /\ a = 0) \/ (p = "ctap_cert" /\ a = 1) -> r <> None) (read_attr p a).
Proof.
  intros s [F L X R T O] (H1 & H2 & H3). cbn [e_flt e_fs] in *. apply wp_read_attr. intros X' r Hr _. destruct (Hr H1) as (-> & ->). repeat split; cbn [e_flt e_fs]; try assumption; try apply H2. eexists. split; [reflexivity|]. intros [(-> & ->)|(-> & ->)]; apply H2.
Qed.
Lemma alive_wr F p d o t : alive F -> alive (fwrite F p d o t).
Proof.
  intros H. unfold fwrite. assert (Hc : alive (fcreate F p)) by (unfold fcreate; destruct (F p) eqn:E; [exact H|apply alive_new; assumption]).
  destruct (fcreate F p p) as [f|] eqn:E; [|exact H]. eapply alive_set; [exact E|intros a Ha; exact Ha|exact Hc].
Qed.
Lemma alive_at F p a v : alive F -> alive (fsetattr F p a v).
Proof. intros H. unfold fsetattr. destruct (F p) as [f|] eqn:E; [|exact H]. eapply alive_set; [exact E| |exact H]. intros b Hb. cbn [f_attr]. unfold aset. destruct (_ =? _); [discriminate|exact Hb]. Qed.
Lemma su_write_attr p a v : p = "ctap_dc" \/ (p = "ctap_cert" /\ a <> 4) -> sure (fun b => b = true) (write_attr p a v).
Proof.
  intros Hp s [F L X R T O] (H1 & H2 & H3). cbn [e_flt e_fs] in *. apply wp_write_attr.
  - intros N X' HX. repeat split; cbn [e_flt e_fs e_tch]; auto; try (apply alive_at; exact H2); eauto. rewrite <- H3. unfold fsetattr. destruct (F p) as [f|] eqn:E; [|reflexivity]. unfold fattr. destruct Hp as [->|(-> & Ha)].
    + rewrite fset_other by discriminate. reflexivity.
    + rewrite fset_same, E. cbn [f_attr]. apply aset_other. congruence.
  - intros [N|N]; [congruence|]. exfalso. destruct H2 as (_ & A2 & A3 & _). unfold fattr in *. destruct Hp as [->|(-> & Ha)]; rewrite N in *; congruence.
Qed.
Lemma su_write_file p d o t : p <> "ctap_cert" -> sure (fun b => b = true) (write_file p d o t).
Proof.
  intros Hp s [F L X R T O] (H1 & H2 & H3). cbn [e_flt e_fs] in *. apply wp_write_file; try congruence. intros X' HX. repeat split; cbn [e_flt e_fs e_tch]; auto; try (apply alive_wr; exact H2); eauto.
  rewrite <- H3. unfold fattr, fwrite, fcreate. destruct (F p) eqn:E; rewrite ?E, ?fset_same, ?fset_other by congruence; reflexivity.
Qed.
Lemma su_must m : sure (fun b => b = true) m -> sure any (must m).
Proof. intros H. eapply su_bind; [exact H|]. intros b ->. apply su_ret. exact Logic.I. Qed.
Lemma su_got {A} (m : Mc (option A)) : sure (fun r => r <> None) m -> sure any (got m).
Proof. intros H. eapply su_bind; [exact H|]. intros [a|] Ha; [apply su_ret; exact Logic.I|congruence]. Qed.
Lemma su_weak {A} (P Q : A -> Prop) m : sure P m -> (forall a, P a -> Q a) -> sure Q m.
Proof. intros H1 H2 s e He. eapply wp_mono; [apply H1, He|]. intros o s1 e1 (-> & R1 & T1 & a & -> & Pa). repeat split; try apply R1; auto. eauto. Qed.
Lemma su_rec p size i s e : ready e -> 0 <= size -> 0 <= i -> has e p ((i + 1) * size) -> wp (read_rec p size i) (fun o s' e' => s' = s /\ e' = e /\ exists d, o = Ret d) s e.
Proof.
  intros (H1 & _) Hz Hi (f & Hf & Hl). destruct e as [F L X R T O]. cbn [e_fs e_flt] in *. subst X. unfold read_rec, got. apply wp_bind, wp_bind, wp_read_file. intros X' r Hr _. destruct (Hr eq_refl) as (-> & ->). unfold fread. rewrite Hf. destruct (i * size <? 0) eqn:E; [nia|].
  apply wp_ret. assert (Ed : zlen (slice (i * size) size (f_data f)) = size) by (rewrite zlen_slice; lia). rewrite Ed, Z.eqb_refl. apply wp_ret. eauto.
Qed.
Lemma su_drop n i idx s e : ready e -> 0 <= i -> has e "ctap_dm" ((i + Z.of_nat n) * 76) -> wp (drop_slot n i idx) (fun o s' e' => s' = s /\ ready e' /\ e_tch e' = e_tch e /\ o = Ret tt) s e.
Proof.
  revert i s e. induction n as [|n IH]; intros i s e He Hi Hh; cbn [drop_slot]; [apply wp_ret; auto|]. apply wp_bind. eapply wp_mono; [apply su_rec; [exact He|unfold META_SIZE; lia|exact Hi|]|].
  - destruct Hh as (f & Hf & Hl). exists f. split; [exact Hf|]. unfold META_SIZE. lia.
  - intros o s1 e1 (-> & -> & d & ->). cbv beta iota. destruct (Z.testbit _ _).
    + eapply wp_mono; [apply su_must; [apply su_write_file; discriminate|exact He]|]. intros o s1 e1 (-> & R1 & T1 & [] & -> & _). auto.
    + apply IH; [exact He|lia|]. destruct Hh as (f & Hf & Hl). exists f. split; [exact Hf|lia].
Qed.
Definition octets (F : fs) : Prop := forall a, fattr F "ctap_dc" 0 = Some a -> all_bytes a.
Lemma su_check s e : ready e -> octets (e_fs e) -> wp consistency_check (fun o s' e' => s' = s /\ ready e' /\ e_tch e' = e_tch e /\ o = Ret tt) s e.
Proof.
  intros He Ho. unfold consistency_check, read_general. destruct e as [F L X R T O]. pose proof He as (H1 & H2 & H3). cbn [e_flt e_fs] in H1, H2, H3, Ho. subst X.
  apply wp_bind, wp_bind. unfold got. apply wp_bind, wp_read_attr. intros X' r Hr _. destruct (Hr eq_refl) as (-> & ->). change DC_FILE with "ctap_dc" in *. change DC_GENERAL_ATTR with 0 in *. pose proof (proj1 (proj2 (proj2 H2))) as Hg. destruct (fattr F "ctap_dc" 0) as [g|] eqn:Eg; [|congruence]. apply wp_ret, wp_ret.
  set (a := attr_buf 3 g). assert (Hi : 0 <= ga_index a).
  { unfold ga_index, a, attr_buf. specialize (Ho g Eg). destruct g as [|x [|y g]]; [change (0 <= 0); lia|change (0 <= 0); lia|]. pose proof (Forall_inv (Forall_inv_tail Ho)) as Hy. unfold is_byte in Hy. change (0 <= y). lia. }
  clearbody a. clear Hr. destruct (_ =? 0); [apply wp_ret; auto|]. cbv zeta. apply wp_bind, wp_get_file_size. intros X' r Hr _. destruct (Hr eq_refl) as (-> & ->). apply wp_bind. eapply wp_mono with (Q := fun o s' e' => s' = s /\ ready e' /\ e_tch e' = T /\ o = Ret tt).
  - unfold fsize. destruct (F "ctap_dc") as [f|] eqn:Ef; [|apply wp_ret; auto]. cbn [option_map]. destruct (_ <=? _) eqn:El; [|apply wp_ret; auto]. apply wp_bind. eapply wp_mono; [apply su_rec; [exact He|unfold DC_SIZE; lia|exact Hi|]|].
    + exists f. split; [exact Ef|unfold DC_SIZE in *; lia].
    + intros o s1 e1 (-> & -> & d & ->). cbv beta iota. destruct (dc_deleted d); [apply wp_ret; auto|]. eapply wp_mono; [apply su_must; [apply su_write_file; discriminate|exact He]|]. intros o s1 e1 (-> & R1 & T1 & [] & -> & _). auto.
  - clear He Hr Ho Eg H2 H3. intros o s1 e1 (-> & He & <- & ->). unfold count_recs, got. destruct e1 as [F1 L1 X1 R1 T1 O1]. pose proof He as (H1 & H2 & H3). cbn [e_flt e_fs e_tch] in *. subst X1. apply wp_bind, wp_bind, wp_bind, wp_get_file_size. intros X' r Hr _. destruct (Hr eq_refl) as (-> & ->). change DC_META_FILE with "ctap_dm".
    unfold fsize. destruct (F1 "ctap_dm") as [f|] eqn:Ef; [|elim (proj2 (proj2 (proj2 H2))); exact Ef]. cbn [option_map]. apply wp_ret, wp_ret. apply wp_bind. eapply wp_mono; [apply su_drop; [exact He|lia|]|].
    + exists f. split; [exact Ef|]. unfold META_SIZE. pose proof (zlen_nonneg (f_data f)). rewrite Z2Nat.id by (apply Z.div_pos; lia). pose proof (Z.mul_div_le (zlen (f_data f)) 76). lia.
    + intros o s1 e1 (-> & R2 & T2 & ->). cbn [e_tch] in T2. cbv beta iota. eapply wp_mono; [apply su_must; [apply su_write_attr; left; reflexivity|exact R2]|]. intros o s1 e2 (-> & R3 & T3 & [] & -> & _). rewrite T3, T2. auto.
Qed.
Lemma su_count : sure any increase_counter.
Proof.
  unfold increase_counter. eapply su_bind; [apply su_got; eapply su_weak; [apply su_attr|]|].
  - cbv beta. intros r Hr. apply Hr. right. auto.
  - intros v _. cbv zeta. eapply su_bind; [apply su_must, su_write_attr; right; split; [reflexivity|discriminate]|]. intros _ _. apply su_ret. exact Logic.I.
Qed.
Lemma su_pin : sure any has_pin.
Proof. unfold has_pin. eapply su_bind; [apply su_attr|]. intros r _. apply su_ret. exact Logic.I. Qed.
(** An id of the device *)
Definition ours (id : bytes) : Prop := zlen id = 70 /\ id_tag id = firstn 16 (f_hmac K (f_hmac K (attr_buf 32 kh) (id_nonce id)) (id_rp id)).
Lemma su_verify id : ours id -> sure (fun v => exists pri, v = Some (Some pri)) (verify_key_handle K id).
Proof.
  intros (_ & Ht) s [F L X R T O] He. pose proof He as (H1 & H2 & H3). cbn [e_flt e_fs] in *. subst X. unfold verify_key_handle, read_key32. apply wp_bind, wp_bind, wp_read_attr. intros X' r Hr _. destruct (Hr eq_refl) as (-> & ->).
  change CTAP_CERT_FILE with "ctap_cert". change KH_KEY_ATTR with 4. rewrite H3. apply wp_ret, wp_ret. cbn [option_map]. rewrite Ht, beqb_refl. repeat split; try apply He. eauto.
Qed.
Lemma load_full buf i : zlen i = 70 -> zlen buf = 70 -> load_id buf i = i.
Proof. intros H1 H2. unfold load_id, ID_SIZE. rewrite H1. cbn [Z.ltb Z.eqb Z.compare Pos.compare Pos.compare_cont Pos.eqb]. unfold overlay. rewrite skipn_all2 by (unfold zlen in *; lia). apply app_nil_r. Qed.
(** The buffer of the credential: an id, and zeros *)
Definition buffer (dc : bytes) : Prop := zlen (dc_id dc) = 70 /\ exists i, zlen i = 70 /\ dc = i ++ zeros 230.
Lemma buffer_over i dc : zlen i = 70 -> buffer dc -> overlay i dc = i ++ zeros 230.
Proof. intros Hi (_ & j & Hj & ->). unfold overlay. f_equal. unfold zlen in *. rewrite skipn_app, skipn_all2 by lia. replace (length i - length j)%nat with 0%nat by lia. reflexivity. Qed.
Lemma buffer_id i : zlen i = 70 -> dc_id (i ++ zeros 230) = i.
Proof. intros Hi. unfold dc_id, slice, zlen in *. change (skipn (Z.to_nat 0) ?l) with l. rewrite firstn_app. replace (Z.to_nat 70 - length i)%nat with 0%nat by lia. rewrite firstn_all2 by lia. cbn [firstn]. apply app_nil_r. Qed.
Lemma buffer_is i : zlen i = 70 -> buffer (i ++ zeros 230). Proof. intros Hi. split; [rewrite buffer_id; exact Hi|eauto]. Qed.
Lemma buffer_zero : buffer (zeros DC_SIZE). Proof. change (zeros DC_SIZE) with (zeros 70 ++ zeros 230). apply buffer_is. reflexivity. Qed.
(** The first id of the list that is for this RP is [id]. *)
Lemma su_allow rp uv pre id post dc : ours id -> id_rp id = rp -> id_dc id = 0 -> id_cp id <> 3 -> Forall (fun i => zlen i = 70 /\ id_rp i <> rp) pre -> buffer dc ->
  sure (fun r => fst r = id ++ zeros 230) (allow K rp uv (pre ++ id :: post) dc).
Proof.
  intros Ho Hrp Hdc Hcp Hpre. revert dc. induction Hpre as [|i pre (Hi & Hn) _ IH]; intros dc Hb; cbn [app allow]; cbv zeta.
  - pose proof (proj1 Ho) as H70. rewrite load_full by (try exact H70; apply Hb). rewrite (proj2 (beqb_eq (id_rp id) rp)) by exact Hrp. cbn [negb]. eapply su_bind; [apply su_verify, Ho|]. intros v (pri & ->).
    assert (Ep : protect_ok id true uv = true) by (unfold protect_ok; destruct (id_cp id =? 2); [apply orb_true_r|]; destruct (id_cp id =? 3) eqn:E3; [lia|reflexivity]). rewrite Ep, Hdc. cbn [negb Z.eqb]. apply su_ret. cbn [fst]. apply buffer_over; assumption.
  - rewrite load_full by (try exact Hi; apply Hb). destruct (beqb (id_rp i) rp) eqn:E; [apply beqb_eq in E; congruence|]. cbn [negb]. apply IH. rewrite buffer_over by assumption. apply buffer_is, Hi.
Qed.
(** The user is there: NFC needs no touch; otherwise the key is touched when it is asked for, if it is asked for. *)
Definition touched (x : cmd) : Prop := x_nfc x = true \/ hd USER_PRESENCE_TIMEOUT (x_tch x) = USER_PRESENCE_OK.
(** getAssertion without pinUvAuthParam and without hmac-secret, for an RP, with an allow list in which [id] is the first of this RP *)
Definition asks_for (q : gareq) (id rp : bytes) : Prop :=
  ga_ok q /\ ga_rphash q = rp /\ ga_param q = None /\ ga_uvopt q <> 1 /\ ga_rk q = 2 /\ ga_hs q = None /\
  exists pre post, ga_allow q = pre ++ id :: post /\ Forall (fun i => zlen i = 70 /\ id_rp i <> rp) pre.
Lemma nth_buffer i n : zlen i = 70 -> (70 <= n)%nat -> nth n (i ++ zeros 230) 0 = 0.
Proof. intros Hi Hn. unfold zlen in Hi. rewrite app_nth2 by lia. unfold zeros. destruct (lt_dec (n - length i) 230) as [H|H]; [|apply nth_overflow; rewrite repeat_length; change (Z.to_nat 230) with 230%nat; lia]. apply nth_repeat. Qed.
Lemma live_get nfc t2 q id s e : keys_work K -> ready e -> octets (e_fs e) -> ours id -> id_dc id = 0 -> id_cp id <> 3 -> id_alg id = -7 \/ id_alg id = -8 -> asks_for q id (id_rp id) -> ga_upopt q = 0 \/ nfc = true \/ hd USER_PRESENCE_TIMEOUT (e_tch e) = USER_PRESENCE_OK ->
  wp (ctap_get_assertion K nfc t2 (inr q)) (fun o _ _ => exists ad sig, o = Ret (CMap [(CInt 1, cred_map id); (CInt 2, CBytes ad); (CInt 3, CBytes sig)]) /\ zlen ad <= 200 /\ zlen sig <= 72) s e.
Proof.
  intros HK He Ho Hid Hdc Hcp Halg (Hok & Hrp & Hpar & Huv & Hrk & Hhs & pre & post & Hal & Hpre) Ht. pose proof (proj1 Hid) as H70. unfold ctap_get_assertion.
  apply wp_bind, wp_modify. apply wp_bind. eapply wp_mono; [apply su_check; assumption|]. intros o s1 e1 (-> & R1 & T1 & ->). rewrite <- T1 in Ht. clear T1 He Ho e. apply wp_bind. unfold ga_begin, touch_probe. rewrite Hpar. cbn [present negb orb].
  apply wp_bind, wp_modify. apply wp_bind, wp_ret. apply wp_bind, wp_guard; [intros _|discriminate]. apply wp_bind, wp_modify. apply wp_bind, wp_guard; [intros _|lia]. apply wp_bind, wp_guard; [intros _|lia]. apply wp_bind. eapply wp_mono; [apply su_pin, R1|]. intros o s2 e2 (-> & R2 & T2 & b & -> & _). rewrite <- T2 in Ht. clear T2 R1 e1. apply wp_ret.
  set (s3 := set_ga _ (set_ga _ _)). unfold ga_rest. apply wp_bind. unfold gets at 1. apply wp_bind, wp_get, wp_ret. change (g_req (c_ga s3)) with q.
  assert (G1 : g_ctr (c_ga s3) = 0) by reflexivity. assert (G2 : g_uv (c_ga s3) = false) by reflexivity. clearbody s3. clear s.
  apply wp_bind. unfold ga_select. unfold gets at 1. do 2 apply wp_bind. apply wp_get, wp_ret.
  assert (Hne : exists y l, ga_allow q = y :: l) by (rewrite Hal; destruct pre; cbn [app]; eauto). destruct Hne as (y & l & Ey). rewrite Ey. rewrite <- Ey, Hal. apply wp_bind. rewrite Hrp, G2. eapply wp_mono; [apply (su_allow (id_rp id) false pre id post); try assumption; [reflexivity|apply buffer_zero]|].
  intros o s4 e4 (-> & R4 & T4 & [dc pri] & -> & Edc). cbn [fst] in Edc. rewrite <- T4 in Ht. clear T4 R2 e2. apply wp_bind, wp_modify, wp_ret. cbv beta iota. set (s5 := set_ga _ _). assert (G3 : g_ctr (c_ga s5) = 0) by exact G1. assert (G4 : g_uv (c_ga s5) = false) by exact G2. clearbody s5. clear G1 G2 s3.
  apply wp_bind. unfold gets at 1. apply wp_bind, wp_get, wp_ret. rewrite G3, G4. cbn [Z.eqb andb].
  apply wp_bind. eapply wp_mono with (Q := fun o s' e' => o = Ret tt /\ ready e' /\ g_ctr (c_ga s') = 0 /\ g_uv (c_ga s') = false).
  { destruct (ga_upopt q =? 0) eqn:Eu; [apply wp_ret; auto|]. destruct Ht as [Ht|Ht]; [lia|]. cbn [negb]. rewrite Hpar. unfold ask_presence, WAIT, cp_clear_flags. cbn [present]. apply wp_bind. destruct nfc.
    - apply wp_ret. apply wp_bind, wp_modify. apply wp_modify. auto.
    - destruct Ht as [Ht|Ht]; [discriminate|]. apply wp_bind. destruct e4 as [F L X R T O]. cbn [e_tch] in Ht. apply wp_wait_touch. rewrite Ht. apply wp_ret. apply wp_bind, wp_modify. apply wp_modify. auto. }
  intros o s6 e6 (-> & R6 & G5 & G6). clear R4 e4 Ht G3 G4 s5. cbv beta iota. subst dc. rewrite buffer_id by exact H70. apply wp_bind, wp_guard.
  2: { intros E. exfalso. unfold protect_ok in E. destruct (ga_allow q); [discriminate|]. destruct (id_cp id =? 2); [rewrite orb_true_r in E; discriminate|]. destruct (id_cp id =? 3) eqn:E3; [lia|discriminate]. }
  intros _. apply wp_bind. unfold ga_ext. rewrite Hhs. cbv zeta. apply wp_bind, wp_ret, wp_ret. set (ext := match _ ++ [] with [] => [] | l0 => enc (CMap l0) end).
  assert (Hx : zlen ext <= 60).
  { unfold ext, dc_blob_len. rewrite (nth_buffer id 267 H70) by (apply Nat.leb_le; reflexivity). destruct (ga_blob q); cbn [app]; [|vm_compute; discriminate]. eapply Z.le_trans; [apply enc_bound|]. unfold txt. cbn [bound]. pose proof (slice_le 0 0 (dc_blob (id ++ zeros 230)) ltac:(lia)) as Hl. change (zlen (chars "credBlob")) with 8. lia. }
  clearbody ext. apply wp_bind. unfold gets at 1. apply wp_bind, wp_get, wp_ret. apply wp_bind. unfold make_auth_data. apply wp_bind. eapply wp_mono; [apply su_count, R6|]. intros o s7 e7 (-> & R7 & _ & c & -> & _). cbv beta iota zeta. apply wp_ret. cbv beta iota. cbn [fst].
  set (ad := _ ++ ext). assert (Had : zlen ad <= 200) by (unfold ad; rewrite !zlen_app; change (zlen [_]) with 1; unfold zlen at 2; rewrite to_be_length; destruct Hok as (_ & Hr & _); rewrite Hrp in Hr; lia). clearbody ad.
  apply wp_bind. unfold sign_with_private_key, cose_alg_to_key_type, gets. apply wp_bind, wp_bind, wp_get, wp_ret, wp_ret.
  assert (Ek : exists kt, (if id_alg id =? ALG_ES256 then Some KP256 else if id_alg id =? ALG_EDDSA then Some KEd25519 else if sm2_enabled (c_sm2 s6) && (id_alg id =? sm2_algo (c_sm2 s6)) then Some KSm2 else None) = Some kt) by (destruct Halg as [-> | ->]; eexists; reflexivity).
  destruct Ek as (kt & ->). destruct (proj2 HK kt pri (ad ++ ga_cdh q)) as (sig & -> & Hs). rewrite Hdc. unfold dc_lbk. rewrite (nth_buffer id 266 H70) by (apply Nat.leb_le; reflexivity). cbn [Z.eqb]. apply wp_bind, wp_ret. apply wp_bind, wp_modify, wp_ret.
  exists ad, sig. destruct (ga_allow q) as [|z0 l0] eqn:El; [discriminate|]. cbn [andb app]. auto.
Qed.
End H.

(** ** C91 *)
(** A registration, anything but a reset (power cuts and errors of the storage included), and then a request to sign with this credential, during which the storage works: it is answered with a
    signature.  [alive]: the storage of an installed device; [octets]: one of its values, which the firmware stored, consists of bytes. *)
Theorem C91_get_assertion K d1 v1 o1 tr d2 x q id alg rp pub : hmac_sized K -> points_sized K -> keys_work K ->
  alive (d_fs d1) -> hist K d1 ((d1, v1, o1) :: tr) d2 -> Forall no_reset ((d1, v1, o1) :: tr) ->
  registers (d1, v1, o1) id alg rp pub -> plain (d1, v1, o1) -> alg = -7 \/ alg = -8 ->
  x_op x = OCbor (RGet (inr q)) -> asks_for q id rp -> ga_upopt q = 0 \/ touched x -> x_flt x = [] -> 1300 <= x_cap x -> octets (d_fs d2) ->
  exists ad sig s e, exec K d2 x = (Some (ACbor 0 (Some (CMap [(CInt 1, CMap [(txt "id", CBytes id); (txt "type", txt "public-key")]); (CInt 2, CBytes ad); (CInt 3, CBytes sig)]))), s, e).
Proof.
  intros Hz Hp HK HA H Hr HR Hpl Ha Hx Hq Ht HX Hc Ho. change ((d1, v1, o1) :: tr) with ([(d1, v1, o1)] ++ tr) in H. apply hist_app in H. destruct H as (da & H1 & H2). destruct (hist_one _ _ _ _ H1) as (w1 & p1 & E1 & V1 & S1). injection E1 as <- <-. inversion Hr as [|? ? N1 N2]; subst.
  destruct (registers_id K _ _ _ _ _ _ _ _ Hz Hp V1 S1 HR) as (A1 & <- & <- & A4 & pri & kh & A5 & -> & A6). destruct (A4 Hpl) as (B1 & B2).
  assert (HF : kept (d_fs d1) (d_fs d1)). { split; [apply HA|]. split; [|reflexivity]. intros E. unfold fattr in A5. rewrite E in A5. discriminate. }
  pose proof (hist_kept K _ _ _ _ H2 N2 (step_kept K _ _ _ _ _ HF V1 N1 S1)) as (_ & _ & B3). rewrite A5 in B3. pose proof (hist_alive K _ _ _ H2 N2 (step_alive K _ _ _ _ HA V1 N1 S1)) as B4.
  pose proof (live_get K kh (x_nfc x) (x_t2 x) q id (set_tok (fun t => if negb (t_use t) then t else if t_end t <? x_t1 x then tok_stop t else t) (d_ram d2)) (start (d_fs d2) (x_flt x) (x_rnd x) (x_tch x)) HK) as W. unfold wp in W.
  unfold exec. rewrite Hx. unfold cbor_body, process_cbor, cbor_cmd, cp_observer. unfold bind at 1, modify at 1. unfold bind at 1.
  destruct (ctap_get_assertion K (x_nfc x) (x_t2 x) (inr q) _ _) as [[o s] e]. destruct W as (ad & sig & -> & L1 & L2); try assumption.
  - split; [exact HX|]. split; [exact B4|exact B3].
  - split; [exact A1|exact A6].
  - unfold ret. destruct (_ <=? _) eqn:El; [eauto|]. exfalso. apply Z.leb_gt in El. unfold message in El. cbn [fst snd] in El. match type of El with context [enc ?v] => pose proof (enc_bound v) as Hb end.
    rewrite zlen_cons in El. unfold cred_map, txt in *. cbn [bound] in Hb. change (zlen (chars "id")) with 2 in Hb. change (zlen (chars "type")) with 4 in Hb. change (zlen (chars "public-key")) with 10 in Hb. lia.
Qed.
Print Assumptions C91_get_assertion.
(** U2F authentication works with every credential. *)
Theorem C91_u2f K d1 v1 o1 tr d2 x p1 chal id alg rp pub : hmac_sized K -> points_sized K -> keys_work K ->
  alive (d_fs d1) -> hist K d1 ((d1, v1, o1) :: tr) d2 -> Forall no_reset ((d1, v1, o1) :: tr) -> registers (d1, v1, o1) id alg rp pub ->
  x_op x = OAuth p1 (chal ++ rp ++ [70] ++ id) -> zlen chal = 32 -> p1 <> 7 -> touched x -> x_flt x = [] ->
  exists ctr sig s e, exec K d2 x = (Some (AApdu (mkR ([1] ++ ctr ++ sig) 0x9000)), s, e) /\ zlen ctr = 4.
Proof.
  intros Hz Hp HK HA H Hr HR Hx Hch Hp1 Ht HX. change ((d1, v1, o1) :: tr) with ([(d1, v1, o1)] ++ tr) in H. apply hist_app in H. destruct H as (da & H1 & H2). destruct (hist_one _ _ _ _ H1) as (w1 & p2 & E1 & V1 & S1). injection E1 as <- <-. inversion Hr as [|? ? N1 N2]; subst.
  destruct (registers_id K _ _ _ _ _ _ _ _ Hz Hp V1 S1 HR) as (A1 & <- & <- & _ & pri & kh & A5 & -> & A6).
  assert (HF : kept (d_fs d1) (d_fs d1)). { split; [apply HA|]. split; [|reflexivity]. intros E. unfold fattr in A5. rewrite E in A5. discriminate. }
  pose proof (hist_kept K _ _ _ _ H2 N2 (step_kept K _ _ _ _ _ HF V1 N1 S1)) as (_ & _ & B3). rewrite A5 in B3. pose proof (hist_alive K _ _ _ H2 N2 (step_alive K _ _ _ _ HA V1 N1 S1)) as B4.
  pose proof (exec_wp K d2 x (fun o s e => exists ctr sig, o = Some (AApdu (mkR ([1] ++ ctr ++ sig) 0x9000)) /\ zlen ctr = 4)) as W. destruct (exec K d2 x) as [[o s] e]. destruct W as (ctr & sig & -> & L4); [|eauto 6]. rewrite Hx. unfold body. rewrite Hx. clear o s e.
  assert (R32 : zlen (id_rp id) = 32) by (unfold id_rp; rewrite zlen_slice; lia). set (data := chal ++ id_rp id ++ [70] ++ id).
  assert (S1' : slice 32 32 data = id_rp id) by (apply mid; assumption). assert (S2 : slice 65 70 data = id). { unfold data. rewrite !app_assoc. pose proof (mid ((chal ++ id_rp id) ++ [70]) id [] 65 70) as M. rewrite app_nil_r in M. apply M; [|exact A1]. rewrite !zlen_app, Hch, R32. reflexivity. }
  assert (S3 : nth 64 data 0 = 70). { unfold data. rewrite app_assoc, app_nth2 by (rewrite app_length; unfold zlen in *; lia). rewrite app_length. unfold zlen in *. replace (64 - (length chal + length (id_rp id)))%nat with 0%nat by lia. reflexivity. }
  assert (S4 : zlen data = 135) by (unfold data; rewrite !zlen_app, Hch, R32, A1; reflexivity).
  apply wp_bind. unfold u2f_authenticate. fold data. cbv zeta. rewrite S1', S2, S3, S4, beqb_refl. do 3 (apply wp_bind, wp_guard; [intros _|discriminate]).
  assert (He : ready kh (start (d_fs d2) (x_flt x) (x_rnd x) (x_tch x))) by (split; [exact HX|split; [exact B4|exact B3]]).
  apply wp_bind. eapply wp_mono; [apply (su_verify K kh id); [split; assumption|exact He]|]. intros o s1 e1 (-> & R1 & T1 & v & -> & pri & ->). apply wp_bind, wp_guard; [intros _|lia].
  apply wp_bind. eapply wp_mono with (Q := fun o s' e' => o = Ret tt /\ ready kh e').
  { unfold u2f_touch. destruct Ht as [Ht|Ht]; [rewrite Ht; apply wp_ret; auto|]. destruct (x_nfc x); [apply wp_ret; auto|]. apply wp_bind. destruct e1 as [F L X R T O]. cbn [e_tch start] in T1. subst T. apply wp_wait_touch. rewrite Ht. apply wp_guard; [auto|discriminate]. }
  intros o s2 e2 (-> & R2). cbv beta iota. apply wp_bind. pose proof (su_count kh s2 e2 R2) as W. unfold wp in W |- *. destruct (increase_counter s2 e2) as [[o s3] e3]. destruct W as (-> & R3 & _ & c & -> & _).
  destruct (proj2 HK KP256 pri (id_rp id ++ [FLAGS_UP] ++ to_be 4 c ++ slice 0 32 data)) as (sig & -> & _). cbn. exists (to_be 4 c), sig. split; [reflexivity|unfold zlen; rewrite to_be_length; reflexivity].
Qed.
Print Assumptions C91_u2f.

(** ** A case *)
Definition id91 : bytes := nth 1 ids86 [].
Definition pub91 : bytes := Eval vm_compute in match f_pub toyk KP256 (f_hmac toyk (attr_buf 32 (match fattr (d_fs dev86) "ctap_cert" 4 with Some k => k | None => [] end)) (id_nonce id91)) with Some p => p | None => [] end.
Definition aliveb (F : fs) : bool :=
  match F "ctap_lb", fattr F "ctap_cert" 1, fattr F "ctap_dc" 0, F "ctap_dm" with Some _, Some _, Some a, Some _ => forallb (fun b => (0 <=? b) && (b <? 256)) a | _, _, _, _ => false end.
Lemma aliveb_ok F : aliveb F = true -> alive F /\ octets F.
Proof.
  unfold aliveb, alive, octets. destruct (F "ctap_lb"); [|discriminate]. destruct (fattr F "ctap_cert" 1); [|discriminate]. destruct (fattr F "ctap_dc" 0) as [a|]; [|discriminate]. destruct (F "ctap_dm"); [|discriminate].
  intros H. repeat split; try discriminate. intros a0 E. injection E as <-. apply all_bytesb. exact H.
Qed.
Definition test91 (tr : list entry) (d : dev) : bool :=
  match tr with
  | [_; _; (d1, _, Some (ACbor 0 (Some (CMap (_ :: (CInt 2, CBytes ad) :: _))))); _] =>
      beqb ad (firstn 53 ad ++ [0; 70] ++ id91 ++ enc (cose_key (-7) pub91) ++ []) && beqb (firstn 32 ad) (repeat 7 32) && aliveb (d_fs d1) && aliveb (d_fs d)
  | _ => false
  end.
Definition other91 : bytes := repeat 3 70.
(** A registration with ES256, another one, and a request with an id of another RP before this one: the hypotheses of both theorems hold. *)
Example C91_case : hmac_sized toyk /\ points_sized toyk /\ keys_work toyk /\ exists d1 v1 o1 tr d2, hist toyk d1 ((d1, v1, o1) :: tr) d2 /\ length tr = 1%nat /\ alive (d_fs d1) /\ Forall no_reset ((d1, v1, o1) :: tr) /\
  registers (d1, v1, o1) id91 (-7) (repeat 7 32) pub91 /\ plain (d1, v1, o1) /\ asks_for (ga_of 7 [other91; id91] None) id91 (repeat 7 32) /\ touched (cmd_at 20010 (OCbor (RGet (inr (ga_of 7 [other91; id91] None))))) /\
  x_cap (cmd_at 20010 (OCbor (RGet (inr (ga_of 7 [other91; id91] None))))) = 1300 /\ octets (d_fs d2).
Proof.
  split; [intros k m; apply toy_sha_length|]. split; [intros pri pub E; cbn [toyk f_pub] in E; injection E as <-; rewrite zlen_app, !attr_buf_len by lia; reflexivity|].
  split; [split; [intros kt k; eexists; split; [reflexivity|rewrite zlen_app, !attr_buf_len by lia; lia]|intros kt k m; eexists; split; [reflexivity|rewrite toy_sha_length; lia]]|].
  destruct (play_case toyk dev86 start86 test91) as (tr & d & H1 & H2 & H3); [vm_compute; reflexivity|].
  unfold test91 in H2. destruct tr as [|e0 tr]; [discriminate|]. destruct tr as [|e1 tr]; [discriminate|]. destruct tr as [|[[d1 v1] o1] tr]; [discriminate|].
  destruct o1 as [[c o1|]|]; try discriminate. destruct c; try discriminate. destruct o1 as [[| | | | |m|]|]; try discriminate. destruct m as [|m0 m]; [discriminate|]. destruct m as [|[k w] m]; [discriminate|]. destruct k as [z| | | | | |]; try discriminate. destruct z as [|[z|[z|z|]|]|]; try discriminate. destruct w as [|ad| | | | |]; try discriminate.
  destruct tr as [|[[d2 v2] o2] tr]; [discriminate|]. destruct tr; [|discriminate]. repeat match type of H2 with _ && _ = true => apply andb_true_iff in H2; let H := fresh "T" in destruct H2 as (H2 & H) end. apply beqb_eq in H2, T1. apply aliveb_ok in T, T0.
  injection H3 as _ _ E1 E2. subst v1 v2. change (e0 :: e1 :: ?x :: ?l) with ([e0; e1] ++ (x :: l)) in H1. apply hist_app in H1. destruct H1 as (d1' & _ & H1). pose proof H1 as H1'.
  match type of H1 with hist _ _ (?x :: ?l) _ => change (x :: l) with ([x] ++ l) in H1' end. apply hist_app in H1'. destruct H1' as (da & H1' & _). apply hist_one in H1'. destruct H1' as (w & o & E & _). injection E as <- <- <-.
  eexists d1, _, _, _, d. split; [exact H1|]. split; [reflexivity|]. split; [apply T0|]. split; [repeat constructor|]. split; [eapply (reg_make d1 _ (mk_alg 7 (-7))); [reflexivity|reflexivity|exact H2|exact T1]|].
  split; [split; discriminate|]. split; [|split; [right; reflexivity|split; [reflexivity|apply T]]]. split; [split; split; try reflexivity; apply all_bytesb; reflexivity|]. repeat (split; [try reflexivity; discriminate|]). exists [other91], []. split; [reflexivity|]. constructor; [split; [reflexivity|discriminate]|constructor].
Qed.
