(** Relations between the variables before and after a command of the FIDO applet. *)
From Verif Require Import Sys Ctap CtapSpec.
Open Scope string_scope. Open Scope list_scope. Open Scope Z_scope.

Section Rel.
Variable K : fcrypto.
Variable nfc : bool.
Variables t1 t2 : Z.
Variable junk : bytes.
Variable R : ctap -> ctap -> Prop.
Hypothesis R_refl : forall s, R s s.
Hypothesis R_trans : forall a b c, R a b -> R b c -> R a c.
(** Whatever the storage, errors, randomness and touches *)
Definition rl {A} (m : Mc A) : Prop := forall s e, wp m (fun o s' _ => match o with UB => True | _ => R s s' end) s e.
Lemma rl_bind {A B} (m : Mc A) (k : A -> Mc B) : rl m -> (forall a, rl (k a)) -> rl (bind m k).
Proof.
  intros Hm Hk s e. apply wp_bind. eapply wp_mono; [apply Hm|]. intros [a|w| |] s' e' H; try exact H.
  eapply wp_mono; [apply Hk|]. intros [b|w| |] s2 e2 H2; try exact I; eapply R_trans; eauto.
Qed.
Lemma rl_same {A} (m : Mc A) : (forall s e, snd (fst (m s e)) = s) -> rl m.
Proof. intros H s e. unfold wp. specialize (H s e). destruct (m s e) as [[o s'] e']. cbn [fst snd] in H. subst s'. destruct o; auto. Qed.
Lemma rl_ret {A} (a : A) : rl (ret a). Proof. apply rl_same; reflexivity. Qed.
Lemma rl_get : rl get. Proof. apply rl_same; reflexivity. Qed.
Lemma rl_fail {A} : rl (@fail ctap A). Proof. apply rl_same; reflexivity. Qed.
Lemma rl_ub {A} : rl (@ub ctap A). Proof. apply rl_same; reflexivity. Qed.
Lemma rl_except {A} w : rl (@except ctap A w). Proof. apply rl_same; reflexivity. Qed.
Lemma rl_guard b w : rl (guard b w). Proof. apply rl_same; destruct b; reflexivity. Qed.
Lemma rl_set_out d : rl (set_out d). Proof. apply rl_same; reflexivity. Qed.
Lemma rl_random n : rl (random_buffer n). Proof. apply rl_same; reflexivity. Qed.
Lemma rl_wait : rl wait_touch. Proof. apply rl_same; intros s e; unfold wait_touch; destruct (e_tch e); reflexivity. Qed.
Ltac sm := apply rl_same; intros s e; unfold read_file, read_attr, get_file_size, write_file, write_attr, fs_rename, pop_fault; destruct (e_flt e) as [|[] ?]; cbn; try reflexivity; repeat (match goal with |- context [match ?x with _ => _ end] => destruct x end; try reflexivity).
Lemma rl_read_file p o n : rl (read_file p o n). Proof. sm. Qed.
Lemma rl_read_attr p a : rl (read_attr p a). Proof. sm. Qed.
Lemma rl_size p : rl (get_file_size p). Proof. sm. Qed.
Lemma rl_write_file p d o t : rl (write_file p d o t). Proof. sm. Qed.
Lemma rl_write_attr p a v : rl (write_attr p a v). Proof. sm. Qed.
Lemma rl_rename p q : rl (fs_rename p q). Proof. sm. Qed.
Lemma rl_modify f : (forall s, R s (f s)) -> rl (modify f). Proof. intros H s e. apply H. Qed.
Lemma rl_must b : rl b -> rl (must b). Proof. intros H. apply rl_bind; [exact H|]. intros x. apply rl_guard. Qed.
Lemma rl_got {A} (b : Mc (option A)) : rl b -> rl (got b). Proof. intros H. apply rl_bind; [exact H|]. intros [x|]; [apply rl_ret|apply rl_except]. Qed.
Lemma rl_gets {A} (f : ctap -> A) : rl (gets f). Proof. apply rl_bind; [apply rl_get|]. intros x. apply rl_ret. Qed.

(** The updates of the variables *)
Hypothesis R_ga : forall f s, R s (set_ga f s).
Hypothesis R_cm : forall f s, R s (set_cm f s).
Hypothesis R_lb : forall a b s, R s (set_lb a b s).
Hypothesis R_cpc : forall z s, R s (set_cpc z s).
Hypothesis R_cpc' : forall f s, R s (set_cpc (f s) s).
Hypothesis R_sm2 : forall z s, R s (set_sm2 z s).
Hypothesis R_last : forall z s, R s (set_last z s).
Hypothesis R_end : forall s, R s (set_tok (tk_end (u32 (t2 + 30000))) s).
Hypothesis R_clear : forall s, R s (set_tok (fun t => if t_use t then tk_perm (Z.land (t_perm t) (255 - PERM_LBW)) (tk_uv false (tk_up false t)) else t) s).
Hypothesis R_obs : forall s, R s (set_tok (fun t => if negb (t_use t) then t else if t_end t <? t1 then tok_stop t else t) s).
Hypothesis R_ka : forall k s, R s (set_tok (tk_ka k) s).
Hypothesis R_new : forall r s, R s (set_tok (fun t => tok_stop (tk_token r t)) s).
Hypothesis R_mc_token : forall q sig, rl (mc_token K t2 q sig).
Hypothesis R_ga_token : forall q sig, rl (ga_token K t2 q sig).
Ltac fc1 :=
  lazymatch goal with
  | |- rl (bind _ _) => apply rl_bind; [|intros ?]
  | |- rl (ret _) => apply rl_ret
  | |- rl (got _) => apply rl_got
  | |- rl (must _) => apply rl_must
  | |- rl (gets _) => apply rl_gets
  | |- rl get => apply rl_get
  | |- rl ub => apply rl_ub
  | |- rl fail => apply rl_fail
  | |- rl (except _) => apply rl_except
  | |- rl (guard _ _) => apply rl_guard
  | |- rl (set_out _) => apply rl_set_out
  | |- rl wait_touch => apply rl_wait
  | |- rl (random_buffer _) => apply rl_random
  | |- rl (read_file _ _ _) => apply rl_read_file
  | |- rl (read_attr _ _) => apply rl_read_attr
  | |- rl (get_file_size _) => apply rl_size
  | |- rl (write_file _ _ _ _) => apply rl_write_file
  | |- rl (write_attr _ _ _) => apply rl_write_attr
  | |- rl (fs_rename _ _) => apply rl_rename
  | |- rl (modify (set_ga _)) => apply rl_modify; intros ?; simple apply R_ga
  | |- rl (modify (set_cm _)) => apply rl_modify; intros ?; simple apply R_cm
  | |- rl (modify (set_lb _ _)) => apply rl_modify; intros ?; simple apply R_lb
  | |- rl (modify (set_cpc _)) => apply rl_modify; intros ?; simple apply R_cpc
  | |- rl (modify (fun s => set_cpc _ s)) => apply rl_modify; intros ?; simple apply (R_cpc' (fun s => u8 (c_cpc s - 1)))
  | |- rl (modify (set_sm2 _)) => apply rl_modify; intros ?; simple apply R_sm2
  | |- rl (modify (set_last _)) => apply rl_modify; intros ?; simple apply R_last
  | |- rl (modify (set_tok (tk_end _))) => apply rl_modify; intros ?; simple apply R_end
  | |- rl (modify (set_tok (tk_ka _))) => apply rl_modify; intros ?; simple apply R_ka
  | |- rl (modify (set_tok _)) => apply rl_modify; intros ?; first [simple apply R_clear|simple apply R_obs|simple apply R_new]
  | |- rl (let _ := _ in _) => cbv zeta
  | |- rl (let '(_, _) := ?x in _) => destruct x
  | |- rl (match ?x with _ => _ end) => destruct x
  | |- rl _ => match goal with H : context [rl] |- _ => simple apply H end
  end.
Ltac fc := repeat fc1.
Ltac un := unfold WAIT, has_pin, cp_user_present, cp_user_verified,
   cp_clear_flags, cp_has_permission, cp_has_rp, cp_verify_rp, cp_associate_rp, cp_verify_token, verify_key_handle,
   sign_with_device_key, sign_with_private_key, make_large_blob_key, cp_encrypt, cp_decapsulate, cp_observer, cp_regenerate, cp_begin_using,
   cp_reset_token, cp_set_permission, read_rec, count_recs, read_general, read_key32, cose_alg_to_key_type.

Lemma rl_count : rl increase_counter.
Proof. unfold increase_counter. cbv zeta. fc. Qed.
Lemma rl_drop_slot n i idx : rl (drop_slot n i idx).
Proof. revert i; induction n; intros i; cbn [drop_slot]; un; fc. Qed.
Lemma rl_consistency : rl consistency_check.
Proof. pose proof rl_drop_slot. unfold consistency_check. un. fc. Qed.
Lemma rl_derive n kt kh rp alg dc cp : rl (derive K n kt kh rp alg dc cp).
Proof. induction n; cbn [derive]; cbv zeta; fc. Qed.
Lemma rl_generate rp alg dc cp : rl (generate_key_handle K rp alg dc cp).
Proof. pose proof (rl_derive 64). unfold generate_key_handle. un. fc. Qed.
Lemma rl_auth_data rp fl ext at_ : rl (make_auth_data K rp fl ext at_).
Proof. pose proof rl_generate. pose proof rl_count. unfold make_auth_data. cbv zeta. fc. Qed.
Lemma rl_exclude q uv l buf : rl (exclude K nfc q uv l buf).
Proof. revert buf; induction l; intros buf; cbn [exclude]; cbv zeta; un; fc. Qed.
Lemma rl_find_slot n pos fd rp user buf : rl (find_slot n pos fd rp user buf).
Proof. revert pos fd buf; induction n; intros pos fd buf; cbn [find_slot]; un; fc. Qed.
Lemma rl_find_meta n pos fd rp : rl (find_meta n pos fd rp).
Proof. revert pos fd; induction n; intros pos fd; cbn [find_meta]; un; fc. Qed.
Lemma rl_mc_store q id : rl (mc_store q id).
Proof. pose proof rl_find_slot. pose proof rl_find_meta. unfold mc_store. cbv zeta. un. fc. Qed.
Lemma rl_touch_probe p : rl (touch_probe nfc p). Proof. unfold touch_probe. un. fc. Qed.
Lemma rl_mc_auth q : rl (mc_auth K t2 q). Proof. unfold mc_auth. un. fc. Qed.
Lemma rl_ask b : rl (ask_presence nfc b). Proof. unfold ask_presence. un. fc. Qed.
Lemma rl_mc_att q ad : rl (mc_att K q ad). Proof. unfold mc_att. un. fc. Qed.
Lemma rl_make p : rl (ctap_make_credential K nfc t2 junk p).
Proof.
  pose proof rl_consistency. pose proof rl_touch_probe. pose proof rl_mc_auth. pose proof rl_exclude. pose proof rl_ask. pose proof rl_auth_data.
  pose proof rl_mc_store. pose proof rl_mc_att. unfold ctap_make_credential. cbv zeta. un. fc.
Qed.
Lemma rl_ga_begin q : rl (ga_begin K nfc t2 q). Proof. pose proof rl_touch_probe. unfold ga_begin. un. fc. Qed.
Lemma rl_find_dc n j rp nonce buf : rl (find_dc n j rp nonce buf).
Proof. revert j buf; induction n; intros j buf; cbn [find_dc]; un; fc. Qed.
Lemma rl_allow rp uv l dc : rl (allow K rp uv l dc).
Proof. pose proof rl_find_dc. revert dc; induction l; intros dc; cbn [allow]; cbv zeta; un; fc. Qed.
Lemma rl_applicable n rp uv : rl (applicable n rp uv).
Proof. induction n; cbn [applicable]; cbv zeta; un; fc. Qed.
Lemma rl_ga_select q : rl (ga_select K q).
Proof. pose proof rl_allow. pose proof rl_applicable. unfold ga_select. un. fc. Qed.
Lemma rl_ga_ext q dc : rl (ga_ext K q dc).
Proof. unfold ga_ext, ga_hmac_secret. cbv zeta. un. fc. Qed.
Lemma rl_ga_rest : rl (ga_rest K nfc t2).
Proof. pose proof rl_ga_select. pose proof rl_ask. pose proof rl_ga_ext. pose proof rl_auth_data. unfold ga_rest. cbv zeta. un. fc. Qed.
Lemma rl_ga p : rl (ctap_get_assertion K nfc t2 p).
Proof. pose proof rl_consistency. pose proof rl_ga_begin. pose proof rl_ga_rest. unfold ctap_get_assertion. fc.  Qed.
Lemma rl_gna : rl (ctap_get_next_assertion K nfc t1 t2).
Proof. pose proof rl_ga_rest. unfold ctap_get_next_assertion. fc. Qed.
Lemma rl_info : rl ctap_get_info. Proof. unfold ctap_get_info. un. fc. Qed.
Lemma rl_scan_rps n : rl (scan_rps n). Proof. induction n; cbn [scan_rps]; cbv zeta; un; fc. Qed.
Lemma rl_next_rp n i : rl (next_rp n i). Proof. revert i; induction n; intros i; cbn [next_rp]; un; fc. Qed.
Lemma rl_find_rp n i h : rl (find_rp n i h). Proof. revert i; induction n; intros i; cbn [find_rp]; un; fc. Qed.
Lemma rl_find_id n i h : rl (find_id n i h). Proof. revert i; induction n; intros i; cbn [find_id]; un; fc. Qed.
Lemma rl_drop_from n i x h : rl (drop_from_meta n i x h). Proof. revert i; induction n; intros i; cbn [drop_from_meta]; un; fc. Qed.
Lemma rl_cm_auth q : rl (cm_auth K t2 q). Proof. unfold cm_auth. un. fc. Qed.
Lemma rl_cm_credential b : rl (cm_credential K b).
Proof. unfold cm_credential, get_next_slot. cbv zeta. un. fc. Qed.
Lemma rl_cm_rps n : rl (cm_rps_begin n). Proof. pose proof rl_scan_rps. unfold cm_rps_begin. cbv zeta. un. fc. Qed.
Lemma rl_cm_next_rp q : rl (cm_next_rp q). Proof. pose proof rl_next_rp. unfold cm_next_rp, cm_next_allowed. cbv zeta. fc. Qed.
Lemma rl_cm_creds q n : rl (cm_creds_begin K q n). Proof. pose proof rl_find_rp. pose proof rl_cm_credential. unfold cm_creds_begin. cbv zeta. un. fc. Qed.
Lemma rl_cm_next_cred q : rl (cm_next_cred K q). Proof. pose proof rl_cm_credential. unfold cm_next_cred, cm_next_allowed. fc. Qed.
Lemma rl_cm_delete q n : rl (cm_delete q n). Proof. pose proof rl_find_id. pose proof rl_drop_from. unfold cm_delete. cbv zeta. un. fc. Qed.
Lemma rl_cm_update q n : rl (cm_update q n). Proof. pose proof rl_find_id. unfold cm_update. cbv zeta. un. fc. Qed.
Lemma rl_cm p : rl (ctap_credential_management K t2 p).
Proof.
  pose proof rl_consistency as H1. pose proof rl_cm_auth as H2. pose proof rl_cm_rps as H3. pose proof rl_cm_next_rp as H4. pose proof rl_cm_creds as H5. pose proof rl_cm_next_cred as H6.
  pose proof rl_cm_delete as H7. pose proof rl_cm_update as H8.
  assert (H9 : forall n, rl (cm_metadata n)) by (intros n; unfold cm_metadata; un; fc). 
  unfold ctap_credential_management. cbv zeta. fc.
Qed.
Lemma rl_lb_read n off len : rl (lb_read n off len). Proof. revert off; induction n; intros off; cbn [lb_read]; cbv zeta; un; fc. Qed.
Lemma rl_lb_auth q : rl (lb_auth K t2 q). Proof. unfold lb_auth. un. fc. Qed.
Lemma rl_lb p : rl (ctap_large_blobs K t2 p).
Proof. pose proof rl_lb_read. pose proof rl_lb_auth. unfold ctap_large_blobs, lb_store, lb_fetch. cbv zeta. un. fc. Qed.
Lemma rl_register cap d : rl (u2f_register K nfc cap d).
Proof. pose proof rl_generate. unfold u2f_register, u2f_touch. cbv zeta. un. fc. Qed.
Lemma rl_auth p1 d : rl (u2f_authenticate K nfc p1 d).
Proof.
  unfold u2f_authenticate, u2f_touch. cbv zeta. un. 
  apply rl_bind; [fc|intros _]. apply rl_bind; [fc|intros _]. apply rl_bind; [fc|intros _]. apply rl_bind; [fc|intros a].
  destruct a as [[pri|]|]; try solve [fc]. apply rl_bind; [fc|intros _]. apply rl_bind; [fc|intros _]. apply rl_bind.
  - intros s e. pose proof (rl_count s e) as H. unfold wp in *. destruct (increase_counter s e) as [[[] s'] e']; exact H.
  - intros c. fc.
Qed.
Lemma rl_check_pin key h proto r b : rl (check_pin K key h proto r b).
Proof. unfold check_pin, verify_pin_hash, set_pin_retries. un. fc. Qed.
Lemma rl_new_pin d : rl (new_pin K d). Proof. unfold new_pin, set_pin. cbv zeta. fc. Qed.
Definition asks_token (q : cpreq) : bool := (cp_sub q =? 5) || (cp_sub q =? 9).
Lemma rl_pin p : (forall q, p = inr q -> asks_token q = true -> rl (get_token_cmd K t2 q)) -> rl (ctap_client_pin K t2 p).
Proof.
  intros HT. pose proof rl_check_pin. pose proof rl_new_pin. unfold ctap_client_pin. destruct p as [err|q]; [apply rl_except|].
  destruct (cp_sub q =? 1); [unfold get_pin_retries; fc|]. destruct (cp_sub q =? 2); [fc|].
  destruct (cp_sub q =? 3); [unfold set_pin_cmd; cbv zeta; un; fc|].
  destruct (cp_sub q =? 4); [unfold change_pin_cmd, pin_retries_left, get_pin_retries; cbv zeta; un; fc|].
  destruct ((cp_sub q =? 5) || (cp_sub q =? 9)) eqn:E; [|fc]. apply rl_bind; [apply (HT q eq_refl E)|intros v; fc].
Qed.
Lemma rl_install b : rl (ctap_install K b).
Proof. unfold ctap_install, cp_initialize. un. fc. Qed.
Lemma rl_cbor q : (forall p, q = RPin (inr p) -> asks_token p = true -> rl (get_token_cmd K t2 p)) -> rl (cbor_cmd K nfc t1 t2 junk q).
Proof.
  intros HT. pose proof rl_make. pose proof rl_ga. pose proof rl_gna. pose proof rl_info. pose proof rl_cm. pose proof rl_lb. pose proof rl_pin. pose proof rl_install.
  unfold cbor_cmd, ctap_reset_data. apply rl_bind; [un; fc|intros _]. destruct q; un; fc. intros q -> E. exact (HT q eq_refl E).
Qed.
Lemma rl_process cap q : rl (cbor_cmd K nfc t1 t2 junk q) -> rl (process_cbor K nfc t1 t2 junk cap q).
Proof.
  intros H s e. specialize (H s e). unfold wp, process_cbor in *. destruct (cbor_cmd K nfc t1 t2 junk q s e) as [[[v|c| |] s'] e']; try exact Logic.I.
  - destruct (_ <=? cap); [|exact Logic.I]. eapply R_trans; [exact H|apply R_last].
  - eapply R_trans; [exact H|apply R_last].
Qed.
End Rel.
