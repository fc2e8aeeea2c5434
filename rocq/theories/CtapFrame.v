(** What the FIDO commands leave alone. *)
From Verif Require Export CtapSpec Frame.
Open Scope string_scope. Open Scope list_scope. Open Scope Z_scope.

(** Like [frame], with a weaker invariant [Q] of the images that a power cut can leave. *)
Section Keep.
Context {S : Type}.
Variable I : S -> Prop.
Variables P Q : fs -> Prop.
Hypothesis PQ : forall F, P F -> Q F.
Definition kgood (s : S) (e : env) : Prop := I s /\ P (e_fs e) /\ Forall Q (e_log e).
Definition keep {A} (m : M S A) : Prop := forall s e, kgood s e -> wp m (fun _ s' e' => kgood s' e') s e.

Lemma kp_bind {A B} (m : M S A) (k : A -> M S B) : keep m -> (forall a, keep (k a)) -> keep (bind m k).
Proof.
  intros Hm Hk s e H. apply wp_bind. eapply wp_mono; [apply Hm, H|]. intros [a|w| |] s' e' H'; try exact H'. apply Hk, H'.
Qed.
Lemma kp_ret {A} (a : A) : keep (ret a). Proof. intros s e H; exact H. Qed.
Lemma kp_lift {A} (a : out A) : keep (lift a). Proof. intros s e H; exact H. Qed.
Lemma kp_get : keep get. Proof. intros s e H; exact H. Qed.
Lemma kp_fail {A} : keep (@fail S A). Proof. intros s e H; exact H. Qed.
Lemma kp_ub {A} : keep (@ub S A). Proof. intros s e H; exact H. Qed.
Lemma kp_except {A} w : keep (@except S A w). Proof. intros s e H; exact H. Qed.
Lemma kp_guard b w : keep (guard b w). Proof. destruct b; intros s e H; exact H. Qed.
Lemma kp_need {A} (o : option A) : keep (need o). Proof. destruct o; intros s e H; exact H. Qed.
Lemma kp_set_out d : keep (set_out d). Proof. intros s e H; exact H. Qed.
Lemma kp_modify f : (forall s, I s -> I (f s)) -> keep (modify f).
Proof. intros Hf s e (H & H'). split; [apply Hf, H|exact H']. Qed.
Lemma kp_pop e : forall s, kgood s e -> kgood s (snd (pop_fault e)).
Proof. intros s H. unfold pop_fault. destruct (e_flt e); exact H. Qed.
Lemma kp_wait : keep wait_touch.
Proof. intros s e H. unfold wp, wait_touch. destruct (e_tch e); exact H. Qed.
Lemma kp_random n : keep (random_buffer n). Proof. intros s e H. exact H. Qed.
Lemma kp_read_file p o n : keep (read_file p o n).
Proof.
  intros s e H. apply kp_pop in H. unfold wp, read_file. destruct (pop_fault e) as [x e']. cbn [snd] in H.
  destruct x; try exact H. destruct (e_fs e' p); exact H.
Qed.
Lemma kp_size p : keep (get_file_size p).
Proof.
  intros s e H. apply kp_pop in H. unfold wp, get_file_size. destruct (pop_fault e) as [x e']. cbn [snd] in H.
  destruct x; try exact H. destruct (e_fs e' p); exact H.
Qed.
Lemma kp_read_attr p a : keep (read_attr p a).
Proof.
  intros s e H. apply kp_pop in H. unfold wp, read_attr. destruct (pop_fault e) as [x e']. cbn [snd] in H.
  destruct x; try exact H. destruct (e_fs e' p); exact H.
Qed.
Lemma kgood_commit s e G : kgood s e -> P G -> kgood s (commit G e).
Proof. intros (H1 & H2 & H3) H. split; [assumption|]. split; [assumption|]. constructor; auto. Qed.
Lemma kgood_write s e p x : indep P p -> kgood s e -> kgood s (commit (fset (e_fs e) p x) e).
Proof. intros Hp H. apply kgood_commit; [assumption|]. apply Hp, H. Qed.
Lemma kp_write_file p d o t : indep P p -> keep (write_file p d o t).
Proof.
  intros Hp s e H. apply kp_pop in H. unfold wp, write_file. destruct (pop_fault e) as [x e']. cbn [snd] in H.
  destruct x; try exact H; (destruct (e_fs e' p) as [f|] eqn:E;
    [ rewrite ?E; try exact H; apply kgood_write; assumption
    | cbn [e_fs commit]; rewrite ?fset_same; pose proof (kgood_write s e' p (Some (mkF [] no_attr)) Hp H) as H1; try exact H1;
      exact (kgood_write s _ p _ Hp H1) ]).
Qed.
Lemma kp_write_attr p a v : indep P p -> keep (write_attr p a v).
Proof.
  intros Hp s e H. apply kp_pop in H. unfold wp, write_attr. destruct (pop_fault e) as [x e']. cbn [snd] in H.
  destruct x; try exact H. destruct (e_fs e' p); try exact H. apply kgood_write; assumption.
Qed.
Lemma kp_rename p q : indep P p -> indep P q -> keep (fs_rename p q).
Proof.
  intros Hp Hq s e H. apply kp_pop in H. unfold wp, fs_rename. destruct (pop_fault e) as [x e']. cbn [snd] in H.
  destruct x; try exact H. destruct (e_fs e' p); try exact H. destruct (String.eqb p q); [exact H|].
  apply kgood_commit; [assumption|]. apply Hq, Hp, H.
Qed.
Lemma kp_get_bind {A} (k : S -> M S A) : (forall s, I s -> keep (k s)) -> keep (s <- get ;; k s).
Proof. intros H s e Hs. unfold wp, bind, get. apply (H s); [apply Hs|exact Hs]. Qed.
Lemma kp_write_attr_at p a v :
  (forall F f, P F -> F p = Some f -> P (fset F p (Some (mkF (f_data f) (aset (f_attr f) a v))))) -> keep (write_attr p a v).
Proof.
  intros Hp s e H. apply kp_pop in H. unfold wp, write_attr. destruct (pop_fault e) as [x e']. cbn [snd] in H.
  destruct x; try exact H. destruct (e_fs e' p) eqn:E; try exact H. apply kgood_commit; [exact H|]. apply Hp; [apply H|exact E].
Qed.
Lemma kp_write_file_at p d o t :
  (forall F, P F -> F p <> None) -> (forall F f x, P F -> F p = Some f -> P (fset F p (Some (mkF x (f_attr f))))) -> keep (write_file p d o t).
Proof.
  intros H1 H2 s e H. apply kp_pop in H. unfold wp, write_file. destruct (pop_fault e) as [x e']. cbn [snd] in H.
  destruct (e_fs e' p) as [f|] eqn:E; [|elim (H1 _ (proj1 (proj2 H)) E)].
  destruct x; try exact H. rewrite E. apply kgood_commit; [exact H|]. apply H2; [apply H|exact E].
Qed.
Lemma kp_rename_at p q : (forall F f, P F -> F p = Some f -> P (fset (fset F p None) q (Some f))) -> keep (fs_rename p q).
Proof.
  intros H1 s e H. apply kp_pop in H. unfold wp, fs_rename. destruct (pop_fault e) as [x e']. cbn [snd] in H.
  destruct x; try exact H. destruct (e_fs e' p) as [f|] eqn:E; try exact H. destruct (String.eqb p q); [exact H|].
  apply kgood_commit; [exact H|]. apply H1; [apply H|exact E].
Qed.
Lemma kp_run {A} (m : M S A) s F flt rnd tch : keep m -> I s -> P F ->
  let '(_, s', e') := m s (start F flt rnd tch) in I s' /\ P (e_fs e') /\ Forall Q (e_log e').
Proof.
  intros H Hs HF. specialize (H s (start F flt rnd tch)). unfold wp in H. destruct (m s (start F flt rnd tch)) as [[o s'] e'].
  apply H. split; [assumption|]. split; [assumption|]. constructor; [auto|constructor].
Qed.
End Keep.
Lemma Forall_nth_default {A} (Q : A -> Prop) l n d : Forall Q l -> Q d -> Q (nth n l d).
Proof. intros H Hd. revert n. induction H; intros [|n]; cbn; auto. Qed.

Section Fr.
Variable K : fcrypto.
Variable nfc : bool.
Variables t1 t2 : Z.
Variable junk : bytes.
Variable I : ctap -> Prop.
Variables P Q : fs -> Prop.
Hypothesis PQ : forall F, P F -> Q F.
Notation keep := (keep I P Q).
Hypothesis I_tok : forall f s, I s -> I (set_tok f s).
Variable okq : gareq -> Prop.
Hypothesis I_okq : forall s, I s -> okq (g_req (c_ga s)).
Hypothesis I_req : forall q s, okq q -> I s -> I (set_ga (gs_req q) s).
Hypothesis ok_hs : forall q h, okq q ->
  okq (mkGa (ga_rphash q) (ga_cdh q) (ga_allow q) (ga_rk q) (ga_uvopt q) (ga_upopt q) (ga_param q) (ga_proto q) (Some h) (ga_blob q)).
Hypothesis I_ga : forall f s, (forall g, g_req (f g) = g_req g) -> I s -> I (set_ga f s).
Hypothesis I_cm : forall f s, I s -> I (set_cm f s).
Hypothesis I_lb : forall a b s, I s -> I (set_lb a b s).
Hypothesis P_dc : indep P DC_FILE.
Hypothesis P_dm : indep P DC_META_FILE.
Hypothesis P_lbt : indep P LB_FILE_TMP.
Hypothesis P_ren : keep (fs_rename LB_FILE_TMP LB_FILE).
Hypothesis P_ctr : keep (increase_counter).

Lemma kp_must b : keep b -> keep (must b). Proof. intros H. apply kp_bind; [exact H|]. intros x. apply kp_guard. Qed.
Lemma kp_gets_bind {A B} (f : ctap -> A) (k : A -> Mc B) : (forall s, I s -> keep (k (f s))) -> keep (x <- gets f ;; k x).
Proof. intros H s e Hs. unfold wp, bind, gets, get, ret. apply (H s); [apply Hs|exact Hs]. Qed.
Lemma kp_got {A} (b : Mc (option A)) : keep b -> keep (got b). Proof. intros H. apply kp_bind; [exact H|]. intros [x|]; [apply kp_ret|apply kp_except]. Qed.
Lemma kp_gets {A} (f : ctap -> A) : keep (gets f). Proof. apply kp_bind; [apply kp_get|]. intros x. apply kp_ret. Qed.
Ltac fc1 :=
  lazymatch goal with
  | |- CtapFrame.keep _ _ _ (bind _ _) => apply kp_bind; [|intros ?]
  | |- CtapFrame.keep _ _ _ (ret _) => apply kp_ret
  | |- CtapFrame.keep _ _ _ (got _) => apply kp_got
  | |- CtapFrame.keep _ _ _ (must _) => apply kp_must
  | |- CtapFrame.keep _ _ _ (gets _) => apply kp_gets
  | |- CtapFrame.keep _ _ _ get => apply kp_get
  | |- CtapFrame.keep _ _ _ ub => apply kp_ub
  | |- CtapFrame.keep _ _ _ fail => apply kp_fail
  | |- CtapFrame.keep _ _ _ (except _) => apply kp_except
  | |- CtapFrame.keep _ _ _ (guard _ _) => apply kp_guard
  | |- CtapFrame.keep _ _ _ (set_out _) => apply kp_set_out
  | |- CtapFrame.keep _ _ _ wait_touch => apply kp_wait
  | |- CtapFrame.keep _ _ _ (random_buffer _) => apply kp_random
  | |- CtapFrame.keep _ _ _ (read_file _ _ _) => apply kp_read_file
  | |- CtapFrame.keep _ _ _ (read_attr _ _) => apply kp_read_attr
  | |- CtapFrame.keep _ _ _ (get_file_size _) => apply kp_size
  | |- CtapFrame.keep _ _ _ (write_file _ _ _ _) => apply kp_write_file; [exact PQ|assumption]
  | |- CtapFrame.keep _ _ _ (write_attr _ _ _) => first [apply kp_write_attr; [exact PQ|assumption] | match goal with H : context [write_attr] |- _ => simple apply H end]
  | |- CtapFrame.keep _ _ _ (fs_rename _ _) => assumption
  | |- CtapFrame.keep _ _ _ (modify _) => apply kp_modify; intros ? ?; first [apply I_tok; assumption | apply I_ga; [intros ?; reflexivity|assumption] | apply I_req; [solve [auto]|assumption] | solve [auto]]
  | |- CtapFrame.keep _ _ _ (let _ := _ in _) => cbv zeta
  | |- CtapFrame.keep _ _ _ (let '(_, _) := ?x in _) => destruct x
  | |- CtapFrame.keep _ _ _ (match ?x with _ => _ end) => destruct x
  | |- CtapFrame.keep _ _ _ _ => match goal with H : context [CtapFrame.keep] |- _ => simple apply H end
  end.
Ltac fc := repeat fc1.
Ltac un := unfold WAIT, has_pin, cp_user_present, cp_user_verified,
   cp_clear_flags, cp_has_permission, cp_has_rp, cp_verify_rp, cp_associate_rp, cp_verify_token, verify_key_handle,
   sign_with_device_key, sign_with_private_key, make_large_blob_key, cp_encrypt, cp_decapsulate, cp_observer, cp_regenerate, cp_begin_using,
   cp_reset_token, cp_set_permission, read_rec, count_recs, read_general, read_key32, cose_alg_to_key_type.

Lemma kp_drop_slot n i idx : keep (drop_slot n i idx).
Proof. revert i; induction n; intros i; cbn [drop_slot]; un; fc. Qed.
Lemma kp_consistency : keep consistency_check.
Proof. pose proof kp_drop_slot. unfold consistency_check. un. fc. Qed.
Lemma kp_derive n kt kh rp alg dc cp : keep (derive K n kt kh rp alg dc cp).
Proof. induction n; cbn [derive]; cbv zeta; fc. Qed.
Lemma kp_generate rp alg dc cp : keep (generate_key_handle K rp alg dc cp).
Proof. pose proof (kp_derive 64). unfold generate_key_handle. un. fc. Qed.
Lemma kp_auth_data rp fl ext at_ : keep (make_auth_data K rp fl ext at_).
Proof. pose proof kp_generate. unfold make_auth_data. cbv zeta. fc. Qed.
Lemma kp_exclude q uv l buf : keep (exclude K nfc q uv l buf).
Proof. revert buf; induction l; intros buf; cbn [exclude]; cbv zeta; un; fc. Qed.
Lemma kp_find_slot n pos fd rp user buf : keep (find_slot n pos fd rp user buf).
Proof. revert pos fd buf; induction n; intros pos fd buf; cbn [find_slot]; un; fc. Qed.
Lemma kp_find_meta n pos fd rp : keep (find_meta n pos fd rp).
Proof. revert pos fd; induction n; intros pos fd; cbn [find_meta]; un; fc. Qed.
Lemma kp_mc_store q id : keep (mc_store q id).
Proof. pose proof kp_find_slot. pose proof kp_find_meta. unfold mc_store. cbv zeta. un. fc. Qed.
Lemma kp_touch_probe p : keep (touch_probe nfc p). Proof. unfold touch_probe. un. fc. Qed.
Lemma kp_mc_token q sig : keep (mc_token K t2 q sig). Proof. unfold mc_token. un. fc. Qed.
Lemma kp_mc_auth q : keep (mc_auth K t2 q). Proof. pose proof kp_mc_token. unfold mc_auth. un. fc. Qed.
Lemma kp_ask b : keep (ask_presence nfc b). Proof. unfold ask_presence. un. fc. Qed.
Lemma kp_mc_att q ad : keep (mc_att K q ad). Proof. unfold mc_att. un. fc. Qed.
Lemma kp_make p : keep (ctap_make_credential K nfc t2 junk p).
Proof.
  pose proof kp_consistency. pose proof kp_touch_probe. pose proof kp_mc_auth. pose proof kp_exclude. pose proof kp_ask. pose proof kp_auth_data.
  pose proof kp_mc_store. pose proof kp_mc_att. unfold ctap_make_credential. cbv zeta. un. fc.
Qed.
Lemma kp_ga_begin q : okq q -> keep (ga_begin K nfc t2 q). Proof. intros Hq. pose proof kp_touch_probe. unfold ga_begin, ga_token. un. fc. Qed.
Lemma kp_find_dc n j rp nonce buf : keep (find_dc n j rp nonce buf).
Proof. revert j buf; induction n; intros j buf; cbn [find_dc]; un; fc. Qed.
Lemma kp_allow rp uv l dc : keep (allow K rp uv l dc).
Proof. pose proof kp_find_dc. revert dc; induction l; intros dc; cbn [allow]; cbv zeta; un; fc. Qed.
Lemma kp_applicable n rp uv : keep (applicable n rp uv).
Proof. induction n; cbn [applicable]; cbv zeta; un; fc. Qed.
Lemma kp_ga_select q : keep (ga_select K q).
Proof. pose proof kp_allow. pose proof kp_applicable. unfold ga_select. un. fc. Qed.
Lemma kp_ga_ext q dc : okq q -> keep (ga_ext K q dc).
Proof. intros Hq. unfold ga_ext, ga_hmac_secret. cbv zeta. un. fc. Qed.
Lemma kp_ga_rest : keep (ga_rest K nfc t2).
Proof. pose proof kp_ga_select. pose proof kp_ask. pose proof kp_ga_ext. pose proof kp_auth_data. unfold ga_rest. cbv zeta. apply kp_gets_bind. intros s Hs. un. fc. apply I_okq, Hs. Qed.
Lemma kp_ga p : (forall q, p = inr q -> okq q) -> keep (ctap_get_assertion K nfc t2 p).
Proof. intros Hp. pose proof kp_consistency. pose proof kp_ga_begin. pose proof kp_ga_rest. unfold ctap_get_assertion. fc. apply Hp. reflexivity. Qed.
Lemma kp_gna : keep (ctap_get_next_assertion K nfc t1 t2).
Proof. pose proof kp_ga_rest. unfold ctap_get_next_assertion. fc. Qed.
Lemma kp_info : keep ctap_get_info. Proof. unfold ctap_get_info. un. fc. Qed.
Lemma kp_scan_rps n : keep (scan_rps n). Proof. induction n; cbn [scan_rps]; cbv zeta; un; fc. Qed.
Lemma kp_next_rp n i : keep (next_rp n i). Proof. revert i; induction n; intros i; cbn [next_rp]; un; fc. Qed.
Lemma kp_find_rp n i h : keep (find_rp n i h). Proof. revert i; induction n; intros i; cbn [find_rp]; un; fc. Qed.
Lemma kp_find_id n i h : keep (find_id n i h). Proof. revert i; induction n; intros i; cbn [find_id]; un; fc. Qed.
Lemma kp_drop_from n i x h : keep (drop_from_meta n i x h). Proof. revert i; induction n; intros i; cbn [drop_from_meta]; un; fc. Qed.
Lemma kp_cm_auth q : keep (cm_auth K t2 q). Proof. unfold cm_auth. un. fc. Qed.
Lemma kp_cm_credential b : keep (cm_credential K b).
Proof. unfold cm_credential, get_next_slot. cbv zeta. un. fc. Qed.
Lemma kp_cm_rps n : keep (cm_rps_begin n). Proof. pose proof kp_scan_rps. unfold cm_rps_begin. cbv zeta. un. fc. Qed.
Lemma kp_cm_next_rp q : keep (cm_next_rp q). Proof. pose proof kp_next_rp. unfold cm_next_rp, cm_next_allowed. cbv zeta. fc. Qed.
Lemma kp_cm_creds q n : keep (cm_creds_begin K q n). Proof. pose proof kp_find_rp. pose proof kp_cm_credential. unfold cm_creds_begin. cbv zeta. un. fc. Qed.
Lemma kp_cm_next_cred q : keep (cm_next_cred K q). Proof. pose proof kp_cm_credential. unfold cm_next_cred, cm_next_allowed. fc. Qed.
Lemma kp_cm_delete q n : keep (cm_delete q n). Proof. pose proof kp_find_id. pose proof kp_drop_from. unfold cm_delete. cbv zeta. un. fc. Qed.
Lemma kp_cm_update q n : keep (cm_update q n). Proof. pose proof kp_find_id. unfold cm_update. cbv zeta. un. fc. Qed.
Lemma kp_cm p : keep (ctap_credential_management K t2 p).
Proof.
  pose proof kp_consistency as H1. pose proof kp_cm_auth as H2. pose proof kp_cm_rps as H3. pose proof kp_cm_next_rp as H4. pose proof kp_cm_creds as H5. pose proof kp_cm_next_cred as H6.
  pose proof kp_cm_delete as H7. pose proof kp_cm_update as H8.
  assert (H9 : forall n, keep (cm_metadata n)) by (intros n; unfold cm_metadata; un; fc). clear I_tok I_ga I_cm I_lb P_dc P_dm P_lbt P_ren P_ctr.
  unfold ctap_credential_management. cbv zeta. fc.
Qed.
Lemma kp_lb_read n off len : keep (lb_read n off len). Proof. revert off; induction n; intros off; cbn [lb_read]; cbv zeta; un; fc. Qed.
Lemma kp_lb_auth q : keep (lb_auth K t2 q). Proof. unfold lb_auth. un. fc. Qed.
Lemma kp_lb p : keep (ctap_large_blobs K t2 p).
Proof. pose proof kp_lb_read. pose proof kp_lb_auth. unfold ctap_large_blobs, lb_store, lb_fetch. cbv zeta. un. fc. Qed.
Lemma kp_register cap d : keep (u2f_register K nfc cap d).
Proof. pose proof kp_generate. unfold u2f_register, u2f_touch. cbv zeta. un. fc. Qed.
Lemma kp_auth p1 d : keep (u2f_authenticate K nfc p1 d).
Proof.
  unfold u2f_authenticate, u2f_touch. cbv zeta. un. 
  apply kp_bind; [fc|intros _]. apply kp_bind; [fc|intros _]. apply kp_bind; [fc|intros _]. apply kp_bind; [fc|intros a].
  destruct a as [[pri|]|]; try solve [fc]. apply kp_bind; [fc|intros _]. apply kp_bind; [fc|intros _]. apply kp_bind.
  - intros s e H. specialize (P_ctr s e H). unfold wp in *. destruct (increase_counter s e) as [[[] s'] e']; exact P_ctr.
  - intros c. fc.
Qed.
Hypothesis I_cpc : forall z s, I s -> I (set_cpc z s).
Hypothesis P_pin : forall v, keep (write_attr CTAP_CERT_FILE PIN_ATTR v).
Hypothesis P_pinctr : forall v, keep (write_attr CTAP_CERT_FILE PIN_CTR_ATTR v).
Lemma kp_check_pin key h proto r b : keep (check_pin K key h proto r b).
Proof. unfold check_pin, verify_pin_hash, set_pin_retries. un. fc. Qed.
Lemma kp_new_pin d : keep (new_pin K d). Proof. unfold new_pin, set_pin. cbv zeta. fc. Qed.
Lemma kp_pin p : keep (ctap_client_pin K t2 p).
Proof.
  pose proof kp_check_pin. pose proof kp_new_pin.
  unfold ctap_client_pin, get_pin_retries, set_pin_cmd, change_pin_cmd, get_token_cmd, pin_retries_left, get_pin_retries, set_pin_retries. cbv zeta. un. fc.
Qed.
(** Every command but those of the PIN and the resets *)
Definition is_pin (q : creq) : bool := match q with RPin _ => true | _ => false end.
Definition is_reset (q : creq) : bool := match q with RReset => true | _ => false end.
Definition ga_okq (q : creq) : Prop := match q with RGet (inr q) => okq q | _ => True end.
Lemma kp_cbor q : is_pin q = false -> is_reset q = false -> ga_okq q -> keep (cbor_cmd K nfc t1 t2 junk q).
Proof.
  intros H1 H2 H3. pose proof kp_make. pose proof kp_ga. pose proof kp_gna. pose proof kp_info. pose proof kp_cm. pose proof kp_lb.
  unfold cbor_cmd. apply kp_bind; [un; fc|intros _]. destruct q; try discriminate; un; fc. intros q ->. exact H3.
Qed.
Hypothesis I_last : forall z s, I s -> I (set_last z s).
Lemma kp_process cap q : keep (cbor_cmd K nfc t1 t2 junk q) -> keep (process_cbor K nfc t1 t2 junk cap q).
Proof.
  intros H s e G. specialize (H s e G). unfold wp, process_cbor in *. destruct (cbor_cmd K nfc t1 t2 junk q s e) as [[[v|c| |] s'] e']; try exact H.
  - destruct (_ <=? cap); [|exact H]. destruct H as (H & H'). split; [apply I_last, H|exact H'].
  - destruct H as (H & H'). split; [apply I_last, H|exact H'].
Qed.
End Fr.
