(** C84: the FIDO operations that need the user's presence. *)
From Verif Require Import Sys Apdu Applet Ctap CtapSpec CtapFrame CtapExec CtapRel CtapCred PropCtapReset PropCtapPin PropCtapToken CtapToy.
Open Scope string_scope. Open Scope list_scope. Open Scope Z_scope.

(** The user touches the device during this command: the first request for a touch is neither cancelled (1) nor does it time out (2). *)
Definition touched (x : cmd) : Prop := exists t l, x_tch x = t :: l /\ t <> 1 /\ t <> 2.
(** By NFC, bringing the device to the reader is what shows the user's presence. *)
Definition by_user (x : cmd) : Prop := x_nfc x = true \/ touched x.
(** Bit 0 of the flags in the authenticator data: the user was present *)
Definition says_up (v : cbor) : bool := match v with CMap (_ :: (_, CBytes ad) :: _) => Z.testbit (nth 32 ad 0) 0 | _ => false end.
(** After a getAssertion: its continuations, and what is neither a CTAP2 command nor a reset *)
Definition goes_on (e : entry) : Prop :=
  match e with
  | (_, Do x, _) => match x_op x with OCbor RNext => True | OCbor _ | OReset => False | _ => True end
  | (_, Cut _ _ _ _, _) => False
  | (_, Other _, _) => True
  end.

Ltac uk := repeat lazymatch goal with
  | |- keep _ _ _ (bind _ _) => apply kp_bind; [|intros ?]
  | |- keep _ _ _ (ret _) => apply kp_ret
  | |- keep _ _ _ (got _) => apply kp_got
  | |- keep _ _ _ (must _) => apply kp_must
  | |- keep _ _ _ (gets _) => apply kp_gets
  | |- keep _ _ _ get => apply kp_get
  | |- keep _ _ _ ub => apply kp_ub
  | |- keep _ _ _ (except _) => apply kp_except
  | |- keep _ _ _ (guard _ _) => apply kp_guard
  | |- keep _ _ _ (random_buffer _) => apply kp_random
  | |- keep _ _ _ (read_file _ _ _) => apply kp_read_file
  | |- keep _ _ _ (read_attr _ _) => apply kp_read_attr
  | |- keep _ _ _ (write_attr _ _ _) => apply kp_write_attr; [auto|intros ? ? ?; auto]
  | |- keep _ _ _ (get_file_size _) => apply kp_size
  | |- keep _ _ _ (modify (set_ga _)) => apply kp_modify; intros ? H; first [exact H|destruct H as (? & ? & ? & ?); repeat split; assumption]
  | |- keep _ _ _ (modify (set_tok _)) => apply kp_modify; intros ? H; exact H
  | |- keep _ _ _ (match ?x with _ => _ end) => destruct x
  end.

Section T.
Variable K : fcrypto.
Definition tin (T : list Z) : Prop := exists t l, T = t :: l /\ t <> 1 /\ t <> 2.

(** ** Steps that return without having asked for a touch *)
Section Q.
Variable nfc : bool.
Variables t1 t2 : Z.
Variable junk : bytes.
Variable J : ctap -> Prop.
Variable T : list Z.
Definition qt {A} (m : Mc A) : Prop := forall s e, J s -> e_tch e = T -> wp m (fun o s' e' => match o with Ret _ => J s' /\ e_tch e' = T | _ => True end) s e.
Lemma qt_bind {A B} (m : Mc A) (k : A -> Mc B) : qt m -> (forall a, qt (k a)) -> qt (bind m k).
Proof. intros Hm Hk s e H1 H2. apply wp_bind. eapply wp_mono; [apply Hm; assumption|]. intros [a|w| |] s' e' H; try exact I. apply Hk; apply H. Qed.
Lemma qt_same {A} (m : Mc A) : (forall s e, snd (fst (m s e)) = s /\ e_tch (snd (m s e)) = e_tch e) -> qt m.
Proof. intros H s e H1 H2. unfold wp. specialize (H s e). destruct (m s e) as [[o s'] e']. cbn [fst snd] in H. destruct H as (-> & H). destruct o; auto. split; [exact H1|congruence]. Qed.
Lemma qt_ret {A} (a : A) : qt (ret a). Proof. apply qt_same; auto. Qed.
Lemma qt_get : qt get. Proof. apply qt_same; auto. Qed.
Lemma qt_ub {A} : qt (@ub ctap A). Proof. intros s e _ _. exact I. Qed.
Lemma qt_except {A} w : qt (@except ctap A w). Proof. intros s e _ _. exact I. Qed.
Lemma qt_guard b w : qt (guard b w). Proof. apply qt_same; destruct b; auto. Qed.
Lemma qt_random n : qt (random_buffer n). Proof. apply qt_same; auto. Qed.
Lemma qt_modify f : (forall s, J s -> J (f s)) -> qt (modify f). Proof. intros H s e H1 H2. split; [apply H, H1|exact H2]. Qed.
Ltac sm := apply qt_same; intros s e; unfold read_file, read_attr, get_file_size, write_file, write_attr, fs_rename, pop_fault; destruct (e_flt e) as [|[] ?]; cbn; auto; repeat (match goal with |- context [match ?x with _ => _ end] => destruct x end; cbn; auto).
Lemma qt_read_file p o n : qt (read_file p o n). Proof. sm. Qed.
Lemma qt_read_attr p a : qt (read_attr p a). Proof. sm. Qed.
Lemma qt_size p : qt (get_file_size p). Proof. sm. Qed.
Lemma qt_write_file p d o t : qt (write_file p d o t). Proof. sm. Qed.
Lemma qt_write_attr p a v : qt (write_attr p a v). Proof. sm. Qed.
Lemma qt_must b : qt b -> qt (must b). Proof. intros H. apply qt_bind; [exact H|]. intros x. apply qt_guard. Qed.
Lemma qt_got {A} (b : Mc (option A)) : qt b -> qt (got b). Proof. intros H. apply qt_bind; [exact H|]. intros [x|]; [apply qt_ret|apply qt_except]. Qed.
Lemma qt_gets {A} (f : ctap -> A) : qt (gets f). Proof. apply qt_bind; [apply qt_get|]. intros x. apply qt_ret. Qed.
Lemma qt_stop {A} (m : Mc A) : (forall s e, wp m (fun o _ _ => match o with Ret _ => False | _ => True end) s e) -> qt m.
Proof. intros H s e _ _. eapply wp_mono; [apply H|]. intros [a|w| |] s' e' W; try exact I. elim W. Qed.
Hypothesis J_end : forall s, J s -> J (set_tok (tk_end (u32 (t2 + 30000))) s).
Hypothesis J_rp : forall r s, J s -> J (set_tok (tk_rp r) s).
Ltac qc1 :=
  lazymatch goal with
  | |- qt (bind _ _) => apply qt_bind; [|intros ?]
  | |- qt (ret _) => apply qt_ret
  | |- qt (got _) => apply qt_got
  | |- qt (must _) => apply qt_must
  | |- qt (gets _) => apply qt_gets
  | |- qt get => apply qt_get
  | |- qt ub => apply qt_ub
  | |- qt (except _) => apply qt_except
  | |- qt (guard _ _) => apply qt_guard
  | |- qt (random_buffer _) => apply qt_random
  | |- qt (read_file _ _ _) => apply qt_read_file
  | |- qt (read_attr _ _) => apply qt_read_attr
  | |- qt (get_file_size _) => apply qt_size
  | |- qt (write_file _ _ _ _) => apply qt_write_file
  | |- qt (write_attr _ _ _) => apply qt_write_attr
  | |- qt (modify (set_tok (tk_end _))) => apply qt_modify; exact J_end
  | |- qt (modify (set_tok (tk_rp _))) => apply qt_modify; apply J_rp
  | |- qt (let _ := _ in _) => cbv zeta
  | |- qt (let '(_, _) := ?x in _) => destruct x
  | |- qt (match ?x with _ => _ end) => destruct x
  | |- qt _ => match goal with H : context [qt] |- _ => simple apply H end
  end.
Ltac qc := repeat qc1.
Ltac un := unfold has_pin, cp_user_present, cp_user_verified, cp_has_permission, cp_verify_rp, cp_associate_rp, cp_verify_token, verify_key_handle, read_rec, count_recs, read_general, read_key32, cose_alg_to_key_type.
Lemma qt_drop_slot n i idx : qt (drop_slot n i idx).
Proof. revert i; induction n; intros i; cbn [drop_slot]; un; qc. Qed.
Lemma qt_consistency : qt consistency_check.
Proof. pose proof qt_drop_slot. unfold consistency_check. un. qc. Qed.
Lemma qt_probe p : qt (touch_probe nfc p).
Proof.
  unfold touch_probe. destruct p as [[|? ?]|]; try apply qt_ret. apply qt_stop. intros s e.
  do 2 (apply wp_skip; [exact (fun _ _ _ => I)|exact (fun _ _ => I)|exact (fun _ _ => I)|intros ? ? ?]). exact I.
Qed.
Lemma qt_mc_auth q : qt (mc_auth K t2 q).
Proof. unfold mc_auth, mc_token. un. qc. Qed.
Lemma qt_exclude q uv l buf : qt (exclude K nfc q uv l buf).
Proof.
  revert buf; induction l as [|i l IH]; intros buf; cbn [exclude]; cbv zeta; [apply qt_ret|]. destruct (negb _); [apply IH|]. apply qt_bind; [un; qc|]. intros [[pri|]|]; [|apply IH|apply qt_except].
  destruct (_ || uv); [|apply IH]. apply qt_stop. intros s e. do 2 (apply wp_skip; [exact (fun _ _ _ => I)|exact (fun _ _ => I)|exact (fun _ _ => I)|intros ? ? ?]). exact I.
Qed.
Lemma qt_find_dc n j rp nonce buf : qt (find_dc n j rp nonce buf).
Proof. revert j buf; induction n; intros j buf; cbn [find_dc]; un; qc. Qed.
Lemma qt_allow rp uv l dc : qt (allow K rp uv l dc).
Proof. pose proof qt_find_dc. revert dc; induction l; intros dc; cbn [allow]; cbv zeta; un; qc. Qed.
Lemma qt_applicable n rp uv : qt (applicable n rp uv).
Proof. induction n; cbn [applicable]; cbv zeta; un; qc. Qed.
Lemma qt_ga_token q sig : (forall b s, J s -> J (set_ga (gs_uv b) s)) -> qt (ga_token K t2 q sig).
Proof. intros H. unfold ga_token. un. repeat (lazymatch goal with |- qt (modify (set_ga _)) => apply qt_modify; apply H | _ => qc1 end). Qed.
Lemma qt_select q : (forall s, J s -> J (set_ga (gs_n 1) s)) -> (forall l s, J s -> J (set_ga (gs_list l (u8 (zlen l))) s)) -> qt (ga_select K q).
Proof.
  intros H1 H2. pose proof qt_allow. pose proof qt_applicable. unfold ga_select. un.
  repeat (lazymatch goal with |- qt (modify (set_ga (gs_n _))) => apply qt_modify; apply H1 | |- qt (modify (set_ga (gs_list _ _))) => apply qt_modify; apply H2 | _ => qc1 end).
Qed.
End Q.
Lemma ask_spec nfc b s e (Q : out unit -> ctap -> env -> Prop) : t_up (c_tok s) = false -> (nfc = true \/ tin (e_tch e) -> forall e', Q (Ret tt) s e') ->
  (forall w s e, Q (Exc w) s e) -> wp (ask_presence nfc b) Q s e.
Proof.
  intros Hu H1 H2. assert (W : wp (WAIT nfc ERR_DENIED) Q s e).
  { unfold WAIT. destruct nfc; [apply wp_ret; auto|]. apply wp_bind. unfold wp at 1, wait_touch. unfold tin in H1. destruct (e_tch e) as [|t r] eqn:Et; cbn; [apply H2|].
    unfold USER_PRESENCE_CANCEL, USER_PRESENCE_TIMEOUT. destruct (t =? 1) eqn:E1; [apply H2|]. destruct (t =? 2) eqn:E2; [apply H2|]. apply H1. right. exists t, r. split; [reflexivity|]. lia. }
  unfold ask_presence. destruct b; [|exact W]. unfold cp_user_present, gets. apply wp_bind, wp_bind, wp_get, wp_ret. rewrite Hu, andb_false_r. exact W.
Qed.

(** ** The token never stands for a present user *)
Definition absent (s : ctap) : Prop := t_up (c_tok s) = false.
Definition RU (s s' : ctap) : Prop := absent s -> absent s'.
Lemma RU_refl s : RU s s. Proof. exact (fun H => H). Qed.
Lemma RU_trans a b c : RU a b -> RU b c -> RU a c. Proof. unfold RU. auto. Qed.
Lemma RU_eq s s' : t_up (c_tok s') = t_up (c_tok s) -> RU s s'. Proof. unfold RU, absent. congruence. Qed.
Lemma RU_mc t2 q sig : rl RU (mc_token K t2 q sig).
Proof.
  unfold mc_token, cp_verify_token, cp_has_permission, cp_verify_rp, cp_user_verified, cp_associate_rp.
  repeat lazymatch goal with
  | |- rl _ (bind _ _) => apply rl_bind; [apply RU_trans| |intros ?]
  | |- rl _ (ret _) => apply rl_ret, RU_refl
  | |- rl _ (gets _) => apply rl_gets; [apply RU_refl|apply RU_trans]
  | |- rl _ get => apply rl_get, RU_refl
  | |- rl _ (guard _ _) => apply rl_guard, RU_refl
  | |- rl _ (modify _) => apply rl_modify; intros ?; apply RU_eq; reflexivity
  | |- rl _ (match ?x with _ => _ end) => destruct x
  end.
Qed.
Lemma RU_ga t2 q sig : rl RU (ga_token K t2 q sig).
Proof.
  unfold ga_token, cp_verify_token, cp_has_permission, cp_verify_rp, cp_user_verified, cp_associate_rp.
  repeat lazymatch goal with
  | |- rl _ (bind _ _) => apply rl_bind; [apply RU_trans| |intros ?]
  | |- rl _ (ret _) => apply rl_ret, RU_refl
  | |- rl _ (gets _) => apply rl_gets; [apply RU_refl|apply RU_trans]
  | |- rl _ get => apply rl_get, RU_refl
  | |- rl _ (guard _ _) => apply rl_guard, RU_refl
  | |- rl _ (modify _) => apply rl_modify; intros ?; apply RU_eq; reflexivity
  | |- rl _ (match ?x with _ => _ end) => destruct x
  end.
Qed.
Lemma RU_clear s : RU s (set_tok (fun t => if t_use t then tk_perm (Z.land (t_perm t) (255 - PERM_LBW)) (tk_uv false (tk_up false t)) else t) s).
Proof. unfold RU, absent. cbn [set_tok c_tok]. destruct (t_use (c_tok s)); auto. Qed.
Lemma RU_obs t1 s : RU s (set_tok (fun t => if negb (t_use t) then t else if t_end t <? t1 then tok_stop t else t) s).
Proof. unfold RU, absent. cbn [set_tok c_tok]. destruct (negb _); [auto|]. destruct (_ <? _); auto. Qed.
Lemma RU_new r s : RU s (set_tok (fun t => tok_stop (tk_token r t)) s). Proof. intros _. reflexivity. Qed.
Lemma RU_token t2 q : rl RU (get_token_cmd K t2 q).
Proof.
  unfold get_token_cmd, pin_retries_left, has_pin, get_pin_retries, set_pin_retries, cp_decapsulate, cp_reset_token, cp_begin_using, cp_set_permission, cp_associate_rp, cp_encrypt.
  repeat lazymatch goal with
  | |- rl _ (check_pin _ _ _ _ _ _) => apply rl_check_pin; [apply RU_refl|apply RU_trans|intros; apply RU_eq; reflexivity..]
  | |- rl _ (bind _ _) => apply rl_bind; [apply RU_trans| |intros ?]
  | |- rl _ (ret _) => apply rl_ret, RU_refl
  | |- rl _ (got _) => apply rl_got; [apply RU_refl|apply RU_trans|]
  | |- rl _ (must _) => apply rl_must; [apply RU_refl|apply RU_trans|]
  | |- rl _ (gets _) => apply rl_gets; [apply RU_refl|apply RU_trans]
  | |- rl _ get => apply rl_get, RU_refl
  | |- rl _ ub => apply rl_ub, RU_refl
  | |- rl _ (except _) => apply rl_except, RU_refl
  | |- rl _ (guard _ _) => apply rl_guard, RU_refl
  | |- rl _ (random_buffer _) => apply rl_random, RU_refl
  | |- rl _ (read_attr _ _) => apply rl_read_attr, RU_refl
  | |- rl _ (write_attr _ _ _) => apply rl_write_attr, RU_refl
  | |- rl _ (modify _) => apply rl_modify; intros ? ?; first [reflexivity|assumption]
  | |- rl _ (match ?x with _ => _ end) => destruct x
  end.
Qed.
Lemma exec_absent d x o s e : exec K d x = (Some o, s, e) -> RU (d_ram d) s.
Proof.
  intros E. assert (EQ : forall s s', c_tok s' = c_tok s -> RU s s') by (intros ? ? W; apply RU_eq; rewrite W; reflexivity).
  assert (B : forall (m : Mc Z), (forall q, x_op x <> OCbor q) -> body K x = m -> rl RU m -> RU (d_ram d) s).
  { intros m Hn Hb Hm. pose proof (exec_wp K d x (fun o s _ => match o with Some _ => RU (d_ram d) s | None => True end)) as W. rewrite E in W.
    destruct (x_op x) as [q| | | | | | ]; [elim (Hn q eq_refl)|..]; apply W; rewrite Hb; (eapply wp_mono; [apply Hm|]); intros [] s' e' H'; try exact I; exact H'. }
  destruct (x_op x) as [q|da|p1 da| |da|da|da] eqn:Ex.
  - pose proof (exec_wp K d x (fun o s _ => match o with Some _ => RU (d_ram d) s | None => True end)) as W; rewrite E, Ex in W; apply W; unfold cbor_body.
    eapply wp_mono; [apply (rl_process K (x_nfc x) (x_t1 x) (x_t2 x) (x_junk x) RU RU_trans); [intros; apply EQ; reflexivity|]; apply rl_cbor; [apply RU_refl|apply RU_trans|intros; apply EQ; reflexivity..|intros; apply RU_eq; reflexivity|apply RU_clear|apply RU_obs|intros; apply RU_eq; reflexivity|apply RU_new|apply RU_mc|apply RU_ga|intros; apply RU_token]|].
    intros [[c' v']| | |] s' e' H'; try exact I; exact H'.
  - eapply B; [discriminate|unfold body; rewrite Ex; reflexivity|]. apply rl_bind; [apply RU_trans|apply rl_register; [apply RU_refl|apply RU_trans]|intros; apply rl_ret, RU_refl].
  - eapply B; [discriminate|unfold body; rewrite Ex; reflexivity|]. apply rl_bind; [apply RU_trans|apply rl_auth; [apply RU_refl|apply RU_trans]|intros; apply rl_ret, RU_refl].
  - eapply B; [discriminate|unfold body; rewrite Ex; reflexivity|]. apply rl_bind; [apply RU_trans|apply rl_install; [apply RU_refl|apply RU_trans|intros; apply EQ; reflexivity..|intros; apply RU_eq; reflexivity|apply RU_new]|intros; apply rl_ret, RU_refl].
  - eapply B; [discriminate|unfold body; rewrite Ex; reflexivity|]. apply rl_bind; [apply RU_trans| |intros; apply rl_ret, RU_refl]. unfold install_private_key. apply rl_bind; [apply RU_trans|apply rl_guard, RU_refl|intros _]. apply rl_bind; [apply RU_trans|apply rl_modify; intros; apply EQ; reflexivity|intros _]. apply rl_bind; [apply RU_trans|apply rl_must; [apply RU_refl|apply RU_trans|apply rl_write_attr, RU_refl]|intros _; apply rl_must; [apply RU_refl|apply RU_trans|apply rl_write_attr, RU_refl]].
  - eapply B; [discriminate|unfold body; rewrite Ex; reflexivity|]. apply rl_bind; [apply RU_trans| |intros; apply rl_ret, RU_refl]. unfold install_cert. apply rl_bind; [apply RU_trans|apply rl_guard, RU_refl|intros _]. apply rl_must; [apply RU_refl|apply RU_trans|apply rl_write_file, RU_refl].
  - eapply B; [discriminate|unfold body; rewrite Ex; reflexivity|]. apply rl_bind; [apply RU_trans| |intros; apply rl_ret, RU_refl]. unfold write_sm2_config. apply rl_bind; [apply RU_trans|apply rl_guard, RU_refl|intros _]. apply rl_bind; [apply RU_trans|apply rl_write_attr, RU_refl|intros ok]. apply rl_bind; [apply RU_trans|apply rl_modify; intros; apply EQ; reflexivity|intros _; apply rl_guard, RU_refl].
Qed.
Lemma install_absent b s e : wp (ctap_install K b) (fun _ s' _ => absent s' /\ c_last s' = CTAP_INVALID_CMD) s e.
Proof.
  unfold ctap_install. apply wp_bind, wp_modify. apply wp_bind, wp_modify. apply wp_bind. unfold cp_initialize, cp_regenerate, cp_reset_token. destruct e as [F L X R T O].
  apply wp_bind, wp_bind. apply wp_random. intros r R1. apply wp_modify. apply wp_bind. apply wp_random. intros r' R2. apply wp_modify. set (s1 := set_tok _ _). set (e1 := mkE _ _ _ _ _ _).
  assert (H1 : absent s1 /\ c_last s1 = CTAP_INVALID_CMD) by (split; reflexivity). clearbody s1 e1.
  match goal with |- wp ?m _ _ _ => assert (Km : keep (fun s => absent s /\ c_last s = CTAP_INVALID_CMD) (fun _ => True) (fun _ => True) m) end.
  { repeat lazymatch goal with
    | |- keep _ _ _ (bind _ _) => apply kp_bind; [|intros ?]
    | |- keep _ _ _ (modify _) => apply kp_modify; intros ? H; exact H
    | |- keep _ _ _ (random_buffer _) => apply kp_random
    | |- keep _ _ _ (got _) => apply kp_got
    | |- keep _ _ _ (must _) => apply kp_must
    | |- keep _ _ _ (read_attr _ _) => apply kp_read_attr
    | |- keep _ _ _ (get_file_size _) => apply kp_size
    | |- keep _ _ _ (write_file _ _ _ _) => apply kp_write_file; [auto|intros ? ? ?; auto]
    | |- keep _ _ _ (write_attr _ _ _) => apply kp_write_attr; [auto|intros ? ? ?; auto]
    | |- keep _ _ _ (ret _) => apply kp_ret
    | |- keep _ _ _ (match ?x with _ => _ end) => destruct x
    end. }
  eapply wp_mono; [apply Km; split; [exact H1|split; [exact I|apply Forall_forall; auto]]|]. intros o s' e' (H & _). exact H.
Qed.
Lemma boot_absent F flt rnd : absent (d_ram (boot K F flt rnd)) /\ c_last (d_ram (boot K F flt rnd)) = CTAP_INVALID_CMD.
Proof. unfold boot. pose proof (install_absent false ctap_boot (start F flt rnd [])) as W. unfold wp in W. destruct (ctap_install K false ctap_boot (start F flt rnd [])) as [[o s] e]. exact W. Qed.

(** ** The commands *)
Definition start_of (d : dev) (x : cmd) : env := start (d_fs d) (x_flt x) (x_rnd x) (x_tch x).
Lemma exec_vs d x q (P : cbor -> ctap -> Prop) v s e : x_op x = OCbor q -> exec K d x = (Some (ACbor 0 (Some v)), s, e) ->
  wp (cbor_cmd K (x_nfc x) (x_t1 x) (x_t2 x) (x_junk x) q) (fun o s _ => match o with Ret (Some v) => P v s | _ => True end) (d_ram d) (start_of d x) -> exists s', P v s' /\ s = set_last (cmd_of q) s'.
Proof.
  intros Hx E W. unfold exec in E. rewrite Hx in E. unfold cbor_body, process_cbor, wp, start_of in *. destruct (cbor_cmd _ _ _ _ _ _ _ _) as [[[w|c| |] s1] e1]; try discriminate.
  destruct (_ <=? _); [|discriminate]. assert (Some v = w) as <- by congruence. exists s1. split; [exact W|congruence].
Qed.
Definition ok_up (nfc : bool) (T : list Z) : Prop := nfc = true \/ tin T.
Lemma qt_step {A B} (J : ctap -> Prop) T (m : Mc A) (k : A -> Mc B) (Q : out B -> ctap -> env -> Prop) s e : qt J T m -> J s -> e_tch e = T ->
  (forall w s e, Q (Exc w) s e) -> (forall s e, Q Fail s e) -> (forall s e, Q UB s e) -> (forall a s e, J s -> e_tch e = T -> wp (k a) Q s e) -> wp (bind m k) Q s e.
Proof. intros Hm H1 H2 Q1 Q2 Q3 Hk. apply wp_bind. eapply wp_mono; [apply Hm; assumption|]. intros [a|w| |] s' e' H; auto. apply Hk; apply H. Qed.
Ltac tr := try exact (fun _ _ _ => I); try exact (fun _ _ => I).
Lemma make_spec nfc t2 junk q T s e : absent s -> e_tch e = T -> wp (ctap_make_credential K nfc t2 junk (inr q)) (fun o _ _ => match o with Ret _ => ok_up nfc T | _ => True end) s e.
Proof.
  intros Ha Ht. unfold ctap_make_credential.
  eapply (qt_step absent T); [apply qt_consistency|exact Ha|exact Ht|tr..|]. clear s e Ha Ht. intros _ s e Ha Ht.
  eapply (qt_step absent T); [apply qt_probe|exact Ha|exact Ht|tr..|]. clear s e Ha Ht. intros _ s e Ha Ht.
  eapply (qt_step absent T); [apply qt_mc_auth; auto|exact Ha|exact Ht|tr..|]. clear s e Ha Ht. intros uv s e Ha Ht.
  eapply (qt_step absent T); [apply qt_exclude|exact Ha|exact Ht|tr..|]. clear s e Ha Ht. intros _ s e Ha Ht.
  apply wp_bind. apply ask_spec; [exact Ha| |tr]. rewrite Ht. intros H e'.
  assert (W : forall A (m : Mc A) s0 e0, wp m (fun o _ _ => match o with Ret _ => ok_up nfc T | _ => True end) s0 e0) by (intros A m s0 e0; unfold wp; destruct (m s0 e0) as [[[] ?] ?]; auto).
  apply W.
Qed.
(** getAssertion and its continuation *)
Definition gup (b : bool) (s : ctap) : Prop := g_up (c_ga s) = b.
Definition JJ (b : bool) (c : Z) (s : ctap) : Prop := g_up (c_ga s) = b /\ g_ctr (c_ga s) = c /\ g_n (c_ga s) <= 255 /\ zlen (ga_rphash (g_req (c_ga s))) = 32.
Definition gkeep (b : bool) (c : Z) {A} (m : Mc A) : Prop := keep (JJ b c) (fun _ => True) (fun _ => True) m.
Lemma u8_le z : u8 z <= 255. Proof. unfold u8. pose proof (Z.mod_pos_bound z 256). lia. Qed.
Lemma select_n q s e : g_ctr (c_ga s) = 0 -> wp (ga_select K q) (fun o s' _ => match o with Ret _ => g_n (c_ga s') <= 255 | _ => True end) s e.
Proof.
  intros Hc. unfold ga_select. apply wp_bind. unfold gets at 1. apply wp_bind, wp_get, wp_ret. destruct (ga_allow q) as [|i l].
  - rewrite Hc. cbn [Z.eqb]. apply wp_bind.
    assert (W : forall A (m : Mc A) s0 e0, wp m (fun o _ _ => True) s0 e0) by (intros A m s0 e0; unfold wp; destruct (m s0 e0) as [[? ?] ?]; exact I).
    eapply wp_mono with (Q := fun o s' _ => match o with Ret _ => g_n (c_ga s') <= 255 | _ => True end).
    + do 2 (apply wp_skip; [tr..|intros ? ? ?]). apply wp_bind, wp_modify. apply wp_guard; [intros _; apply u8_le|exact (fun _ => I)].
    + intros [a|?| |] s1 e1 H1; try exact I.
      assert (Q : qt (fun s => g_n (c_ga s) <= 255) (e_tch e1) (g <- gets c_ga ;; d <- read_rec DC_FILE DC_SIZE (nth (Z.to_nat (g_ctr g)) (g_list g) 0) ;; v <- verify_key_handle K (dc_id d) ;;
        match v with Some (Some pri) => ret (d, pri) | _ => except ERR_UNHANDLED end)).
      { unfold read_rec, verify_key_handle, read_key32, cose_alg_to_key_type. repeat lazymatch goal with
        | |- qt _ _ (bind _ _) => apply qt_bind; [|intros ?]
        | |- qt _ _ (ret _) => apply qt_ret
        | |- qt _ _ (got _) => apply qt_got
        | |- qt _ _ (gets _) => apply qt_gets
        | |- qt _ _ (guard _ _) => apply qt_guard
        | |- qt _ _ (except _) => apply qt_except
        | |- qt _ _ ub => apply qt_ub
        | |- qt _ _ (read_file _ _ _) => apply qt_read_file
        | |- qt _ _ (read_attr _ _) => apply qt_read_attr
        | |- qt _ _ (match ?x with _ => _ end) => destruct x
        end. }
      eapply wp_mono; [apply Q; [exact H1|reflexivity]|]. intros [b|?| |] s2 e2 H2; try exact I. apply H2.
  - apply wp_skip; [tr..|]. intros r s1 e1. apply wp_bind, wp_modify, wp_ret. cbn. lia.
Qed.
Definition J0 (b : bool) (c : Z) (s : ctap) : Prop := g_up (c_ga s) = b /\ g_ctr (c_ga s) = c /\ (c <> 0 -> g_n (c_ga s) <= 255) /\ zlen (ga_rphash (g_req (c_ga s))) = 32.
Lemma select_spec q b c T s e : absent s -> e_tch e = T -> J0 b c s -> wp (ga_select K q) (fun o s' e' => match o with Ret _ => (absent s' /\ JJ b c s') /\ e_tch e' = T | _ => True end) s e.
Proof.
  intros Ha Ht H. assert (W : qt (fun s => absent s /\ J0 b c s) T (ga_select K q)).
  { apply qt_select.
    - intros s1 (H1 & H2 & H3 & H4 & H5). split; [exact H1|]. split; [exact H2|]. split; [exact H3|]. split; [intros _; cbn; lia|exact H5].
    - intros l s1 (H1 & H2 & H3 & H4 & H5). split; [exact H1|]. split; [exact H2|]. split; [exact H3|]. split; [intros _; apply u8_le|exact H5]. }
  specialize (W s e (conj Ha H) Ht). pose proof (select_n q s e) as W2. unfold wp in *. destruct (ga_select K q s e) as [[[r|?| |] s'] e']; try exact I.
  destruct W as ((A & B1 & B2 & B3 & B4) & C). split; [|exact C]. split; [exact A|]. split; [exact B1|]. split; [exact B2|]. split; [|exact B4].
  destruct (Z.eq_dec c 0) as [->|N]; [|auto]. apply W2. apply H.
Qed.
Lemma rest_spec nfc t2 q T s e : absent s -> e_tch e = T -> g_req (c_ga s) = q -> zlen (ga_rphash q) = 32 -> (g_ctr (c_ga s) <> 0 -> g_n (c_ga s) <= 255) ->
  wp (ga_rest K nfc t2) (fun o s' _ => match o with
    | Ret v => let asked := (g_ctr (c_ga s) =? 0) && negb (ga_upopt q =? 0) in
        says_up v = asked || g_up (c_ga s) /\ (asked = true -> ok_up nfc T) /\ g_up (c_ga s') = says_up v /\ g_ctr (c_ga s') = u8 (g_ctr (c_ga s) + 1) /\ g_n (c_ga s') <= 255 /\ zlen (ga_rphash (g_req (c_ga s'))) = 32
    | _ => True end) s e.
Proof.
  intros Ha Ht Hq Hh Hn. unfold ga_rest. apply wp_bind. unfold gets at 1. apply wp_bind, wp_get, wp_ret. rewrite Hq. set (c := g_ctr (c_ga s)). set (b := g_up (c_ga s)).
  apply wp_bind. eapply wp_mono; [apply (select_spec q b c T); [exact Ha|exact Ht|]; unfold J0; rewrite Hq; auto|]. intros [r|?| |] s1 e1 HS; try exact I. revert r s1 e1 HS.
  intros [dc pri] s1 e1 ((H1 & H3 & H2 & H4 & H6) & Ht1). apply wp_bind. unfold gets at 1. apply wp_bind, wp_get, wp_ret. rewrite H2. fold c.
  set (asked := (c =? 0) && negb (ga_upopt q =? 0)). set (b' := asked || b).
  assert (R : forall s2 e2, (asked = true -> ok_up nfc T) -> JJ b' c s2 -> wp (
    guard (protect_ok (dc_id dc) (match ga_allow q with [] => false | _ => true end) (g_uv (c_ga s1))) ERR_NO_CREDENTIALS ;;;
    ext <- ga_ext K q dc ;;
    g <- gets c_ga ;;
    let flags := (match ext with [] => 0 | _ => FLAGS_ED end) + (if g_uv g then FLAGS_UV else 0) + (if g_up g then FLAGS_UP else 0) in
    r <- make_auth_data K (ga_rphash q) flags ext None ;;
    let ad := fst r in
    sig <- sign_with_private_key K (id_alg (dc_id dc)) pri (ad ++ ga_cdh q) ;;
    match sig with
    | None => ub
    | Some sig =>
      let user := if id_dc (dc_id dc) =? 0 then [] else [(CInt 4, user_map (dc_user dc) (g_uv g && (1 <? g_n g)))] in
      let num := if (match ga_allow q with [] => true | _ => false end) && (g_ctr g =? 0) && (1 <? g_n g) then [(CInt 5, CInt (g_n g))] else [] in
      lbk <- (if dc_lbk dc =? 0 then ret [] else k <- make_large_blob_key K (id_nonce (dc_id dc)) ;; ret [(CInt 7, CBytes k)]) ;;
      modify (set_ga (fun g => gs_timer t2 (gs_ctr (u8 (g_ctr g + 1)) g))) ;;;
      ret (CMap ([(CInt 1, cred_map (dc_id dc)); (CInt 2, CBytes ad); (CInt 3, CBytes sig)] ++ user ++ num ++ lbk))
    end) (fun o s' _ => match o with
    | Ret v => says_up v = asked || b /\ (asked = true -> ok_up nfc T) /\ g_up (c_ga s') = says_up v /\ g_ctr (c_ga s') = u8 (c + 1) /\ g_n (c_ga s') <= 255 /\ zlen (ga_rphash (g_req (c_ga s'))) = 32
    | _ => True end) s2 e2).
  { intros s2 e2 HT G2. apply wp_bind. apply wp_guard; [intros _|exact (fun _ => I)].
    assert (KB : forall A B (m : Mc A) (k : A -> Mc B) (Q : out B -> ctap -> env -> Prop) s e, gkeep b' c m -> JJ b' c s ->
      (forall w s e, Q (Exc w) s e) -> (forall s e, Q Fail s e) -> (forall s e, Q UB s e) ->
      (forall a s e, JJ b' c s -> wp (k a) Q s e) -> wp (bind m k) Q s e).
    { intros A B m k Q s3 e3 Hm Hp Q1 Q2 Q3 Hk. apply wp_bind. eapply wp_mono; [apply Hm; split; [exact Hp|split; [exact I|apply Forall_forall; auto]]|]. intros [a|w| |] s' e' H; auto. apply Hk, H. }
    eapply KB; [|exact G2|tr..|]. { unfold gkeep, ga_ext, ga_hmac_secret, cp_decapsulate, cp_encrypt, read_key32. cbv zeta. uk. }
    clear s2 e2 G2. intros ext s2 e2 G2. apply wp_bind. unfold gets at 1. apply wp_bind, wp_get, wp_ret. cbv zeta.
    apply wp_bind. eapply wp_mono with (Q := fun o s' _ => match o with Ret r => nth 32 (fst r) 0 = (match ext with [] => 0 | _ => FLAGS_ED end) + (if g_uv (c_ga s2) then FLAGS_UV else 0) + (if g_up (c_ga s2) then FLAGS_UP else 0) /\ JJ b' c s' | _ => True end).
    { assert (W2 : gkeep b' c (make_auth_data K (ga_rphash q) ((match ext with [] => 0 | _ => FLAGS_ED end) + (if g_uv (c_ga s2) then FLAGS_UV else 0) + (if g_up (c_ga s2) then FLAGS_UP else 0)) ext None)).
      { unfold gkeep, make_auth_data, increase_counter. cbv zeta. uk. }
      pose proof (auth_data_flags K (ga_rphash q) ((match ext with [] => 0 | _ => FLAGS_ED end) + (if g_uv (c_ga s2) then FLAGS_UV else 0) + (if g_up (c_ga s2) then FLAGS_UP else 0)) ext None s2 e2 Hh) as W1.
      specialize (W2 s2 e2 (conj G2 (conj I (proj2 (Forall_forall _ _) (fun _ _ => I))))). unfold wp in *. destruct (make_auth_data _ _ _ _ _ _ _) as [[[r|?| |] s'] e']; try exact I. split; [exact W1|apply W2]. }
    intros [r|?| |] s3 e3 H5; try exact I. destruct H5 as (H5 & G3). eapply KB; [|exact G3|tr..|]. { unfold gkeep, sign_with_private_key, cose_alg_to_key_type. uk. }
    intros [sig|] s4 e4 G4; [|exact I]. eapply KB; [|exact G4|tr..|]. { unfold gkeep, make_large_blob_key, read_key32. uk. }
    intros lbk s5 e5 (G5 & G6 & G7 & G8). apply wp_bind, wp_modify, wp_ret. assert (U : says_up (CMap ([(CInt 1, cred_map (dc_id dc)); (CInt 2, CBytes (fst r)); (CInt 3, CBytes sig)] ++
       (if id_dc (dc_id dc) =? 0 then [] else [(CInt 4, user_map (dc_user dc) (g_uv (c_ga s2) && (1 <? g_n (c_ga s2))))]) ++
       (if (match ga_allow q with [] => true | _ => false end) && (g_ctr (c_ga s2) =? 0) && (1 <? g_n (c_ga s2)) then [(CInt 5, CInt (g_n (c_ga s2)))] else []) ++ lbk)) = b').
    { cbn [app says_up]. rewrite H5. destruct G2 as (-> & _). destruct ext, (g_uv (c_ga s2)), b'; reflexivity. }
    split; [exact U|]. split; [exact HT|]. split; [etransitivity; [exact G5|symmetry; exact U]|]. cbn [set_ga c_ga gs_timer gs_ctr g_ctr g_n]. split; [rewrite G6; reflexivity|]. split; [exact G7|exact G8]. }
  apply wp_bind. destruct asked eqn:Ea.
  - apply wp_bind. apply ask_spec; [exact H1| |tr]. rewrite Ht1. intros HT e2. apply wp_bind, wp_modify. apply wp_modify. apply R; [auto|]. split; [reflexivity|]. split; [exact H2|]. split; [exact H4|exact H6].
  - apply wp_ret. apply R; [discriminate|]. subst b'. cbn [orb]. split; auto.
Qed.

Lemma begin_spec nfc t2 q T s e : absent s -> e_tch e = T -> g_ctr (c_ga s) = 0 ->
  wp (ga_begin K nfc t2 q) (fun o s' e' => match o with Ret _ => e_tch e' = T /\ absent s' /\ g_req (c_ga s') = q /\ g_up (c_ga s') = false /\ g_ctr (c_ga s') = 0 | _ => True end) s e.
Proof.
  intros Ha Ht Hc. unfold ga_begin. apply wp_bind, wp_modify.
  eapply (qt_step (fun s => absent s /\ g_req (c_ga s) = q /\ g_ctr (c_ga s) = 0) T); [apply qt_probe|repeat split; [exact Ha|exact Hc]|exact Ht|tr..|].
  clear s e Ha Ht Hc. intros _ s e (Ha & Hq & Hc) Ht. apply wp_bind. apply wp_guard; [intros _|exact (fun _ => I)]. apply wp_bind, wp_modify.
  set (J := fun s => absent s /\ g_req (c_ga s) = q /\ g_up (c_ga s) = false /\ g_ctr (c_ga s) = 0). set (s1 := set_ga _ s). assert (HJ : J s1) by (repeat split; assumption). clearbody s1. clear Ha Hq Hc s.
  assert (W : qt J T (guard (present (ga_param q) || negb (ga_uvopt q =? 1)) ERR_INVALID_OPTION ;;; guard (ga_rk q =? 2) ERR_UNSUPPORTED_OPTION ;;; p <- has_pin ;;
     match ga_param q with Some sig => if p then ga_token K t2 q sig else ret tt | None => ret tt end)).
  { apply qt_bind; [apply qt_guard|intros _]. apply qt_bind; [apply qt_guard|intros _]. apply qt_bind; [unfold has_pin; apply qt_bind; [apply qt_read_attr|intros; apply qt_ret]|intros p].
    destruct (ga_param q); [|apply qt_ret]. destruct p; [|apply qt_ret]. apply qt_ga_token; auto. }
  eapply wp_mono; [apply W; [exact HJ|exact Ht]|]. intros [a|?| |] s2 e2 H; try exact I. destruct H as (H & H'). split; [exact H'|exact H].
Qed.
Lemma get_spec nfc t2 q T s e : absent s -> e_tch e = T -> zlen (ga_rphash q) = 32 ->
  wp (ctap_get_assertion K nfc t2 (inr q)) (fun o s' _ => match o with
    | Ret v => says_up v = negb (ga_upopt q =? 0) /\ (says_up v = true -> ok_up nfc T) /\ g_up (c_ga s') = says_up v /\ g_ctr (c_ga s') = 1 /\ g_n (c_ga s') <= 255 /\ zlen (ga_rphash (g_req (c_ga s'))) = 32
    | _ => True end) s e.
Proof.
  intros Ha Ht Hh. unfold ctap_get_assertion. apply wp_bind, wp_modify.
  eapply (qt_step (fun s => absent s /\ g_ctr (c_ga s) = 0) T); [apply qt_consistency|split; [exact Ha|reflexivity]|exact Ht|tr..|].
  clear s e Ha Ht. intros _ s e (Ha & Hc) Ht. apply wp_bind. eapply wp_mono; [apply (begin_spec nfc t2 q T); assumption|]. intros [a|?| |] s1 e1 H1; try exact I. destruct H1 as (T1 & A1 & Q1 & U1 & C1).
  eapply wp_mono; [apply (rest_spec nfc t2 q T s1 e1 A1 T1 Q1 Hh); congruence|]. intros [v|?| |] s2 e2 H2; try exact I. cbv zeta in H2. rewrite U1, C1, orb_false_r in H2. cbn [Z.eqb andb] in H2. destruct H2 as (V & W & U & C & N & Z).
  split; [exact V|]. split; [rewrite V; exact W|]. split; [exact U|]. split; [exact C|]. split; [exact N|exact Z].
Qed.
Lemma absent_obs t1 s : absent s -> absent (set_tok (fun t => if negb (t_use t) then t else if t_end t <? t1 then tok_stop t else t) s). Proof. apply RU_obs. Qed.

(** ** The chain of a getAssertion, in histories *)
(** The last CTAP2 commands, in this power cycle, are a successful getAssertion that asked for the user's presence and was given it, and continuations of it. *)
Definition chain (tr : list entry) : Prop := exists tr1 d1 x q v tr2, tr = tr1 ++ (d1, Do x, Some (ACbor 0 (Some v))) :: tr2 /\ x_op x = OCbor (RGet (inr q)) /\ ga_upopt q <> 0 /\ by_user x /\ Forall goes_on tr2.
Definition goes (s : ctap) : Prop := c_last s = CTAP_GET_ASSERTION \/ c_last s = CTAP_GET_NEXT_ASSERTION.
Definition inv (tr : list entry) (d : dev) : Prop :=
  absent (d_ram d) /\ (goes (d_ram d) -> 1 <= g_ctr (c_ga (d_ram d)) /\ g_n (c_ga (d_ram d)) <= 255 /\ zlen (ga_rphash (g_req (c_ga (d_ram d)))) = 32 /\ (g_up (c_ga (d_ram d)) = true -> chain tr)).
Definition RG (s s' : ctap) : Prop := c_ga s' = c_ga s /\ c_last s' = c_last s.
Lemma RG_refl s : RG s s. Proof. split; reflexivity. Qed.
Lemma RG_trans a b c : RG a b -> RG b c -> RG a c. Proof. intros (H1 & H2) (H3 & H4). split; congruence. Qed.
Lemma exec_other d x o s e : (forall q, x_op x <> OCbor q) -> x_op x <> OReset -> exec K d x = (Some o, s, e) -> RG (d_ram d) s.
Proof.
  intros Hn Hn2 E.
  assert (B : forall (m : Mc Z), body K x = m -> rl RG m -> RG (d_ram d) s).
  { intros m Hb Hm. pose proof (exec_wp K d x (fun o s _ => match o with Some _ => RG (d_ram d) s | None => True end)) as W. rewrite E in W.
    destruct (x_op x) as [q| | | | | | ]; [elim (Hn q eq_refl)|..]; apply W; rewrite Hb; (eapply wp_mono; [apply Hm|]); intros [] s' e' H'; try exact I; exact H'. }
  destruct (x_op x) as [q|da|p1 da| |da|da|da] eqn:Ex; [elim (Hn q eq_refl)| | |elim (Hn2 eq_refl)|..]; (eapply B; [unfold body; rewrite Ex; reflexivity|]); (apply rl_bind; [apply RG_trans| |intros; apply rl_ret, RG_refl]).
  - apply rl_register; [apply RG_refl|apply RG_trans].
  - apply rl_auth; [apply RG_refl|apply RG_trans].
  - unfold install_private_key. apply rl_bind; [apply RG_trans|apply rl_guard, RG_refl|intros _]. apply rl_bind; [apply RG_trans|apply rl_modify; intros; split; reflexivity|intros _]. apply rl_bind; [apply RG_trans|apply rl_must; [apply RG_refl|apply RG_trans|apply rl_write_attr, RG_refl]|intros _; apply rl_must; [apply RG_refl|apply RG_trans|apply rl_write_attr, RG_refl]].
  - unfold install_cert. apply rl_bind; [apply RG_trans|apply rl_guard, RG_refl|intros _]. apply rl_must; [apply RG_refl|apply RG_trans|apply rl_write_file, RG_refl].
  - unfold write_sm2_config. apply rl_bind; [apply RG_trans|apply rl_guard, RG_refl|intros _]. apply rl_bind; [apply RG_trans|apply rl_write_attr, RG_refl|intros ok]. apply rl_bind; [apply RG_trans|apply rl_modify; intros; split; reflexivity|intros _; apply rl_guard, RG_refl].
Qed.
Lemma tin_by x : ok_up (x_nfc x) (x_tch x) -> by_user x. Proof. exact (fun H => H). Qed.
Lemma get_exec d x q v s e : absent (d_ram d) -> x_op x = OCbor (RGet (inr q)) -> ga_ok q -> exec K d x = (Some (ACbor 0 (Some v)), s, e) ->
  says_up v = negb (ga_upopt q =? 0) /\ (says_up v = true -> by_user x) /\ g_up (c_ga s) = says_up v /\ g_ctr (c_ga s) = 1 /\ g_n (c_ga s) <= 255 /\ zlen (ga_rphash (g_req (c_ga s))) = 32.
Proof.
  intros Ha Hx (_ & Hh & _) E.
  destruct (exec_vs d x (RGet (inr q)) (fun v s => says_up v = negb (ga_upopt q =? 0) /\ (says_up v = true -> by_user x) /\ g_up (c_ga s) = says_up v /\ g_ctr (c_ga s) = 1 /\ g_n (c_ga s) <= 255 /\ zlen (ga_rphash (g_req (c_ga s))) = 32) v s e Hx E) as (s1 & H1 & ->); [|exact H1].
  unfold cbor_cmd. apply wp_bind, wp_modify. apply wp_bind. eapply wp_mono; [apply (get_spec (x_nfc x) (x_t2 x) q (x_tch x)); [apply absent_obs, Ha|reflexivity|exact Hh]|].
  intros [w|?| |] s2 e2 H2; try exact I. apply wp_ret. exact H2.
Qed.
Lemma next_exec d x v s e : absent (d_ram d) -> x_op x = OCbor RNext -> exec K d x = (Some (ACbor 0 (Some v)), s, e) ->
  goes (d_ram d) /\ (1 <= g_ctr (c_ga (d_ram d)) -> g_n (c_ga (d_ram d)) <= 255 -> zlen (ga_rphash (g_req (c_ga (d_ram d)))) = 32 ->
    says_up v = g_up (c_ga (d_ram d)) /\ g_up (c_ga s) = says_up v /\ 1 <= g_ctr (c_ga s) /\ g_n (c_ga s) <= 255 /\ zlen (ga_rphash (g_req (c_ga s))) = 32).
Proof.
  intros Ha Hx E.
  destruct (exec_vs d x RNext (fun v s => goes (d_ram d) /\ (1 <= g_ctr (c_ga (d_ram d)) -> g_n (c_ga (d_ram d)) <= 255 -> zlen (ga_rphash (g_req (c_ga (d_ram d)))) = 32 ->
    says_up v = g_up (c_ga (d_ram d)) /\ g_up (c_ga s) = says_up v /\ 1 <= g_ctr (c_ga s) /\ g_n (c_ga s) <= 255 /\ zlen (ga_rphash (g_req (c_ga s))) = 32)) v s e Hx E) as (s1 & H1 & ->); [|exact H1].
  unfold cbor_cmd. apply wp_bind, wp_modify. set (s0 := set_tok _ _). assert (A0 : absent s0) by (apply absent_obs, Ha). assert (G0 : RG (d_ram d) s0) by (split; reflexivity). clearbody s0. destruct G0 as (G0 & L0).
  apply wp_bind. unfold ctap_get_next_assertion. apply wp_bind, wp_get. apply wp_bind. apply wp_guard; [intros C1|exact (fun _ => I)]. apply wp_bind. apply wp_guard; [intros C2|exact (fun _ => I)]. apply wp_bind. apply wp_guard; [intros _|exact (fun _ => I)].
  rewrite L0 in C1. rewrite G0 in C2. assert (Hg : goes (d_ram d)) by (unfold goes; lia).
  destruct (Z.leb_spec (g_n (c_ga (d_ram d))) 255) as [Hn|Hn].
  2: { eapply wp_mono with (Q := fun _ _ _ => True); [unfold wp; destruct (ga_rest K (x_nfc x) (x_t2 x) s0 _) as [[? ?] ?]; exact I|]. intros [w|?| |] ? ? _; try exact I. apply wp_ret. split; [exact Hg|]. intros. lia. }
  destruct (Z.eq_dec (zlen (ga_rphash (g_req (c_ga s0)))) 32) as [Hz|Hz].
  2: { eapply wp_mono with (Q := fun _ _ _ => True); [unfold wp; destruct (ga_rest K (x_nfc x) (x_t2 x) s0 _) as [[? ?] ?]; exact I|]. intros [w|?| |] ? ? _; try exact I. apply wp_ret. split; [exact Hg|]. intros. rewrite G0 in Hz. congruence. }
  eapply wp_mono; [apply (rest_spec (x_nfc x) (x_t2 x) (g_req (c_ga s0)) (x_tch x) s0); [exact A0|reflexivity|reflexivity|exact Hz|rewrite G0; auto]|].
  intros [w|?| |] s2 e2 H2; try exact I. apply wp_ret. split; [exact Hg|]. intros B1 _ _. cbv zeta in H2. rewrite G0 in H2. destruct (g_ctr (c_ga (d_ram d)) =? 0) eqn:E0; [lia|]. cbn [andb orb] in H2. destruct H2 as (V & _ & U & C & N & Z).
  split; [exact V|]. split; [exact U|]. split; [|split; [exact N|exact Z]]. rewrite C. unfold u8. rewrite Z.mod_small by lia. lia.
Qed.
(** An answer to a CTAP2 command: success with the number of the command remembered, or none *)
Lemma cbor_last d x q o s e : x_op x = OCbor q -> exec K d x = (Some o, s, e) -> (exists v, o = ACbor 0 v /\ c_last s = cmd_of q /\ (forall p, q = RGet p \/ q = RNext -> exists w, v = Some w)) \/ c_last s = CTAP_INVALID_CMD.
Proof.
  intros Hx E. unfold exec in E. rewrite Hx in E. unfold cbor_body, process_cbor in E. destruct (cbor_cmd _ _ _ _ _ _ _ _) as [[[w|c| |] s1] e1] eqn:Ec; try discriminate.
  - destruct (_ <=? _); [|discriminate]. left. exists w. split; [congruence|]. assert (s = set_last (cmd_of q) s1) as -> by congruence. split; [reflexivity|].
    intros p Hp. assert (W : exists m : Mc cbor, cbor_cmd K (x_nfc x) (x_t1 x) (x_t2 x) (x_junk x) q = (cp_observer (x_t1 x) ;;; v <- m ;; ret (Some v))) by (destruct Hp as [->| ->]; eexists; reflexivity).
    destruct W as (m & W). rewrite W in Ec. unfold bind, cp_observer, modify in Ec. destruct (m _ _) as [[[a|?| |] ?] ?]; try discriminate. exists a. unfold ret in Ec. congruence.
  - right. assert (s = set_last CTAP_INVALID_CMD s1) as -> by congruence. reflexivity.
Qed.
Lemma chain_on tr e : goes_on e -> chain tr -> chain (tr ++ [e]).
Proof.
  intros He (tr1 & d1 & x & q & v & tr2 & -> & H1 & H2 & H3 & H4). exists tr1, d1, x, q, v, (tr2 ++ [e]). split; [rewrite <- app_assoc; reflexivity|]. repeat split; auto. apply Forall_app. split; [exact H4|]. constructor; [exact He|constructor].
Qed.
Lemma reset_last d x o s e : x_op x = OReset -> exec K d x = (Some o, s, e) -> c_last s = CTAP_INVALID_CMD.
Proof.
  intros Hx E. unfold exec in E. rewrite Hx in E. unfold body in E. rewrite Hx in E. unfold run_apdu, bind in E. pose proof (install_absent true (d_ram d) (start (d_fs d) (x_flt x) (x_rnd x) (x_tch x))) as W. unfold wp in W.
  destruct (ctap_install K true (d_ram d) _) as [[[u|w| |] s1] e1]; cbn in E; try discriminate; (assert (s = s1) as -> by congruence); apply W.
Qed.
Lemma inv_hist F flt rnd tr d : hist K (boot K F flt rnd) tr d -> inv tr d.
Proof.
  remember (boot K F flt rnd) as d0 eqn:Ed. intros H. revert Ed. induction H as [d|d0 tr d v o d' H IH Hv Hs]; intros Ed.
  - subst d. destruct (boot_absent F flt rnd) as (H1 & H2). split; [exact H1|]. intros [Hg|Hg]; rewrite H2 in Hg; discriminate.
  - destruct (IH Ed) as (IA & IG). clear IH Ed H d0. destruct v as [x|x n fl r|G]; cbn [step] in Hs.
    + destruct (exec K d x) as [[[a|] s] e] eqn:E; [|discriminate]. injection Hs as <- <-. cbn [d_ram]. split; [apply (exec_absent d x a s e E IA)|]. cbn [d_ram]. intros Hg.
      destruct (x_op x) as [q|da|p1 da| |da|da|da] eqn:Ex.
      2,3,5,6,7: destruct (exec_other d x a s e) as (G1 & G2); [congruence|congruence|exact E|]; unfold goes in *; rewrite G1; rewrite G2 in Hg; destruct (IG Hg) as (I1 & I2 & I3 & I4); (split; [exact I1|]); (split; [exact I2|]); (split; [exact I3|]); intros Hu; apply chain_on; [cbn [goes_on]; rewrite Ex; exact I|auto].
      * destruct (cbor_last d x q a s e Ex E) as [(v & -> & L & Hs)|L]; [|destruct Hg as [Hg|Hg]; rewrite L in Hg; discriminate].
        cbn [ev_ok] in Hv. rewrite Ex in Hv.
        destruct q as [p|p| | |p| |p| |p| ]; try (destruct Hg as [Hg|Hg]; rewrite L in Hg; discriminate).
        -- destruct (Hs p (or_introl eq_refl)) as (w & ->). destruct p as [err|q].
           { exfalso. unfold exec in E. rewrite Ex in E. unfold cbor_body, process_cbor in E. 
             assert (W : wp (cbor_cmd K (x_nfc x) (x_t1 x) (x_t2 x) (x_junk x) (RGet (inl err))) (fun o _ _ => match o with Ret _ => False | _ => True end) (d_ram d) (start (d_fs d) (x_flt x) (x_rnd x) (x_tch x))).
             { unfold cbor_cmd. apply wp_bind, wp_modify. apply wp_bind. unfold ctap_get_assertion. apply wp_bind, wp_modify. apply wp_skip; [exact (fun _ _ _ => I)|exact (fun _ _ => I)|exact (fun _ _ => I)|]. intros ? ? ?. exact I. }
             unfold wp in W. destruct (cbor_cmd _ _ _ _ _ _ _ _) as [[[?|?| |] ?] ?]; try discriminate; elim W. }
           destruct (get_exec d x q w s e IA Ex Hv E) as (V & B & U & C & N & Z). split; [lia|]. split; [exact N|]. split; [exact Z|]. intros Hu. rewrite U in Hu.
           exists tr, d, x, q, w, []. split; [reflexivity|]. split; [exact Ex|]. split; [rewrite V in Hu; lia|]. split; [auto|constructor].
        -- destruct (Hs (inl 0) (or_intror eq_refl)) as (w & ->). destruct (next_exec d x w s e IA Ex E) as (Hg' & W). destruct (IG Hg') as (I1 & I2 & I3 & I4). destruct (W I1 I2 I3) as (V & U & C & N & Z).
           split; [exact C|]. split; [exact N|]. split; [exact Z|]. intros Hu. apply chain_on; [cbn [goes_on]; rewrite Ex; exact I|]. apply I4. congruence.
      * pose proof (reset_last d x a s e Ex E) as L. destruct Hg as [Hg|Hg]; rewrite L in Hg; discriminate.
    + destruct (exec K d x) as [[? ?] e]. injection Hs as <- <-. destruct (boot_absent (nth n (e_log e) (e_fs e)) fl r) as (H1 & H2). split; [exact H1|]. intros [Hg|Hg]; rewrite H2 in Hg; discriminate.
    + injection Hs as <- <-. split; [exact IA|]. cbn [d_ram]. intros Hg. destruct (IG Hg) as (I1 & I2 & I3 & I4). repeat split; auto. intros Hu. apply chain_on; [exact I|auto].
Qed.

(** ** C84 *)
(** In every history of a device, from its boot with whatever is stored: *)
Variable F : fs.
Variable flt : list fault.
Variable rnd : bytes.
(** no credential is made without the user *)
Theorem C84_make_credential tr d x q v s e : hist K (boot K F flt rnd) tr d -> x_op x = OCbor (RMake (inr q)) -> exec K d x = (Some (ACbor 0 (Some v)), s, e) -> by_user x.
Proof.
  intros H Hx E. destruct (inv_hist _ _ _ _ _ H) as (Ha & _).
  destruct (exec_vs d x (RMake (inr q)) (fun _ _ => by_user x) v s e Hx E) as (s1 & H1 & _); [|exact H1].
  unfold cbor_cmd. apply wp_bind, wp_modify. apply wp_bind. eapply wp_mono; [apply (make_spec (x_nfc x) (x_t2 x) (x_junk x) q (x_tch x)); [apply absent_obs, Ha|reflexivity]|].
  intros [w|?| |] s2 e2 H2; try exact I. apply wp_ret. exact H2.
Qed.
(** an assertion says that the user was present if and only if it was asked to, and then the user was *)
Theorem C84_get_assertion tr d x q v s e : hist K (boot K F flt rnd) tr d -> x_op x = OCbor (RGet (inr q)) -> ga_ok q -> exec K d x = (Some (ACbor 0 (Some v)), s, e) ->
  (says_up v = true <-> ga_upopt q <> 0) /\ (says_up v = true -> by_user x).
Proof.
  intros H Hx Hq E. destruct (inv_hist _ _ _ _ _ H) as (Ha & _). destruct (get_exec d x q v s e Ha Hx Hq E) as (V & B & _). split; [|exact B]. rewrite V. split; lia.
Qed.
(** a continuation says so only if the getAssertion that it continues, in the same power cycle and without another CTAP2 command between, did *)
Theorem C84_get_next_assertion tr d x v s e : hist K (boot K F flt rnd) tr d -> x_op x = OCbor RNext -> exec K d x = (Some (ACbor 0 (Some v)), s, e) -> says_up v = true ->
  exists tr1 d1 y q w tr2, tr = tr1 ++ (d1, Do y, Some (ACbor 0 (Some w))) :: tr2 /\ x_op y = OCbor (RGet (inr q)) /\ ga_upopt q <> 0 /\ by_user y /\ Forall goes_on tr2.
Proof.
  intros H Hx E Hu. destruct (inv_hist _ _ _ _ _ H) as (Ha & Hi). destruct (next_exec d x v s e Ha Hx E) as (Hg & W). destruct (Hi Hg) as (I1 & I2 & I3 & I4). destruct (W I1 I2 I3) as (V & _). apply I4. congruence.
Qed.
(** authenticatorSelection succeeds only with the user *)
Theorem C84_selection d x v s e : x_op x = OCbor RSelect -> exec K d x = (Some (ACbor 0 v), s, e) -> by_user x.
Proof.
  intros Hx E. apply (exec_ok K d x RSelect (fun _ => by_user x) v s e Hx E). unfold cbor_cmd. apply wp_bind, wp_modify. apply wp_bind. unfold WAIT, by_user, touched. destruct (x_nfc x); [apply wp_ret; apply wp_ret; auto|].
  apply wp_bind. unfold start. apply wp_wait_touch. destruct (x_tch x) as [|t r]; [discriminate|]. cbn [hd]. unfold USER_PRESENCE_CANCEL, USER_PRESENCE_TIMEOUT.
  destruct (t =? 1) eqn:E1; [discriminate|]. destruct (t =? 2) eqn:E2; [discriminate|]. apply wp_ret, wp_ret. right. exists t, r. split; [reflexivity|]. lia.
Qed.
(** U2F registrations and authentications succeed only with the user *)
Theorem C84_u2f d x r s e : match x_op x with ORegister _ | OAuth _ _ => True | _ => False end -> exec K d x = (Some (AApdu r), s, e) -> r_sw r = 0x9000 -> by_user x.
Proof.
  intros Hx E Hr. pose proof (exec_wp K d x (fun o _ _ => match o with Some (AApdu r) => r_sw r = 0x9000 -> by_user x | _ => True end)) as W. rewrite E in W.
  assert (P : forall A (m : Mc A) s e, by_user x -> wp m (fun _ _ _ => by_user x) s e) by (intros A m s0 e0 H; unfold wp; destruct (m s0 e0) as [[? ?] ?]; exact H).
  assert (Tc : forall (k : Mc unit) s0 e0, e_tch e0 = x_tch x -> wp (u2f_touch (x_nfc x) ;;; k) (fun o _ _ => match o with Ret _ => by_user x | Exc w => w = 0x9000 -> by_user x | _ => True end) s0 e0).
  { intros k s0 e0 H0. assert (P2 : by_user x -> forall A (m : Mc A) s e, wp m (fun o _ _ => match o with Ret _ => by_user x | Exc w => w = 0x9000 -> by_user x | _ => True end) s e) by (intros H A m s1 e1; unfold wp; destruct (m s1 e1) as [[[] ?] ?]; auto).
    apply wp_bind. unfold u2f_touch. unfold by_user in *. destruct (x_nfc x); [apply wp_ret; apply P2; auto|]. apply wp_bind. unfold wp at 1, wait_touch. rewrite H0. unfold touched in *. destruct (x_tch x) as [|t l]; [apply wp_guard; [discriminate|intros _; cbv beta iota; discriminate]|].
    apply wp_guard; [intros G|intros _; cbv beta iota; discriminate]. apply P2. right. exists t, l. unfold USER_PRESENCE_OK in G. split; [reflexivity|]. lia. }
  assert (Fin : forall (m : Mc unit) s0 e0, wp m (fun o _ _ => match o with Ret _ => by_user x | Exc w => w = 0x9000 -> by_user x | _ => True end) s0 e0 ->
     wp (m ;;; ret 0x9000) (fun o s e => match o with Ret w | Exc w => (fun (_ : ctap) (_ : env) => r_sw (mkR (e_out e) w) = 0x9000 -> by_user x) s e | Fail => r_sw (mkR (e_out e) 0x6900) = 0x9000 -> by_user x | UB => True end) s0 e0).
  { intros m s0 e0 H0. apply wp_bind. eapply wp_mono; [exact H0|]. intros [a|w| |] s1 e1 H1; cbn [r_sw]; try exact I; [apply wp_ret; auto|exact H1|discriminate]. }
  clear P. revert Hr. apply W. clear W E. destruct (x_op x) as [q|da|p1 da| |da|da|da] eqn:Ex; try contradiction; unfold body; rewrite Ex; apply Fin.
  - unfold u2f_register. apply wp_bind. apply wp_guard; [intros _|intros _; cbv beta iota; discriminate]. apply Tc. reflexivity.
  - unfold u2f_authenticate. do 2 (apply wp_bind; apply wp_guard; [intros _|intros _; cbv beta iota; discriminate]). cbv zeta. apply wp_bind; apply wp_guard; [intros _|intros _; cbv beta iota; discriminate].
    unfold verify_key_handle, read_key32. apply wp_bind, wp_bind, wp_bind. apply wp_read_attr. intros X' k _ _. apply wp_ret, wp_ret.
    destruct k as [kh|]; cbn [option_map]; [|cbv beta iota; discriminate]. destruct (beqb _ _); [|cbv beta iota; discriminate].
    apply wp_bind. apply wp_guard; [intros _|intros _; cbv beta iota; discriminate]. apply Tc. reflexivity.
Qed.
End T.
(** What does not hold: a reset, which erases all credentials, is not confirmed by the user, only within 10 s after power-on. *)
Definition untouched (t : Z) (o : op) : cmd := mkCmd o 1300 false t t [] [] (repeat (t mod 256) 200) [].
Definition case_reset : list ev := [do_at 300 (OKey (repeat 6 32)); do_at 400 (OCbor (RMake (inr (mc_of 7 1 1 None)))); Do (untouched 500 (OCbor RReset)); do_at 600 (OCbor (RGet (inr (ga_of 7 [] None))))].
Definition codes (tr : list entry) : list Z := map code_of tr.
Theorem C84_reset_refuted : exists tr d, hist toyf fresh_dev tr d /\ map (fun e => snd (fst e)) tr = case_reset /\ codes tr = [-1; 0; 0; 46] /\ ~ by_user (untouched 500 (OCbor RReset)).
Proof.
  destruct (play_case toyf fresh_dev case_reset (fun tr d => beqb (codes tr) [-1; 0; 0; 46])) as (tr & d & H1 & H2 & H3); [vm_compute; reflexivity|]. exists tr, d. apply beqb_eq in H2. repeat split; auto.
  intros [H|(t & l & H & _)]; discriminate.
Qed.
(** A case of the theorems: two credentials made with touches; an assertion and its continuation that say the user was present; silent ones that do not;
    without a touch nothing is made and no presence claimed *)
Definition silent (rp : Z) : gareq := mkGa (repeat rp 32) (repeat 4 32) [] 2 2 0 None None None false.
Definition case84 : list ev := [do_at 300 (OKey (repeat 6 32)); do_at 400 (OCbor (RMake (inr (mc_of 7 1 1 None)))); do_at 500 (OCbor (RMake (inr (mc_of 7 2 1 None))));
  do_at 600 (OCbor (RGet (inr (ga_of 7 [] None)))); Do (untouched 700 (OCbor RNext)); Do (untouched 800 (OCbor (RGet (inr (silent 7))))); Do (untouched 900 (OCbor RNext));
  Do (untouched 1000 (OCbor (RMake (inr (mc_of 7 3 1 None))))); Do (untouched 1100 (OCbor (RGet (inr (ga_of 7 [] None))))); Do (untouched 1200 (OCbor RSelect)); do_at 1300 (OCbor RSelect);
  do_at 1400 (ORegister (repeat 1 64)); Do (untouched 1500 (ORegister (repeat 1 64)))].
Definition up_of (e : entry) : Z := match snd e with Some (ACbor 0 (Some v)) => if says_up v then 1 else 0 | Some (AApdu r) => r_sw r | Some (ACbor c _) => - c | _ => -1 end.
Example C84_case : exists tr d, hist toyf fresh_dev tr d /\ map (fun e => snd (fst e)) tr = case84 /\ map up_of tr = [0x9000; 1; 1; 1; 1; 0; 0; -39; -39; -47; 0; 0x9000; 0x6985] /\ fresh_dev = boot toyf blank [] (repeat 5 100 ++ repeat 9 100).
Proof.
  destruct (play_case toyf fresh_dev case84 (fun tr d => beqb (map up_of tr) [0x9000; 1; 1; 1; 1; 0; 0; -39; -39; -47; 0; 0x9000; 0x6985])) as (tr & d & H1 & H2 & H3); [vm_compute; reflexivity|]. exists tr, d. apply beqb_eq in H2. auto.
Qed.
Print Assumptions C84_make_credential.
Print Assumptions C84_get_assertion.
Print Assumptions C84_get_next_assertion.
Print Assumptions C84_selection.
Print Assumptions C84_u2f.
Print Assumptions C84_reset_refuted.
