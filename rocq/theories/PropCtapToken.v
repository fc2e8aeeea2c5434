(** C50: what a pinUvAuthToken authorises. *)
From Verif Require Import CtapSpec CtapFrame CtapRel CtapToy PropCtapPin.
Open Scope string_scope. Open Scope list_scope. Open Scope Z_scope.

(** ** Specification *)
(** A tag: the first 16 (protocol 1) or 32 bytes of HMAC-SHA-256 under the token *)
Definition tagged (K : fcrypto) (token msg sig : bytes) (proto : Z) : Prop :=
  let n := if proto =? 1 then 16%nat else 32%nat in firstn n (f_hmac K token msg) = firstn n (attr_buf 32 sig).
(** The permissions (CTAP 2.1, 6.5.5.7) *)
Definition MayMake := 1. Definition MayAssert := 2. Definition MayManage := 4. Definition MayWriteBlob := 16.
Definition unbound (r : option bytes) : Prop := r = None.
Definition bound_to (h : bytes) (r : option bytes) : Prop := r = None \/ r = Some h.
Definition any_rp (r : option bytes) : Prop := True.
(** The token [t] is in use, has the permission and the binding, and the tag was made with it. *)
Definition allows (K : fcrypto) (t : tok) (perm : Z) (rp : option bytes -> Prop) (msg sig : bytes) (proto : Z) : Prop :=
  t_use t = true /\ tagged K (t_token t) msg sig proto /\ Z.land (t_perm t) perm <> 0 /\ rp (t_rp t).
(** The device is in this state before the command, and the life time of the token is not over. *)
Definition authorised (K : fcrypto) (d : dev) (x : cmd) (perm : Z) (rp : option bytes -> Prop) (msg : bytes) (sig : option bytes) (proto : Z) : Prop :=
  x_t1 x <= t_end (c_tok (d_ram d)) /\ exists b, sig = Some b /\ allows K (c_tok (d_ram d)) perm rp msg b proto.
(** A PIN is stored. *)
Definition pin_set (F : fs) : Prop := exists p, pin_of F = Some p /\ p <> [].
(** The flag UV of the authenticator data in the answer of makeCredential, getAssertion *)
Definition says_uv (v : cbor) : bool := match v with CMap (_ :: (_, CBytes ad) :: _) => Z.testbit (nth 32 ad 0) 2 | _ => false end.

(** ** Proof *)
Section S.
Variable K : fcrypto.
Definition obs (t1 : Z) (t : tok) : tok := if negb (t_use t) then t else if t_end t <? t1 then tok_stop t else t.
Lemma allows_obs t1 t perm rp msg sig proto : allows K (obs t1 t) perm rp msg sig proto -> t1 <= t_end t /\ allows K t perm rp msg sig proto.
Proof. unfold obs. intros H. destruct (t_use t) eqn:E; cbn [negb] in H; [|destruct H as (H & _); congruence]. destruct (t_end t <? t1) eqn:Et; [destruct H as (H & _); discriminate|]. split; [lia|exact H]. Qed.
Lemma obs_uv t1 t : t_uv (obs t1 t) = true -> t_uv t = true.
Proof. unfold obs. destruct (negb _); [auto|]. destruct (_ <? _); [discriminate|auto]. Qed.
Lemma wp_has_pin (Q : out bool -> ctap -> env -> Prop) s e :
  (forall b X, (pin_set (e_fs e) -> b = true) -> Q (Ret b) s (mkE (e_fs e) (e_log e) X (e_rnd e) (e_tch e) (e_out e))) -> wp (has_pin) Q s e.
Proof.
  intros H. unfold has_pin. apply wp_bind. destruct e as [F L X Rn T O]. apply wp_read_attr. intros X' r HX Hr. apply wp_ret. apply H. cbn [e_fs]. intros (p & Hp & Hn).
  unfold pin_of in Hp. change CTAP_CERT_FILE with "ctap_cert" in Hr. change PIN_ATTR with 2 in Hr. destruct r as [v|]; [|reflexivity].
  assert (v = p) as -> by (unfold pin_of in Hp; destruct Hr as [Hr|Hr]; congruence). destruct p; [congruence|reflexivity].
Qed.
Lemma wp_verify t2 msg sig proto (Q : out bool -> ctap -> env -> Prop) s e :
  (t_use (c_tok s) = true -> forall b, (b = true -> tagged K (t_token (c_tok s)) msg sig proto) -> Q (Ret b) (set_tok (tk_end (u32 (t2 + 30000))) s) e) ->
  (Q (Ret false) s e) -> wp (cp_verify_token K t2 msg sig proto) Q s e.
Proof.
  intros H1 H2. unfold cp_verify_token. apply wp_bind, wp_get. destruct (t_use (c_tok s)) eqn:E; cbn [negb]; [|apply wp_ret; exact H2].
  apply wp_bind, wp_modify, wp_ret. apply (H1 eq_refl). unfold cp_verify, tagged. cbv zeta. intros Hb. apply beqb_eq in Hb. destruct (proto =? 1); exact Hb.
Qed.
Ltac stop := apply wp_except; exact I.
Lemma mc_token_spec t2 q sig s e :
  wp (mc_token K t2 q sig) (fun o _ _ => match o with Ret uv => uv = true /\ t_uv (c_tok s) = true /\ allows K (c_tok s) MayMake (bound_to (mc_rphash q)) (mc_cdh q) sig (match mc_proto q with Some p => p | None => 0 end) | _ => True end) s e.
Proof.
  unfold mc_token. apply wp_bind, wp_get. apply wp_bind. apply wp_guard; [intros _|exact (fun _ => I)]. apply wp_bind. apply wp_verify; [|apply wp_bind; stop]. intros Hu b Hb.
  apply wp_bind. apply wp_guard; [intros ->|exact (fun _ => I)].
  unfold cp_has_permission, gets. apply wp_bind, wp_bind, wp_get, wp_ret. cbn [set_tok c_tok tk_end t_perm]. apply wp_bind. apply wp_guard; [intros Hp|exact (fun _ => I)].
  unfold cp_verify_rp, gets. apply wp_bind, wp_bind, wp_get, wp_ret. cbn [set_tok c_tok tk_end t_rp]. apply wp_bind. apply wp_guard; [intros Hr|exact (fun _ => I)].
  unfold cp_user_verified, gets. apply wp_bind, wp_bind, wp_get, wp_ret. apply wp_bind. apply wp_guard; [intros Huv|exact (fun _ => I)].
  apply wp_bind, wp_modify, wp_ret. split; [reflexivity|]. split; [apply andb_true_iff in Huv; apply Huv|]. split; [exact Hu|]. split; [apply Hb; reflexivity|]. split.
  - unfold PERM_MC, MayMake in *. lia.
  - unfold bound_to. destruct (t_rp (c_tok s)) as [r|]; [|auto]. apply beqb_eq in Hr. subst r. auto.
Qed.
Lemma mc_auth_spec t2 q s e :
  wp (mc_auth K t2 q) (fun o _ _ => match o with
    | Ret uv => (uv = true -> exists sig, mc_param q = Some sig /\ t_uv (c_tok s) = true /\ allows K (c_tok s) MayMake (bound_to (mc_rphash q)) (mc_cdh q) sig (match mc_proto q with Some p => p | None => 0 end)) /\
                (pin_set (e_fs e) -> mc_param q <> None \/ mc_rk q = 1 -> uv = true)
    | _ => True end) s e.
Proof.
  unfold mc_auth. apply wp_bind. apply wp_guard; [intros _|exact (fun _ => I)]. apply wp_bind. apply wp_guard; [intros _|exact (fun _ => I)]. apply wp_bind. apply wp_guard; [intros _|exact (fun _ => I)].
  apply wp_bind. apply wp_has_pin. intros b X Hb. apply wp_bind. apply wp_guard; [intros G1|exact (fun _ => I)].
  destruct (negb (mc_rk q =? 1) && negb (present (mc_param q))) eqn:E.
  - apply wp_ret. split; [discriminate|]. intros Hp Hc. destruct (mc_param q) as [sig|]; cbn [present] in *; [lia|]. destruct Hc as [Hc|Hc]; [congruence|lia].
  - apply wp_bind. apply wp_has_pin. intros b' X' Hb'. cbn [e_fs] in Hb'. destruct (mc_param q) as [sig|] eqn:Ep.
    + destruct b'.
      * eapply wp_mono; [apply mc_token_spec|]. intros [uv|?| |] s' e' H; try exact I. destruct H as (-> & H0 & H). split; [|auto]. intros _. exists sig. auto.
      * apply wp_ret. split; [discriminate|]. intros Hp. specialize (Hb' Hp). discriminate.
    + apply wp_ret. split; [discriminate|]. intros Hp Hc. specialize (Hb Hp). subst b. cbn [present] in G1. destruct Hc as [Hc|Hc]; [congruence|]. rewrite Hc in G1. discriminate.
Qed.
Lemma wp_skip {A B} (m : Mc A) (k : A -> Mc B) (Q : out B -> ctap -> env -> Prop) s e :
  (forall w s e, Q (Exc w) s e) -> (forall s e, Q Fail s e) -> (forall s e, Q UB s e) -> (forall a s e, wp (k a) Q s e) -> wp (bind m k) Q s e.
Proof. intros H1 H2 H3 H4. apply wp_bind. unfold wp. destruct (m s e) as [[[a|w| |] s'] e']; auto. apply H4. Qed.
Definition on_ret {A} (P : A -> Prop) (o : out A) (_ : ctap) (_ : env) : Prop := match o with Ret a => P a | _ => True end.
Ltac skip := apply wp_skip; [exact (fun _ _ _ => I)|exact (fun _ _ => I)|exact (fun _ _ => I)|].
Lemma auth_data_flags rp fl ext at_ s e : zlen rp = 32 -> wp (make_auth_data K rp fl ext at_) (on_ret (fun r => nth 32 (fst r) 0 = fl)) s e.
Proof.
  intros H. assert (N : forall t, nth 32 (rp ++ fl :: t) 0 = fl) by (intros t; rewrite app_nth2 by (unfold zlen in H; lia); replace (32 - length rp)%nat with 0%nat by (unfold zlen in H; lia); reflexivity).
  unfold make_auth_data. skip. intros c s1 e1. cbv zeta. destruct at_ as [[[alg dc] cp]|].
  - skip. intros r s2 e2. destruct r as [[id pub]|]; [|apply wp_except; exact I]. skip. intros s3 s4 e4. skip. intros key s5 e5. apply wp_bind. apply wp_guard; [intros _|exact (fun _ => I)].
    apply wp_ret. cbn [on_ret fst]. rewrite <- !app_assoc. apply N.
  - apply wp_ret. cbn [on_ret fst]. rewrite <- !app_assoc. apply N.
Qed.
(** The beginning of a command: the token and the PIN are still those of before (but the token may have expired) *)
Definition pre (t : tok) (p : option bytes) (s : ctap) (e : env) : Prop := kgood (fun s => c_tok s = t) (fun F => pin_of F = p) (fun _ => True) s e.
Lemma pin_indep p f : f <> CTAP_CERT_FILE -> indep (fun F => pin_of F = p) f.
Proof. intros H F x HF. unfold pin_of, fattr in *. rewrite fset_other by (intros E; apply H; symmetry; exact E). exact HF. Qed.
Lemma pre_keep t p {A B} (m : Mc A) (k : A -> Mc B) (Q : B -> Prop) s e : keep (fun s => c_tok s = t) (fun F => pin_of F = p) (fun _ => True) m -> pre t p s e ->
  (forall a s e, pre t p s e -> wp (k a) (on_ret Q) s e) -> wp (bind m k) (on_ret Q) s e.
Proof. intros Hm Hp Hk. apply wp_bind. eapply wp_mono; [apply Hm, Hp|]. intros [a|w| |] s' e' H; try exact I. apply Hk, H. Qed.
Lemma pre_check t p : keep (fun s => c_tok s = t) (fun F => pin_of F = p) (fun _ => True) consistency_check.
Proof. apply kp_consistency; [auto|apply pin_indep; discriminate|apply pin_indep; discriminate]. Qed.
Lemma cbor_pre d x {B} (k : Mc B) (Q : B -> Prop) : 
  (forall s e, pre (obs (x_t1 x) (c_tok (d_ram d))) (pin_of (d_fs d)) s e -> c_last s = c_last (d_ram d) -> wp k (on_ret Q) s e) ->
  wp (cp_observer (x_t1 x) ;;; k) (on_ret Q) (d_ram d) (start (d_fs d) (x_flt x) (x_rnd x) (x_tch x)).
Proof.
  intros H. apply wp_bind, wp_modify. apply H; [|reflexivity]. split; [reflexivity|]. split; [reflexivity|]. repeat constructor.
Qed.
Lemma exec_ok d x q (Q : option cbor -> Prop) v s e : x_op x = OCbor q -> exec K d x = (Some (ACbor 0 v), s, e) ->
  wp (cbor_cmd K (x_nfc x) (x_t1 x) (x_t2 x) (x_junk x) q) (fun o _ _ => match o with Ret v => Q v | Exc c => c <> 0 | _ => True end) (d_ram d) (start (d_fs d) (x_flt x) (x_rnd x) (x_tch x)) -> Q v.
Proof.
  intros Hx E W. unfold exec in E. rewrite Hx in E. unfold cbor_body, process_cbor, wp in *. destruct (cbor_cmd _ _ _ _ _ _ _ _) as [[[w|c| |] s1] e1]; try discriminate.
  - destruct (_ <=? _); [|discriminate]. assert (v = w) as -> by congruence. exact W.
  - assert (c = 0) by congruence. contradiction.
Qed.
(** An answer with an item comes from a command that returned. *)
Lemma exec_some d x q (Q : option cbor -> Prop) v s e : x_op x = OCbor q -> exec K d x = (Some (ACbor 0 (Some v)), s, e) ->
  wp (cbor_cmd K (x_nfc x) (x_t1 x) (x_t2 x) (x_junk x) q) (on_ret Q) (d_ram d) (start (d_fs d) (x_flt x) (x_rnd x) (x_tch x)) -> Q (Some v).
Proof.
  intros Hx E W. unfold exec in E. rewrite Hx in E. unfold cbor_body, process_cbor, wp in *. destruct (cbor_cmd _ _ _ _ _ _ _ _) as [[[w|c| |] s1] e1]; try discriminate.
  destruct (_ <=? _); [|discriminate]. assert (Some v = w) as -> by congruence. exact W.
Qed.
Lemma flag_uv ext uv : Z.testbit (FLAGS_AT + (match ext : bytes with [] => 0 | _ => FLAGS_ED end) + (if uv : bool then FLAGS_UV else 0) + FLAGS_UP) 2 = uv.
Proof. destruct ext, uv; reflexivity. Qed.
Definition mc_sig (q : mcreq) := match mc_proto q with Some p => p | None => 0 end.
(** makeCredential: if the answer says that the user was verified, then the token authorised it, and it stood for a verification of
    the user.  With a PIN, this is always so for
    discoverable credentials, and if a pinUvAuthParam was sent. *)
Theorem C50_make_credential d x q v s e : x_op x = OCbor (RMake (inr q)) -> mc_ok q -> exec K d x = (Some (ACbor 0 (Some v)), s, e) ->
  (says_uv v = true -> authorised K d x MayMake (bound_to (mc_rphash q)) (mc_cdh q) (mc_param q) (mc_sig q) /\ t_uv (c_tok (d_ram d)) = true) /\
  (pin_set (d_fs d) -> mc_param q <> None \/ mc_rk q = 1 -> says_uv v = true).
Proof.
  intros Hx Hq E. destruct Hq as (_ & (Hh & _) & _). pattern v. match goal with |- ?P v => set (G := P); apply (exec_some d x (RMake (inr q)) (fun v => match v with Some v => G v | None => False end) v s e Hx E) end. unfold cbor_cmd. apply cbor_pre. intros s1 e1 Hp _.
  set (t := c_tok (d_ram d)) in *.
  apply wp_bind. eapply wp_mono with (Q := on_ret G); [|intros [a|?| |] s2 e2 H2; try exact I; apply wp_ret; exact H2].
  unfold ctap_make_credential. eapply pre_keep; [apply pre_check|exact Hp|]. clear s1 e1 Hp. intros _ s1 e1 Hp. eapply pre_keep; [apply kp_touch_probe|exact Hp|]. clear s1 e1 Hp. intros _ s1 e1 (Ht & Hf & _).
  apply wp_bind. eapply wp_mono; [apply mc_auth_spec|]. intros [uv|?| |] s2 e2 H2; try exact I. destruct H2 as (Ha & Hb).
  do 4 (skip; intros ? ? ?). cbv zeta. apply wp_bind. eapply wp_mono; [apply auth_data_flags; exact Hh|]. intros [[ad id]|?| |] s7 e7 H7; try exact I. cbn [on_ret fst] in H7.
  skip. intros ? ? ?. skip. intros att s9 e9. skip. intros lbk s10 e10. apply wp_ret. subst G. cbn [on_ret app says_uv]. rewrite H7, flag_uv. split.
  - intros ->. destruct (Ha eq_refl) as (sig & Hs & Huv & Hal). rewrite Ht in Hal, Huv. apply obs_uv in Huv. apply allows_obs in Hal. split; [|exact Huv]. split; [apply Hal|]. exists sig. split; [exact Hs|apply Hal].
  - intros (p & Hp1 & Hp2). apply Hb. exists p. rewrite Hf. auto.
Qed.
(** *** getAssertion *)
Definition ga_sig (q : gareq) := match ga_proto q with Some p => p | None => 0 end.
Lemma ga_token_spec t2 q sig s e :
  wp (ga_token K t2 q sig) (fun o s' _ => match o with Ret _ => g_req (c_ga s') = g_req (c_ga s) /\ g_uv (c_ga s') = true /\ t_uv (c_tok s) = true /\ allows K (c_tok s) MayAssert (bound_to (ga_rphash q)) (ga_cdh q) sig (ga_sig q) | _ => True end) s e.
Proof.
  unfold ga_token. apply wp_bind, wp_get. apply wp_bind. apply wp_guard; [intros _|exact (fun _ => I)]. apply wp_bind. apply wp_verify; [|apply wp_bind; stop]. intros Hu b Hb.
  apply wp_bind. apply wp_guard; [intros ->|exact (fun _ => I)]. apply wp_bind, wp_modify.
  unfold cp_user_verified, gets. apply wp_bind, wp_bind, wp_get, wp_ret. apply wp_bind. apply wp_guard; [intros Huv|exact (fun _ => I)].
  unfold cp_has_permission, gets. apply wp_bind, wp_bind, wp_get, wp_ret. cbn [set_tok set_ga c_tok tk_end t_perm]. apply wp_bind. apply wp_guard; [intros Hp|exact (fun _ => I)].
  unfold cp_verify_rp, gets. apply wp_bind, wp_bind, wp_get, wp_ret. cbn [set_tok set_ga c_tok tk_end t_rp]. apply wp_bind. apply wp_guard; [intros Hr|exact (fun _ => I)].
  apply wp_modify. split; [reflexivity|]. split; [reflexivity|]. split; [apply andb_true_iff in Huv; apply Huv|]. split; [exact Hu|]. split; [apply Hb; reflexivity|]. split.
  - unfold PERM_GA, MayAssert in *. lia.
  - unfold bound_to. destruct (t_rp (c_tok s)) as [r|]; [|auto]. apply beqb_eq in Hr. subst r. auto.
Qed.
Definition ga_begun (q : gareq) (t : tok) (ps : Prop) (s' : ctap) : Prop :=
  g_req (c_ga s') = q /\
  (g_uv (c_ga s') = true -> exists sig, ga_param q = Some sig /\ t_uv t = true /\ allows K t MayAssert (bound_to (ga_rphash q)) (ga_cdh q) sig (ga_sig q)) /\
  (ps -> ga_param q <> None -> g_uv (c_ga s') = true).
Lemma ga_begin_spec nfc t2 q t p s e : pre t p s e ->
  wp (ga_begin K nfc t2 q) (fun o s' _ => match o with Ret _ => ga_begun q t (exists v, p = Some v /\ v <> []) s' | _ => True end) s e.
Proof.
  intros (Ht & Hf & _). unfold ga_begin. apply wp_bind, wp_modify.
  apply wp_bind. eapply wp_mono; [apply (kp_touch_probe nfc (fun s => c_tok s = t /\ g_req (c_ga s) = q) (fun F => pin_of F = p) (fun _ => True) (ga_param q)); split; [split; [exact Ht|reflexivity]|]; split; [exact Hf|apply Forall_forall; auto]|].
  intros [a|?| |] s1 e1 ((Ht1 & Hq1) & Hf1 & _); try exact I. apply wp_bind. apply wp_guard; [intros _|exact (fun _ => I)]. apply wp_bind, wp_modify.
  apply wp_bind. apply wp_guard; [intros G1|exact (fun _ => I)]. apply wp_bind. apply wp_guard; [intros _|exact (fun _ => I)]. apply wp_bind. apply wp_has_pin. intros b X Hb.
  destruct (ga_param q) as [sig|] eqn:Ep; [destruct b|].
  - eapply wp_mono; [apply ga_token_spec|]. intros [u|?| |] s2 e2 H; try exact I. destruct H as (H1 & H2 & H0 & H3). split; [rewrite H1; exact Hq1|]. split; [|auto]. intros _. exists sig. split; [exact Ep|]. cbn [set_ga c_tok] in H0, H3. rewrite Ht1 in H0, H3. split; [exact H0|exact H3].
  - apply wp_ret. split; [exact Hq1|]. split; [discriminate|]. intros (v & Hv & Hn) _. assert (Hs : pin_set (e_fs e1)) by (exists v; rewrite Hf1; auto). specialize (Hb Hs). discriminate.
  - apply wp_ret. split; [exact Hq1|]. split; [discriminate|]. intros _ Hc. congruence.
Qed.
Definition uvk (b : bool) {A} (m : Mc A) : Prop := keep (fun s => g_uv (c_ga s) = b) (fun _ => True) (fun _ => True) m.
Lemma uvk_bind b {A B} (m : Mc A) (k : A -> Mc B) (Q : B -> Prop) s e : uvk b m -> g_uv (c_ga s) = b -> (forall a s e, g_uv (c_ga s) = b -> wp (k a) (on_ret Q) s e) -> wp (bind m k) (on_ret Q) s e.
Proof. intros Hm Hp Hk. apply wp_bind. eapply wp_mono; [apply Hm; split; [exact Hp|split; [exact I|apply Forall_forall; auto]]|]. intros [a|w| |] s' e' H; try exact I. apply Hk, H. Qed.
Ltac uk := repeat lazymatch goal with
  | |- keep _ _ _ (bind _ _) => apply kp_bind; [|intros ?]
  | |- keep _ _ _ (ret _) => apply kp_ret
  | |- keep _ _ _ (got _) => apply kp_got
  | |- keep _ _ _ (must _) => apply kp_must
  | |- keep _ _ _ (gets _) => apply kp_gets
  | |- keep _ _ _ get => apply kp_get
  | |- keep _ _ _ ub => apply kp_ub
  | |- keep _ _ _ (except _) => apply kp_except
  | |- keep _ _ _ (guard _ _) => apply kp_guard
  | |- keep _ _ _ (random_buffer _) => apply kp_random
  | |- keep _ _ _ (read_file _ _ _) => apply kp_read_file
  | |- keep _ _ _ (read_attr _ _) => apply kp_read_attr
  | |- keep _ _ _ (get_file_size _) => apply kp_size
  | |- keep _ _ _ (allow _ _ _ _ _) => apply kp_allow
  | |- keep _ _ _ (applicable _ _ _) => apply kp_applicable
  | |- keep _ _ _ (ask_presence _ _) => apply kp_ask
  | |- keep _ _ _ (modify (set_ga _)) => apply kp_modify; intros ? H; exact H
  | |- keep _ _ _ (modify (set_tok _)) => apply kp_modify; intros ? H; exact H
  | |- keep _ _ _ (match ?x with _ => _ end) => destruct x
  end.
Lemma uvk_select b q : uvk b (ga_select K q).
Proof. unfold uvk, ga_select, count_recs, read_rec, verify_key_handle, read_key32. uk. Qed.
Lemma uvk_ext b q dc : uvk b (ga_ext K q dc).
Proof. unfold uvk, ga_ext, ga_hmac_secret, cp_decapsulate, cp_encrypt, read_key32. cbv zeta. uk. Qed.
Lemma ga_flag_uv ext uv up : Z.testbit ((match ext : bytes with [] => 0 | _ => FLAGS_ED end) + (if uv : bool then FLAGS_UV else 0) + (if up : bool then FLAGS_UP else 0)) 2 = uv.
Proof. destruct ext, uv, up; reflexivity. Qed.
Lemma ga_rest_spec nfc t2 s e : zlen (ga_rphash (g_req (c_ga s))) = 32 -> wp (ga_rest K nfc t2) (on_ret (fun v => says_uv v = g_uv (c_ga s))) s e.
Proof.
  intros Hh. unfold ga_rest. apply wp_bind. unfold gets at 1. apply wp_bind, wp_get, wp_ret. set (q := g_req (c_ga s)) in *. set (b := g_uv (c_ga s)).
  eapply uvk_bind; [apply (uvk_select b)|reflexivity|]. intros [dc pri] s1 e1 H1. eapply uvk_bind; [apply kp_gets|exact H1|]. intros g s2 e2 H2.
  eapply (uvk_bind b); [unfold uvk, cp_clear_flags; uk|exact H2|]. intros _ s3 e3 H3. apply wp_bind. apply wp_guard; [intros _|exact (fun _ => I)].
  eapply uvk_bind; [apply uvk_ext|exact H3|]. intros ext s4 e4 H4. apply wp_bind. unfold gets at 1. apply wp_bind, wp_get, wp_ret. cbv zeta.
  apply wp_bind. eapply wp_mono; [apply auth_data_flags; exact Hh|]. intros [r|?| |] s5 e5 H5; try exact I. cbn [on_ret] in H5. skip. intros [sig|] s6 e6; [|exact I]. skip. intros lbk s7 e7. apply wp_bind, wp_modify, wp_ret.
  transitivity (Z.testbit ((match ext : bytes with [] => 0 | _ => FLAGS_ED end) + (if g_uv (c_ga s4) then FLAGS_UV else 0) + (if g_up (c_ga s4) then FLAGS_UP else 0)) 2); [exact (f_equal (fun z => Z.testbit z 2) H5)|]. rewrite ga_flag_uv. exact H4.
Qed.
(** getAssertion: the same.  With a PIN and a pinUvAuthParam it is never used without the authorisation. *)
Theorem C50_get_assertion d x q v s e : x_op x = OCbor (RGet (inr q)) -> ga_ok q -> exec K d x = (Some (ACbor 0 (Some v)), s, e) ->
  (says_uv v = true -> authorised K d x MayAssert (bound_to (ga_rphash q)) (ga_cdh q) (ga_param q) (ga_sig q) /\ t_uv (c_tok (d_ram d)) = true) /\
  (pin_set (d_fs d) -> ga_param q <> None -> says_uv v = true).
Proof.
  intros Hx Hq E. destruct Hq as (_ & (Hh & _)). pattern v. match goal with |- ?P v => set (G := P); apply (exec_some d x (RGet (inr q)) (fun v => match v with Some v => G v | None => False end) v s e Hx E) end.
  unfold cbor_cmd. apply cbor_pre. intros s1 e1 Hp _.
  apply wp_bind. eapply wp_mono with (Q := on_ret G); [|intros [a|?| |] s2 e2 H2; try exact I; apply wp_ret; exact H2].
  unfold ctap_get_assertion. eapply pre_keep; [apply kp_modify; intros s2 H2; exact H2|exact Hp|]. clear s1 e1 Hp. intros _ s1 e1 Hp. eapply pre_keep; [apply pre_check|exact Hp|]. clear s1 e1 Hp. intros _ s1 e1 Hp.
  apply wp_bind. eapply wp_mono; [apply ga_begin_spec; exact Hp|]. intros [a|?| |] s2 e2 H2; try exact I. destruct H2 as (Hq2 & Ha & Hb).
  eapply wp_mono; [apply ga_rest_spec; rewrite Hq2; exact Hh|]. intros [w|?| |] s3 e3 H3; try exact I. cbn [on_ret] in *. subst G. cbv beta. rewrite H3. split.
  - intros Hu. destruct (Ha Hu) as (sig & Hs & Huv & Hal). apply obs_uv in Huv. apply allows_obs in Hal. split; [|exact Huv]. split; [apply Hal|]. exists sig. split; [exact Hs|apply Hal].
  - intros Hps. apply Hb. exact Hps.
Qed.
(** *** Status 0 means success: no error has this code *)
Definition nz {A} (m : Mc A) : Prop := forall s e, wp m (fun o _ _ => match o with Exc c => c <> 0 | _ => True end) s e.
Lemma nz_bind {A B} (m : Mc A) (k : A -> Mc B) : nz m -> (forall a, nz (k a)) -> nz (bind m k).
Proof. intros Hm Hk s e. apply wp_bind. eapply wp_mono; [apply Hm|]. intros [a|w| |] s' e' H; try exact H. apply Hk. Qed.
Lemma nz_total {A} (m : Mc A) : (forall s e, exists a, fst (fst (m s e)) = Ret a) -> nz m.
Proof. intros H s e. unfold wp. destruct (H s e) as (a & Ha). destruct (m s e) as [[o s'] e']. cbn [fst] in Ha. subst o. exact I. Qed.
Lemma nz_ret {A} (a : A) : nz (ret a). Proof. intros s e; exact I. Qed.
Lemma nz_ub {A} : nz (@ub ctap A). Proof. intros s e; exact I. Qed.
Lemma nz_except {A} w : w <> 0 -> nz (@except ctap A w). Proof. intros H s e; exact H. Qed.
Lemma nz_guard b w : w <> 0 -> nz (guard b w). Proof. intros H s e. destruct b; [exact I|exact H]. Qed.
Lemma nz_modify f : nz (modify f). Proof. intros s e; exact I. Qed.
Lemma nz_get : nz get. Proof. intros s e; exact I. Qed.
Lemma nz_gets {A} (f : ctap -> A) : nz (gets f). Proof. intros s e; exact I. Qed.
Lemma nz_must b : nz b -> nz (must b). Proof. intros H. apply nz_bind; [exact H|]. intros x. apply nz_guard. discriminate. Qed.
Lemma nz_got {A} (b : Mc (option A)) : nz b -> nz (got b). Proof. intros H. apply nz_bind; [exact H|]. intros [x|]; [apply nz_ret|apply nz_except; discriminate]. Qed.
Ltac sm := intros s [F L X R T O]; first [apply wp_read_file|apply wp_read_attr|apply wp_get_file_size|apply wp_write_file|apply wp_write_attr]; intros; exact I.
Lemma nz_read_file p o n : nz (read_file p o n). Proof. sm. Qed.
Lemma nz_read_attr p a : nz (read_attr p a). Proof. sm. Qed.
Lemma nz_size p : nz (get_file_size p). Proof. sm. Qed.
Lemma nz_write_file p d o t : nz (write_file p d o t). Proof. sm. Qed.
Lemma nz_write_attr p a v : nz (write_attr p a v). Proof. sm. Qed.
Lemma nz_rename p q : nz (fs_rename p q).
Proof. intros s e. unfold wp, fs_rename. destruct (pop_fault e) as [[] e']; try exact I; destruct (e_fs e' p); try exact I; destruct (p =? q)%string; exact I. Qed.
Ltac nc := repeat lazymatch goal with
  | |- nz (bind _ _) => apply nz_bind; [|intros ?]
  | |- nz (ret _) => apply nz_ret
  | |- nz ub => apply nz_ub
  | |- nz (got _) => apply nz_got
  | |- nz (must _) => apply nz_must
  | |- nz (gets _) => apply nz_gets
  | |- nz get => apply nz_get
  | |- nz (modify _) => apply nz_modify
  | |- nz (except _) => apply nz_except; discriminate
  | |- nz (guard _ _) => apply nz_guard; discriminate
  | |- nz (read_file _ _ _) => apply nz_read_file
  | |- nz (read_attr _ _) => apply nz_read_attr
  | |- nz (get_file_size _) => apply nz_size
  | |- nz (write_file _ _ _ _) => apply nz_write_file
  | |- nz (write_attr _ _ _) => apply nz_write_attr
  | |- nz (fs_rename _ _) => apply nz_rename
  | |- nz (let _ := _ in _) => cbv zeta
  | |- nz (match ?x with _ => _ end) => destruct x
  | |- nz _ => match goal with H : context [nz] |- _ => simple apply H end
  end.
Ltac un := unfold has_pin, cp_has_permission, cp_has_rp, cp_verify_rp, cp_verify_token, verify_key_handle, make_large_blob_key, read_rec, count_recs, read_general, read_key32, cose_alg_to_key_type, cp_observer.
Lemma nz_drop_slot n i idx : nz (drop_slot n i idx). Proof. revert i; induction n; intros i; cbn [drop_slot]; un; nc. Qed.
Lemma nz_check : nz consistency_check. Proof. pose proof nz_drop_slot. unfold consistency_check. un. nc. Qed.
Lemma nz_scan_rps n : nz (scan_rps n). Proof. induction n; cbn [scan_rps]; cbv zeta; un; nc. Qed.
Lemma nz_next_rp n i : nz (next_rp n i). Proof. revert i; induction n; intros i; cbn [next_rp]; un; nc. Qed.
Lemma nz_find_rp n i h : nz (find_rp n i h). Proof. revert i; induction n; intros i; cbn [find_rp]; un; nc. Qed.
Lemma nz_find_id n i h : nz (find_id n i h). Proof. revert i; induction n; intros i; cbn [find_id]; un; nc. Qed.
Lemma nz_drop_from n i x h : nz (drop_from_meta n i x h). Proof. revert i; induction n; intros i; cbn [drop_from_meta]; un; nc. Qed.
Lemma nz_cm_auth t2 q : nz (cm_auth K t2 q). Proof. unfold cm_auth. un. nc. Qed.
Lemma nz_cm_credential b : nz (cm_credential K b). Proof. unfold cm_credential, get_next_slot. cbv zeta. un. nc. Qed.
Lemma nz_lb_read n off len : nz (lb_read n off len). Proof. revert off; induction n; intros off; cbn [lb_read]; cbv zeta; un; nc. Qed.
Lemma nz_cm_metadata n : nz (cm_metadata n). Proof. unfold cm_metadata. cbv zeta. un. nc. Qed.
Lemma nz_cm_rps n : nz (cm_rps_begin n). Proof. pose proof nz_scan_rps. unfold cm_rps_begin. cbv zeta. un. nc. Qed.
Lemma nz_cm_next_rp q : nz (cm_next_rp q). Proof. pose proof nz_next_rp. unfold cm_next_rp, cm_next_allowed. cbv zeta. un. nc. Qed.
Lemma nz_cm_creds q n : nz (cm_creds_begin K q n). Proof. pose proof nz_find_rp. pose proof nz_cm_credential. unfold cm_creds_begin. cbv zeta. un. nc. Qed.
Lemma nz_cm_next_cred q : nz (cm_next_cred K q). Proof. pose proof nz_cm_credential. unfold cm_next_cred, cm_next_allowed. cbv zeta. un. nc. Qed.
Lemma nz_cm_delete q n : nz (cm_delete q n). Proof. pose proof nz_find_id. pose proof nz_drop_from. unfold cm_delete. cbv zeta. un. nc. Qed.
Lemma nz_cm_update q n : nz (cm_update q n). Proof. pose proof nz_find_id. unfold cm_update. cbv zeta. un. nc. Qed.
Lemma nz_cm t1 t2 nfc junk q : nz (cbor_cmd K nfc t1 t2 junk (RCm (inr q))).
Proof.
  pose proof nz_check. pose proof nz_cm_auth. pose proof nz_cm_metadata. pose proof nz_cm_rps. pose proof nz_cm_next_rp. pose proof nz_cm_creds. pose proof nz_cm_next_cred. pose proof nz_cm_delete. pose proof nz_cm_update.
  unfold cbor_cmd, ctap_credential_management. cbv zeta. unfold cp_observer. nc.
Qed.
Lemma nz_lb t1 t2 nfc junk q : nz (cbor_cmd K nfc t1 t2 junk (RLarge (inr q))).
Proof. pose proof nz_lb_read. unfold cbor_cmd, ctap_large_blobs, lb_store, lb_fetch, lb_auth. cbv zeta. un. nc. Qed.
Lemma exec_nz d x q (Q : option cbor -> Prop) v s e : x_op x = OCbor q -> exec K d x = (Some (ACbor 0 v), s, e) -> nz (cbor_cmd K (x_nfc x) (x_t1 x) (x_t2 x) (x_junk x) q) ->
  wp (cbor_cmd K (x_nfc x) (x_t1 x) (x_t2 x) (x_junk x) q) (on_ret Q) (d_ram d) (start (d_fs d) (x_flt x) (x_rnd x) (x_tch x)) -> Q v.
Proof.
  intros Hx E N W. apply (exec_ok d x q Q v s e Hx E). specialize (N (d_ram d) (start (d_fs d) (x_flt x) (x_rnd x) (x_tch x))). unfold wp in *.
  destruct (cbor_cmd _ _ _ _ _ _ _ _) as [[[w|c| |] s1] e1]; auto.
Qed.
(** *** credentialManagement *)
Definition cm_binding (q : cmreq) : option bytes -> Prop :=
  if (cm_sub q =? 1) || (cm_sub q =? 2) then unbound else if cm_sub q =? 4 then bound_to (cm_rphash q) else bound_to (id_rp (cm_id q)).
Lemma cm_auth_spec t2 q s e : wp (cm_auth K t2 q) (fun o s' _ => match o with Ret _ => t_rp (c_tok s') = t_rp (c_tok s) /\ allows K (c_tok s) MayManage any_rp (cm_sub q :: cm_raw q) (cm_param q) (cm_proto q) | _ => True end) s e.
Proof.
  unfold cm_auth. apply wp_bind, wp_modify. apply wp_bind. unfold read_general. apply wp_bind. unfold got. apply wp_bind. destruct e as [F L X Rn T O]. apply wp_read_attr. intros X' r _ _.
  destruct r as [a|]; [|stop]. apply wp_ret, wp_ret. apply wp_bind. apply wp_guard; [intros _|exact (fun _ => I)]. apply wp_bind, wp_get. apply wp_bind. apply wp_guard; [intros _|exact (fun _ => I)].
  apply wp_bind. apply wp_verify; [|apply wp_bind; stop]. intros Hu b Hb. apply wp_bind. apply wp_guard; [intros ->|exact (fun _ => I)].
  unfold cp_has_permission, gets. apply wp_bind, wp_bind, wp_get, wp_ret. cbn [set_tok set_cm c_tok tk_end t_perm]. apply wp_bind. apply wp_guard; [intros Hp|exact (fun _ => I)].
  apply wp_ret. split; [reflexivity|]. split; [exact Hu|]. split; [apply Hb; reflexivity|]. split; [|exact I]. unfold PERM_CM, MayManage in *. lia.
Qed.
Lemma allows_rp t perm msg sig proto (rp : option bytes -> Prop) : allows K t perm any_rp msg sig proto -> rp (t_rp t) -> allows K t perm rp msg sig proto.
Proof. intros (H1 & H2 & H3 & _) H. split; [exact H1|]. split; [exact H2|]. split; assumption. Qed.
Lemma wp_has_rp (Q : out bool -> ctap -> env -> Prop) s e : Q (Ret (match t_rp (c_tok s) with Some _ => true | None => false end)) s e -> wp cp_has_rp Q s e.
Proof. exact (fun H => H). Qed.
Lemma wp_verify_rp h (Q : out bool -> ctap -> env -> Prop) s e : (forall b, (b = true -> bound_to h (t_rp (c_tok s))) -> Q (Ret b) s e) -> wp (cp_verify_rp h) Q s e.
Proof. intros H. unfold cp_verify_rp, gets. apply wp_bind, wp_get, wp_ret. apply H. intros Hb. unfold bound_to. destruct (t_rp (c_tok s)); [|auto]. apply beqb_eq in Hb. subst; auto. Qed.
Lemma wp_bind_some {A B} (m : Mc A) (f : A -> B) (P : Prop) s e : wp m (on_ret (fun _ => P)) s e -> wp (v <- m ;; ret (f v)) (on_ret (fun _ => P)) s e.
Proof. intros H. apply wp_bind. eapply wp_mono; [exact H|]. intros [a|?| |] s' e' H'; try exact I. exact H'. Qed.
Lemma wp_pure {A} (m : Mc A) (P : Prop) s e : P -> wp m (on_ret (fun _ => P)) s e.
Proof. intros H. unfold wp. destruct (m s e) as [[[] ?] ?]; try exact I. exact H. Qed.
(** Every command of credentialManagement but the two that continue an enumeration *)
Theorem C50_credential_management d x q v s e : x_op x = OCbor (RCm (inr q)) -> In (cm_sub q) [1; 2; 4; 6; 7] -> exec K d x = (Some (ACbor 0 v), s, e) ->
  authorised K d x MayManage (cm_binding q) (cm_sub q :: cm_raw q) (Some (cm_param q)) (cm_proto q).
Proof.
  intros Hx Hs E. apply (exec_nz d x (RCm (inr q)) (fun _ => authorised K d x MayManage (cm_binding q) (cm_sub q :: cm_raw q) (Some (cm_param q)) (cm_proto q)) v s e Hx E (nz_cm _ _ _ _ _)).
  unfold cbor_cmd. apply cbor_pre. intros s1 e1 Hp _. unfold ctap_credential_management. eapply pre_keep; [apply pre_check|exact Hp|]. clear s1 e1 Hp. intros _ s1 e1 (Ht & _). cbv zeta.
  assert (B : forall (rp : option bytes -> Prop), rp (t_rp (c_tok s1)) -> cm_binding q = rp -> allows K (c_tok s1) MayManage any_rp (cm_sub q :: cm_raw q) (cm_param q) (cm_proto q) -> authorised K d x MayManage (cm_binding q) (cm_sub q :: cm_raw q) (Some (cm_param q)) (cm_proto q)).
  { intros rp H1 -> H2. apply (allows_rp _ _ _ _ _ rp) in H2; [|exact H1]. rewrite Ht in H2. apply allows_obs in H2. split; [apply H2|]. exists (cm_param q). split; [reflexivity|apply H2]. }
  assert (S1 : forall {A} (m : Z -> Mc A) s e, (forall n s, t_rp (c_tok s) = t_rp (c_tok s1) -> allows K (c_tok s1) MayManage any_rp (cm_sub q :: cm_raw q) (cm_param q) (cm_proto q) -> forall e, wp (m n) (on_ret (fun _ => authorised K d x MayManage (cm_binding q) (cm_sub q :: cm_raw q) (Some (cm_param q)) (cm_proto q))) s e) ->
     s = s1 -> wp (n <- cm_auth K (x_t2 x) q ;; m n) (on_ret (fun _ => authorised K d x MayManage (cm_binding q) (cm_sub q :: cm_raw q) (Some (cm_param q)) (cm_proto q))) s e).
  { intros A m s' e' Hm ->. apply wp_bind. eapply wp_mono; [apply cm_auth_spec|]. intros [n|?| |] s2 e2 H2; try exact I. destruct H2 as (H2 & H3). apply Hm; assumption. }
  cbn [In] in Hs. destruct (cm_sub q =? 1) eqn:E1; [|destruct (cm_sub q =? 2) eqn:E2; [|destruct (cm_sub q =? 3) eqn:E3; [lia|destruct (cm_sub q =? 4) eqn:E4; [|destruct (cm_sub q =? 5) eqn:E5; [lia|destruct (cm_sub q =? 6) eqn:E6; [|destruct (cm_sub q =? 7) eqn:E7; [|lia]]]]]]]; apply S1; try reflexivity; intros n s2 H2 H3 e2.
  - apply wp_bind_some. unfold cm_metadata. apply wp_bind, wp_has_rp. rewrite H2. apply wp_bind. apply wp_guard; [intros Hb|exact (fun _ => I)]. apply wp_pure. apply (B unbound); [destruct (t_rp (c_tok s1)); [discriminate|reflexivity]|unfold cm_binding; rewrite E1; reflexivity|exact H3].
  - apply wp_bind_some. unfold cm_rps_begin. apply wp_bind, wp_has_rp. rewrite H2. apply wp_bind. apply wp_guard; [intros Hb|exact (fun _ => I)]. apply wp_pure. apply (B unbound); [destruct (t_rp (c_tok s1)); [discriminate|reflexivity]|unfold cm_binding; rewrite E2, orb_true_r; reflexivity|exact H3].
  - apply wp_bind_some. unfold cm_creds_begin. apply wp_bind, wp_verify_rp. rewrite H2. intros b Hb. apply wp_bind. apply wp_guard; [intros ->|exact (fun _ => I)]. apply wp_pure. apply (B (bound_to (cm_rphash q))); [apply Hb; reflexivity|unfold cm_binding; rewrite E1, E2, E4; reflexivity|exact H3].
  - unfold cm_delete. apply wp_bind. apply wp_bind, wp_verify_rp. rewrite H2. intros b Hb. apply wp_bind. apply wp_guard; [intros ->|exact (fun _ => I)]. skip. intros ? ? ?. skip. intros ? ? ?. skip. intros [? ?] ? ?. skip. intros ? ? ?. cbv zeta.
    eapply wp_mono with (Q := on_ret (fun _ => authorised K d x MayManage (cm_binding q) (cm_sub q :: cm_raw q) (Some (cm_param q)) (cm_proto q))); [|intros [u|?| |] s9 e9 H9; try exact I; apply wp_ret; exact H9].
    apply wp_pure. apply (B (bound_to (id_rp (cm_id q)))); [apply Hb; reflexivity|unfold cm_binding; rewrite E1, E2, E4; reflexivity|exact H3].
  - unfold cm_update. apply wp_bind. apply wp_bind, wp_verify_rp. rewrite H2. intros b Hb. apply wp_bind. apply wp_guard; [intros ->|exact (fun _ => I)].
    eapply wp_mono with (Q := on_ret (fun _ => authorised K d x MayManage (cm_binding q) (cm_sub q :: cm_raw q) (Some (cm_param q)) (cm_proto q))); [|intros [u|?| |] s9 e9 H9; try exact I; apply wp_ret; exact H9].
    apply wp_pure. apply (B (bound_to (id_rp (cm_id q)))); [apply Hb; reflexivity|unfold cm_binding; rewrite E1, E2, E4; reflexivity|exact H3].
Qed.
(** *** largeBlobs *)
Definition blob_message (q : lbreq) : bytes := repeat 0xFF 32 ++ [0x0C; 0] ++ to_le 4 (lb_off q) ++ f_sha K (lb_set q).
Lemma blob_message_eq q : 0 <= lb_off q < 65536 -> lb_message K q = blob_message q.
Proof.
  intros H. assert (T : to_le 4 (lb_off q) = [lb_off q mod 256; lb_off q / 256; 0; 0]).
  { unfold to_le, to_be. cbn [rev app]. rewrite !Z.div_div by lia. change (256 * 256) with 65536. change (65536 * 256) with 16777216.
    replace ((lb_off q / 256) mod 256) with (lb_off q / 256) by (symmetry; apply Z.mod_small; split; [apply Z.div_pos; lia|apply Z.div_lt_upper_bound; lia]).
    rewrite (Z.div_small (lb_off q) 65536), (Z.div_small (lb_off q) 16777216) by lia. reflexivity. }
  unfold lb_message, blob_message. rewrite T. reflexivity.
Qed.
Definition lb_sig (q : lbreq) := match lb_proto q with Some p => p | None => 0 end.
Theorem C50_large_blobs d x q v s e : x_op x = OCbor (RLarge (inr q)) -> lb_ok q -> lb_get q = None -> pin_set (d_fs d) -> exec K d x = (Some (ACbor 0 v), s, e) ->
  authorised K d x MayWriteBlob any_rp (blob_message q) (lb_param q) (lb_sig q).
Proof.
  intros Hx Hq Hg Hpin E. rewrite <- blob_message_eq by apply Hq. set (G := authorised _ _ _ _ _ _ _ _). apply (exec_nz d x (RLarge (inr q)) (fun _ => G) v s e Hx E (nz_lb _ _ _ _ _)).
  unfold cbor_cmd. apply cbor_pre. intros s1 e1 Hp _. unfold ctap_large_blobs. rewrite Hg. apply wp_bind. eapply wp_mono with (Q := on_ret (fun _ => G)); [|intros [u|?| |] s9 e9 H9; try exact I; apply wp_ret; exact H9].
  unfold lb_store. eapply pre_keep; [|exact Hp|]; [destruct (lb_off q =? 0); [apply kp_modify; intros s2 H2; exact H2|apply kp_ret]|]. clear s1 e1 Hp. intros _ s1 e1 (Ht & Hf & _).
  apply wp_bind, wp_get. apply wp_bind. apply wp_guard; [intros _|exact (fun _ => I)]. apply wp_bind. eapply wp_mono with (Q := on_ret (fun _ => G)); [|intros [u|?| |] s9 e9 H9; try exact I; apply wp_pure; exact H9].
  unfold lb_auth. apply wp_bind. apply wp_has_pin. intros b X Hb. rewrite Hb by (unfold pin_set; rewrite Hf; exact Hpin). destruct (lb_param q) as [sig|] eqn:Es; [|stop].
  apply wp_bind. apply wp_guard; [intros _|exact (fun _ => I)]. apply wp_bind, wp_get. apply wp_bind. apply wp_guard; [intros _|exact (fun _ => I)].
  apply wp_bind. apply wp_verify; [|apply wp_bind; stop]. intros Hu b' Hb'. apply wp_bind. apply wp_guard; [intros ->|exact (fun _ => I)].
  unfold cp_has_permission, gets. apply wp_bind, wp_bind, wp_get, wp_ret. cbn [set_tok c_tok tk_end t_perm]. apply wp_guard; [intros Hpm|exact (fun _ => I)].
  cbn [on_ret]. subst G. assert (A : allows K (c_tok s1) MayWriteBlob any_rp (lb_message K q) sig (lb_sig q)).
  { split; [exact Hu|]. split; [apply Hb'; reflexivity|]. split; [|exact I]. unfold PERM_LBW, MayWriteBlob in *. lia. }
  rewrite Ht in A. apply allows_obs in A. split; [apply A|]. exists sig. split; [reflexivity|apply A].
Qed.
(** ** Where tokens come from *)
(** [t'] is still the token [t]: it lost permissions at most, kept its binding, and its life time was renewed at [t2] at most *)
Definition bound_to_same (r r' : option bytes) : Prop := r = None \/ r' = r.
Definition shrinks (p p' : Z) : Prop := forall i, Z.testbit p' i = true -> Z.testbit p i = true.
Definition stays (t2 : Z) (t t' : tok) : Prop :=
  t_use t' = false \/
  t_use t = true /\ t_token t' = t_token t /\ shrinks (t_perm t) (t_perm t') /\ (t_rp t = None \/ t_rp t' = t_rp t) /\ (t_uv t' = true -> t_uv t = true) /\
  (t_end t' = t_end t \/ t_end t' = u32 (t2 + 30000)).
(** The token encrypted for the platform *)
Definition sealed (key token : bytes) (proto : Z) (c : bytes) : Prop :=
  if proto =? 1 then f_aes_enc K key (zeros 16) token = Some c
  else exists iv b, f_aes_enc K (skipn 32 key) iv token = Some b /\ c = if proto =? 2 then iv ++ b else b.
(** What a request for a token gives *)
Definition perms_of (q : cpreq) : Z := if cp_sub q =? 5 then MayMake + MayAssert else cp_perm q.
Definition rp_of (q : cpreq) : option bytes := if cp_sub q =? 5 then None else cp_rp q.
Definition issued (d : dev) (q : cpreq) (t2 : Z) (v : cbor) (t : tok) : Prop :=
  (exists c key, v = CMap [(CInt 2, CBytes c)] /\ shared K d q = Some key /\ sealed key (t_token t) (cp_proto q) c) /\
  t_use t = true /\ t_perm t = perms_of q /\ t_rp t = rp_of q /\ t_end t = u32 (t2 + 30000).
Lemma stays_refl t2 t : stays t2 t t.
Proof. destruct (t_use t) eqn:E; [right|left; exact E]. split; [exact E|]. split; [reflexivity|]. split; [intros i H; exact H|]. split; [auto|]. split; auto. Qed.
Lemma stays_trans t2 a b c : stays t2 a b -> stays t2 b c -> stays t2 a c.
Proof.
  intros H [H2|(U2 & T2 & P2 & R2 & V2 & E2)]; [left; exact H2|]. destruct H as [H|(U1 & T1 & P1 & R1 & V1 & E1)]; [congruence|]. right.
  split; [exact U1|]. split; [congruence|]. split; [intros i Hi; apply P1, P2, Hi|]. split; [destruct R1 as [R1|R1]; [auto|]; destruct R2 as [R2|R2]; [rewrite R1 in R2; auto|right; congruence]|]. split; [auto|].
  destruct E2 as [E2|E2]; [rewrite E2; exact E1|auto].
Qed.
Definition RT (t2 : Z) (s s' : ctap) : Prop := stays t2 (c_tok s) (c_tok s').
Lemma RT_refl t2 s : RT t2 s s. Proof. apply stays_refl. Qed.
Lemma RT_trans t2 a b c : RT t2 a b -> RT t2 b c -> RT t2 a c. Proof. apply stays_trans. Qed.
Lemma RT_eq t2 s s' : c_tok s' = c_tok s -> RT t2 s s'. Proof. unfold RT. intros ->. apply stays_refl. Qed.
Lemma RT_upd t2 f s : stays t2 (c_tok s) (f (c_tok s)) -> RT t2 s (set_tok f s). Proof. exact (fun H => H). Qed.
Lemma stays_use t2 t t' : t_use t' = t_use t -> t_token t' = t_token t -> shrinks (t_perm t) (t_perm t') -> (t_rp t = None \/ t_rp t' = t_rp t) -> (t_uv t' = true -> t_uv t = true) ->
  (t_end t' = t_end t \/ t_end t' = u32 (t2 + 30000)) -> stays t2 t t'.
Proof. intros H1 H2 H3 H4 H5 H6. destruct (t_use t) eqn:E; [right|left; exact H1]. auto 10. Qed.
Lemma RT_end t2 s : RT t2 s (set_tok (tk_end (u32 (t2 + 30000))) s).
Proof. apply RT_upd, stays_use; try reflexivity; auto. intros i H; exact H. Qed.
Lemma RT_clear t2 s : RT t2 s (set_tok (fun t => if t_use t then tk_perm (Z.land (t_perm t) (255 - PERM_LBW)) (tk_uv false (tk_up false t)) else t) s).
Proof.
  apply RT_upd. destruct (t_use (c_tok s)) eqn:E; [|apply stays_refl]. apply stays_use; try reflexivity; auto; [|discriminate].
  intros i H. cbn [tk_perm t_perm] in H. rewrite Z.land_spec in H. apply andb_true_iff in H. apply H.
Qed.
Lemma RT_obs t1 t2 s : RT t2 s (set_tok (fun t => if negb (t_use t) then t else if t_end t <? t1 then tok_stop t else t) s).
Proof. apply RT_upd. destruct (negb _); [apply stays_refl|]. destruct (_ <? _); [left; reflexivity|apply stays_refl]. Qed.
Lemma RT_ka t2 k s : RT t2 s (set_tok (tk_ka k) s). Proof. apply RT_upd, stays_use; try reflexivity; auto. intros i H; exact H. Qed.
Lemma RT_new t2 r s : RT t2 s (set_tok (fun t => tok_stop (tk_token r t)) s). Proof. apply RT_upd. left. reflexivity. Qed.
Lemma RT_mc_token t2 q sig : rl (RT t2) (mc_token K t2 q sig).
Proof.
  intros s e. unfold mc_token. apply wp_bind, wp_get. apply wp_bind. apply wp_guard; [intros _|intros _; apply RT_refl]. apply wp_bind. apply wp_verify; [|apply wp_bind; apply wp_except; apply RT_refl]. intros Hu b Hb.
  apply wp_bind. apply wp_guard; [intros ->|intros _; apply RT_end].
  unfold cp_has_permission, gets. apply wp_bind, wp_bind, wp_get, wp_ret. apply wp_bind. apply wp_guard; [intros Hp|intros _; apply RT_end].
  unfold cp_verify_rp, gets. apply wp_bind, wp_bind, wp_get, wp_ret. cbn [set_tok c_tok tk_end t_rp]. apply wp_bind. apply wp_guard; [intros Hr|intros _; apply RT_end].
  unfold cp_user_verified, gets. apply wp_bind, wp_bind, wp_get, wp_ret. apply wp_bind. apply wp_guard; [intros Huv|intros _; apply RT_end].
  apply wp_bind, wp_modify, wp_ret. apply RT_trans with (b := set_tok (tk_end (u32 (t2 + 30000))) s); [apply RT_end|]. apply RT_upd, stays_use; try reflexivity; auto; [intros i H; exact H|].
  cbn [set_tok c_tok tk_end t_rp tk_rp]. destruct (t_rp (c_tok s)) as [r|]; [|auto]. apply beqb_eq in Hr. subst r. auto.
Qed.
Lemma RT_ga_token t2 q sig : rl (RT t2) (ga_token K t2 q sig).
Proof.
  intros s e. unfold ga_token. apply wp_bind, wp_get. apply wp_bind. apply wp_guard; [intros _|intros _; apply RT_refl]. apply wp_bind. apply wp_verify; [|apply wp_bind; apply wp_except; apply RT_refl]. intros Hu b Hb.
  apply wp_bind. apply wp_guard; [intros ->|intros _; apply RT_end]. apply wp_bind, wp_modify.
  unfold cp_user_verified, gets. apply wp_bind, wp_bind, wp_get, wp_ret. apply wp_bind. apply wp_guard; [intros Huv|intros _; apply RT_end].
  unfold cp_has_permission, gets. apply wp_bind, wp_bind, wp_get, wp_ret. apply wp_bind. apply wp_guard; [intros Hp|intros _; apply RT_end].
  unfold cp_verify_rp, gets. apply wp_bind, wp_bind, wp_get, wp_ret. cbn [set_tok set_ga c_tok tk_end t_rp]. apply wp_bind. apply wp_guard; [intros Hr|intros _; apply RT_end].
  apply wp_modify. apply RT_trans with (b := set_tok (tk_end (u32 (t2 + 30000))) s); [apply RT_end|]. unfold RT; apply stays_use; try reflexivity; auto; [intros i H; exact H|].
  cbn [set_tok set_ga c_tok tk_end t_rp tk_rp]. destruct (t_rp (c_tok s)) as [r|]; [|auto]. apply beqb_eq in Hr. subst r. auto.
Qed.
(** Getting a token *)
Ltac rq := repeat lazymatch goal with
  | |- rl _ (bind _ _) => apply rl_bind; [congruence|..|intros ?]
  | |- rl _ (ret _) => apply rl_ret; reflexivity
  | |- rl _ (got _) => apply rl_got; [reflexivity|congruence|]
  | |- rl _ get => apply rl_get; reflexivity
  | |- rl _ (guard _ _) => apply rl_guard; reflexivity
  | |- rl _ (except _) => apply rl_except; reflexivity
  | |- rl _ (read_attr _ _) => apply rl_read_attr; reflexivity
  | |- rl _ (match ?x with _ => _ end) => destruct x
  end.
Lemma rs_left : rl (fun s s' => s' = s) pin_retries_left.
Proof. unfold pin_retries_left, has_pin, get_pin_retries. rq. Qed.
Lemma rt_check t2 key h proto r b : rl (RT t2) (check_pin K key h proto r b).
Proof. apply rl_check_pin; [apply RT_refl|apply RT_trans|intros; apply RT_eq; reflexivity..|apply RT_ka]. Qed.
Lemma get_token_spec t2 q d s e : t_ka (c_tok s) = t_ka (c_tok (d_ram d)) -> asks_token q = true ->
  wp (get_token_cmd K t2 q) (fun o s' _ => match o with Ret v => issued d q t2 v (c_tok s') | UB => True | _ => RT t2 s s' end) s e.
Proof.
  intros Hk Hq. unfold get_token_cmd. apply wp_bind. eapply wp_mono; [apply rs_left|]. intros [r|?| |] s1 e1 H1; try exact I; subst; try apply RT_refl.
  apply wp_bind. unfold cp_decapsulate. apply wp_bind, wp_get. assert (Hs : shared K d q = option_map (fun z => if cp_proto q =? 1 then f_sha K z else cp2_kdf K z) (f_ecdh K (fst (t_ka (c_tok s))) (cp_key q))) by (unfold shared; rewrite Hk; reflexivity).
  destruct (f_ecdh K (fst (t_ka (c_tok s))) (cp_key q)) as [z|]; [|apply wp_except, RT_refl]. apply wp_ret. cbn [option_map] in Hs. set (key := if cp_proto q =? 1 then f_sha K z else cp2_kdf K z) in *.
  apply wp_bind. eapply wp_mono; [apply (rt_check t2)|]. intros [u|?| |] s2 e2 H2; try exact I; try exact H2.
  apply wp_bind. unfold set_pin_retries, must. apply wp_bind. destruct e2 as [F L X Rn T O]. apply wp_write_attr; [intros V X' _; apply wp_guard; [intros _|intros _; exact H2]|intros V X' _; apply wp_guard; [discriminate|intros _; exact H2]].
  apply wp_bind. unfold cp_reset_token. apply wp_bind. apply wp_random. intros rr R'. apply wp_modify. apply wp_bind, wp_modify. apply wp_bind.
  set (fin := fun s' : ctap => issued d q t2).
  assert (G : forall s3 e3, t_use (c_tok s3) = true -> t_perm (c_tok s3) = perms_of q -> t_rp (c_tok s3) = rp_of q -> t_end (c_tok s3) = u32 (t2 + 30000) ->
     wp (s' <- get ;; c <- cp_encrypt K key (t_token (c_tok s')) (cp_proto q) ;; match c with Some c => ret (CMap [(CInt 2, CBytes c)]) | None => ub end)
        (fun o s' _ => match o with Ret v => issued d q t2 v (c_tok s') | UB => True | _ => RT t2 s s' end) s3 e3).
  { intros s3 e3 G1 G2 G3 G4. apply wp_bind, wp_get. apply wp_bind. unfold cp_encrypt.
    assert (W : forall c, sealed key (t_token (c_tok s3)) (cp_proto q) c -> issued d q t2 (CMap [(CInt 2, CBytes c)]) (c_tok s3)).
    { intros c Hc. split; [exists c, key; auto|]. auto. }
    unfold sealed in W. destruct (cp_proto q =? 1) eqn:Ep.
    - apply wp_ret. destruct (f_aes_enc K key (zeros 16) (t_token (c_tok s3))) as [c|]; [|exact I]. apply wp_ret. apply W. reflexivity.
    - apply wp_bind. destruct e3. apply wp_random. intros iv R3. apply wp_ret. destruct (f_aes_enc K (skipn 32 key) iv (t_token (c_tok s3))) as [b|] eqn:Eb; cbn [option_map]; [|exact I]. apply wp_ret. apply W. exists iv, b. auto. }
  unfold asks_token in Hq. destruct (cp_sub q =? 5) eqn:E5.
  - apply wp_modify. apply G; unfold perms_of, rp_of; rewrite ?E5; reflexivity.
  - apply wp_bind, wp_modify. destruct (cp_rp q) as [h|] eqn:Er; [apply wp_modify|apply wp_ret]; apply G; unfold perms_of, rp_of; rewrite ?E5, ?Er; reflexivity.
Qed.
(** A command either gives a token, in its successful answer to a request for one, or leaves the token as it is, with less permissions, or ends it. *)
Definition gives (d : dev) (x : cmd) (o : option ans) (t : tok) : Prop :=
  exists q v, x_op x = OCbor (RPin (inr q)) /\ asks_token q = true /\ o = Some (ACbor 0 (Some v)) /\ issued d q (x_t2 x) v t.
Lemma exec_tok d x o s e : exec K d x = (Some o, s, e) -> gives d x (Some o) (c_tok s) \/ stays (x_t2 x) (c_tok (d_ram d)) (c_tok s).
Proof.
  intros E. set (t2 := x_t2 x). assert (EQ : forall s s', c_tok s' = c_tok s -> RT t2 s s') by (intros; apply RT_eq; assumption).
  assert (B : forall (m : Mc Z), (forall q, x_op x <> OCbor q) -> body K x = m -> rl (RT t2) m -> stays t2 (c_tok (d_ram d)) (c_tok s)).
  { intros m Hn Hb Hm. pose proof (exec_wp K d x (fun o s _ => match o with Some _ => RT t2 (d_ram d) s | None => True end)) as W. rewrite E in W.
    destruct (x_op x) as [q| | | | | | ]; [elim (Hn q eq_refl)|..]; apply W; rewrite Hb; (eapply wp_mono; [apply Hm|]); intros [] s' e' H'; try exact I; exact H'. }
  destruct (x_op x) as [q|da|p1 da| |da|da|da] eqn:Ex.
  - assert (TK : forall p, rl (RT t2) (get_token_cmd K t2 p) -> True) by auto.
    destruct q as [p|p| | |[c|cq]| |p| |p| ].
    all: try (right; pose proof (exec_wp K d x (fun o s _ => match o with Some _ => RT t2 (d_ram d) s | None => True end)) as W; rewrite E, Ex in W; apply W; unfold cbor_body;
      (eapply wp_mono; [apply (rl_process K (x_nfc x) (x_t1 x) (x_t2 x) (x_junk x) (RT t2) (RT_trans t2)); [intros; apply EQ; reflexivity|]; apply rl_cbor; [apply RT_refl|apply RT_trans|intros; apply EQ; reflexivity..|apply RT_end|apply RT_clear|apply RT_obs|apply RT_ka|apply RT_new|apply RT_mc_token|apply RT_ga_token|discriminate]|]);
      intros [[c' v']| | |] s' e' H'; try exact I; exact H').
    destruct (asks_token cq) eqn:Ea.
    + unfold exec in E. rewrite Ex in E. unfold cbor_body, process_cbor in E.
      assert (W : wp (cbor_cmd K (x_nfc x) (x_t1 x) t2 (x_junk x) (RPin (inr cq))) (fun o s' _ => match o with Ret v => exists c, v = Some c /\ issued d cq t2 c (c_tok s') | UB => True | _ => RT t2 (d_ram d) s' end) (d_ram d) (start (d_fs d) (x_flt x) (x_rnd x) (x_tch x))).
      { unfold cbor_cmd. apply wp_bind, wp_modify. unfold ctap_client_pin. unfold asks_token in Ea. destruct (cp_sub cq =? 1) eqn:E1; [lia|]. destruct (cp_sub cq =? 2) eqn:E2; [lia|]. destruct (cp_sub cq =? 3) eqn:E3; [lia|]. destruct (cp_sub cq =? 4) eqn:E4; [lia|]. rewrite Ea.
        apply wp_bind. eapply wp_mono; [apply (get_token_spec t2 cq d); [|exact Ea]|].
        - cbn [set_tok c_tok]. destruct (negb _); [reflexivity|]. destruct (_ <? _); reflexivity.
        - intros [v|?| |] s' e' H'; try exact I.
          + apply wp_ret. exists v. auto.
          + eapply RT_trans; [apply (RT_obs (x_t1 x))|exact H'].
          + eapply RT_trans; [apply (RT_obs (x_t1 x))|exact H']. }
      unfold wp in W. fold t2 in E. destruct (cbor_cmd _ _ _ _ _ _ _ _) as [[[v|c| |] s1] e1]; try discriminate.
      * destruct (_ <=? _); [|discriminate]. destruct W as (c & -> & W). left. exists cq, c. split; [exact Ex|]. split; [exact Ea|]. split; [congruence|]. assert (c_tok s = c_tok s1) as -> by (assert (s = set_last (cmd_of (RPin (inr cq))) s1) as -> by congruence; reflexivity). exact W.
      * right. assert (s = set_last CTAP_INVALID_CMD s1) as -> by congruence. exact W.
    + right. pose proof (exec_wp K d x (fun o s _ => match o with Some _ => RT t2 (d_ram d) s | None => True end)) as W; rewrite E, Ex in W; apply W; unfold cbor_body.
      eapply wp_mono; [apply (rl_process K (x_nfc x) (x_t1 x) (x_t2 x) (x_junk x) (RT t2) (RT_trans t2)); [intros; apply EQ; reflexivity|]; apply rl_cbor; [apply RT_refl|apply RT_trans|intros; apply EQ; reflexivity..|apply RT_end|apply RT_clear|apply RT_obs|apply RT_ka|apply RT_new|apply RT_mc_token|apply RT_ga_token|congruence]|].
      intros [[c' v']| | |] s' e' H'; try exact I; exact H'.
  - right. eapply B; [discriminate|unfold body; rewrite Ex; reflexivity|]. apply rl_bind; [apply RT_trans|apply rl_register; [apply RT_refl|apply RT_trans]|intros; apply rl_ret, RT_refl].
  - right. eapply B; [discriminate|unfold body; rewrite Ex; reflexivity|]. apply rl_bind; [apply RT_trans|apply rl_auth; [apply RT_refl|apply RT_trans]|intros; apply rl_ret, RT_refl].
  - right. eapply B; [discriminate|unfold body; rewrite Ex; reflexivity|]. apply rl_bind; [apply RT_trans|apply rl_install; [apply RT_refl|apply RT_trans|intros; apply EQ; reflexivity..|apply RT_ka|apply RT_new]|intros; apply rl_ret, RT_refl].
  - right. eapply B; [discriminate|unfold body; rewrite Ex; reflexivity|]. apply rl_bind; [apply RT_trans| |intros; apply rl_ret, RT_refl]. unfold install_private_key. apply rl_bind; [apply RT_trans|apply rl_guard, RT_refl|intros _]. apply rl_bind; [apply RT_trans|apply rl_modify; intros; apply EQ; reflexivity|intros _]. apply rl_bind; [apply RT_trans|apply rl_must; [apply RT_refl|apply RT_trans|apply rl_write_attr, RT_refl]|intros _; apply rl_must; [apply RT_refl|apply RT_trans|apply rl_write_attr, RT_refl]].
  - right. eapply B; [discriminate|unfold body; rewrite Ex; reflexivity|]. apply rl_bind; [apply RT_trans| |intros; apply rl_ret, RT_refl]. unfold install_cert. apply rl_bind; [apply RT_trans|apply rl_guard, RT_refl|intros _]. apply rl_must; [apply RT_refl|apply RT_trans|apply rl_write_file, RT_refl].
  - right. eapply B; [discriminate|unfold body; rewrite Ex; reflexivity|]. apply rl_bind; [apply RT_trans| |intros; apply rl_ret, RT_refl]. unfold write_sm2_config. apply rl_bind; [apply RT_trans|apply rl_guard, RT_refl|intros _]. apply rl_bind; [apply RT_trans|apply rl_write_attr, RT_refl|intros ok]. apply rl_bind; [apply RT_trans|apply rl_modify; intros; apply EQ; reflexivity|intros _; apply rl_guard, RT_refl].
Qed.

(** ** Histories *)
Definition idle (s : ctap) : Prop := t_use (c_tok s) = false.
Lemma install_idle b s e : wp (ctap_install K b) (fun _ s' _ => idle s') s e.
Proof.
  unfold ctap_install. apply wp_bind, wp_modify. apply wp_bind, wp_modify. apply wp_bind. unfold cp_initialize, cp_regenerate, cp_reset_token. destruct e as [F L X R T O].
  apply wp_bind, wp_bind. apply wp_random. intros r R1. apply wp_modify. apply wp_bind. apply wp_random. intros r' R2. apply wp_modify. set (s1 := set_tok _ _). set (e1 := mkE _ _ _ _ _ _).
  assert (H1 : idle s1) by reflexivity. clearbody s1 e1.
  match goal with |- wp ?m _ _ _ => assert (Km : keep idle (fun _ => True) (fun _ => True) m) end.
  { repeat lazymatch goal with
    | |- keep _ _ _ (bind _ _) => apply kp_bind; [|intros ?]
    | |- keep _ _ _ (modify _) => apply kp_modify; intros ? H; exact H
    | |- keep _ _ _ (random_buffer _) => apply kp_random
    | |- keep _ _ _ (got _) => apply kp_got
    | |- keep _ _ _ (must _) => apply kp_must
    | |- keep _ _ _ (read_attr _ _) => apply kp_read_attr
    | |- keep _ _ _ (get_file_size _) => apply kp_size
    | |- keep _ _ _ (write_file _ _ _ _) => apply kp_write_file; [auto|intros ? ? ?; auto]
    | |- keep _ _ _ (write_attr _ _ _) => apply kp_write_attr; [auto|intros ? ? ?; auto]
    | |- keep _ _ _ (ret _) => apply kp_ret
    | |- keep _ _ _ (match ?x with _ => _ end) => destruct x
    end. }
  eapply wp_mono; [apply Km; split; [exact H1|split; [exact I|apply Forall_forall; auto]]|]. intros o s' e' (H & _). exact H.
Qed.
Lemma boot_idle F flt rnd : idle (d_ram (boot K F flt rnd)).
Proof. unfold boot. pose proof (install_idle false ctap_boot (start F flt rnd [])) as W. unfold wp in W. destruct (ctap_install K false ctap_boot (start F flt rnd [])) as [[o s] e]. exact W. Qed.
Lemma reset_idle d x o s e : resets x -> exec K d x = (Some o, s, e) -> idle s.
Proof.
  intros Hr E. unfold exec in E. destruct Hr as [Hr|(Hr & Ht)]; rewrite Hr in E.
  - unfold body in E. rewrite Hr in E. unfold run_apdu, bind in E. pose proof (install_idle true (d_ram d) (start (d_fs d) (x_flt x) (x_rnd x) (x_tch x))) as W. unfold wp in W.
    destruct (ctap_install K true (d_ram d) _) as [[[u|w| |] s1] e1]; cbn in E; try discriminate; (assert (s = s1) as -> by congruence); exact W.
  - unfold cbor_body, process_cbor, cbor_cmd, ctap_reset_data, bind, cp_observer, modify, guard in E. destruct (x_t1 x <=? 10000) eqn:El; [|lia]. cbn [ret] in E.
    match type of E with context [ctap_install K true ?a ?b] => pose proof (install_idle true a b) as W; unfold wp in W; destruct (ctap_install K true a b) as [[[u|w| |] s1] e1] end; cbn in E; try discriminate.
    + destruct (zlen _ <=? x_cap x); [|discriminate]. assert (s = set_last CTAP_RESET s1) as -> by congruence. exact W.
    + assert (s = set_last CTAP_INVALID_CMD s1) as -> by congruence. exact W.
Qed.
(** Whoever holds a device with a token in use got it, in this power cycle, with the answer to a request for a token (which needs the PIN: C49_success_needs_the_pin).
    Since then it has not gained permissions, its binding has not changed, and it was given its life time of 30 seconds by that command or a later one. *)
Theorem C50_token_origin d0 tr d : idle (d_ram d0) -> hist K d0 tr d -> t_use (c_tok (d_ram d)) = true ->
  exists tr1 d1 x q v tr2 t y d', tr = tr1 ++ (d1, Do x, Some (ACbor 0 (Some v))) :: tr2 /\ Forall same_power tr2 /\
    x_op x = OCbor (RPin (inr q)) /\ (cp_sub q = 5 \/ cp_sub q = 9) /\ issued d1 q (x_t2 x) v t /\
    t_token (c_tok (d_ram d)) = t_token t /\ shrinks (t_perm t) (t_perm (c_tok (d_ram d))) /\ bound_to_same (t_rp t) (t_rp (c_tok (d_ram d))) /\
    (exists o, In (d', Do y, o) ((d1, Do x, Some (ACbor 0 (Some v))) :: tr2)) /\ t_end (c_tok (d_ram d)) = u32 (x_t2 y + 30000).
Proof.
  intros H0 H. induction H as [d|d0 tr d v o d' H IH Hv Hs]; intros Hu; [unfold idle in H0; congruence|]. specialize (IH H0).
  destruct v as [x|x n flt rnd|F]; cbn [step] in Hs.
  - destruct (exec K d x) as [[[r|] s] e] eqn:E; [|discriminate]. injection Hs as <- <-. cbn [d_ram] in *.
    destruct (exec_tok d x r s e E) as [(q & c & G1 & G2 & G3 & G4)|G].
    + exists tr, d, x, q, c, [], (c_tok s), x, d. assert (r = ACbor 0 (Some c)) as -> by congruence. split; [reflexivity|]. split; [constructor|]. split; [exact G1|]. split; [unfold asks_token in G2; lia|]. split; [exact G4|].
      split; [reflexivity|]. split; [intros i Hi; exact Hi|]. split; [right; reflexivity|]. split; [eexists; left; reflexivity|apply G4].
    + destruct G as [G|(U & T & P & Rp & V & En)]; [congruence|]. destruct (IH U) as (tr1 & d1 & x1 & q & c & tr2 & t & y & d2 & -> & I1 & I2 & I3 & I4 & I5 & I6 & I7 & (o2 & I8) & I9).
      assert (Hsp : same_power (d, Do x, Some r)) by (cbn [same_power]; intros Hr; pose proof (reset_idle d x r s e Hr E) as W; unfold idle in W; congruence).
      exists tr1, d1, x1, q, c, (tr2 ++ [(d, Do x, Some r)]), t.
      assert (C : exists y d', (exists o, In (d', Do y, o) ((d1, Do x1, Some (ACbor 0 (Some c))) :: tr2 ++ [(d, Do x, Some r)])) /\ t_end (c_tok s) = u32 (x_t2 y + 30000)).
      { destruct En as [En|En].
        - exists y, d2. split; [exists o2; destruct I8 as [I8|I8]; [left; exact I8|right; apply in_or_app; left; exact I8]|congruence].
        - exists x, d. split; [exists (Some r); right; apply in_or_app; right; left; reflexivity|exact En]. }
      destruct C as (y' & d3 & C1 & C2). exists y', d3. split; [rewrite <- app_assoc; reflexivity|]. split; [apply Forall_app; split; [exact I1|constructor; [exact Hsp|constructor]]|]. split; [exact I2|]. split; [exact I3|]. split; [exact I4|].
      split; [congruence|]. split; [intros i Hi; apply I6, P, Hi|]. split; [|split; [exact C1|exact C2]].
      unfold bound_to_same in *. destruct I7 as [I7|I7]; [auto|]. destruct Rp as [Rp|Rp]; [left; congruence|right; congruence].
  - destruct (exec K d x) as [[? ?] e]. injection Hs as <- <-. pose proof (boot_idle (nth n (e_log e) (e_fs e)) flt rnd) as W. unfold idle in W. congruence.
  - injection Hs as <- <-. cbn [d_ram] in *. destruct (IH Hu) as (tr1 & d1 & x1 & q & c & tr2 & t & y & d2 & -> & I1 & I2 & I3 & I4 & I5 & I6 & I7 & (o2 & I8) & I9).
    exists tr1, d1, x1, q, c, (tr2 ++ [(d, Other F, None)]), t, y, d2. split; [rewrite <- app_assoc; reflexivity|]. split; [apply Forall_app; split; [exact I1|constructor; [exact I|constructor]]|]. split; [exact I2|]. split; [exact I3|]. split; [exact I4|].
    split; [exact I5|]. split; [exact I6|]. split; [exact I7|]. split; [|exact I9]. exists o2. destruct I8 as [I8|I8]; [left; exact I8|right; apply in_or_app; left; exact I8].
Qed.
(** ** A token is good for one registration or assertion *)
Definition spent (t : tok) : Prop := t_use t = false \/ t_uv t = false.
Definition ended {A} (P : ctap -> Prop) (o : out A) (s : ctap) (_ : env) : Prop := match o with Ret _ => P s | _ => True end.
Lemma exec_ended d x q (P : ctap -> Prop) v s e : x_op x = OCbor q -> (forall z s, P s -> P (set_last z s)) -> exec K d x = (Some (ACbor 0 (Some v)), s, e) ->
  wp (cbor_cmd K (x_nfc x) (x_t1 x) (x_t2 x) (x_junk x) q) (ended P) (d_ram d) (start (d_fs d) (x_flt x) (x_rnd x) (x_tch x)) -> P s.
Proof.
  intros Hx Hl E W. unfold exec in E. rewrite Hx in E. unfold cbor_body, process_cbor, wp in *. destruct (cbor_cmd _ _ _ _ _ _ _ _) as [[[w|c| |] s1] e1]; try discriminate.
  destruct (_ <=? _); [|discriminate]. assert (s = set_last (cmd_of q) s1) as -> by congruence. apply Hl, W.
Qed.
Definition RE (s s' : ctap) : Prop := s' = s.
Lemma RE_refl s : RE s s. Proof. reflexivity. Qed.
Lemma RE_trans a b c : RE a b -> RE b c -> RE a c. Proof. unfold RE. congruence. Qed.
Lemma end_eq {A B} (m : Mc A) (k : A -> Mc B) P s e : rl RE m -> (forall a e', wp (k a) (ended P) s e') -> wp (bind m k) (ended P) s e.
Proof. intros Hm Hk. apply wp_bind. eapply wp_mono; [apply Hm|]. intros [a|w| |] s' e' H; try exact I. unfold RE in H. subst s'. apply Hk. Qed.
Lemma end_any {A B} (m : Mc A) (k : A -> Mc B) P s e : (forall a s' e', wp (k a) (ended P) s' e') -> wp (bind m k) (ended P) s e.
Proof. intros Hk. apply wp_skip; try exact (fun _ _ _ => I); try exact (fun _ _ => I). exact Hk. Qed.
Lemma spent_clear s : spent (c_tok (set_tok (fun t => if t_use t then tk_perm (Z.land (t_perm t) (255 - PERM_LBW)) (tk_uv false (tk_up false t)) else t) s)).
Proof. unfold spent. cbn [set_tok c_tok]. destruct (t_use (c_tok s)) eqn:E; [right; reflexivity|left; exact E]. Qed.
Ltac re := repeat lazymatch goal with
  | |- rl RE (bind _ _) => apply rl_bind; [apply RE_trans| |intros ?]
  | |- rl RE (ret _) => apply rl_ret, RE_refl
  | |- rl RE (except _) => apply rl_except, RE_refl
  | |- rl RE ub => apply rl_ub, RE_refl
  | |- rl RE (guard _ _) => apply rl_guard, RE_refl
  | |- rl RE (gets _) => apply rl_gets; [apply RE_refl|apply RE_trans]
  | |- rl RE (got _) => apply rl_got; [apply RE_refl|apply RE_trans|]
  | |- rl RE (read_attr _ _) => apply rl_read_attr, RE_refl
  | |- rl RE (read_file _ _ _) => apply rl_read_file, RE_refl
  | |- rl RE (get_file_size _) => apply rl_size, RE_refl
  | |- rl RE (random_buffer _) => apply rl_random, RE_refl
  | |- rl RE get => apply rl_get, RE_refl
  | |- rl RE (match ?x with _ => _ end) => destruct x
  end.
Lemma re_lbk n : rl RE (make_large_blob_key K n). Proof. unfold make_large_blob_key, read_key32. re. Qed.
Lemma re_sign a p m : rl RE (sign_with_private_key K a p m). Proof. unfold sign_with_private_key, cose_alg_to_key_type. re. Qed.
Lemma re_verify i : rl RE (verify_key_handle K i). Proof. unfold verify_key_handle, read_key32. re. Qed.
Lemma re_rec f n i : rl RE (read_rec f n i). Proof. unfold read_rec. re. Qed.
Lemma re_recs f n : rl RE (count_recs f n). Proof. unfold count_recs. re. Qed.
Lemma mc_spends d x q v s e : x_op x = OCbor (RMake (inr q)) -> exec K d x = (Some (ACbor 0 (Some v)), s, e) -> spent (c_tok s).
Proof.
  intros Hx E. apply (exec_ended d x _ (fun s => spent (c_tok s)) v s e Hx); [auto|exact E|]. unfold cbor_cmd. apply end_any. intros _ s1 e1. apply wp_bind. eapply wp_mono with (Q := ended (fun s => spent (c_tok s))); [|intros [a|?| |] s2 e2 H2; try exact I; apply wp_ret; exact H2].
  unfold ctap_make_credential. do 5 (apply end_any; intros ? ? ?). apply wp_bind. unfold cp_clear_flags. apply wp_modify. set (s3 := set_tok _ _). assert (H : spent (c_tok s3)) by apply spent_clear. clearbody s3.
  apply end_eq; [apply rl_guard, RE_refl|]. intros _ e4. cbv zeta. apply end_eq; [apply rl_auth_data; [apply RE_refl|apply RE_trans]|]. intros [ad id] e5.
  apply end_eq; [destruct (mc_rk q =? 1); [apply rl_mc_store; [apply RE_refl|apply RE_trans]|apply rl_ret, RE_refl]|]. intros _ e6.
  apply end_eq; [apply rl_mc_att; [apply RE_refl|apply RE_trans]|]. intros att e7.
  apply end_eq; [destruct (mc_lbk q); [apply rl_bind; [apply RE_trans|apply re_lbk|intros k; apply rl_ret, RE_refl]|apply rl_ret, RE_refl]|]. intros lbk e8. apply wp_ret. exact H.
Qed.
Lemma begin_ctr nfc t2 q s e : wp (ga_begin K nfc t2 q) (ended (fun s' => g_ctr (c_ga s') = g_ctr (c_ga s) /\ g_req (c_ga s') = q)) s e.
Proof.
  unfold ga_begin. apply wp_bind, wp_modify. apply end_eq; [apply rl_touch_probe; [apply RE_refl|apply RE_trans]|]. intros _ e1. apply end_eq; [apply rl_guard, RE_refl|]. intros _ e2.
  apply wp_bind, wp_modify. apply end_eq; [apply rl_guard, RE_refl|]. intros _ e3. apply end_eq; [apply rl_guard, RE_refl|]. intros _ e4.
  apply end_eq; [unfold has_pin; re|]. intros p e5. set (s1 := set_ga _ (set_ga _ s)).
  assert (H : g_ctr (c_ga s1) = g_ctr (c_ga s) /\ g_req (c_ga s1) = q) by (split; reflexivity). clearbody s1.
  destruct (ga_param q) as [sig|]; [|apply wp_ret; exact H]. destruct p; [|apply wp_ret; exact H].
  unfold ga_token. apply wp_bind, wp_get. apply end_eq; [apply rl_guard, RE_refl|]. intros _ e6. apply wp_bind. apply wp_verify; [|apply end_eq; [apply rl_guard, RE_refl|]; intros ? ?].
  - intros _ b _. apply end_eq; [apply rl_guard, RE_refl|]. intros _ e7. apply wp_bind, wp_modify. unfold cp_user_verified, cp_has_permission, cp_verify_rp.
    do 6 (apply end_eq; [re|]; intros ? ?). unfold cp_associate_rp. apply wp_modify. exact H.
  - apply wp_bind, wp_modify. unfold cp_user_verified, cp_has_permission, cp_verify_rp. do 6 (apply end_eq; [re|]; intros ? ?). unfold cp_associate_rp. apply wp_modify. exact H.
Qed.
Lemma select_ctr q s e : wp (ga_select K q) (ended (fun s' => g_ctr (c_ga s') = g_ctr (c_ga s))) s e.
Proof.
  unfold ga_select, gets. apply wp_bind, wp_bind, wp_get, wp_ret. destruct (ga_allow q) as [|i l].
  - assert (W : forall s1 e1, g_ctr (c_ga s1) = g_ctr (c_ga s) -> wp (g <- (s <- get ;; ret (c_ga s)) ;; d <- read_rec DC_FILE DC_SIZE (nth (Z.to_nat (g_ctr g)) (g_list g) 0) ;; v <- verify_key_handle K (dc_id d) ;;
        match v with Some (Some pri) => ret (d, pri) | _ => except ERR_UNHANDLED end) (ended (fun s' => g_ctr (c_ga s') = g_ctr (c_ga s))) s1 e1).
    { intros s1 e1 H1. apply wp_bind, wp_bind, wp_get, wp_ret. apply end_eq; [apply re_rec|]. intros d e2. apply end_eq; [apply re_verify|]. intros v e3. destruct v as [[p|]|]; [apply wp_ret; exact H1|apply wp_except; exact I|apply wp_except; exact I]. }
    destruct (g_ctr (c_ga s) =? 0) eqn:Ec.
    + apply wp_bind. eapply wp_mono with (Q := ended (fun s' => g_ctr (c_ga s') = g_ctr (c_ga s))); [|intros [a|?| |] s2 e2 H2; try exact I; apply W; exact H2]. apply end_eq; [apply re_recs|]. intros n e1. apply end_eq; [apply rl_applicable; [apply RE_refl|apply RE_trans]|]. intros l e2. apply wp_bind, wp_modify. apply wp_guard; [intros _; reflexivity|exact (fun _ => I)].
    + apply wp_bind, wp_ret. apply W. reflexivity.
  - apply end_eq; [apply rl_allow; [apply RE_refl|apply RE_trans]|]. intros r e1. apply wp_bind, wp_modify. apply wp_ret. reflexivity.
Qed.
Definition RD (s s' : ctap) : Prop := c_tok s' = c_tok s.
Lemma ga_spends d x q v s e : x_op x = OCbor (RGet (inr q)) -> ga_upopt q <> 0 -> exec K d x = (Some (ACbor 0 (Some v)), s, e) -> spent (c_tok s).
Proof.
  intros Hx Hup E. apply (exec_ended d x _ (fun s => spent (c_tok s)) v s e Hx); [auto|exact E|]. unfold cbor_cmd. apply end_any. intros _ s1 e1. apply wp_bind. eapply wp_mono with (Q := ended (fun s => spent (c_tok s))); [|intros [a|?| |] s2 e2 H2; try exact I; apply wp_ret; exact H2].
  unfold ctap_get_assertion. apply wp_bind, wp_modify. apply end_eq; [apply rl_consistency; [apply RE_refl|apply RE_trans]|]. intros _ e2.
  apply wp_bind. eapply wp_mono; [apply begin_ctr|]. intros [a|?| |] s2 e3 H2; try exact I. destruct H2 as (Hc & Hr). cbn [set_ga c_ga gs_ctr g_ctr] in Hc.
  unfold ga_rest, gets. apply wp_bind, wp_bind, wp_get, wp_ret. rewrite Hr. apply wp_bind. eapply wp_mono; [apply select_ctr|]. intros [[dc pri]|?| |] s3 e4 H3; try exact I. cbn [ended] in H3.
  apply wp_bind, wp_bind, wp_get, wp_ret. rewrite H3, Hc. assert ((0 =? 0) && negb (ga_upopt q =? 0) = true) as -> by lia.
  apply wp_bind. eapply wp_mono with (Q := ended (fun s => spent (c_tok s))); [apply end_eq; [apply rl_ask; [apply RE_refl|apply RE_trans]|]; intros _ e5; apply wp_bind, wp_modify; unfold cp_clear_flags; apply wp_modify; apply spent_clear|].
  intros [a4|?| |] s4 e5 H; try exact I. cbn [ended] in H.
  apply end_eq; [apply rl_guard, RE_refl|]. intros _ e6. apply wp_bind. eapply wp_mono; [apply (rl_ga_ext K RD); [intros; reflexivity|unfold RD; intros; congruence|intros; reflexivity]|].
  intros [ext|?| |] s5 e7 H5; try exact I. unfold RD in H5. rewrite <- H5 in H. clear H5. apply wp_bind, wp_bind, wp_get, wp_ret. cbv zeta.
  apply end_eq; [apply rl_auth_data; [apply RE_refl|apply RE_trans]|]. intros r e8. apply end_eq; [apply re_sign|]. intros [sig|] e9; [|exact I].
  apply end_eq; [destruct (dc_lbk dc =? 0); [apply rl_ret, RE_refl|apply rl_bind; [apply RE_trans|apply re_lbk|intros k; apply rl_ret, RE_refl]]|]. intros lbk e10. apply wp_bind, wp_modify, wp_ret. exact H.
Qed.
(** The answer to a request for a token, with success *)
Definition token_given (e : entry) : Prop := exists d x q v, e = (d, Do x, Some (ACbor 0 (Some v))) /\ x_op x = OCbor (RPin (inr q)) /\ (cp_sub q = 5 \/ cp_sub q = 9).
Lemma spent_hist d0 tr d : hist K d0 tr d -> spent (c_tok (d_ram d0)) -> (exists en, In en tr /\ token_given en) \/ spent (c_tok (d_ram d)).
Proof.
  intros H. induction H as [d|d0 tr d v o d' H IH Hv Hs]; intros H0; [auto|]. specialize (IH H0). destruct IH as [(en & I1 & I2)|IH]; [left; exists en; split; [apply in_or_app; auto|exact I2]|].
  destruct v as [x|x n flt rnd|F]; cbn [step] in Hs.
  - destruct (exec K d x) as [[[r|] s] e] eqn:E; [|discriminate]. injection Hs as <- <-. cbn [d_ram].
    destruct (exec_tok d x r s e E) as [(q & c & G1 & G2 & G3 & G4)|G].
    + left. eexists. split; [apply in_or_app; right; left; reflexivity|]. exists d, x, q, c. split; [congruence|]. split; [exact G1|unfold asks_token in G2; lia].
    + right. unfold spent in *. destruct G as [G|(U & T & P & Rp & V & En)]; [auto|]. destruct IH as [IH|IH]; [congruence|]. destruct (t_uv (c_tok s)) eqn:Ev; [specialize (V eq_refl); congruence|auto].
  - destruct (exec K d x) as [[? ?] e]. injection Hs as <- <-. right. left. apply boot_idle.
  - injection Hs as <- <-. right. exact IH.
Qed.
(** Between a registration, or an assertion with the user present, and a later answer that says that the user was verified, there was another token. *)
Theorem C50_one_use d0 tr1 d1 x1 v1 tr2 d2 x2 v2 tr3 d : hist K d0 (tr1 ++ (d1, Do x1, Some (ACbor 0 (Some v1))) :: tr2 ++ (d2, Do x2, Some (ACbor 0 (Some v2))) :: tr3) d ->
  ((exists q, x_op x1 = OCbor (RMake (inr q))) \/ (exists q, x_op x1 = OCbor (RGet (inr q)) /\ ga_upopt q <> 0)) ->
  ((exists q, x_op x2 = OCbor (RMake (inr q))) \/ (exists q, x_op x2 = OCbor (RGet (inr q)))) -> says_uv v2 = true ->
  exists en, In en tr2 /\ token_given en.
Proof.
  intros H H1 H2 Hu. apply hist_app in H. destruct H as (da & Ha & H). apply (hist_app K da [(d1, Do x1, Some (ACbor 0 (Some v1)))]) in H. destruct H as (db & Hb & H). apply hist_app in H. destruct H as (dc & Hc & H).
  apply (hist_app K dc [(d2, Do x2, Some (ACbor 0 (Some v2)))] tr3) in H. destruct H as (dd & Hd & _). apply hist_one in Hb, Hd.
  destruct Hb as (w1 & o1 & Hb & Hok1 & Hs1). destruct Hd as (w2 & o2 & Hd & Hok2 & Hs2). injection Hb as -> <- <-. injection Hd as -> <- <-.
  cbn [step] in Hs1, Hs2. destruct (exec K da x1) as [[[r1|] s1] e1] eqn:E1; [|discriminate]. injection Hs1 as -> <-. destruct (exec K dc x2) as [[[r2|] s2] e2] eqn:E2; [|discriminate]. injection Hs2 as -> <-.
  assert (S1 : spent (c_tok s1)) by (destruct H1 as [(q & Hq)|(q & Hq & Hq')]; [eapply mc_spends; eauto|eapply ga_spends; eauto]).
  destruct (spent_hist _ _ _ Hc S1) as [G|G]; [exact G|]. exfalso. cbn [ev_ok] in Hok2.
  destruct H2 as [(q & Hq)|(q & Hq)]; rewrite Hq in Hok2.
  - destruct (C50_make_credential dc x2 q v2 s2 e2 Hq Hok2 E2) as (T & _). destruct (T Hu) as ((_ & b & _ & Hal & _) & Huv). destruct G; congruence.
  - destruct (C50_get_assertion dc x2 q v2 s2 e2 Hq Hok2 E2) as (T & _). destruct (T Hu) as ((_ & b & _ & Hal & _) & Huv). destruct G; congruence.
Qed.
End S.

(** ** Examples and counterexamples, with the toy cryptography *)
Definition pin_a : bytes := [49; 50; 51; 52]. Definition pin_b : bytes := [53; 54; 55; 56].
Definition ask_perm (p : bytes) (perm : Z) (rp : option bytes) : cpreq := mkCp 9 1 (repeat 1 64) [] [] (toy_enc fresh_dev (firstn 16 (toy_sha p))) perm rp.
(** The tag with the token that was drawn at time [t] *)
Definition tag_at (t : Z) (msg : bytes) : bytes := firstn 16 (toy_sha (repeat (t mod 256) 32 ++ msg)).
Definition mc_tag (t rp id rk : Z) : mcreq := mc_of rp id rk (Some (tag_at t (repeat 3 32))).
Definition ga_tag (t rp : Z) : gareq := ga_of rp [] (Some (tag_at t (repeat 4 32))).
Definition start50 : list ev := [do_at 20000 (OKey (repeat 6 32)); pin_at 20001 (set_req fresh_dev pin_a)].
Definition oks (e : entry) : bool := match snd e with Some (ACbor c _) => c =? 0 | Some (AApdu r) => r_sw r =? 0x9000 | None => true end.
Definition uv_of (e : entry) : bool := match snd e with Some (ACbor 0 (Some v)) => says_uv v | _ => false end.
Definition code_of (e : entry) : Z := match snd e with Some (ACbor c _) => c | _ => -1 end.
Definition last_uv (tr : list entry) : bool := match rev tr with e :: _ => uv_of e | [] => false end.
Definition last_code (tr : list entry) : Z := match rev tr with e :: _ => code_of e | [] => -1 end.
(** A token, a registration with it as verified, a second one that is refused, another token, an assertion with it *)
Definition case50 : list ev := start50 ++ [pin_at 20002 (token_req fresh_dev pin_a); do_at 20003 (OCbor (RMake (inr (mc_tag 20002 7 1 1)))); do_at 20004 (OCbor (RMake (inr (mc_tag 20002 7 2 1))));
  pin_at 20005 (token_req fresh_dev pin_a); do_at 20006 (OCbor (RGet (inr (ga_tag 20005 7))))].
Example C50_case : exists tr d, hist toyf fresh_dev tr d /\ map uv_of tr = [false; false; false; true; false; false; true] /\ map code_of tr = [-1; 0; 0; 0; 51; 0; 0] /\
  map (fun e => snd (fst e)) tr = case50 /\ idle (d_ram fresh_dev) /\ t_use (c_tok (d_ram d)) = true.
Proof.
  destruct (play_case toyf fresh_dev case50 (fun tr d => t_use (c_tok (d_ram d)) && beqb (map code_of tr) [-1; 0; 0; 0; 51; 0; 0] && (fix eqb a b := match a, b with [], [] => true | x :: a, y :: b => Bool.eqb x y && eqb a b | _, _ => false end) (map uv_of tr) [false; false; false; true; false; false; true])) as (tr & d & H1 & H2 & H3); [vm_compute; reflexivity|].
  exists tr, d. apply andb_true_iff in H2. destruct H2 as (H2 & H4). apply andb_true_iff in H2. destruct H2 as (H2 & H5). split; [exact H1|]. apply beqb_eq in H5. split; [|split; [exact H5|]; split; [exact H3|]; split; [vm_compute; reflexivity|exact H2]].
  revert H4. generalize (map uv_of tr) [false; false; false; true; false; false; true]. intros a. induction a as [|x a IH]; intros [|y b] H; try discriminate; [reflexivity|]. apply andb_true_iff in H. destruct H as (Ha & Hb). apply eqb_prop in Ha. subst. f_equal. apply IH. exact Hb.
Qed.
(** ** What does not hold *)
(** A change of the PIN does not end the token: one that was obtained with the old PIN still registers credentials as verified. *)
Definition case_old : list ev := start50 ++ [pin_at 20002 (token_req fresh_dev pin_a); pin_at 20003 (change_req fresh_dev pin_a pin_b); do_at 20004 (OCbor (RMake (inr (mc_tag 20002 7 1 1))))].
Theorem C50_old_token_refuted : exists tr d, hist toyf fresh_dev tr d /\ map (fun e => snd (fst e)) tr = case_old /\ forallb oks tr = true /\ last_uv tr = true.
Proof.
  destruct (play_case toyf fresh_dev case_old (fun tr d => forallb oks tr && last_uv tr)) as (tr & d & H1 & H2 & H3); [vm_compute; reflexivity|]. apply andb_true_iff in H2. exists tr, d. tauto.
Qed.
(** A registration should leave the token no permission but to write large blobs.  It leaves it the others: here the credentials of the RP are listed with it. *)
Definition cm_tag (t sub rp : Z) : cmreq := mkCm sub [1; 2; 3] (repeat rp 32) (repeat 0 70) (repeat 0 195) 1 (tag_at t [sub; 1; 2; 3]).
Definition case_kept : list ev := start50 ++ [pin_at 20002 (ask_perm pin_a 5 None); do_at 20003 (OCbor (RMake (inr (mc_tag 20002 7 1 1)))); do_at 20004 (OCbor (RCm (inr (cm_tag 20002 4 7))))].
Theorem C50_permissions_kept_refuted : exists tr d, hist toyf fresh_dev tr d /\ map (fun e => snd (fst e)) tr = case_kept /\ forallb oks tr = true.
Proof. destruct (play_case toyf fresh_dev case_kept (fun tr d => forallb oks tr)) as (tr & d & H1 & H2 & H3); [vm_compute; reflexivity|]. exists tr, d. tauto. Qed.
(** And it takes away the one that should stay: the same write of large blobs is accepted without, and refused after the registration. *)
Definition lb_req (t : Z) : lbreq := let q := mkLb None (repeat 8 20) 0 40 None None in mkLb None (repeat 8 20) 0 40 (Some (tag_at t (blob_message toyf q))) (Some 1).
Definition case_lbw (b : bool) : list ev := start50 ++ [pin_at 20002 (ask_perm pin_a 17 None)] ++ (if b then [do_at 20003 (OCbor (RMake (inr (mc_tag 20002 7 1 1))))] else []) ++ [do_at 20004 (OCbor (RLarge (inr (lb_req 20002))))].
Theorem C50_blob_permission_lost_refuted :
  (exists tr d, hist toyf fresh_dev tr d /\ map (fun e => snd (fst e)) tr = case_lbw false /\ forallb oks tr = true) /\
  (exists tr d, hist toyf fresh_dev tr d /\ map (fun e => snd (fst e)) tr = case_lbw true /\ last_code tr = 51).
Proof.
  split.
  - destruct (play_case toyf fresh_dev (case_lbw false) (fun tr d => forallb oks tr)) as (tr & d & H1 & H2 & H3); [vm_compute; reflexivity|]. exists tr, d. tauto.
  - destruct (play_case toyf fresh_dev (case_lbw true) (fun tr d => last_code tr =? 51)) as (tr & d & H1 & H2 & H3); [vm_compute; reflexivity|]. exists tr, d. apply Z.eqb_eq in H2. auto.
Qed.
(** The end of the life time is compared as a number: a token given less than 30 s before the clock of 32 bits wraps is valid after it for as long as the clock is small.  Here it is used after more than 1000 s. *)
Definition late : Z := 2 ^ 32 - 30001.
Definition case_late : list ev := start50 ++ [pin_at late (token_req fresh_dev pin_a); do_at 1000000 (OCbor (RMake (inr (mc_tag late 7 1 1))))].
Theorem C50_lifetime_refuted : u32 (1000000 - late) > 1000000 /\ exists tr d, hist toyf fresh_dev tr d /\ map (fun e => snd (fst e)) tr = case_late /\ forallb oks tr = true /\ last_uv tr = true.
Proof.
  split; [vm_compute; reflexivity|]. destruct (play_case toyf fresh_dev case_late (fun tr d => forallb oks tr && last_uv tr)) as (tr & d & H1 & H2 & H3); [vm_compute; reflexivity|]. apply andb_true_iff in H2. exists tr, d. tauto.
Qed.
Print Assumptions C50_make_credential.
Print Assumptions C50_get_assertion.
Print Assumptions C50_credential_management.
Print Assumptions C50_large_blobs.
Print Assumptions C50_token_origin.
Print Assumptions C50_one_use.
Print Assumptions C50_old_token_refuted.
Print Assumptions C50_permissions_kept_refuted.
Print Assumptions C50_blob_permission_lost_refuted.
Print Assumptions C50_lifetime_refuted.
