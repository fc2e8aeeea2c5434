(** C29: PIV management commands need the management key. *)
From Verif Require Import Sys Apdu Applet Frame Pin Tlv Key PropKey Piv PivSpec PropPivGa PivFrame.
Open Scope string_scope. Open Scope list_scope. Open Scope Z_scope.

(** ** What GENERAL AUTHENTICATE does to the authentication state *)
Lemma tlv_at_exc buf p lc sw w : tlv_at buf p lc sw = Exc w -> w = sw.
Proof. unfold tlv_at. destruct (tlv_get_length_safe _ _) as [|n [|] [c|]]; try discriminate; intros H; injection H; auto. Qed.
Lemma ga_elements_exc fuel buf lc w : forall p t, ga_elements fuel buf p lc t = Exc w -> w = SW_WRONG_DATA \/ w = SW_WRONG_LENGTH.
Proof.
  induction fuel as [|fuel IH]; intros p t; cbn [ga_elements]; [discriminate|]. destruct (negb _); [discriminate|].
  destruct (rd buf p) as [tag|]; cbn [oneed obind]; [|discriminate]. destruct (_ || _); cbn [oguard obind]; [|intros H; injection H; auto].
  destruct (tlv_at buf (p + 1) lc SW_WRONG_LENGTH) as [r|w'| |] eqn:E; cbn [obind]; try discriminate; [apply IH|].
  intros H; injection H as <-. right. eapply tlv_at_exc; eassumption.
Qed.
Lemma ga_template_exc buf lc w : ga_template buf lc = Exc w -> w = SW_WRONG_DATA \/ w = SW_WRONG_LENGTH.
Proof.
  unfold ga_template. destruct (tlv_at buf 1 lc SW_WRONG_LENGTH) as [r|w'| |] eqn:E; cbn [obind]; try discriminate; [apply ga_elements_exc|].
  intros H; injection H as <-. right. eapply tlv_at_exc; eassumption.
Qed.

(** reading the management key *)
Lemma key_bytes f : slice 0 24 (overlay (slice 0 KEY_SIZE f) (zeros KEY_SIZE)) = slice 0 24 (f ++ zeros 24).
Proof.
  pose proof (zlen_nonneg f) as Hf. unfold overlay, slice. change (Z.to_nat 0) with 0%nat. rewrite !skipn_O.
  change (Z.to_nat 24) with 24%nat. change (Z.to_nat KEY_SIZE) with (24 + 1262)%nat.
  rewrite firstn_app. rewrite firstn_firstn. replace (Nat.min 24 (24 + 1262)) with 24%nat by lia. rewrite firstn_app. f_equal.
  rewrite firstn_length. unfold zeros. change (Z.to_nat KEY_SIZE) with (24 + 1262)%nat. change (Z.to_nat 24) with 24%nat.
  destruct (Nat.le_gt_cases 24 (length f)) as [H|H].
  - replace (24 - Nat.min (24 + 1262) (length f))%nat with 0%nat by lia. replace (24 - length f)%nat with 0%nat by lia. reflexivity.
  - replace (Nat.min (24 + 1262) (length f)) with (length f) by lia.
    generalize (length f) H. clear. intros n H.
    assert (forall k m, (k <= m)%nat -> firstn k (repeat 0 m) = repeat 0 k) as R.
    { induction k; intros m Hm; [reflexivity|]. destruct m; [lia|]. cbn. rewrite IHk by lia. reflexivity. }
    rewrite R by lia. assert (forall k m, skipn k (repeat 0 m) = repeat 0 (m - k)) as R2.
    { induction k; intros m; [rewrite Nat.sub_0_r; reflexivity|]. destruct m; [reflexivity|]. cbn. apply IHk. }
    rewrite R2, R by lia. reflexivity.
Qed.

Definition adminkey (F : fs) : bytes := match fdata F "piv-admk" with Some x => slice 0 24 (x ++ zeros 24) | None => [] end.
Lemma wp_read_key {S} p (Q : out (option ckey) -> S -> env -> Prop) s F L X R T O :
  (forall X' r, (X = [] -> X' = []) ->
     match r with
     | None => X = [] -> F p = None \/ fattr F p KEY_META_ATTR = None
     | Some k => exists a d, fattr F p KEY_META_ATTR = Some a /\ fdata F p = Some d /\
                   k = mkKey (meta_of a) (overlay (slice 0 KEY_SIZE d) (zeros KEY_SIZE))
     end -> Q (Ret r) s (mkE F L X' R T O)) ->
  wp (ck_read_key p) Q s (mkE F L X R T O).
Proof.
  intros H. unfold ck_read_key, ck_read_key_metadata. apply wp_bind, wp_bind, wp_read_attr. intros X1 r1 C1 V1. apply wp_ret.
  destruct r1 as [a|]; cbn [option_map].
  - destruct V1 as [V1|V1]; [discriminate|]. apply wp_bind, wp_read_file. intros X2 r2 C2 V2. apply wp_ret. apply H.
    + intros E. apply C2, C1, E.
    + destruct r2 as [d|]; cbn [option_map].
      * destruct V2 as [V2|V2]; [discriminate|]. unfold fread in V2. unfold fdata. destruct (F p) as [f|]; [|discriminate].
        injection V2 as ->. exists a, (f_data f). auto.
      * intros E. destruct (C1 E) as [C _]. destruct (C2 C) as [_ C']. left. unfold fread in C'. destruct (F p); [discriminate|reflexivity].
  - apply wp_ret. apply H.
    + intros E. apply C1, E.
    + intros E. destruct (C1 E) as [_ C]. right. congruence.
Qed.

Section Post.
Variable K : crypto.
Variable nfc : bool.
Variables t1 t2 : Z.
Notation ga := (piv_general_authenticate K nfc t1 t2).

Definition no_request (o : bytes) : Prop := forall v, o <> [0x7C; 10; 0x81; 8] ++ v /\ o <> [0x7C; 10; 0x80; 8] ++ v.
Definition ga_post (c : capdu) (s : piv) (F : fs) (o : out Z) (s' : piv) (e' : env) : Prop :=
  let unchanged := v_state s' = v_state s /\ v_chal s' = v_chal s /\ v_admin s' = v_admin s in
  let none := v_state s' = AUTH_STATE_NONE /\ (v_admin s' = true -> v_admin s = true) in
  match o with
  | Ret sw => sw = 0x9000 /\
      (none /\ no_request (e_out e')
       \/ (exists v, v_state s' = AUTH_STATE_EXTERNAL /\ v_admin s' = false /\ e_out e' = [0x7C; 10; 0x81; 8] ++ v /\
             tdes_enc K (adminkey F) v = Some (v_chal s'))
       \/ (exists v, v_state s' = AUTH_STATE_MUTUAL /\ v_admin s' = false /\ e_out e' = [0x7C; 10; 0x80; 8] ++ v /\
             tdes_enc K (adminkey F) (v_chal s') = Some v)
       \/ (exists l, template (c_data c) l /\ v_state s = AUTH_STATE_EXTERNAL /\ value 0x82 l = Some (v_chal s) /\
             v_state s' = AUTH_STATE_NONE /\ no_request (e_out e'))
       \/ (exists l, template (c_data c) l /\ v_state s = AUTH_STATE_MUTUAL /\ value 0x80 l = Some (v_chal s) /\
             v_state s' = AUTH_STATE_NONE /\ no_request (e_out e')))
  | Exc sw => sw <> 0x9000 /\ (none \/ unchanged /\ sw <> 0x6982)
  | Fail => c_p2 c <> 0x9B -> none \/ unchanged
  | UB => True
  end.

Lemma wp_got {A} (m : M piv (option A)) (Q : out A -> piv -> env -> Prop) s e :
  wp m (fun o s' e' => match o with Ret (Some a) => Q (Ret a) s' e' | Ret None => Q Fail s' e' | Exc w => Q (Exc w) s' e' | Fail => Q Fail s' e' | UB => Q UB s' e' end) s e ->
  wp (got m) Q s e.
Proof. intros H. unfold got. apply wp_bind. eapply wp_mono; [exact H|]. intros [[a|]|w| |] s' e' Hq; exact Hq. Qed.
Lemma wp_opt {A} (o : option A) (Q : out A -> piv -> env -> Prop) s e :
  (forall a, o = Some a -> Q (Ret a) s e) -> (o = None -> Q Fail s e) -> wp (opt o) Q s e.
Proof. intros H1 H2. destruct o; [apply H1|apply H2]; reflexivity. Qed.
Lemma wp_need_any {A} (o : option A) (Q : out A -> piv -> env -> Prop) s e :
  (forall a, o = Some a -> Q (Ret a) s e) -> (o = None -> Q UB s e) -> wp (need o) Q s e.
Proof. intros H1 H2. destruct o; [apply H1|apply H2]; reflexivity. Qed.

Lemma wp_check pol (Q : out bool -> piv -> env -> Prop) s e :
  (pol = PIN_POLICY_NEVER \/ v_pin s = true /\ (pol = PIN_POLICY_ALWAYS -> v_used s = false) -> Q (Ret true) (set_used true s) e) -> Q (Ret false) s e ->
  wp (piv_security_status_check pol) Q s e.
Proof.
  intros H1 H2. unfold piv_security_status_check. apply wp_bind, wp_get. cbv beta iota zeta.
  destruct (Z.eqb_spec pol PIN_POLICY_NEVER) as [E|E].
  { apply wp_bind, wp_modify, wp_ret. apply H1. auto. }
  destruct (Z.eqb_spec pol PIN_POLICY_ALWAYS) as [E'|E'].
  - destruct (v_pin s), (v_used s); cbn [negb orb]; try (apply wp_ret, H2). apply wp_bind, wp_modify, wp_ret. apply H1. auto.
  - destruct (v_pin s); cbn [negb]; try (apply wp_ret, H2). apply wp_bind, wp_modify, wp_ret. apply H1. right. split; [reflexivity|contradiction].
Qed.
Ltac wstep := first
  [ apply wp_bind | apply wp_ret | apply wp_get | apply wp_modify | apply wp_set_out | apply wp_except | apply wp_fail
  | apply wp_guard; intros ? | apply wp_got | apply wp_opt; intros | apply wp_need_any; intros
  | apply wp_read_key; intros ? [?|] ? ? | apply wp_random; intros ? ? | apply wp_check; [intros ?|] ].
Ltac wgo := repeat (wstep; cbv beta iota zeta).

Lemma wp_touch (b cached : bool) (Q : out unit -> piv -> env -> Prop) s F L X R T O :
  (forall T', Q (Ret tt) s (mkE F L X R T' O) /\ Q (Ret tt) (set_last t2 s) (mkE F L X R T' O) /\ Q (Exc SW_ERROR_WHILE_RECEIVING) s (mkE F L X R T' O)) ->
  wp (if b then piv_touch nfc t1 t2 cached else ret tt) Q s (mkE F L X R T O).
Proof.
  intros H. destruct b; [|apply wp_ret, H]. unfold piv_touch. destruct nfc; [apply wp_ret, H|].
  apply wp_bind, wp_get. destruct (_ && _); [apply wp_ret, H|]. apply wp_bind, wp_wait_touch. destruct (_ || _); [apply wp_except, H|apply wp_modify, H].
Qed.

Lemma wp_block buf pos len n (w : bool) (Q : out bytes -> piv -> env -> Prop) s e : (forall d, Q (Ret d) s e) -> Q UB s e ->
  wp (if w then d <- need (sub buf pos len) ;; if n <? len then ub else if zlen buf <? pos + n then ub else ret (zeros (n - len) ++ d)
      else need (sub buf pos n)) Q s e.
Proof.
  intros H1 H2. destruct w; [|apply wp_need_any; intros; [apply H1|exact H2]].
  apply wp_bind, wp_need_any; intros; [|exact H2]. destruct (_ <? _); [exact H2|]. destruct (_ <? _); [exact H2|]. apply wp_ret, H1.
Qed.

Section Cases.
Variables (c : capdu) (tail : bytes) (s s1 : piv) (F : fs) (L : list fs) (X : list fault) (R : bytes) (T : list Z).
Variables (t : tpl) (l : list (Z * bytes)) (p : path) (m : meta).
Hypothesis Ht : template (c_data c) l.
Hypothesis Hd : describes_all (c_data c) t (fun tag => value tag l).
Hypothesis Hp : get_key_path (c_p2 c) = Some p.
Hypothesis S1 : v_state s1 = v_state s.
Hypothesis S2 : v_chal s1 = v_chal s.
Hypothesis S3 : v_admin s1 = v_admin s.
Notation Env := (mkE F L X R T []).
Notation buf := (c_data c ++ tail).
Notation Q := (ga_post c s F).

Ltac none := cbn; rewrite ?S3; split; [reflexivity|auto; discriminate].
Ltac exc := split; [discriminate|left; none].
Ltac norq := intros v; split; discriminate.
Lemma ga_1 : wp (ga_internal K p m buf t) Q s1 Env.
Proof.
  unfold ga_internal. destruct (t_c t) as [pos len]. apply wp_bind, wp_modify, wp_bind, wp_check.
  2: { apply wp_bind. apply wp_except. exc. }
  intros _. apply wp_bind, wp_ret. cbv zeta. apply wp_bind, wp_guard; intros G; [|exc].
  apply wp_bind, wp_got, wp_read_key. intros X' [k|] _ _; [|intros _; left; none].
  destruct (IS_RSA (m_type (k_meta k))).
  - apply wp_bind, wp_need_any; intros; [|exact I]. apply wp_bind, wp_opt; intros; [|intros _; left; none].
    apply wp_bind, wp_set_out, wp_ret. split; [reflexivity|]. left. split; [none|norq].
  - destruct (IS_ECC (m_type (k_meta k))); [|apply wp_fail; intros _; left; none].
    apply wp_bind, wp_block; [|exact I]. intros d. apply wp_bind, wp_opt; intros; [|intros _; left; none].
    apply wp_bind, wp_set_out, wp_ret. split; [reflexivity|]. left. split; [none|norq].
Qed.
Lemma ga_2 : wp (ga_external_request K p (c_p2 c)) Q s1 Env.
Proof.
  unfold ga_external_request. apply wp_bind, wp_modify, wp_bind, wp_guard; intros G; [|exc].
  assert (P2 : c_p2 c = 0x9B) by lia. rewrite P2 in Hp. injection Hp as <-.
  apply wp_bind, wp_random. intros r R'. apply wp_bind, wp_set_out, wp_bind, wp_modify, wp_bind, wp_got, wp_read_key.
  intros X' [k|] _ V; [|intros N; congruence]. apply wp_bind, wp_opt; intros; [|intros N; congruence].
  apply wp_bind, wp_modify, wp_ret. split; [reflexivity|]. right; left. exists r. split; [reflexivity|]. split; [reflexivity|]. split; [reflexivity|].
  destruct V as (a' & d & V1 & V2 & ->). unfold adminkey. cbn [v_chal set_auth]. change "piv-admk" with CARD_ADMIN_KEY_PATH. rewrite V2, <- key_bytes. assumption.
Qed.
Lemma ga_3 : 0 < snd (t_r t) -> wp (ga_external_response (c_p2 c) buf t) Q s1 Env.
Proof.
  intros Hr. unfold ga_external_response. apply wp_bind, wp_get, wp_bind, wp_need_any; [|intros; exact I]. intros d Hsub.
  destruct (Z.eqb_spec (v_state s1) AUTH_STATE_EXTERNAL) as [V|V]; cbn [negb orb]; [|apply wp_bind, wp_modify, wp_except; exc].
  destruct (Z.eqb_spec (c_p2 c) 0x9B) as [V2|V2]; cbn [negb orb]; [|apply wp_bind, wp_modify, wp_except; exc].
  destruct (Z.eqb_spec (snd (t_r t)) 8) as [V3|V3]; cbn [negb orb]; [|apply wp_bind, wp_modify, wp_except; exc].
  destruct (beqb (v_chal s1) d) eqn:V4; cbn [negb orb]; [|apply wp_bind, wp_modify, wp_except; exc].
  apply beqb_eq in V4. subst d.
  apply wp_bind, wp_modify, wp_ret. split; [reflexivity|]. right; right; right; left. exists l. split; [exact Ht|].
  split; [congruence|]. split; [|split; [reflexivity|norq]].
  destruct Hd as (_ & _ & D & _). rewrite V3 in *. destruct (value 0x82 l) as [v|]; cbn [describes] in D; [|rewrite D in V3; discriminate].
  destruct D as (D1 & D2 & D3 & D4). f_equal. rewrite <- D4, V3, <- S2. change (Z.min 8 8) with 8 in Hsub.
  rewrite sub_ok in Hsub by (rewrite ?zlen_app; pose proof (zlen_nonneg tail); lia). injection Hsub as <-.
  unfold slice. rewrite skipn_app, firstn_app. unfold zlen in *.
  replace (Z.to_nat 8 - _)%nat with 0%nat by (rewrite skipn_length; lia). cbn [firstn]. rewrite app_nil_r. reflexivity.
Qed.
Lemma ga_4 : wp (ga_mutual_request K p (c_p2 c) buf) Q s1 Env.
Proof.
  unfold ga_mutual_request. apply wp_bind, wp_modify, wp_bind, wp_guard; intros G; [|exc].
  assert (P2 : c_p2 c = 0x9B) by lia. rewrite P2 in Hp. injection Hp as <-.
  apply wp_bind, wp_random. intros r R'. apply wp_bind, wp_modify, wp_bind, wp_set_out, wp_bind, wp_got, wp_read_key.
  intros X' [k|] _ V; [|intros N; congruence]. apply wp_bind, wp_opt; [|intros _ N; congruence]. intros x Hx.
  apply wp_bind, wp_set_out, wp_ret. split; [reflexivity|]. right; right; left. exists x. split; [reflexivity|]. split; [reflexivity|]. split; [reflexivity|].
  destruct V as (a' & d & V1 & V2 & ->). unfold adminkey. cbn [v_chal set_auth]. change "piv-admk" with CARD_ADMIN_KEY_PATH. rewrite V2, <- key_bytes. assumption.
Qed.
Lemma ga_5 : wp (ga_mutual_response K p (c_p2 c) buf t) Q s1 Env.
Proof.
  unfold ga_mutual_response. apply wp_bind, wp_get, wp_bind, wp_need_any; [|intros; exact I]. intros d Hsub.
  destruct (Z.eqb_spec (v_state s1) AUTH_STATE_MUTUAL) as [V|V]; cbn [negb orb]; [|apply wp_bind, wp_modify, wp_except; exc].
  destruct (Z.eqb_spec (c_p2 c) 0x9B) as [V2|V2]; cbn [negb orb]; [|apply wp_bind, wp_modify, wp_except; exc].
  destruct (Z.eqb_spec (snd (t_w t)) 8) as [V3|V3]; cbn [negb orb]; [|apply wp_bind, wp_modify, wp_except; exc].
  destruct (beqb (v_chal s1) d) eqn:V4; cbn [negb orb]; [|apply wp_bind, wp_modify, wp_except; exc].
  apply beqb_eq in V4. subst d.
  destruct (negb _); [apply wp_bind, wp_modify, wp_except; exc|].
  apply wp_bind, wp_set_out, wp_bind, wp_got, wp_read_key. intros X' [k|] _ _; [|intros N; congruence].
  apply wp_bind, wp_need_any; [|intros; exact I]. intros ch _. apply wp_bind, wp_opt; [|intros _ N; congruence]. intros x _.
  apply wp_bind, wp_set_out, wp_bind, wp_modify, wp_ret. split; [reflexivity|]. right; right; right; right. exists l. split; [exact Ht|].
  split; [congruence|]. split; [|split; [reflexivity|norq]].
  destruct Hd as (D & _). rewrite V3 in *. destruct (value 0x80 l) as [v|]; cbn [describes] in D; [|rewrite D in V3; discriminate].
  destruct D as (D1 & D2 & D3 & D4). f_equal. rewrite <- D4, V3, <- S2. change (Z.min 8 8) with 8 in Hsub.
  rewrite sub_ok in Hsub by (rewrite ?zlen_app; pose proof (zlen_nonneg tail); lia). injection Hsub as <-.
  unfold slice. rewrite skipn_app, firstn_app. unfold zlen in *.
  replace (Z.to_nat 8 - _)%nat with 0%nat by (rewrite skipn_length; lia). cbn [firstn]. rewrite app_nil_r. reflexivity.
Qed.
Lemma ga_6 : wp (ga_ecdh K p m buf t) Q s1 Env.
Proof.
  unfold ga_ecdh. destruct (t_x t) as [pos len]. apply wp_bind, wp_modify, wp_bind, wp_check.
  2: { apply wp_bind. apply wp_except. exc. }
  intros _. apply wp_bind, wp_ret. cbv zeta. apply wp_bind, wp_guard; intros G; [|exc].
  apply wp_bind, wp_got, wp_read_key. intros X' [k|] _ _; [|intros _; left; none].
  apply wp_bind, wp_need_any; intros; [|exact I]. apply wp_bind, wp_opt; intros; [|intros _; left; none].
  apply wp_bind, wp_set_out, wp_ret. split; [reflexivity|]. left. split; [none|norq].
Qed.
Lemma ga_7 : wp (modify authenticate_reset ;;; except SW_WRONG_DATA) Q s1 Env.
Proof. apply wp_bind, wp_modify, wp_except. exc. Qed.
End Cases.

Lemma ga_sound c tail s F L X R T : all_bytes (c_data c ++ tail) ->
  wp (ga c tail) (ga_post c s F) s (mkE F L X R T []).
Proof.
  intros Hb. unfold piv_general_authenticate.
  apply wp_bind, wp_guard; intros G1; [|split; [discriminate|right; repeat split; discriminate]].
  apply wp_bind, wp_need_any; [intros b Hb0|intros; exact I].
  apply wp_bind, wp_guard; intros G2; [|split; [discriminate|right; repeat split; discriminate]].
  destruct (get_key_path (c_p2 c)) as [p|] eqn:Hp; [|apply wp_except; split; [discriminate|right; repeat split; discriminate]].
  apply wp_bind, wp_guard; intros G3; [|split; [discriminate|right; repeat split; discriminate]].
  apply wp_bind, wp_got. unfold ck_read_key_metadata. apply wp_bind, wp_read_attr. intros X' r _ _. apply wp_ret.
  destruct r as [a|]; cbn [option_map]; [|intros _; right; repeat split].
  apply wp_bind, wp_guard; intros G4; [|split; [discriminate|right; repeat split; discriminate]].
  apply wp_bind, wp_get, wp_bind, wp_guard; intros G5; [|split; [discriminate|right; repeat split; discriminate]].
  apply wp_bind, wp_lift.
  assert (H0 : rd (c_data c) 0 = Some 0x7C).
  { assert (b = 0x7C) by lia. subst b. unfold c_lc in G1. destruct (c_data c); [discriminate|exact Hb0]. }
  destruct (C35_template (c_data c) tail Hb H0) as (_ & _ & HT & _). unfold c_lc in *.
  destruct (ga_template (c_data c ++ tail) (zlen (c_data c))) as [t|w| |] eqn:Eg.
  2: { apply ga_template_exc in Eg. destruct Eg as [-> | ->]; (split; [discriminate|right; repeat split; discriminate]). }
  2: { intros _; right; repeat split. }
  2: exact I.
  destruct (HT t eq_refl) as (l & Hl & Hd).
  apply wp_bind, wp_touch. intros T'.
  split; [|split]; [| |split; [discriminate|right; repeat split; discriminate]].
  all: repeat match goal with |- wp (if ?b then _ else _) _ _ _ => destruct b eqn:? end.
  all: first [ eapply ga_1; (eassumption || reflexivity) | eapply ga_2; (eassumption || reflexivity) | eapply ga_3; (eassumption || reflexivity || lia)
    | eapply ga_4; (eassumption || reflexivity) | eapply ga_5; (eassumption || reflexivity) | eapply ga_6; (eassumption || reflexivity) | eapply ga_7; (eassumption || reflexivity) ].
Qed.
End Post.

(** ** Histories *)
Section Hist.
Variable K : crypto.

Lemma open_more tr a e : open_request tr a -> leaves_open e -> open_request (tr ++ [e]) a.
Proof.
  intros (tr1 & e1 & tr2 & -> & H1 & H2) H. exists tr1, e1, (tr2 ++ [e]). split; [rewrite <- !app_assoc; reflexivity|].
  split; [exact H1|]. apply Forall_app. auto.
Qed.
Lemma open_new tr a e : requests e a -> open_request (tr ++ [e]) a.
Proof. intros H. exists tr, e, []. auto. Qed.
Lemma auth_more tr e : authenticated K tr -> stays e -> authenticated K (tr ++ [e]).
Proof.
  intros (tr1 & e1 & tr2 & a & -> & H1 & H2 & H3) H. exists tr1, e1, (tr2 ++ [e]), a. split; [rewrite <- !app_assoc; reflexivity|].
  split; [exact H1|]. split; [exact H2|]. apply Forall_app. auto.
Qed.
Lemma auth_new tr e a : open_request tr a -> answers K e a -> authenticated K (tr ++ [e]).
Proof. intros H1 H2. exists tr, e, [], a. auto. Qed.

(** No GENERAL AUTHENTICATE with the management key failed for an internal error (a storage error, or one of the cipher). *)
Definition no_error (e : entry) : Prop :=
  match e with (_, Do x, Some r) => ~ (is_ga (x_apdu x) /\ c_p2 (x_apdu x) = 0x9B /\ r_sw r = 0x6900) | _ => True end.

Definition inv (tr : list entry) (s : piv) : Prop :=
  (v_admin s = true -> authenticated K tr) /\
  (v_state s = AUTH_STATE_EXTERNAL -> exists key ch, open_request tr (AskExternal key ch) /\ tdes_enc K key ch = Some (v_chal s)) /\
  (v_state s = AUTH_STATE_MUTUAL -> exists key wit, open_request tr (AskMutual key wit) /\ tdes_enc K key (v_chal s) = Some wit).

Lemma inv_same tr s s' e : inv tr s -> v_state s' = v_state s -> v_chal s' = v_chal s -> (v_admin s' = true -> v_admin s = true /\ stays e) -> leaves_open e ->
  inv (tr ++ [e]) s'.
Proof.
  intros (I1 & I2 & I3) E1 E2 E3 He. unfold inv. rewrite E1, E2. split; [|split].
  - intros A. destruct (E3 A). apply auth_more; auto.
  - intros V. destruct (I2 V) as (k & ch & O & Q). exists k, ch. split; [apply open_more; assumption|exact Q].
  - intros V. destruct (I3 V) as (k & ch & O & Q). exists k, ch. split; [apply open_more; assumption|exact Q].
Qed.
Lemma inv_none tr s s' e : inv tr s -> v_state s' = AUTH_STATE_NONE -> (v_admin s' = true -> v_admin s = true /\ stays e) -> inv (tr ++ [e]) s'.
Proof.
  intros (I1 & I2 & I3) E1 E3. unfold inv. rewrite E1. split; [|split; discriminate].
  intros A. destruct (E3 A). apply auth_more; auto.
Qed.

Lemma exec_wp d x (Q : option rapdu -> piv -> env -> Prop) :
  wp (piv_body K (x_nfc x) (x_t1 x) (x_t2 x) (x_apdu x) (x_tail x))
     (fun o s' e' => Q (match o with Ret w | Exc w => Some (mkR (e_out e') w) | Fail => Some (mkR (e_out e') SW_UNABLE_TO_PROCESS) | UB => None end) s' e')
     (d_ram d) (start (d_fs d) (x_flt x) (x_rnd x) (x_tch x)) ->
  let '(r, s', e') := exec K d x in Q r s' e'.
Proof.
  unfold exec, run_apdu, wp, start. cbn [e_fs e_log e_flt e_rnd e_tch].
  destruct (piv_body _ _ _ _ _ _ _ _) as [[[w|w| |] s'] e']; auto.
Qed.

Lemma fr_any {A} (I : piv -> Prop) (m : M piv A) s e : frame I (fun _ => True) m -> I s -> wp m (fun _ s' _ => I s') s e.
Proof.
  intros H Hs. eapply wp_mono; [apply H|].
  - split; [exact Hs|]. split; [exact Logic.I|]. induction (e_log e); constructor; auto.
  - intros o s' e' (H1 & _). exact H1.
Qed.
Lemma install_auth reset (s : piv) e :
  wp (piv_install reset) (fun _ s' _ => v_state s' = v_state s /\ v_chal s' = v_chal s /\ v_admin s' = false) s e.
Proof.
  apply (fr_any (fun x => v_state x = v_state s /\ v_chal x = v_chal s /\ v_admin x = false) (piv_install reset) (piv_poweroff s) e);
    [|repeat split].
  apply fr_install_tail; [apply anyfs| |]; intros; cbn; tauto.
Qed.
Lemma boot_inv tr F flt rnd : inv tr (d_ram (boot F flt rnd)).
Proof.
  unfold boot, installed. pose proof (install_auth false piv_boot (start F flt rnd [])) as H. unfold wp in H.
  destruct (piv_install _ _ _) as [[o s'] e']. cbn [d_ram]. destruct H as (H1 & H2 & H3).
  unfold inv. rewrite H1, H3. repeat split; discriminate.
Qed.

Lemma do_inv tr d x r d' : inv tr (d_ram d) -> step K d (Do x) = Some (Some r, d') -> no_error (d, Do x, Some r) ->
  all_bytes (c_data (x_apdu x) ++ x_tail x) -> inv (tr ++ [(d, Do x, Some r)]) (d_ram d').
Proof.
  intros Hi Hs Hn Hb. cbn [step] in Hs.
  pose proof (exec_wp d x (fun r' s' e' => forall r, r' = Some r -> no_error (d, Do x, Some r) -> inv (tr ++ [(d, Do x, Some r)]) s')) as HW.
  destruct (exec K d x) as [[[r'|] s'] e']; [|discriminate]. injection Hs as -> <-. cbn [d_ram].
  apply HW; clear HW; [|reflexivity|exact Hn]. clear Hn r s' e'.
  set (c := x_apdu x) in *. set (s := d_ram d) in *.
  destruct (Z.eq_dec (c_ins c) 0x87) as [E|N1]; [|destruct (Z.eq_dec (c_ins c) 0xA4) as [E|N2]; [|destruct (Z.eq_dec (c_ins c) 0xFB) as [E|N3]]].
  - (* GENERAL AUTHENTICATE *)
    unfold piv_body. rewrite E. apply wp_bind, wp_guard; intros G.
    2: { intros r Hr _. injection Hr as <-. eapply inv_same; [exact Hi|reflexivity|reflexivity| |].
         - intros A. split; [exact A|]. split; [|split].
           + unfold selects. fold c. rewrite E. intros [? _]; discriminate.
           + intros a (d0 & x0 & v & _ & W). destruct a; destruct W as (_ & _ & W); discriminate.
           + fold c. rewrite E. intros [? _]; discriminate.
         - split; [unfold selects; fold c; rewrite E; intros [? _]; discriminate|]. fold c. intros [[C _] _]. rewrite C in G. discriminate. }
    assert (Hcla : c_cla c = 0) by lia.
    assert (Hga : is_ga c) by (split; assumption).
    cbn [Z.eqb Pos.eqb]. apply wp_bind, wp_modify, wp_bind, wp_modify.
    eapply wp_mono; [apply ga_sound, Hb|]. intros o s' e' H r Hr Hn.
    assert (Hsel : ~ selects (d, Do x, Some r)) by (unfold selects; fold c; rewrite E; intros [? _]; discriminate).
    assert (Hrst : ~ (c_ins c = 0xFB /\ r_sw r = 0x9000)) by (rewrite E; intros [? _]; discriminate).
    assert (Hstay : (forall a, ~ requests (d, Do x, Some r) a) -> stays (d, Do x, Some r)) by (intros H'; split; [exact Hsel|split; [exact H'|exact Hrst]]).
    assert (Hnr : no_request (r_data r) \/ r_sw r <> 0x9000 -> forall a, ~ requests (d, Do x, Some r) a).
    { intros H' a (d0 & x0 & v & _ & W). destruct H' as [H'|H'].
      - destruct (H' v) as [H1 H2]. destruct a; destruct W as (_ & _ & W); injection W as _ _ W; rewrite W in *; cbn in *; congruence.
      - destruct a; destruct W as (_ & _ & W); injection W as _ _ W; rewrite W in *; cbn in *; congruence. }
    destruct o as [sw|sw| |]; [| | |discriminate].
    + injection Hr as <-. destruct H as [-> H]. cbn [r_data r_sw] in *.
      destruct H as [[[H1 H2] H3]|[(v & H1 & H2 & H3 & H4)|[(v & H1 & H2 & H3 & H4)|[(l & H1 & H2 & H3 & H4 & H5)|(l & H1 & H2 & H3 & H4 & H5)]]]].
      * eapply inv_none; [exact Hi|exact H1|]. intros A. split; [apply H2, A|]. apply Hstay, Hnr. auto.
      * split; [rewrite H2; discriminate|]. split; [|rewrite H1; discriminate]. intros _. exists (mgmt_key d), v. split; [|exact H4].
        apply open_new. exists d, x, v. split; [exact Hga|]. split; [reflexivity|]. split; [reflexivity|]. rewrite H3. reflexivity.
      * split; [rewrite H2; discriminate|]. split; [rewrite H1; discriminate|]. intros _. exists (mgmt_key d), v. split; [|exact H4].
        apply open_new. exists d, x, v. split; [exact Hga|]. split; [reflexivity|]. split; [reflexivity|]. rewrite H3. reflexivity.
      * destruct Hi as (_ & I2 & _). destruct (I2 H2) as (key & ch & O & Q). unfold inv. rewrite H4. split; [|split; discriminate].
        intros _. eapply auth_new; [exact O|]. exists d, x, (mkR (e_out e') 0x9000), l. split; [reflexivity|]. split; [reflexivity|]. split; [exact Hga|]. split; [exact H1|].
        exists (v_chal s). split; [exact H3|exact Q].
      * destruct Hi as (_ & _ & I3). destruct (I3 H2) as (key & wit & O & Q). unfold inv. rewrite H4. split; [|split; discriminate].
        intros _. eapply auth_new; [exact O|]. exists d, x, (mkR (e_out e') 0x9000), l. split; [reflexivity|]. split; [reflexivity|]. split; [exact Hga|]. split; [exact H1|].
        exists (v_chal s). split; [exact H3|exact Q].
    + injection Hr as <-. destruct H as [Hsw [[H1 H2]|[(H1 & H2 & H3) H4]]]; cbn [r_data r_sw] in *.
      * eapply inv_none; [exact Hi|exact H1|]. intros A. split; [apply H2, A|]. apply Hstay, Hnr. auto.
      * eapply inv_same; [exact Hi|exact H1|exact H2| |].
        -- intros A. split; [rewrite <- A; symmetry; exact H3|]. apply Hstay, Hnr. auto.
        -- split; [exact Hsel|]. cbn [r_sw]. intros [_ [?|?]]; congruence.
    + injection Hr as <-. destruct (Z.eq_dec (c_p2 c) 0x9B) as [P|P]; [exfalso; apply Hn; split; [exact Hga|split; [exact P|reflexivity]]|].
      destruct (H P) as [[H1 H2]|(H1 & H2 & H3)].
      * eapply inv_none; [exact Hi|exact H1|]. intros A. split; [apply H2, A|]. apply Hstay, Hnr. right. discriminate.
      * eapply inv_same; [exact Hi|exact H1|exact H2| |].
        -- intros A. split; [rewrite <- A; symmetry; exact H3|]. apply Hstay, Hnr. right. discriminate.
        -- split; [exact Hsel|]. intros [_ [?|?]]; discriminate.
  - (* SELECT *)
    assert (Hstay : forall r, r_sw r <> 0x9000 -> stays (d, Do x, Some r) /\ leaves_open (d, Do x, Some r)).
    { intros r Hr. assert (~ selects (d, Do x, Some r)) by (intros [_ ?]; contradiction). split.
      - split; [assumption|]. split; [|fold c; rewrite E; intros [? _]; discriminate].
        intros a (d0 & x0 & v & _ & W). destruct a; destruct W as (_ & _ & W); injection W as _ _ W; rewrite W in *; cbn in *; congruence.
      - split; [assumption|]. intros [[_ W] _]. fold c in W. rewrite E in W. discriminate. }
    unfold piv_body. rewrite E. apply wp_bind, wp_guard; intros G.
    2: { intros r Hr _. injection Hr as <-. destruct (Hstay (mkR [] 0x6E00)) as [S1 S2]; [discriminate|].
         eapply inv_same; [exact Hi|reflexivity|reflexivity| |exact S2]. intros A. split; [exact A|exact S1]. }
    cbn [Z.eqb Pos.eqb]. apply wp_bind, wp_modify, wp_bind, wp_modify. unfold piv_select. apply wp_bind, wp_guard; intros G2.
    2: { intros r Hr _. injection Hr as <-. destruct (Hstay (mkR [] SW_WRONG_P1P2)) as [S1 S2]; [discriminate|].
         eapply inv_same; [exact Hi|reflexivity|reflexivity| |exact S2]. intros A. split; [exact A|exact S1]. }
    apply wp_bind, wp_modify, wp_bind, wp_set_out, wp_ret. intros r Hr _. eapply inv_none; [exact Hi|reflexivity|discriminate].
  - (* RESET *)
    assert (Hop : forall r, leaves_open (d, Do x, Some r)).
    { intros r. split; [unfold selects; fold c; rewrite E; intros [? _]; discriminate|]. intros [[_ W] _]. fold c in W. rewrite E in W. discriminate. }
    assert (Hstay : forall r, r_sw r <> 0x9000 -> stays (d, Do x, Some r)).
    { intros r Hr. split; [unfold selects; fold c; rewrite E; intros [? _]; discriminate|]. split; [|intros [_ ?]; contradiction].
      intros a (d0 & x0 & v & W & W'). assert (x0 = x) as -> by (destruct a; destruct W' as (_ & _ & W'); injection W' as _ W' _; auto).
      destruct W as [_ W]. fold c in W. rewrite E in W. discriminate. }
    unfold piv_body. rewrite E. apply wp_bind, wp_guard; intros G.
    2: { intros r Hr _. injection Hr as <-.
         eapply inv_same; [exact Hi|reflexivity|reflexivity| |apply Hop]. intros A. split; [exact A|apply Hstay; discriminate]. }
    cbn [Z.eqb Pos.eqb]. apply wp_bind, wp_modify, wp_bind, wp_modify. unfold piv_reset.
    apply wp_bind, wp_guard; intros G1.
    2: { intros r Hr _. injection Hr as <-.
         eapply inv_same; [exact Hi|reflexivity|reflexivity| |apply Hop]. intros A. split; [exact A|apply Hstay; discriminate]. }
    apply wp_bind, wp_guard; intros G2.
    2: { intros r Hr _. injection Hr as <-.
         eapply inv_same; [exact Hi|reflexivity|reflexivity| |apply Hop]. intros A. split; [exact A|apply Hstay; discriminate]. }
    assert (HR : forall p s1 e1 (Q : out Z -> piv -> env -> Prop), (forall z e2, Q (Ret z) s1 e2) -> wp (pin_get_retries p) Q s1 e1).
    { intros p s1 [] Q HQ. unfold pin_get_retries, pin_get_attr, pin_get_size. apply wp_bind, wp_get_file_size. intros X' r _ _.
      assert (wp (a <- read_attr (pin_path p) RETRY_ATTR ;; match a with Some v => ret (attr1 v) | None => ret PIN_IO_FAIL end) Q s1 (mkE e_fs e_log X' e_rnd e_tch e_out))
        by (apply wp_bind, wp_read_attr; intros X2 [r2|] _ _; apply wp_ret, HQ).
      destruct r as [[| |]|]; try assumption. apply wp_ret, HQ. }
    apply wp_bind, HR. intros z e2. apply wp_bind, wp_guard; intros G3.
    2: { intros r Hr _. injection Hr as <-.
         eapply inv_same; [exact Hi|reflexivity|reflexivity| |apply Hop]. intros A. split; [exact A|apply Hstay; discriminate]. }
    apply wp_bind, HR. intros z' e3. apply wp_bind, wp_guard; intros G4.
    2: { intros r Hr _. injection Hr as <-.
         eapply inv_same; [exact Hi|reflexivity|reflexivity| |apply Hop]. intros A. split; [exact A|apply Hstay; discriminate]. }
    apply wp_bind. unfold ignore, wp.
    match goal with |- context [piv_install true ?s2 ?e4] => pose proof (install_auth true s2 e4) as Hin end; unfold wp in Hin.
    destruct (piv_install true _ _) as [[[u|w| |] s'] e']; destruct Hin as (H1 & H2 & H3); cbn [ret].
    all: intros r Hr _; try discriminate Hr.
    all: eapply inv_same; [exact Hi|exact H1|exact H2| |apply Hop]; rewrite H3; discriminate.
  - (* all other commands *)
    eapply wp_mono.
    + apply (fr_any (auth_is (v_state s) (v_chal s) (v_admin s))); [apply fr_others; assumption|repeat split].
    + intros o s' e' (H1 & H2 & H3) r Hr _.
      assert (Hsel : ~ selects (d, Do x, Some r)) by (intros [W _]; contradiction).
      eapply inv_same; [exact Hi|exact H1|exact H2| |].
      * intros A. split; [rewrite <- A; symmetry; exact H3|]. split; [exact Hsel|]. split; [|intros [W _]; contradiction].
        intros a (d0 & x0 & v & W & W'). assert (x0 = x) as -> by (destruct a; destruct W' as (_ & _ & W'); injection W' as _ W' _; auto).
        destruct W as [_ W]. contradiction.
      * split; [exact Hsel|]. intros [[_ W] _]. contradiction.
Qed.
End Hist.

(** ** The theorem *)
Section Main.
Variable K : crypto.
Lemma hist_inv tr d : since_boot K tr d -> Forall no_error tr -> inv K tr (d_ram d).
Proof.
  intros (F0 & flt0 & rnd0 & H). remember (boot F0 flt0 rnd0) as d0 eqn:E0. induction H as [d0|d0 tr d v o d' H IH Hok Hst]; intros Hn.
  - subst. apply boot_inv.
  - apply Forall_app in Hn. destruct Hn as [Hn1 Hn2]. apply Forall_inv in Hn2. specialize (IH E0 Hn1). destruct v as [x|x n flt rnd| |flt rnd|flt rnd n flt' rnd'|F].
    + assert (exists r, o = Some r) as [r ->].
      { cbn [step] in Hst. destruct (exec K d x) as [[[r|] s'] e']; [|discriminate]. injection Hst as <- _. eauto. }
      eapply do_inv; eassumption.
    + cbn [step] in Hst. destruct (exec K d x) as [[r s'] e']. injection Hst as <- <-. apply boot_inv.
    + cbn [step] in Hst. injection Hst as <- <-. eapply inv_same; [exact IH|reflexivity|reflexivity|discriminate|].
      split; [exact (fun x => x)|exact I].
    + cbn [step] in Hst. unfold installed in Hst. pose proof (install_auth true (d_ram d) (start (d_fs d) flt rnd [])) as Hin. unfold wp in Hin.
      destruct (piv_install _ _ _) as [[u s'] e']. injection Hst as <- <-. destruct Hin as (H1 & H2 & H3). cbn [d_ram].
      eapply inv_same; [exact IH|exact H1|exact H2|rewrite H3; discriminate|]. split; [exact (fun x => x)|exact I].
    + cbn [step] in Hst. destruct (installed true (d_ram d) (d_fs d) flt rnd) as [[u s'] e']. injection Hst as <- <-. apply boot_inv.
    + cbn [step] in Hst. injection Hst as <- <-. cbn [d_ram].
      eapply inv_same; [exact IH|reflexivity|reflexivity| |split; [exact (fun x => x)|exact I]].
      intros A. split; [exact A|]. split; [exact (fun x => x)|]. split; [|exact I].
      intros a (d1 & x1 & w & _ & W). destruct a; destruct W as (_ & _ & W); discriminate.
Qed.
End Main.

(** The command stores something (for good, or at some moment: a power cut would leave it there) elsewhere than in the PIN and the PUK. *)
Definition changes (K : crypto) (d : dev) (x : cmd) : Prop :=
  let '(_, _, e) := exec K d x in
  exists G q, In G (e_fs e :: e_log e) /\ q <> "piv-pin" /\ q <> "piv-puk" /\ G q <> d_fs d q.

(** Full property: without [Forall no_error tr].  That is false, see [C29_management_refuted].
    RESET (FB) is the subject of C34. *)
Theorem C29_management_partial : forall K tr d x, since_boot K tr d -> Forall no_error tr ->
  c_ins (x_apdu x) <> 0xFB -> changes K d x -> authenticated K tr.
Proof.
  intros K tr d x Hb Hn Hi Hc. pose proof (hist_inv K tr d Hb Hn) as (HA & _).
  destruct (v_admin (d_ram d)) eqn:E; [apply HA, eq_refl|]. exfalso. unfold changes in Hc.
  destruct (Z.eq_dec (c_ins (x_apdu x)) 0x87) as [E1|N1].
  - assert (frame (fun _ => True) (rest_is (d_fs d)) (piv_body K (x_nfc x) (x_t1 x) (x_t2 x) (x_apdu x) (x_tail x))) as Hf.
    { unfold piv_body. rewrite E1. cbn [Z.eqb Pos.eqb]. apply fr_bind; [apply fr_guard|intros _].
      apply fr_bind; [apply fr_modify; auto|intros _]. apply fr_bind; [apply fr_modify; auto|intros _]. apply fr_ga. }
    pose proof (frame_apdu _ _ _ (d_ram d) (d_fs d) (x_flt x) (x_rnd x) (x_tch x) Hf I (fun q _ _ => eq_refl)) as Hr.
    unfold exec in Hc. destruct (run_apdu _ _ _) as [[r s'] e']. destruct Hr as (_ & R1 & R2).
    destruct Hc as (G & q & [HG|HG] & Q1 & Q2 & Q3); [subst G; apply Q3, R1; assumption|].
    rewrite Forall_forall in R2. apply Q3, (R2 G HG); assumption.
  - pose proof (frame_apdu _ _ _ (d_ram d) (d_fs d) (x_flt x) (x_rnd x) (x_tch x) (fr_rest K (x_nfc x) (x_t1 x) (x_t2 x) (d_fs d) (x_apdu x) (x_tail x) Hi N1) E (fun q _ _ => eq_refl)) as Hr.
    unfold exec in Hc. destruct (run_apdu _ _ _) as [[r s'] e']. destruct Hr as (_ & R1 & R2).
    destruct Hc as (G & q & [HG|HG] & Q1 & Q2 & Q3); [subst G; apply Q3, R1; assumption|].
    rewrite Forall_forall in R2. apply Q3, (R2 G HG); assumption.
Qed.
Print Assumptions C29_management_partial.

(** ** Examples *)
Definition plain (c : capdu) : cmd := mkCmd c [] false 1000 1000 [] (repeat 0xA5 8) [].
Definition with_faults (f : list fault) (c : capdu) : cmd := mkCmd c [] false 1000 1000 f (repeat 0xA5 8) [].
Fixpoint run_all (K : crypto) (d : dev) (l : list ev) : option (list entry * dev) :=
  match l with
  | [] => Some ([], d)
  | v :: l => match step K d v with
              | None => None
              | Some (o, d') => match run_all K d' l with None => None | Some (tr, d'') => Some ((d, v, o) :: tr, d'') end
              end
  end.
Lemma hist_app K d tr d1 tr' d2 : hist K d tr d1 -> hist K d1 tr' d2 -> hist K d (tr ++ tr') d2.
Proof. intros H1 H2. induction H2; [rewrite app_nil_r; exact H1|]. rewrite app_assoc. econstructor; eauto. Qed.
Lemma run_all_hist K l : forall d tr d', run_all K d l = Some (tr, d') ->
  Forall (fun e => ev_ok (fst (fst e)) (snd (fst e))) tr -> hist K d tr d'.
Proof.
  induction l as [|v l IH]; intros d tr d'; cbn [run_all].
  - intros H _. injection H as <- <-. constructor.
  - destruct (step K d v) as [[o d1]|] eqn:E; [|discriminate]. destruct (run_all K d1 l) as [[tr1 d2]|] eqn:E1; [|discriminate].
    intros H Hf. injection H as <- <-. inversion Hf; subst. change ((d, v, o) :: tr1) with ([(d, v, o)] ++ tr1).
    eapply hist_app; [|apply IH; [exact E1|assumption]]. change [(d, v, o)] with ([] ++ [(d, v, o)]). econstructor; [constructor|assumption|exact E].
Qed.
Definition simple (v : ev) : Prop :=
  match v with Do x | Cut x _ _ _ => all_bytes (c_data (x_apdu x) ++ x_tail x) | Other _ => False | _ => True end.
Lemma run_all_since K l F flt rnd tr d : Forall simple l -> run_all K (boot F flt rnd) l = Some (tr, d) -> since_boot K tr d.
Proof.
  intros Hl H. exists F, flt, rnd. apply (run_all_hist K l); [exact H|].
  revert tr H. generalize (boot F flt rnd). induction Hl as [|v l Hv Hl IH]; intros d0 tr; cbn [run_all].
  - intros H. injection H as <- <-. constructor.
  - destruct (step K d0 v) as [[o d1]|] eqn:E; [|discriminate]. destruct (run_all K d1 l) as [[tr1 d2]|] eqn:E1; [|discriminate].
    intros H. injection H as <- <-. constructor; [|eapply IH; eassumption]. cbn [fst snd]. destruct v; try exact Hv; try exact I. contradiction.
Qed.
(** what can be seen of a run *)
Definition sees {A} (r : option (list entry * dev)) (f : list entry -> dev -> A) : option A :=
  match r with Some (tr, d) => Some (f tr d) | None => None end.
Lemma sees_ran {A} r (f : list entry -> dev -> A) a : sees r f = Some a -> exists tr d, r = Some (tr, d) /\ f tr d = a.
Proof. destruct r as [[tr d]|]; [|discriminate]. intros H. injection H as H. eauto. Qed.

Definition ga_cmd (d : bytes) : capdu := mkC 0 0x87 0x03 0x9B d 256.
Definition put_data : capdu := mkC 0 0xDB 0x3F 0xFF [0x5C; 3; 0x5F; 0xC1; 0x05; 0x53; 1; 0x42] 256.
Definition change_seen (K : crypto) (q : path) (d : dev) (x : cmd) : option bytes * option bytes :=
  let '(_, _, e) := exec K d x in (fdata (e_fs e) q, fdata (d_fs d) q).
Lemma changed K q d x a b : change_seen K q d x = (a, b) -> a <> b -> q <> "piv-pin" -> q <> "piv-puk" -> changes K d x.
Proof.
  unfold change_seen, changes. destruct (exec K d x) as [[r s'] e]. intros H N Q1 Q2. injection H as H1 H2.
  exists (e_fs e), q. split; [left; reflexivity|]. split; [exact Q1|]. split; [exact Q2|]. intros C. apply N. rewrite <- H1, <- H2. unfold fdata. rewrite C. reflexivity.
Qed.
Ltac bytes_ok := repeat (apply Forall_cons; [unfold simple, plain, with_faults; cbn [x_apdu x_tail c_data ga_cmd put_data app repeat];
  repeat (apply Forall_cons; [cbv; intuition discriminate|]); apply Forall_nil|]); apply Forall_nil.

(** The host authenticates externally, then stores an object; and this is a change. *)
Definition ex_external : list ev :=
  [Do (plain (mkC 0 0xA4 4 0 [] 256)); Do (plain (ga_cmd [0x7C; 2; 0x81; 0])); Do (plain (ga_cmd ([0x7C; 10; 0x82; 8] ++ repeat 0xA4 8)))].
Example C29_ex : exists tr d, since_boot toy tr d /\ Forall no_error tr /\ changes toy d (plain put_data) /\
  map (fun e => option_map r_sw (snd e)) tr = [Some 0x9000; Some 0x9000; Some 0x9000].
Proof.
  destruct (sees_ran (run_all toy (boot fs_empty [] []) ex_external)
    (fun tr d => (map (fun e => option_map r_sw (snd e)) tr, change_seen toy "piv-pauc" d (plain put_data)))
    ([Some 0x9000; Some 0x9000; Some 0x9000], (Some [0x53; 1; 0x42], Some []))) as (tr & d & E & H); [vm_compute; reflexivity|].
  injection H as H1 H2. exists tr, d. split; [eapply run_all_since; [|exact E]; bytes_ok|]. split; [|split; [|exact H1]].
  - clear - H1. destruct tr as [|[[d1 v1] [r1|]] [|[[d2 v2] [r2|]] [|[[d3 v3] [r3|]] [|]]]]; try discriminate. injection H1 as A B C.
    repeat constructor; cbn; [destruct v1|destruct v2|destruct v3]; try exact I; intros (_ & _ & W); congruence.
  - eapply changed; [exact H2|discriminate|discriminate|discriminate].
Qed.

(** A storage error while the card answers a request for a challenge leaves the request open with an expected answer of zeros:
    a host that knows no key is then let in. *)
Definition ex_bypass : list ev :=
  [Do (with_faults [FNone; FNone; FEarly] (ga_cmd [0x7C; 2; 0x81; 0])); Do (plain (ga_cmd ([0x7C; 10; 0x82; 8] ++ zeros 8)))].
Theorem C29_management_refuted : exists tr d x, since_boot toy tr d /\ c_ins (x_apdu x) <> 0xFB /\ changes toy d x /\ ~ authenticated toy tr.
Proof.
  destruct (sees_ran (run_all toy (boot fs_empty [] []) ex_bypass)
    (fun tr d => (map (fun e => option_map r_data (snd e)) tr, map (fun e => option_map r_sw (snd e)) tr, change_seen toy "piv-pauc" d (plain put_data)))
    ([Some ([0x7C; 10; 0x81; 8] ++ repeat 0xA5 8); Some []], [Some 0x6900; Some 0x9000], (Some [0x53; 1; 0x42], Some []))) as (tr & d & E & H); [vm_compute; reflexivity|].
  injection H as H0 H1 H2. exists tr, d, (plain put_data). split; [eapply run_all_since; [|exact E]; bytes_ok|]. split; [discriminate|].
  split; [eapply changed; [exact H2|discriminate|discriminate|discriminate]|].
  intros (tr1 & e & tr2 & a & Htr & (tr3 & e3 & tr4 & Htr1 & Hreq & _) & _).
  assert (Hin : In e3 tr) by (rewrite Htr, Htr1; rewrite !in_app_iff; cbn; auto).
  assert (Hr : exists v w, snd e3 = Some (mkR v 0x9000) /\ v = 0x7C :: w).
  { destruct Hreq as (d0 & x0 & v & _ & W). destruct a; destruct W as (_ & _ & ->); cbn; eauto. }
  destruct Hr as (v & w & Hr & Hv). clear - H0 H1 Hin Hr Hv.
  destruct tr as [|[[d1 v1] [[]|]] [|[[d2 v2] [[]|]] [|]]]; try discriminate. cbn in H0, H1. injection H0 as A B. injection H1 as C D.
  destruct Hin as [<-|[<-|[]]]; cbn in Hr; injection Hr as R1 R2; congruence.
Qed.
Print Assumptions C29_management_refuted.
