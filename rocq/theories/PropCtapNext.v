(** C57: getNextAssertion gives the other credentials, one by one. *)
From Verif Require Import CtapSpec CtapFrame CtapRel CtapCred CtapToy PropCtapPin PropCtapToken PropCtapCred.
From Coq Require Import Sorted.
Open Scope string_scope. Open Scope list_scope. Open Scope Z_scope.

(** ** Specification *)
(** A run of getNextAssertion commands, with U2F commands between them, which do not disturb it *)
Definition calm (e : entry) : Prop := exists x, snd (fst e) = Do x /\ match x_op x with OCbor RNext | ORegister _ | OAuth _ _ => True | _ => False end.
(** The assertions that were given *)
Definition served (e : entry) : list cbor := match e with (_, Do _, Some (ACbor 0 (Some v))) => [v] | _ => [] end.
(** Each one is given within 30 s of the one before. *)
Fixpoint timely (t : Z) (tr : list entry) : Prop :=
  match tr with
  | [] => True
  | (_, Do x, Some (ACbor 0 (Some _))) :: r => u32 (x_t1 x - t) <= 30000 /\ timely (x_t2 x) r
  | _ :: r => timely t r
  end.
Section S.
Variable K : fcrypto.
(** The assertion [v] is with the credential in slot [j]. *)
Definition of_slot (F : fs) (q : gareq) (uv : bool) (j : Z) (v : cbor) : Prop :=
  exists dc pri, live F j dc /\ id_rp (dc_id dc) = ga_rphash q /\ genuine K F (dc_id dc) pri /\ assertion K q uv dc pri v.

(** ** Proof *)
Ltac skip := apply wp_skip; [exact (fun _ _ _ => Logic.I)|exact (fun _ _ => Logic.I)|exact (fun _ _ => Logic.I)|].
Definition open_ (d : dev) : Prop := c_last (d_ram d) = 2 \/ c_last (d_ram d) = 8.
Lemma next_case d x a s e : x_op x = OCbor RNext -> exec K d x = (Some a, s, e) -> (exists v, a = ACbor 0 (Some v) /\ open_ d) \/ (exists c, a = ACbor c None /\ c_last s = 255).
Proof.
  intros Hx E. unfold exec in E. rewrite Hx in E. unfold cbor_body, process_cbor in E.
  assert (W : wp (cbor_cmd K (x_nfc x) (x_t1 x) (x_t2 x) (x_junk x) RNext) (on_ret (fun w => open_ d /\ exists v, w = Some v)) (d_ram d) (start (d_fs d) (x_flt x) (x_rnd x) (x_tch x))).
  { unfold cbor_cmd, cp_observer. apply wp_bind, wp_modify, wp_bind. unfold ctap_get_next_assertion. apply wp_bind, wp_get, wp_bind. apply wp_guard; [intros C|exact (fun _ => Logic.I)].
    skip. intros _ s1 e1. skip. intros _ s2 e2. eapply wp_mono with (Q := fun o _ _ => True); [unfold wp; destruct (ga_rest K _ _ _ _) as [[? ?] ?]; exact Logic.I|]. intros [w|?| |] s3 e3 _; try exact Logic.I. apply wp_ret. split; [|eauto].
    change (c_last (set_tok _ _)) with (c_last (d_ram d)) in C. unfold open_, CTAP_GET_ASSERTION, CTAP_GET_NEXT_ASSERTION in *. lia. }
  unfold wp in W. destruct (cbor_cmd _ _ _ _ _ _ _ _) as [[[w|c| |] s1] e1]; try discriminate.
  - destruct W as (Ho & v & ->). destruct (_ <=? _); [|discriminate]. left. exists v. split; [congruence|exact Ho].
  - right. exists c. split; [congruence|]. assert (s = set_last CTAP_INVALID_CMD s1) as -> by congruence. reflexivity.
Qed.
Lemma u2f_case d x a s e : match x_op x with ORegister _ | OAuth _ _ => True | _ => False end -> exec K d x = (Some a, s, e) ->
  c_ga s = c_ga (d_ram d) /\ c_last s = c_last (d_ram d) /\ PS (d_fs d) (e_fs e) /\ exists r, a = AApdu r.
Proof.
  intros Hx E. pose (I := fun s => c_ga s = c_ga (d_ram d) /\ c_last s = c_last (d_ram d)).
  pose proof (exec_wp K d x (fun o s e => o = Some a -> c_ga s = c_ga (d_ram d) /\ c_last s = c_last (d_ram d) /\ PS (d_fs d) (e_fs e) /\ exists r, a = AApdu r)) as W. rewrite E in W.
  assert (Kb : keep I (PS (d_fs d)) (fun _ => True) (body K x)).
  { unfold body. destruct (x_op x); try destruct Hx; (apply kp_bind; [|intros _; apply kp_ret]); [apply kp_register|apply kp_auth, gk_count]. }
  apply W; [|reflexivity]. clear W E.
  assert (W : wp (body K x) (fun o s e => match o with Ret w | Exc w => Some (AApdu (mkR (e_out e) w)) = Some a -> c_ga s = c_ga (d_ram d) /\ c_last s = c_last (d_ram d) /\ PS (d_fs d) (e_fs e) /\ exists r, a = AApdu r
       | Fail => Some (AApdu (mkR (e_out e) 0x6900)) = Some a -> c_ga s = c_ga (d_ram d) /\ c_last s = c_last (d_ram d) /\ PS (d_fs d) (e_fs e) /\ exists r, a = AApdu r | UB => None = Some a -> c_ga s = c_ga (d_ram d) /\ c_last s = c_last (d_ram d) /\ PS (d_fs d) (e_fs e) /\ exists r, a = AApdu r end) (d_ram d) (start (d_fs d) (x_flt x) (x_rnd x) (x_tch x))).
  { eapply wp_mono; [apply Kb; split; [split; reflexivity|split; [apply PS_eq|apply Forall_forall; auto]]|]. intros o s1 e1 ((G1 & G2) & G3 & _).
    destruct o; intros Ea; try discriminate Ea; (split; [exact G1|split; [exact G2|split; [exact G3|eexists; injection Ea as <-; reflexivity]]]). }
  destruct (x_op x); try destruct Hx; exact W.
Qed.
Lemma assertion_sel q q' uv d pri v : sel q = sel q' -> assertion K q uv d pri v -> assertion K q' uv d pri v.
Proof. unfold sel. intros E (ad & sig & rest & kt & A1 & A2 & A3 & A4 & A5). injection E as E1 E2 E3. exists ad, sig, rest, kt. rewrite <- E1, <- E2, <- E3. auto. Qed.
Lemma desc_length n l : StronglySorted (fun a b => b < a) l -> (forall j, In j l -> 0 <= j < n) -> zlen l <= Z.max 0 n.
Proof.
  intros H. revert n. induction H as [|a l H IH Ha]; intros n Hn; [unfold zlen; cbn [length]; lia|]. rewrite zlen_cons. specialize (Hn a (or_introl eq_refl)) as Hb.
  specialize (IH a). rewrite Forall_forall in Ha. enough (zlen l <= Z.max 0 a) by lia. apply IH. intros j Hj. specialize (Ha j Hj). specialize (Hn j (or_intror Hj)). lia.
Qed.
Fixpoint last_t (t : Z) (tr : list entry) : Z := match tr with [] => t | (_, Do x, Some (ACbor 0 (Some _))) :: r => last_t (x_t2 x) r | _ :: r => last_t t r end.
Lemma last_app t tr x : last_t t (tr ++ [x]) = last_t (last_t t tr) [x].
Proof. revert t. induction tr as [|y tr IH]; intros t; [reflexivity|]. cbn [app last_t]. destruct y as [[dy vy] [[[|?|?] [?|]|?]|]]; destruct vy; rewrite IH; reflexivity. Qed.
Lemma timely_app t tr x : timely t tr -> timely (last_t t tr) [x] -> timely t (tr ++ [x]).
Proof. revert t. induction tr as [|y tr IH]; intros t H1 H2; [exact H2|]. cbn [app last_t timely] in *. destruct y as [[dy vy] [[[|?|?] [?|]|?]|]]; destruct vy; try (apply IH; assumption). destruct H1 as (H0 & H1). split; [exact H0|apply IH; assumption]. Qed.
Lemma firstn_nth (l : list Z) n : (n < length l)%nat -> firstn (S n) l = firstn n l ++ [nth n l 0].
Proof. revert n. induction l as [|a l IH]; intros n H; [cbn in H; lia|]. destruct n as [|n]; [reflexivity|]. cbn [firstn nth app length] in *. f_equal. apply IH. lia. Qed.

Section Run.
Variables (F : fs) (q : gareq) (uv : bool) (L : list Z) (v0 : cbor) (t0 : Z).
Hypothesis HL : eligible F (ga_rphash q) uv (slots_of F) L.
Hypothesis Hlen : 0 < zlen L < 256.
Hypothesis Hq : ga_allow q = [] /\ zlen (ga_rphash q) = 32.
Definition alive (m : nat) (t : Z) (d : dev) : Prop := GS L (zlen L) (Z.of_nat (S m)) uv q (d_ram d) /\ g_timer (c_ga (d_ram d)) = t /\ PS F (d_fs d).
Definition sofar (tr : list entry) (d : dev) : Prop :=
  let m := length (flat_map served tr) in
  (m < length L)%nat /\ Forall2 (of_slot F q uv) (firstn (S m) L) (v0 :: flat_map served tr) /\ timely t0 tr /\ (open_ d -> alive m (last_t t0 tr) d).
Lemma sofar_step d0 tr d1 : hist K d0 tr d1 -> Forall calm tr -> sofar [] d0 -> sofar tr d1.
Proof.
  intros H. induction H as [d0|d0 tr d v o d' H IH Hv Hs]; intros Hc H0; [exact H0|]. apply Forall_app in Hc. destruct Hc as (Hc & Hx). specialize (IH Hc H0). clear H0 Hc H. inversion Hx as [|? ? (x & Ev & Hx') _]; subst. cbn [snd fst] in Ev. subst v. clear Hx.
  cbn [step] in Hs. destruct (exec K d x) as [[[a|] s] e] eqn:E; [|discriminate]. injection Hs as <- <-. unfold sofar in *. rewrite flat_map_app. cbn [flat_map app]. rewrite app_nil_r. destruct IH as (I1 & I2 & I3 & I4).
  assert (U : match x_op x with ORegister _ | OAuth _ _ => True | _ => False end \/ x_op x = OCbor RNext) by (destruct (x_op x) as [[]| | | | | |]; auto; contradiction). destruct U as [U|U].
  - destruct (u2f_case d x a s e U E) as (G1 & G2 & G3 & r & ->). cbn [served]. rewrite app_nil_r. split; [exact I1|]. split; [exact I2|]. split; [apply timely_app; [exact I3|exact Logic.I]|]. rewrite last_app. cbn [last_t].
    unfold open_, alive, GS in *. cbn [d_ram d_fs]. rewrite G1, G2. intros Ho. destruct (I4 Ho) as (A1 & A2 & A3). split; [exact A1|]. split; [exact A2|]. destruct A3, G3. split; congruence.
  - destruct (next_case d x a s e U E) as [(v & -> & Ho)|(c & -> & Hl)].
    2: { replace (served (d, Do x, Some (ACbor c None))) with (@nil cbor) by (destruct c; reflexivity). rewrite app_nil_r. split; [exact I1|]. split; [exact I2|]. split; [apply timely_app; [exact I3|destruct c; exact Logic.I]|]. intros [Hn|Hn]; cbn [d_ram] in Hn; rewrite Hl in Hn; discriminate. }
    destruct (I4 Ho) as ((A1 & A2 & A3 & A4 & A5) & At & Ap). destruct Hq as (Hal & Hrp). set (m := length (flat_map served tr)) in *. cbn [served]. pose proof A5 as A6. unfold sel in A6. injection A6 as B1 B2 B3.
    destruct (gna_answer K d x v s e U) as (_ & C2 & C3 & dc & pri & g1 & C4 & C5 & C6 & C7 & C8 & C9 & C10); [rewrite B1; exact Hrp|exact E|].
    destruct C5 as (D1 & D2 & D3 & D4 & D5 & D6). rewrite B3, Hal in D6. destruct D6 as (D6 & D7 & D8 & D9). rewrite A3 in D7, D9. rewrite A3, A2 in C2. replace (Z.of_nat (S m) =? 0) with false in D9 by lia. destruct D9 as (D9 & D10). rewrite D9, A1 in D7. rewrite Nat2Z.id in D7.
    assert (Hm : (S m < length L)%nat) by (unfold zlen in C2; lia). rewrite app_length. cbn [length]. fold m. replace (m + 1)%nat with (S m) by lia. split; [exact Hm|].
    assert (Hin : In (nth (S m) L 0) L) by (apply nth_In; exact Hm). destruct HL as (HL1 & HL2). apply HL2 in Hin. destruct Hin as (_ & d2 & L1 & L2 & L3). pose proof Ap as Ap'. apply PS_sym in Ap'.
    assert (d2 = dc) as -> by (destruct L1 as (L1 & _); rewrite <- (fread_PS F (d_fs d)) in L1 by exact Ap; congruence).
    split; [|split; [|intros _]].
    + rewrite (firstn_nth L (S m)) by exact Hm. rewrite app_comm_cons. apply Forall2_app; [exact I2|]. constructor; [|constructor]. exists dc, pri. split; [exact L1|]. split; [exact L2|]. split; [eapply genuine_PS; [exact Ap'|exact D6]|]. rewrite A4 in C4. rewrite C4 in C6. eapply assertion_sel; eauto.
    + apply timely_app; [exact I3|]. cbn [timely]. rewrite At in C3. auto.
    + rewrite last_app. cbn [last_t]. destruct C7 as (E1 & E2 & E3 & E4 & E5). split; [|split; [exact C8|]].
      * unfold GS. cbn [d_ram]. rewrite E1, E2, E3, E4, E5, D9, D10, A3, C4, A4. split; [exact A1|]. split; [exact A2|]. split; [|auto]. unfold zlen, u8 in *. rewrite Z.mod_small; lia.
      * cbn [d_fs]. destruct Ap, C10. split; congruence.
Qed.
End Run.

(** getAssertion without a list that is followed by getNextAssertion commands: there is a list of the slots with a fitting credential, last one first; the number in the first answer is its length;
    the answers are with the credentials of these slots in this order, and there are not more of them than slots. *)
Theorem C57_enumeration_partial d x q v s e tr d2 : x_op x = OCbor (RGet (inr q)) -> ga_ok q -> ga_allow q = [] -> exec K d x = (Some (ACbor 0 (Some v)), s, e) -> slots_of (e_fs e) < 256 ->
  hist K (mkD s (e_fs e)) tr d2 -> Forall calm tr ->
  exists L, eligible (e_fs e) (ga_rphash q) (says_uv v) (slots_of (e_fs e)) L /\ (if 1 <? zlen L then counted_as v (zlen L) else bare v) /\
    let answers := v :: flat_map served tr in
    (length answers <= length L)%nat /\ Forall2 (of_slot (e_fs e) q (says_uv v)) (firstn (length answers) L) answers /\ timely (x_t2 x) tr.
Proof.
  intros Hx Hq Hal E Hn H Hc. destruct (ga_answer K d x q v s e Hx Hq E) as (dc & pri & g0 & g1 & H1 & H2 & H3 & H4 & H5 & H6 & H7 & H8). destruct H3 as (_ & _ & _ & _ & _ & H3). rewrite H1, H2, Hal in H3. cbn [Z.eqb] in H3. destruct H3 as (A & B & C & D1 & D3 & D4).
  set (L := g_list g1) in *. pose proof D1 as (D1a & D1b). assert (Hlen : 0 < zlen L < 256).
  { split; [destruct L; [rewrite D3 in D4; elim D4; reflexivity|rewrite zlen_cons; unfold zlen; lia]|]. pose proof (desc_length (slots_of (e_fs e)) L D1a (fun j Hj => proj1 (proj1 (D1b j) Hj))). lia. }
  assert (D5 : g_n g1 = zlen L) by (rewrite D3; unfold u8; apply Z.mod_small; lia). assert (Hrp : zlen (ga_rphash q) = 32) by (destruct Hq as (_ & (Hh & _)); exact Hh).
  assert (Hne : L <> []) by (intros En; rewrite En in Hlen; unfold zlen in Hlen; cbn in Hlen; lia). pose proof (StronglySorted_nth0 _ Hne) as Hi. apply D1b in Hi. destruct Hi as (_ & d' & L1 & L2 & L3). assert (d' = dc) as -> by (destruct L1 as (L1 & _); congruence).
  assert (S0 : sofar (e_fs e) q (says_uv v) L v (x_t2 x) [] (mkD s (e_fs e))).
  { unfold sofar. cbn [flat_map length timely last_t]. split; [unfold zlen in Hlen; lia|]. split; [|split; [exact Logic.I|intros _]].
    - rewrite (firstn_nth L 0) by (unfold zlen in Hlen; lia). cbn [firstn app]. constructor; [|constructor]. exists dc, pri. auto.
    - unfold alive. cbn [d_ram d_fs]. rewrite D5 in H5. split; [exact H5|]. split; [exact H6|apply PS_eq]. }
  destruct (sofar_step (e_fs e) q (says_uv v) L v (x_t2 x) D1 Hlen (conj Hal Hrp) _ _ _ H Hc S0) as (R1 & R2 & R3 & _). exists L. split; [exact D1|]. specialize (H8 Hal). rewrite D5 in H8. split; [exact H8|]. cbn [length]. split; [lia|]. split; [exact R2|exact R3].
Qed.
(** Any other message, and any that fails, ends it; so do resetting the applet and power loss. *)
Definition ends (e : entry) : Prop :=
  match e with
  | (_, Do x, o) => match x_op x with
      | OCbor (RGet _) | OCbor RNext => forall v, o <> Some (ACbor 0 (Some v))
      | OCbor _ | OReset => True
      | _ => False end
  | (_, Cut _ _ _ _, _) => True
  | _ => False
  end.
Lemma install_last b s e : wp (ctap_install K b) (fun _ s' _ => c_last s' = 255) s e.
Proof.
  unfold ctap_install. apply wp_bind, wp_modify. apply wp_bind, wp_modify. set (s1 := set_last _ _). assert (H1 : c_last s1 = 255) by reflexivity. clearbody s1.
  match goal with |- wp ?m _ _ _ => assert (Km : keep (fun s => c_last s = 255) (fun _ => True) (fun _ => True) m) end.
  { unfold cp_initialize, cp_regenerate, cp_reset_token. repeat lazymatch goal with
    | |- keep _ _ _ (bind _ _) => apply kp_bind; [|intros ?]
    | |- keep _ _ _ (modify _) => apply kp_modify; intros ? H; exact H
    | |- keep _ _ _ (ret _) => apply kp_ret
    | |- keep _ _ _ (must _) => apply kp_must
    | |- keep _ _ _ (got _) => apply kp_got
    | |- keep _ _ _ (random_buffer _) => apply kp_random
    | |- keep _ _ _ (read_attr _ _) => apply kp_read_attr
    | |- keep _ _ _ (get_file_size _) => apply kp_size
    | |- keep _ _ _ (write_file _ _ _ _) => apply kp_write_file; [auto|intros ? ? ?; auto]
    | |- keep _ _ _ (write_attr _ _ _) => apply kp_write_attr; [auto|intros ? ? ?; auto]
    | |- keep _ _ _ (match ?x with _ => _ end) => destruct x
    end. }
  eapply wp_mono; [apply Km; split; [exact H1|split; [exact Logic.I|apply Forall_forall; auto]]|]. intros o s' e' (G & _). exact G.
Qed.
Lemma ends_closed d v o d' : step K d v = Some (o, d') -> ends (d, v, o) -> ~ open_ d'.
Proof.
  intros Hs He. destruct v as [x|x n flt rnd|F']; cbn [step] in Hs; [|clear He|destruct He].
  - destruct (exec K d x) as [[[a|] s] e] eqn:E; [|discriminate]. injection Hs as <- <-. unfold exec in E. cbn [ends] in He. destruct (x_op x) as [q| | | | | |] eqn:Hx; try destruct He.
    + unfold cbor_body, process_cbor in E. destruct (cbor_cmd _ _ _ _ _ _ _ _) as [[[w|c| |] s1] e1] eqn:Ec; try discriminate.
      * destruct (_ <=? _); [|discriminate]. assert (s = set_last (cmd_of q) s1) as -> by congruence. assert (a = ACbor 0 w) as -> by congruence. intros Ho. unfold open_ in Ho. cbn [d_ram] in Ho. change (c_last (set_last (cmd_of q) s1)) with (cmd_of q) in Ho.
        destruct q as [p|p| | |p| |p| |p| ]; try (destruct Ho as [Ho|Ho]; discriminate Ho); try discriminate Ec.
        -- destruct w as [w|]; [apply (He w); reflexivity|]. clear - Ec. unfold cbor_cmd, bind, ret in Ec. destruct (cp_observer _ _ _) as [[[?|?| |] ?] ?]; try discriminate. destruct (ctap_get_assertion _ _ _ _ _ _) as [[[?|?| |] ?] ?]; discriminate.
        -- destruct w as [w|]; [apply (He w); reflexivity|]. clear - Ec. unfold cbor_cmd, bind, ret in Ec. destruct (cp_observer _ _ _) as [[[?|?| |] ?] ?]; try discriminate. destruct (ctap_get_next_assertion _ _ _ _ _ _) as [[[?|?| |] ?] ?]; discriminate.
      * assert (s = set_last CTAP_INVALID_CMD s1) as -> by congruence. intros [Ho|Ho]; discriminate Ho.
    + unfold run_apdu, body in E. rewrite Hx in E. unfold bind, ret in E. pose proof (install_last true (d_ram d) (start (d_fs d) (x_flt x) (x_rnd x) (x_tch x))) as W. unfold wp, start in W. unfold start in E.
      destruct (ctap_install K true (d_ram d) _) as [[[u|w| |] s1] e1]; cbn in E; try discriminate; (assert (s = s1) as -> by congruence); intros [Ho|Ho]; cbn [d_ram] in Ho; rewrite W in Ho; discriminate.
  - destruct (exec K d x) as [[? ?] e]. injection Hs as <- <-. unfold boot. pose proof (install_last false ctap_boot (start (nth n (e_log e) (e_fs e)) flt rnd [])) as W. unfold wp in W.
    destruct (ctap_install K false ctap_boot _) as [[o s] e']. intros [Ho|Ho]; cbn [d_ram] in Ho; rewrite W in Ho; discriminate.
Qed.
Lemma closed_run d0 tr d : hist K d0 tr d -> Forall calm tr -> ~ open_ d0 -> flat_map served tr = [] /\ ~ open_ d.
Proof.
  intros H. induction H as [d0|d0 tr d v o d' H IH Hv Hs]; intros Hc H0; [auto|]. apply Forall_app in Hc. destruct Hc as (Hc & Hx). destruct (IH Hc H0) as (I1 & I2). inversion Hx as [|? ? (x & Ev & Hx') _]; subst. cbn [snd fst] in Ev. subst v.
  rewrite flat_map_app, I1. cbn [flat_map app]. rewrite app_nil_r. cbn [step] in Hs. destruct (exec K d x) as [[[a|] s] e] eqn:E; [|discriminate]. injection Hs as <- <-.
  assert (U : match x_op x with ORegister _ | OAuth _ _ => True | _ => False end \/ x_op x = OCbor RNext) by (destruct (x_op x) as [[]| | | | | |]; auto; contradiction). destruct U as [U|U].
  - destruct (u2f_case d x a s e U E) as (_ & G2 & _ & r & ->). split; [reflexivity|]. unfold open_ in *. cbn [d_ram]. rewrite G2. exact I2.
  - destruct (next_case d x a s e U E) as [(v & _ & Ho)|(c & -> & Hl)]; [contradiction|]. split; [destruct c; reflexivity|]. intros [Hn|Hn]; cbn [d_ram] in Hn; rewrite Hl in Hn; discriminate.
Qed.
Theorem C57_ends d0 en tr d : hist K d0 (en :: tr) d -> ends en -> Forall calm tr -> flat_map served tr = [].
Proof.
  intros H He Hc. change (en :: tr) with ([en] ++ tr) in H. apply hist_app in H. destruct H as (d1 & H1 & H2). apply hist_one in H1. destruct H1 as (v & o & -> & _ & Hs). apply (closed_run d1 tr d H2 Hc). eapply ends_closed; eauto.
Qed.
End S.
(** Three credentials of the RP, one of another one.  The third getNextAssertion finds no more. *)
Definition case57 : list ev := [do_at 20000 (OKey (repeat 6 32)); do_at 20001 (OCbor (RMake (inr (mc_of 7 1 1 None)))); do_at 20002 (OCbor (RMake (inr (mc_of 7 2 1 None)))); do_at 20003 (OCbor (RMake (inr (mc_of 8 2 1 None)))); do_at 20004 (OCbor (RMake (inr (mc_of 7 3 1 None)))); do_at 20005 (OCbor (RGet (inr (ga_of 7 [] None)))); do_at 30000 (OCbor RNext); do_at 60000 (OCbor RNext); do_at 60001 (OCbor RNext)].
Definition cred_id (e : entry) : list bytes := match snd e with Some (ACbor 0 (Some (CMap ((_, CMap ((_, CBytes i) :: _)) :: _)))) => [i] | _ => [] end.
Definition count_of (e : entry) : Z := match snd e with Some (ACbor 0 (Some (CMap l))) => fold_left (fun a p => match p with (CInt 5, CInt n) => n | _ => a end) l 0 | _ => 0 end.
Definition test57 (tr : list entry) (d : dev) : bool :=
  let m := flat_map made tr in beqb (map code_of tr) [-1; 0; 0; 0; 0; 0; 0; 0; 48] && beqb (map count_of (skipn 5 tr)) [3; 0; 0; 0] && same_ids (flat_map cred_id tr) [nth 3 m []; nth 1 m []; nth 0 m []] && (length m =? 4)%nat && (slots_of (d_fs d) =? 4).
Example C57_case : exists tr d, hist toyf fresh_dev tr d /\ test57 tr d = true /\ map (fun e => snd (fst e)) tr = case57.
Proof. apply play_case. vm_compute. reflexivity. Qed.
(** Too late *)
Definition case57late : list ev := firstn 6 case57 ++ [do_at 50006 (OCbor RNext)].
Definition case57other : list ev := firstn 6 case57 ++ [do_at 20006 (OCbor RInfo); do_at 20007 (OCbor RNext)].
Example C57_case_late : exists tr d, hist toyf fresh_dev tr d /\ (last_code tr =? 48) = true /\ map (fun e => snd (fst e)) tr = case57late.
Proof. apply (play_case toyf fresh_dev case57late (fun tr _ => last_code tr =? 48)). vm_compute. reflexivity. Qed.
Example C57_case_other : exists tr d, hist toyf fresh_dev tr d /\ (last_code tr =? 48) = true /\ map (fun e => snd (fst e)) tr = case57other.
Proof. apply (play_case toyf fresh_dev case57other (fun tr _ => last_code tr =? 48)). vm_compute. reflexivity. Qed.
Print Assumptions C57_enumeration_partial. Print Assumptions C57_ends.
