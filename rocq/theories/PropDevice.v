(** C27, C28, C74: touches are consumed once, waits end as documented, strong presence needs five spaced touches,
    and the keyboard only gets touches no operation waits for. *)
From Verif Require Import Device.
Open Scope list_scope. Open Scope Z_scope.

(** ** Specification: histories of the device, and what they say *)
(** A history since power-on: every event with what the firmware did. *)
Inductive hist : st -> list (ev * out) -> st -> Prop :=
| h_nil s : hist s [] s
| h_snoc s tr s1 e o s2 : hist s tr s1 -> step s1 e = Some (o, s2) -> hist s (tr ++ [(e, o)]) s2.
Definition reach (tr : list (ev * out)) (s : st) : Prop := exists t0 nfc, 0 <= t0 /\ hist (device_init t0 nfc, []) tr s.

(** An event that uses up a touch: a wait that succeeds, a touch counted by the strong test, a touch that goes to the keyboard *)
Definition uses (x : ev * out) : bool := match snd x with Ret r => r =? UP_OK | Took _ => true | _ => false end.
(** Has the sensor reported a touch since the last use?  A short one? *)
Fixpoint touched (short : bool) (acc : bool) (tr : list (ev * out)) : bool :=
  match tr with
  | [] => acc
  | x :: tr => touched short (match fst x with PTouch v => acc || (if short then v =? 1 else negb (v =? 0)) | _ => acc && negb (uses x) end) tr
  end.
Definition fresh_touch tr := touched false false tr.
Definition fresh_short tr := touched true false tr.
(** Number of touches reported and used *)
Definition reported (tr : list (ev * out)) : Z := zlen (filter (fun x => match fst x with PTouch v => negb (v =? 0) | _ => false end) tr).
Definition used (tr : list (ev * out)) : Z := zlen (filter uses tr).

(** The wait in progress, if any: time passed since it was accepted *)
Fixpoint waiting (acc : option Z) (tr : list (ev * out)) : option Z :=
  match tr with
  | [] => acc
  | (e, o) :: tr =>
    waiting (match e, o with
             | Call _, Nothing => Some 0
             | PTick ms, _ => match acc with Some t => Some (t + ms) | None => None end
             | Go _, Ret _ => None
             | _, _ => acc
             end) tr
  end.
(** Since the last call of the strong test: time passed, and the times at which it counted a touch (latest first) *)
Fixpoint testing (acc : Z * list Z) (tr : list (ev * out)) : Z * list Z :=
  match tr with
  | [] => acc
  | (e, o) :: tr =>
    testing (match e, o with
             | CallStrong, _ => (0, [])
             | PTick ms, _ => (fst acc + ms, snd acc)
             | Go _, Took _ => (fst acc, fst acc :: snd acc)
             | _, _ => acc
             end) tr
  end.
(** Times in descending order, each at least 2 s after the one before *)
Fixpoint spaced (l : list Z) : Prop :=
  match l with [] => True | a :: r => match r with [] => True | b :: _ => b + 2000 <= a /\ spaced r end end.
Inductive sublist {A} : list A -> list A -> Prop :=
| sl_nil : sublist [] []
| sl_skip x l m : sublist l m -> sublist l (x :: m)
| sl_take x l m : sublist l m -> sublist (x :: l) (x :: m).

(** ** Proofs *)
Lemma touched_app s a tr tr' : touched s a (tr ++ tr') = touched s (touched s a tr) tr'.
Proof. revert a. induction tr as [|x tr IH]; intros a; [reflexivity|]. cbn [app touched]. apply IH. Qed.
Lemma waiting_app a tr tr' : waiting a (tr ++ tr') = waiting (waiting a tr) tr'.
Proof. revert a. induction tr as [|[e o] tr IH]; intros a; [reflexivity|]. cbn [app waiting]. apply IH. Qed.
Lemma testing_app a tr tr' : testing a (tr ++ tr') = testing (testing a tr) tr'.
Proof. revert a. induction tr as [|[e o] tr IH]; intros a; [reflexivity|]. cbn [app testing]. apply IH. Qed.

Lemma u32_sub a b : u32 (u32 a - b) = u32 (a - b).
Proof. unfold u32. apply Zminus_mod_idemp_l. Qed.
Lemma u32_sub2 a b : u32 (a - u32 b) = u32 (a - b).
Proof. unfold u32. apply Zminus_mod_idemp_r. Qed.
Lemma u32_le a : 0 <= a -> u32 a <= a.
Proof. intros. unfold u32. apply Z.mod_le; lia. Qed.

(** The invariant ties the stack to the history.  Only the top frame runs; frames below are waits inside their nested loops. *)
Definition frame_ok (v : dv) (sh : bool) (any : bool) (w : option Z) (t : Z * list Z) (f : frame) : Prop :=
  match f with
  | Wait entry start last pc =>
      (exists d, w = Some d /\ 0 <= d /\ u32 (v_time v - d) = start) /\ (pc = W95 -> any = true) /\ v_wait v <> WAIT_NONE
  | Strong i begin up pc =>
      0 <= i < 5 /\ (pc = S118 -> sh = true) /\
      exists b ts, u32 (v_time v - (fst t - b)) = begin /\ 0 <= b <= fst t /\ sublist ts (snd t) /\ spaced ts /\ zlen ts = i + (if up then 1 else 0) /\
        match ts with [] => True | x :: _ => if up then x <= b else x + 2000 <= b end /\ 2000 * i <= b
  end.
Definition below_ok (f : frame) : Prop := match f with Wait _ _ _ W75 => True | _ => False end.
Definition is_wait (f : frame) : bool := match f with Wait _ _ _ _ => true | _ => false end.
Definition inv (tr : list (ev * out)) (s : st) : Prop :=
  let '(v, k) := s in
  (v_touch v <> 0 -> fresh_touch tr = true) /\ (v_touch v = 1 -> fresh_short tr = true) /\
  (v_wait v = WAIT_NONE <-> existsb is_wait k = false) /\
  (existsb is_wait k = false -> waiting None tr = None) /\
  zlen (filter is_wait k) <= 1 /\
  0 <= fst (testing (0, []) tr) /\
  Forall below_ok (tl k) /\ Forall (frame_ok v (fresh_short tr) (fresh_touch tr) (waiting None tr) (testing (0, []) tr)) k.

Lemma frame_keep v v' (sh sh' any any' : bool) w t f : v_time v' = v_time v -> v_wait v' = v_wait v -> (sh = true -> sh' = true) -> (any = true -> any' = true) ->
  frame_ok v sh any w t f -> frame_ok v' sh' any' w t f.
Proof.
  intros Ht Hw Hs Ha. destruct f as [en s0 l pc|i b up pc]; cbn [frame_ok]; rewrite Ht, ?Hw; [tauto|]. intros (H1 & H2 & H3). split; [exact H1|]. split; [auto|exact H3].
Qed.
Lemma frame_below v v' sh sh' any any' w t t' f : v_time v' = v_time v -> v_wait v' = v_wait v -> below_ok f ->
  frame_ok v sh any w t f -> frame_ok v' sh' any' w t' f.
Proof.
  intros Ht Hw. destruct f as [en s0 l [| | |]|i b up pc]; cbn [frame_ok below_ok]; try tauto. rewrite Ht, Hw. intros _ (H1 & _ & H3). split; [exact H1|]. split; [discriminate|exact H3].
Qed.
Lemma frame_time v ms sh any w t f : 0 <= ms -> frame_ok v sh any w t f ->
  frame_ok (with_time (v_time v + ms) v) sh any (match w with Some d => Some (d + ms) | None => None end) (fst t + ms, snd t) f.
Proof.
  intros Hm. destruct f as [en s0 l pc|i b up pc]; cbn [frame_ok v_time v_wait with_time fst snd].
  - intros ((d & -> & Hd & He) & H). split; [|exact H]. exists (d + ms). split; [reflexivity|]. split; [lia|]. rewrite <- He. f_equal. lia.
  - intros (H1 & H2 & b0 & ts & He & Hb & H). split; [exact H1|]. split; [exact H2|]. exists b0, ts. split; [rewrite <- He; f_equal; lia|]. split; [lia|exact H].
Qed.
Lemma keep_all v v' (sh sh' any any' : bool) w t k : v_time v' = v_time v -> v_wait v' = v_wait v -> (sh = true -> sh' = true) -> (any = true -> any' = true) ->
  Forall (frame_ok v sh any w t) k -> Forall (frame_ok v' sh' any' w t) k.
Proof. intros. eapply Forall_impl; [|eassumption]. intros f. apply frame_keep; assumption. Qed.
Lemma below_all v v' sh sh' any any' w t t' k : v_time v' = v_time v -> v_wait v' = v_wait v -> Forall below_ok k ->
  Forall (frame_ok v sh any w t) k -> Forall (frame_ok v' sh' any' w t') k.
Proof. intros Ht Hw Hb Hf. rewrite Forall_forall in *. intros f Hi. eapply frame_below; eauto. Qed.
Lemma may_call_below k : may_call k = true -> Forall below_ok (tl k) -> Forall below_ok k.
Proof. destruct k as [|[en s0 l [| | |]|] k]; try discriminate; cbn [tl]; intros _ H; [constructor|constructor; [exact I|exact H]]. Qed.
(** Below a pending call there is at most one wait; a wait is never nested in a wait. *)
Lemma no_wait_filter k : existsb is_wait k = false -> filter is_wait k = [].
Proof. induction k as [|f k IH]; [reflexivity|]. cbn [existsb filter]. destruct (is_wait f); [discriminate|exact IH]. Qed.
Lemma below_wait k : Forall below_ok k -> existsb is_wait k = false -> k = [].
Proof. destruct k as [|[|] k]; [reflexivity| |]; cbn; [discriminate|]. intros H. apply Forall_cons_iff in H as [[] _]. Qed.

Lemma blink_time sec i v : v_time (start_blinking_interval sec i v) = v_time v. Proof. unfold start_blinking_interval. destruct (is_blinking v); reflexivity. Qed.
Lemma blink_wait sec i v : v_wait (start_blinking_interval sec i v) = v_wait v. Proof. unfold start_blinking_interval. destruct (is_blinking v); reflexivity. Qed.
Lemma blink_touch sec i v : v_touch (start_blinking_interval sec i v) = v_touch v. Proof. unfold start_blinking_interval. destruct (is_blinking v); reflexivity. Qed.
Lemma blink0_time v : v_time (start_blinking 0 v) = v_time v. Proof. unfold start_blinking. destruct (v_nfc v); [reflexivity|apply blink_time]. Qed.
Lemma blink0_wait v : v_wait (start_blinking 0 v) = v_wait v. Proof. unfold start_blinking. destruct (v_nfc v); [reflexivity|apply blink_wait]. Qed.
Lemma blink0_touch v : v_touch (start_blinking 0 v) = v_touch v. Proof. unfold start_blinking. destruct (v_nfc v); [reflexivity|apply blink_touch]. Qed.
Lemma led_fields v : v_time (device_update_led v) = v_time v /\ v_wait (device_update_led v) = v_wait v /\ v_touch (device_update_led v) = v_touch v.
Proof. unfold device_update_led. destruct (v_bto v <? tick v); [auto|]. destruct (_ && _ && _); auto. Qed.

(** An event that leaves touch, wait state, time and stack alone and says nothing keeps the invariant. *)
Lemma inv_quiet tr v k v' e : inv tr (v, k) -> v_time v' = v_time v -> v_wait v' = v_wait v -> v_touch v' = v_touch v ->
  touched false (fresh_touch tr) [(e, Nothing)] = fresh_touch tr -> touched true (fresh_short tr) [(e, Nothing)] = fresh_short tr ->
  waiting (waiting None tr) [(e, Nothing)] = waiting None tr -> testing (testing (0, []) tr) [(e, Nothing)] = testing (0, []) tr ->
  inv (tr ++ [(e, Nothing)]) (v', k).
Proof.
  intros (H1 & H2 & H3 & H4 & H5 & H6 & H7 & H8) Ht Hw Hc E1 E2 E3 E4. unfold inv, fresh_touch, fresh_short in *. rewrite !touched_app, waiting_app, testing_app, E1, E2, E3, E4, Hc, Hw.
  repeat (split; [assumption|]). eapply keep_all; [exact Ht|exact Hw| | |exact H8]; auto.
Qed.

Lemma step_inv tr s e o s' : inv tr s -> step s e = Some (o, s') -> inv (tr ++ [(e, o)]) s'.
Proof.
  destruct s as [v k]. intros Hi Hs. pose proof Hi as (H1 & H2 & H3 & H4 & H5 & H6 & H7 & H8). destruct e as [x|ms| |nf|entry| | |sec i| |cancel]; cbn [step] in Hs.
  - (* touch *) injection Hs as <- <-. unfold inv, fresh_touch, fresh_short in *. rewrite !touched_app, waiting_app, testing_app. cbn [touched waiting testing fst v_touch v_wait with_touch].
    split; [intros; destruct (Z.eqb_spec x 0); [contradiction|apply orb_true_r]|]. split; [intros ->; apply orb_true_r|]. repeat (split; [assumption|]).
    eapply keep_all; [reflexivity|reflexivity| | |exact H8]; intros ->; reflexivity.
  - (* time *) destruct (Z.leb_spec 0 ms); [|discriminate]. injection Hs as <- <-. unfold inv, fresh_touch, fresh_short in *. rewrite !touched_app, waiting_app, testing_app. cbn [touched waiting testing fst snd uses negb v_touch v_wait with_time].
    rewrite !andb_true_r. repeat (split; [assumption|]). split; [intros E; rewrite (H4 E); reflexivity|]. split; [assumption|]. split; [lia|]. split; [assumption|].
    eapply Forall_impl; [|exact H8]. intros f. apply frame_time. assumption.
  - injection Hs as <- <-. destruct (led_fields v) as (E1 & E2 & E3). apply inv_quiet with (v := v); cbn [touched waiting testing fst snd uses negb]; rewrite ?andb_true_r; auto.
  - injection Hs as <- <-. apply inv_quiet with (v := v); cbn [touched waiting testing fst snd uses negb]; rewrite ?andb_true_r; auto.
  - (* wait *) destruct (may_call k) eqn:Em; cbn [negb] in Hs; [|discriminate]. pose proof (may_call_below k Em H7) as Hb. destruct (Z.eqb_spec (v_wait v) WAIT_NONE) as [E|E]; cbn [negb] in Hs.
    + assert (exists w, w <> WAIT_NONE /\ Some (Nothing, (with_wait w v, Wait entry (tick v) (tick v) W68 :: k)) = Some (o, s')) as (w & Hw & Hs').
      { destruct (entry =? ENTRY_CCID); [exists 2; split; [discriminate|exact Hs]|]. destruct (entry =? ENTRY_CTAPHID); [exists 3; split; [discriminate|exact Hs]|discriminate]. }
      injection Hs' as <- <-. unfold inv, fresh_touch, fresh_short in *. rewrite !touched_app, waiting_app, testing_app. cbn [touched waiting testing fst snd uses negb v_touch v_wait with_wait existsb filter is_wait orb tl].
      rewrite !andb_true_r. apply (proj1 H3) in E as E2. pose proof (below_wait k Hb E2) as ->. repeat (split; [assumption|]). split; [split; [intros; contradiction|discriminate]|]. split; [discriminate|].
      split; [cbn; lia|]. split; [exact H6|]. split; [constructor|]. constructor; [|constructor]. cbn [frame_ok v_time with_wait v_wait]. split; [|split; [discriminate|exact Hw]].
      exists 0. split; [reflexivity|]. split; [lia|]. unfold tick. f_equal. lia.
    + injection Hs as <- <-. unfold inv, fresh_touch, fresh_short in *. rewrite !touched_app, waiting_app, testing_app. cbn [touched waiting testing fst snd uses negb UP_TIMEOUT UP_OK Z.eqb]. rewrite !andb_true_r.
      repeat (split; [assumption|]). exact H8.
  - (* strong *) destruct (may_call k) eqn:Em; cbn [negb] in Hs; [|discriminate]. pose proof (may_call_below k Em H7) as Hb. unfold strong_round in Hs. change (if Z.odd 0 then 200 else 50) with 50 in Hs. injection Hs as <- <-.
    set (v' := start_blinking_interval 2 50 v) in *. assert (Et : v_time v' = v_time v) by apply blink_time. assert (Ew : v_wait v' = v_wait v) by apply blink_wait. assert (Ec : v_touch v' = v_touch v) by apply blink_touch. clearbody v'.
    unfold inv, fresh_touch, fresh_short in *. rewrite !touched_app, waiting_app, testing_app. cbn [touched waiting testing fst snd uses negb existsb filter is_wait orb tl]. rewrite !andb_true_r, Ec, Ew.
    repeat (split; [assumption|]). split; [lia|]. split; [exact Hb|]. constructor; [|eapply below_all; eassumption].
    cbn [frame_ok fst snd]. split; [lia|]. split; [discriminate|]. exists 0, []. split; [unfold tick; f_equal; lia|]. split; [lia|]. split; [constructor|]. split; [exact I|]. split; [reflexivity|]. split; [exact I|lia].
  - (* keyboard *) destruct k as [|]; [|discriminate]. destruct (device_allow_kbd_touch v) eqn:Ek; injection Hs as <- <-.
    + unfold inv, fresh_touch, fresh_short in *. rewrite !touched_app, waiting_app, testing_app. cbn [touched waiting testing fst snd v_touch with_touch v_wait].
      split; [intros Hx; exfalso; apply Hx; reflexivity|]. split; [intros Hx; discriminate Hx|]. repeat (split; [assumption|]). constructor.
    + apply inv_quiet with (v := v); cbn [touched waiting testing fst snd uses negb]; rewrite ?andb_true_r; auto.
  - destruct (may_call k); [|discriminate]. injection Hs as <- <-. apply inv_quiet with (v := v); cbn [touched waiting testing fst snd uses negb]; rewrite ?andb_true_r; auto using blink_time, blink_wait, blink_touch.
  - destruct (may_call k); [|discriminate]. injection Hs as <- <-. apply inv_quiet with (v := v); cbn [touched waiting testing fst snd uses negb]; rewrite ?andb_true_r; auto.
  - destruct k as [|[entry start last pc|i begin up pc] k]; [discriminate| |]; cbn [tl] in H7; apply Forall_cons_iff in H8 as [Hf H8].
    + cbn [existsb is_wait orb filter] in *. assert (existsb is_wait k = false) as Hk.
      { clear - H5. induction k as [|f k IH]; [reflexivity|]. cbn [existsb filter] in *. destruct (is_wait f); [rewrite !zlen_cons in H5; pose proof (zlen_nonneg (filter is_wait k)); lia|apply IH, H5]. }
      pose proof (below_wait k H7 Hk) as ->. destruct Hf as ((d & Hd1 & Hd2 & Hd3) & Hf2 & Hf3).
      assert (Hend : forall r v', v_touch v' = v_touch v \/ v_touch v' = 0 -> (r = UP_OK -> v_touch v' = 0) -> inv (tr ++ [(Go cancel, Ret r)]) (with_wait WAIT_NONE v', [])).
      { intros r v' Hc Hr. unfold inv, fresh_touch, fresh_short in *. rewrite !touched_app, waiting_app, testing_app. cbn [touched waiting testing fst snd uses v_touch v_wait with_wait existsb filter].
        split; [intros Hx|split; [intros Hx|]].
        - destruct (Z.eqb_spec r UP_OK) as [->|]; [rewrite (Hr eq_refl) in Hx; congruence|]. cbn [negb]. rewrite andb_true_r. apply H1. destruct Hc as [<-|Hc]; [exact Hx|congruence].
        - destruct (Z.eqb_spec r UP_OK) as [->|]; [rewrite (Hr eq_refl) in Hx; discriminate|]. cbn [negb]. rewrite andb_true_r. apply H2. destruct Hc as [<-|Hc]; [exact Hx|congruence].
        - split; [tauto|]. split; [reflexivity|]. split; [cbn; lia|]. split; [exact H6|]. split; constructor. }
      assert (Hgo : forall v' last' pc', v_time v' = v_time v -> v_wait v' = v_wait v -> v_touch v' = v_touch v -> (pc' = W95 -> fresh_touch tr = true) -> inv (tr ++ [(Go cancel, Nothing)]) (v', [Wait entry start last' pc'])).
      { intros v' last' pc' Et Ew Ec Hpc. unfold inv, fresh_touch, fresh_short in *. rewrite !touched_app, waiting_app, testing_app. cbn [touched waiting testing fst snd uses negb existsb filter is_wait orb tl]. rewrite !andb_true_r, Ec, Ew.
        repeat (split; [assumption|]). constructor; [|constructor]. cbn [frame_ok]. rewrite Et, Ew. split; [eauto|]. split; [exact Hpc|exact Hf3]. }
      destruct pc.
      * destruct (Z.eqb_spec (v_touch v) TOUCH_NO) as [E|E]; injection Hs as <- <-.
        -- apply Hgo; [apply blink0_time|apply blink0_wait|apply blink0_touch|discriminate].
        -- apply Hgo; auto.
      * destruct cancel; injection Hs as <- <-; [apply Hend; [auto|discriminate]|]. apply Hgo; auto. discriminate.
      * cbv zeta in Hs. destruct (30000 <=? u32 (tick v - start)); injection Hs as <- <-; [apply Hend; [auto|discriminate]|]. apply Hgo; auto. discriminate.
      * injection Hs as <- <-. apply Hend; [right; reflexivity|reflexivity].
    + cbn [existsb is_wait orb filter] in *. destruct Hf as (Hi5 & Hsh & b & ts & Hb1 & Hb2 & Hts & Hsp & Hlen & Hhd & Hbi).
      assert (Hgo : forall pc', (pc' = S118 -> fresh_short tr = true) -> inv (tr ++ [(Go cancel, Nothing)]) (v, Strong i begin up pc' :: k)).
      { intros pc' Hpc. unfold inv, fresh_touch, fresh_short in *. rewrite !touched_app, waiting_app, testing_app. cbn [touched waiting testing fst snd uses negb existsb filter is_wait orb tl]. rewrite !andb_true_r.
        repeat (split; [assumption|]). constructor; [|exact H8]. cbn [frame_ok]. split; [exact Hi5|]. split; [exact Hpc|]. exists b, ts. auto 10. }
      destruct pc.
      * destruct (Z.eqb_spec (v_touch v) TOUCH_SHORT) as [E|E]; injection Hs as <- <-; apply Hgo; auto. discriminate.
      * injection Hs as <- <-. unfold inv, fresh_touch, fresh_short in *. rewrite !touched_app, waiting_app, testing_app. cbn [touched waiting testing fst snd existsb filter is_wait orb tl v_touch v_wait stop_blinking with_blink with_touch].
        split; [intros Hx; exfalso; apply Hx; reflexivity|]. split; [intros Hx; discriminate Hx|]. split; [exact H3|]. split; [exact H4|]. split; [exact H5|]. split; [exact H6|]. split; [exact H7|]. constructor.
        -- cbn [frame_ok fst snd v_time stop_blinking with_blink with_touch]. split; [exact Hi5|]. split; [discriminate|]. set (el := fst (testing (0, []) tr)) in *. destruct up.
           ++ exists el, ts. split; [unfold tick, stop_blinking, with_blink, with_touch; cbn [v_time]; f_equal; lia|]. split; [lia|]. split; [constructor; exact Hts|]. split; [exact Hsp|]. split; [exact Hlen|]. split; [|lia]. destruct ts as [|y ts]; [exact I|lia].
           ++ exists el, (el :: ts). split; [unfold tick, stop_blinking, with_blink, with_touch; cbn [v_time]; f_equal; lia|]. split; [lia|]. split; [constructor; exact Hts|]. split; [|split; [rewrite zlen_cons; lia|split; lia]].
              cbn [spaced]. destruct ts as [|y ts]; [exact I|]. split; [lia|exact Hsp].
        -- eapply below_all; [reflexivity|reflexivity|exact H7|exact H8].
      * cbv zeta in Hs. destruct (Z.ltb_spec (u32 (tick v - begin)) 2000) as [El|El]; [injection Hs as <- <-; apply Hgo; discriminate|].
        assert (Hel : b + 2000 <= fst (testing (0, []) tr)).
        { unfold tick in El. rewrite u32_sub, <- Hb1, u32_sub2 in El. replace (v_time v - (v_time v - (fst (testing (0, []) tr) - b))) with (fst (testing (0, []) tr) - b) in El by lia. pose proof (u32_le (fst (testing (0, []) tr) - b)). lia. }
        assert (Hend : forall r, inv (tr ++ [(Go cancel, RetStrong r)]) (v, k)).
        { intros r. unfold inv, fresh_touch, fresh_short in *. rewrite !touched_app, waiting_app, testing_app. cbn [touched waiting testing fst snd uses negb]. rewrite !andb_true_r.
          repeat (split; [assumption|]). split; [|exact H8]. destruct k; [constructor|]. cbn [tl]. apply Forall_cons_iff in H7. apply H7. }
        destruct up; cbn [negb] in Hs; [|injection Hs as <- <-; apply Hend].
        destruct (Z.ltb_spec (i + 1) 5) as [E5|E5]; [|injection Hs as <- <-; apply Hend].
        unfold strong_round in Hs. injection Hs as <- <-. set (v' := start_blinking_interval 2 _ v) in *. assert (Et : v_time v' = v_time v) by apply blink_time. assert (Ew : v_wait v' = v_wait v) by apply blink_wait. assert (Ec : v_touch v' = v_touch v) by apply blink_touch. clearbody v'.
        unfold inv, fresh_touch, fresh_short in *. rewrite !touched_app, waiting_app, testing_app. cbn [touched waiting testing fst snd uses negb existsb filter is_wait orb tl]. rewrite !andb_true_r, Ec, Ew.
        repeat (split; [assumption|]). constructor; [|eapply below_all; eassumption]. cbn [frame_ok]. split; [lia|]. split; [discriminate|]. exists (fst (testing (0, []) tr)), ts.
        split; [unfold tick; f_equal; lia|]. split; [lia|]. split; [exact Hts|]. split; [exact Hsp|]. split; [lia|]. split; [|lia]. destruct ts as [|y ts]; [exact I|lia].
Qed.
Lemma reach_inv tr s : reach tr s -> inv tr s.
Proof.
  intros (t0 & nf & H0 & H). remember (device_init t0 nf, []) as s0 eqn:E. induction H as [s|s tr s1 e o s2 H IH Hs].
  - subst s. cbn. repeat split; try constructor; try discriminate; try lia; try tauto.
  - eapply step_inv; [apply IH, E|exact Hs].
Qed.

(** ** C27 *)
(** Whenever an operation is granted, or a touch counted or typed, the sensor has reported a touch since the last such event. *)
Theorem C27_needs_fresh_touch : forall tr s e o s', reach tr s -> step s e = Some (o, s') -> uses (e, o) = true -> fresh_touch tr = true.
Proof.
  intros tr [v k] e o s' Hr Hs Hu. destruct (reach_inv _ _ Hr) as (H1 & H2 & _ & _ & _ & _ & _ & H8).
  destruct e as [x|ms| |nf|entry| | |sec i| |cancel]; cbn [step] in Hs.
  1-4: try (destruct (0 <=? ms); [|discriminate]); injection Hs as <- <-; discriminate.
  - destruct (negb (may_call k)); [discriminate|]. destruct (negb (v_wait v =? WAIT_NONE)); [injection Hs as <- <-; discriminate|].
    destruct (entry =? ENTRY_CCID); [injection Hs as <- <-; discriminate|]. destruct (entry =? ENTRY_CTAPHID); [injection Hs as <- <-; discriminate|discriminate].
  - destruct (negb (may_call k)); [discriminate|]. injection Hs as <- <-; discriminate.
  - destruct k; [|discriminate]. destruct (device_allow_kbd_touch v) eqn:E; injection Hs as <- <-; [|discriminate]. apply H1. unfold device_allow_kbd_touch, TOUCH_NO in E. lia.
  - destruct (may_call k); [|discriminate]. injection Hs as <- <-; discriminate.
  - destruct (may_call k); [|discriminate]. injection Hs as <- <-; discriminate.
  - destruct k as [|[entry start last pc|i begin up pc] k]; [discriminate| |]; apply Forall_cons_iff in H8 as [Hf _].
    + destruct pc; cbv zeta in Hs.
      * destruct (v_touch v =? TOUCH_NO); injection Hs as <- <-; discriminate.
      * destruct cancel; injection Hs as <- <-; discriminate.
      * destruct (30000 <=? _); injection Hs as <- <-; discriminate.
      * destruct Hf as (_ & Hf & _). auto.
    + destruct pc; cbv zeta in Hs.
      * destruct (v_touch v =? TOUCH_SHORT); injection Hs as <- <-; discriminate.
      * destruct Hf as (_ & Hf & _). specialize (Hf eq_refl). unfold fresh_touch, fresh_short in *. clear - Hf.
        assert (forall a b, (a = true -> b = true) -> touched true a tr = true -> touched false b tr = true) as Hm; [|exact (Hm false false (fun H => H) Hf)]. clear Hf.
        induction tr as [|x tr IH]; intros a b Hab; [exact Hab|]. cbn [touched]. apply IH. destruct (fst x); try (destruct a, b, (uses x); cbn; auto; fail).
        destruct a; [rewrite Hab by reflexivity; auto|]. cbn [orb]. intros E. destruct (Z.eqb_spec v 1); [subst v; apply orb_true_r|discriminate].
      * destruct (u32 _ <? 2000); [injection Hs as <- <-; discriminate|]. destruct up; cbn [negb] in Hs; [|injection Hs as <- <-; discriminate].
        destruct (i + 1 <? 5); injection Hs as <- <-; discriminate.
Qed.
(** So there are never more grants than touches. *)
Theorem C27_one_touch_one_use : forall tr s, reach tr s -> used tr + (if fresh_touch tr then 1 else 0) <= reported tr.
Proof.
  intros tr s (t0 & nf & H0 & H). assert (reach tr s) as Hr by (exists t0, nf; auto). remember (device_init t0 nf, []) as s0 eqn:E. revert Hr.
  induction H as [s|s tr s1 e o s2 H IH Hs]; intros _; [cbn; lia|]. subst s. assert (Hr1 : reach tr s1) by (exists t0, nf; auto). specialize (IH eq_refl Hr1).
  unfold used, reported, fresh_touch in *. rewrite !filter_app, !zlen_app, touched_app. cbn [filter touched fst snd].
  destruct (uses (e, o)) eqn:Eu.
  - pose proof (C27_needs_fresh_touch _ _ _ _ _ Hr1 Hs Eu) as Hf. unfold fresh_touch in Hf. rewrite Hf in *. change (zlen [(e, o)]) with 1.
    destruct e; cbn [orb andb negb]; try (change (zlen (@nil (ev * out))) with 0; lia). destruct s1 as [v1 k1]. cbn [step] in Hs. injection Hs as <- <-. discriminate.
  - change (zlen (@nil (ev * out))) with 0. destruct e as [x| | | | | | | | |]; try (change (zlen (@nil (ev * out))) with 0; rewrite andb_true_r; lia).
    destruct (negb (x =? 0)); [change (zlen [(PTouch x, o)]) with 1|change (zlen (@nil (ev * out))) with 0]; destruct (touched false false tr); cbn [orb]; lia.
Qed.
(** A request made while a wait is in progress (anywhere below) fails at once, and changes nothing. *)
Theorem C27_nested_denied : forall tr s e o s', reach tr s -> (exists t, waiting None tr = Some t) ->
  forall entry, e = Call entry -> step s e = Some (o, s') -> o = Ret UP_TIMEOUT /\ s' = s.
Proof.
  intros tr [v k] e o s' Hr (t & Ht) entry -> Hs. destruct (reach_inv _ _ Hr) as (_ & _ & H3 & H4 & _). cbn [step] in Hs.
  destruct (negb (may_call k)); [discriminate|]. destruct (Z.eqb_spec (v_wait v) WAIT_NONE) as [E|E]; [|injection Hs as <- <-; auto].
  apply H3, H4 in E. congruence.
Qed.
(** A wait ends unsuccessfully only if the host cancelled, or after 30 seconds; and with a touch pending it is granted instead. *)
Theorem C27_unsuccessful_end : forall tr s b r s', reach tr s -> step s (Go b) = Some (Ret r, s') ->
  exists t, waiting None tr = Some t /\
  (r = UP_OK \/ (r = UP_CANCEL /\ b = true) \/ (r = UP_TIMEOUT /\ 30000 <= t)).
Proof.
  intros tr [v k] b r s' Hr Hs. destruct (reach_inv _ _ Hr) as (_ & _ & _ & _ & _ & _ & _ & H8). cbn [step] in Hs.
  destruct k as [|[entry start last pc|i begin up pc] k]; [discriminate| |]; apply Forall_cons_iff in H8 as [Hf _].
  - destruct Hf as ((d & Hd1 & Hd2 & Hd3) & _). exists d. split; [exact Hd1|]. destruct pc; cbv zeta in Hs.
    + destruct (v_touch v =? TOUCH_NO); discriminate.
    + destruct b; [|discriminate]. injection Hs as <- <-. auto.
    + destruct (Z.leb_spec 30000 (u32 (tick v - start))) as [E|]; [|discriminate]. injection Hs as <- <-. right; right. split; [reflexivity|].
      unfold tick in E. rewrite u32_sub, <- Hd3, u32_sub2 in E. replace (v_time v - (v_time v - d)) with d in E by lia. pose proof (u32_le d Hd2). lia.
    + injection Hs as <- <-. auto.
  - destruct pc; cbv zeta in Hs.
    + destruct (v_touch v =? TOUCH_SHORT); discriminate.
    + discriminate.
    + destruct (u32 _ <? 2000); [discriminate|]. destruct up; [|discriminate]. cbn [negb] in Hs. destruct (i + 1 <? 5); discriminate.
Qed.
(** Progress: with the firmware running and no touch reported, a wait that has lasted 30 s (and less than 49 days) is over within the
    next three steps of the firmware; with a touch pending when the loop condition is evaluated it succeeds with the next step. *)
Fixpoint goes (n : nat) (s : st) : option (option Z * st) :=
  match n with
  | O => Some (None, s)
  | S n => match step s (Go false) with Some (Ret r, s') => Some (Some r, s') | Some (_, s') => goes n s' | None => None end
  end.
Theorem C27_ends_after_30s : forall tr v f t, reach tr (v, [f]) -> waiting None tr = Some t -> 30000 <= t < 4294967296 ->
  exists s', goes 3 (v, [f]) = Some (Some (if match f with Wait _ _ _ W95 => false | Wait _ _ _ W68 => v_touch v =? 0 | _ => true end then UP_TIMEOUT else UP_OK), s') /\ snd s' = [].
Proof.
  intros tr v f t Hr Hw Ht. destruct (reach_inv _ _ Hr) as (_ & _ & H3 & H4 & _ & _ & _ & H8). apply Forall_cons_iff in H8 as [Hf _].
  destruct f as [entry start last pc|i begin up pc].
  2: { cbn [existsb is_wait orb] in H4. rewrite H4 in Hw by reflexivity. discriminate. }
  destruct Hf as ((d & Hd1 & Hd2 & Hd3) & _). rewrite Hw in Hd1. injection Hd1 as <-.
  assert (E : forall x, v_time x = v_time v -> 30000 <=? u32 (tick x - start) = true).
  { intros x Ex. unfold tick. rewrite Ex, u32_sub, <- Hd3, u32_sub2. replace (v_time v - (v_time v - t)) with t by lia. unfold u32. rewrite Z.mod_small by lia. lia. }
  destruct pc; cbn [goes step].
  - change TOUCH_NO with 0. destruct (v_touch v =? 0); [|eexists; split; reflexivity]. cbn [step]. cbn [step]. cbv zeta.
 rewrite E by apply blink0_time. eexists; split; reflexivity.
  - cbn [step]; cbv zeta; rewrite E by reflexivity. eexists; split; reflexivity.
  - cbn [step]; cbv zeta; rewrite E by reflexivity. eexists; split; reflexivity.
  - eexists; split; reflexivity.
Qed.
(** The touch need not happen during the wait: one reported an hour earlier is accepted. *)
Fixpoint exec (s : st) (l : list ev) : option (list out * st) :=
  match l with
  | [] => Some ([], s)
  | e :: l => match step s e with Some (o, s') => match exec s' l with Some (os, s'') => Some (o :: os, s'') | None => None end | None => None end
  end.
Theorem C27_touch_during_wait_refuted :
  option_map fst (exec (device_init 5000 false, []) [PTouch 1; PTick 3600000; Call 1; Go false; Go false]) = Some [Nothing; Nothing; Nothing; Nothing; Ret UP_OK].
Proof. vm_compute. reflexivity. Qed.

(** ** C28 *)
(** The strong test succeeds only after it counted five touches each at least 2 s after the one before, and lasts at least 10 s. *)
Theorem C28_five_spaced_touches : forall tr s b s', reach tr s -> step s (Go b) = Some (RetStrong 0, s') ->
  10000 <= fst (testing (0, []) tr) /\ exists ts, sublist ts (snd (testing (0, []) tr)) /\ zlen ts = 5 /\ spaced ts.
Proof.
  intros tr [v k] b s' Hr Hs. destruct (reach_inv _ _ Hr) as (_ & _ & _ & _ & _ & _ & _ & H8). cbn [step] in Hs.
  destruct k as [|[entry start last pc|i begin up pc] k]; [discriminate| |]; apply Forall_cons_iff in H8 as [Hf _].
  - destruct pc; cbv zeta in Hs; [destruct (v_touch v =? TOUCH_NO); discriminate|destruct b; discriminate|destruct (30000 <=? _); discriminate|discriminate].
  - destruct Hf as (Hi5 & Hsh & b0 & ts & Hb1 & Hb2 & Hts & Hsp & Hlen & Hhd & Hbi). destruct pc; cbv zeta in Hs.
    + destruct (v_touch v =? TOUCH_SHORT); discriminate.
    + discriminate.
    + destruct (Z.ltb_spec (u32 (tick v - begin)) 2000) as [El|El]; [discriminate|]. destruct up; [|discriminate]. cbn [negb] in Hs. destruct (Z.ltb_spec (i + 1) 5) as [E5|E5]; [discriminate|].
      unfold tick in El. rewrite u32_sub, <- Hb1, u32_sub2 in El. replace (v_time v - (v_time v - (fst (testing (0, []) tr) - b0))) with (fst (testing (0, []) tr) - b0) in El by lia. pose proof (u32_le (fst (testing (0, []) tr) - b0)).
      split; [lia|]. exists ts. split; [exact Hts|]. split; [lia|exact Hsp].
Qed.
(** Each of them was reported by the sensor, as a short touch, after the use of the touch before. *)
Theorem C28_each_a_fresh_touch : forall tr s b v s', reach tr s -> step s (Go b) = Some (Took v, s') -> fresh_short tr = true.
Proof.
  intros tr [v k] b x s' Hr Hs. destruct (reach_inv _ _ Hr) as (_ & _ & _ & _ & _ & _ & _ & H8). cbn [step] in Hs.
  destruct k as [|[entry start last pc|i begin up pc] k]; [discriminate| |]; apply Forall_cons_iff in H8 as [Hf _].
  - destruct pc; cbv zeta in Hs; [destruct (v_touch v =? TOUCH_NO); discriminate|destruct b; discriminate|destruct (30000 <=? _); discriminate|discriminate].
  - destruct pc; cbv zeta in Hs.
    + destruct (v_touch v =? TOUCH_SHORT); discriminate.
    + apply Hf. reflexivity.
    + destruct (u32 _ <? 2000); [discriminate|]. destruct up; [|discriminate]. cbn [negb] in Hs. destruct (i + 1 <? 5); discriminate.
Qed.
(** If in some two-second window no short touch is seen, the test fails: a round that began 2 s ago without a touch ends it. *)
Theorem C28_missed_window_fails : forall tr v i begin k b, reach tr (v, Strong i begin false S124 :: k) -> 2000 <= u32 (tick v - begin) ->
  step (v, Strong i begin false S124 :: k) (Go b) = Some (RetStrong (-1), (v, k)).
Proof. intros tr v i begin k b _ H. cbn [step]. destruct (Z.ltb_spec (u32 (tick v - begin)) 2000); [lia|reflexivity]. Qed.

(** ** C74 *)
(** The keyboard gets a touch only when nothing waits for one and no LED blinks, and not in the first 1.5 s; while the 32-bit clock has
    not wrapped, also not within 1 s of the last blink. *)
Theorem C74_keyboard_touch : forall tr v k x s', reach tr (v, k) -> step (v, k) Kbd = Some (Took x, s') ->
  waiting None tr = None /\ k = [] /\ v_bto v = 0 /\ x = v_touch v /\ x <> 0 /\ 1500 < v_time v /\
  (v_time v < 4294967296 -> v_last v + 1000 < v_time v).
Proof.
  intros tr v k x s' Hr Hs. destruct (reach_inv _ _ Hr) as (H1 & _ & H3 & H4 & _). cbn [step] in Hs. destruct k; [|discriminate].
  destruct (device_allow_kbd_touch v) eqn:E; [|discriminate]. injection Hs as <- <-. unfold device_allow_kbd_touch, is_blinking, TOUCH_AFTER_PWRON, TOUCH_NO in E.
  apply andb_true_iff in E as [E E4]. apply andb_true_iff in E as [E E3]. apply andb_true_iff in E as [E1 E2].
  split; [apply H4; reflexivity|]. split; [reflexivity|]. split; [lia|]. split; [reflexivity|]. split; [lia|].
  assert (0 <= v_time v) as H0.
  { destruct Hr as (t0 & nf & H0 & Hh). clear - H0 Hh. remember (device_init t0 nf, []) as s0 eqn:Es. remember (v, []) as s1 eqn:Es1.
    assert (forall s tr s', hist s tr s' -> 0 <= v_time (fst s) -> 0 <= v_time (fst s')) as Hm.
    { intros s tr0 s'. induction 1 as [s|s tr0 s1' e o s2 H IH Hs]; [auto|]. intros Hp. specialize (IH Hp). clear - IH Hs. destruct s1' as [v k]. cbn [fst] in *.
      destruct e as [x|ms| |nf|entry| | |sec i| |cancel]; cbn [step] in Hs.
      - injection Hs as <- <-. exact IH.
      - destruct (Z.leb_spec 0 ms); [|discriminate]. injection Hs as <- <-. cbn [fst with_time v_time]. lia.
      - injection Hs as <- <-. cbn [fst]. rewrite (proj1 (led_fields v)). exact IH.
      - injection Hs as <- <-. exact IH.
      - destruct (negb (may_call k)); [discriminate|]. destruct (negb (v_wait v =? WAIT_NONE)); [injection Hs as <- <-; exact IH|].
        destruct (entry =? ENTRY_CCID); [injection Hs as <- <-; exact IH|]. destruct (entry =? ENTRY_CTAPHID); [injection Hs as <- <-; exact IH|discriminate].
      - destruct (negb (may_call k)); [discriminate|]. injection Hs as <- <-. cbn [fst]. rewrite blink_time. exact IH.
      - destruct k; [|discriminate]. destruct (device_allow_kbd_touch v); injection Hs as <- <-; exact IH.
      - destruct (may_call k); [|discriminate]. injection Hs as <- <-. cbn [fst]. rewrite blink_time. exact IH.
      - destruct (may_call k); [|discriminate]. injection Hs as <- <-. exact IH.
      - destruct k as [|[entry start last pc|i begin up pc] k]; [discriminate| |]; destruct pc; cbv zeta in Hs.
        + destruct (v_touch v =? TOUCH_NO); injection Hs as <- <-; cbn [fst]; [rewrite blink0_time|]; exact IH.
        + destruct cancel; injection Hs as <- <-; exact IH.
        + destruct (30000 <=? _); injection Hs as <- <-; exact IH.
        + injection Hs as <- <-; exact IH.
        + destruct (v_touch v =? TOUCH_SHORT); injection Hs as <- <-; exact IH.
        + injection Hs as <- <-; exact IH.
        + destruct (u32 _ <? 2000); [injection Hs as <- <-; exact IH|]. destruct up; cbn [negb] in Hs; [|injection Hs as <- <-; exact IH].
          destruct (i + 1 <? 5); injection Hs as <- <-; cbn [fst]; [rewrite blink_time|]; exact IH. }
    subst. exact (Hm _ _ _ Hh H0). }
  unfold tick in *. pose proof (u32_le (v_time v) H0). split; [lia|]. intros Hlt. unfold u32 in *. rewrite (Z.mod_small (v_time v)) in * by lia. unfold TOUCH_EXPIRE_TIME in E3. rewrite Z.mod_small in E3 by lia. lia.
Qed.
(** After the clock wraps (49.7 days) the keyboard ignores touches, here for another 49 days at least, if the LED blinked shortly before. *)
Theorem C74_keyboard_touch_after_wrap_refuted :
  option_map fst (exec (device_init 0 false, []) [PTick 4294960000; Call 1; Go false; PTouch 1; Go false; Go false; Go false; Go false; PTick 4233600000; PTouch 1; Kbd]) =
    Some [Nothing; Nothing; Nothing; Nothing; Nothing; Nothing; Nothing; Ret UP_OK; Nothing; Nothing; Nothing].
Proof. vm_compute. reflexivity. Qed.

(** ** Examples *)
(** A wait with a nested request and a timeout; then a wait granted by a touch, and the same touch not usable again. *)
Example wait_ex : option_map fst (exec (device_init 0 false, []) [Call 1; Go false; Call 0; CallStrong; Go false; PTick 2001; Go false; Go false; PTick 30000; Go false;
    Call 0; Go false; PTouch 1; Go false; Go false; Go false; Go false; Call 0; Go false; Go true])
  = Some [Nothing; Nothing; Ret UP_TIMEOUT; Nothing; Nothing; Nothing; RetStrong (-1); Nothing; Nothing; Ret UP_TIMEOUT;
    Nothing; Nothing; Nothing; Nothing; Nothing; Nothing; Ret UP_OK; Nothing; Nothing; Ret UP_CANCEL].
Proof. vm_compute. reflexivity. Qed.
Definition touch_round := [PTouch 1; Go false; Go false; PTick 2000; Go false].
Example strong_ex : option_map (fun x => last (fst x) Nothing) (exec (device_init 0 false, []) (CallStrong :: touch_round ++ touch_round ++ touch_round ++ touch_round ++ touch_round)) = Some (RetStrong 0).
Proof. vm_compute. reflexivity. Qed.
Example kbd_ex : option_map fst (exec (device_init 0 false, []) [PTick 1501; PTouch 2; Kbd; Kbd]) = Some [Nothing; Nothing; Took 2; Nothing].
Proof. vm_compute. reflexivity. Qed.
Lemma exec_hist l : forall s os s', exec s l = Some (os, s') -> forall s0 tr, hist s0 tr s -> hist s0 (tr ++ combine l os) s'.
Proof.
  induction l as [|e l IH]; intros s os s' E s0 tr H; cbn [exec] in E; [injection E as <- <-; cbn; rewrite app_nil_r; exact H|].
  destruct (step s e) as [[o s1]|] eqn:Es; [|discriminate]. destruct (exec s1 l) as [[os1 s2]|] eqn:El; [|discriminate]. injection E as <- <-.
  cbn [combine]. specialize (IH _ _ _ El s0 (tr ++ [(e, o)]) (h_snoc _ _ _ _ _ _ H Es)). rewrite <- app_assoc in IH. exact IH.
Qed.
Definition wait_evs := [Call 1; Go false; PTouch 1; Go false; Go false; PTick 40000; Go false].
Definition wait_tr := combine wait_evs (repeat Nothing 7).
Definition wait_st : st := (mkDv 1 3 40000 0 UINT32_MAX 200 false, [Wait 1 0 0 W95]).
Example reach_ex : reach wait_tr wait_st /\ waiting None wait_tr = Some 40000 /\ fresh_touch wait_tr = true /\
  option_map fst (step wait_st (Go false)) = Some (Ret UP_OK).
Proof.
  split; [|vm_compute; auto]. exists 0, false. split; [lia|].
  assert (E : exec (device_init 0 false, []) wait_evs = Some (repeat Nothing 7, wait_st)) by (vm_compute; reflexivity).
  exact (exec_hist _ _ _ _ E _ [] (h_nil _)).
Qed.

Print Assumptions C27_needs_fresh_touch.
Print Assumptions C27_one_touch_one_use.
Print Assumptions C27_nested_denied.
Print Assumptions C27_unsuccessful_end.
Print Assumptions C27_ends_after_30s.
Print Assumptions C27_touch_during_wait_refuted.
Print Assumptions C28_five_spaced_touches.
Print Assumptions C28_each_a_fresh_touch.
Print Assumptions C28_missed_window_fails.
Print Assumptions C74_keyboard_touch.
Print Assumptions C74_keyboard_touch_after_wrap_refuted.
