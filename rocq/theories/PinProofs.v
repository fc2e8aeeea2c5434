From Verif Require Import Sys Pin.
Open Scope Z_scope.

Section P.
Context {S : Type}.
Variable p : pin_t.
Variable setv : bool -> S -> S.
Notation P := (pin_path p).

Lemma cmp_ok neq junk d buf len :
  neq <> 0 -> neq <> 1 -> 0 <= len <= 64 -> zlen d <= 64 ->
  let pin_buf := firstn 64 (d ++ junk ++ zeros 64) in
  exists y, sub pin_buf 0 len = Some y /\
  (negb ((if zlen d =? len then 0 else 1) - memcmp_s neq (slice 0 len buf) y =? 0)
   = negb (beqb (slice 0 len buf) d && (zlen d =? len))).
Proof.
  intros Hn0 Hn1 Hl Hd pin_buf. subst pin_buf.
  assert (zlen (firstn 64 (d ++ junk ++ zeros 64)) = 64) as H64.
  { rewrite zlen_firstn, !zlen_app, zlen_zeros by lia. pose proof (zlen_nonneg d). pose proof (zlen_nonneg junk). lia. }
  eexists; split; [apply sub_ok; lia|].
  unfold memcmp_s.
  destruct (Z.eqb_spec (zlen d) len) as [He|He].
  - rewrite andb_true_r.
    assert (slice 0 len (firstn 64 (d ++ junk ++ zeros 64)) = d) as ->.
    { unfold slice. change (Z.to_nat 0) with 0%nat. cbn [skipn]. rewrite firstn_firstn.
      replace (Nat.min (Z.to_nat len) 64) with (length d) by (unfold zlen in *; lia).
      rewrite firstn_app, firstn_all, Nat.sub_diag. apply app_nil_r. }
    destruct (beqb _ d); [reflexivity|]. destruct (Z.eqb_spec (0 - neq) 0); [lia|reflexivity].
  - rewrite andb_false_r. destruct (beqb _ _); [reflexivity|]. destruct (Z.eqb_spec (1 - neq) 0); [lia|reflexivity].
Qed.

(** Exact effect of a verification without storage errors. *)
Definition verify_result (d : bytes) (c N : Z) (buf : bytes) (len : Z) (s : S) F L R T O :=
  if (len <? pin_min p) || (pin_max p <? len)
  then (Ret (PIN_LENGTH_INVALID, None), setv false s, mkE F L [] R T O)
  else if c =? 0 then (Ret (PIN_AUTH_FAIL, Some 0), setv false s, mkE F L [] R T O)
  else if beqb (slice 0 len buf) d && (zlen d =? len)
       then let F' := fsetattr F P RETRY_ATTR [N] in
            (Ret (0, Some c), setv true (setv false s), mkE F' (F' :: L) [] R T O)
       else let F' := fsetattr F P RETRY_ATTR [u8 (c - 1)] in
            (Ret (PIN_AUTH_FAIL, Some (u8 (c - 1))), setv false s, mkE F' (F' :: L) [] R T O).

Lemma verify_exact neq junk d cv Nv buf len s F L R T O :
  neq <> 0 -> neq <> 1 -> 0 <= pin_min p -> pin_max p <= 64 -> len <= zlen buf ->
  fdata F P = Some d -> zlen d <= 64 -> fattr F P RETRY_ATTR = Some cv -> fattr F P DEFAULT_RETRY_ATTR = Some Nv ->
  pin_verify_gen p setv neq junk buf len s (mkE F L [] R T O)
  = verify_result d (attr1 cv) (attr1 Nv) buf len s F L R T O.
Proof.
  intros Hn0 Hn1 Hmin Hmax Hlen Hd Hd64 Ha0 Ha1.
  unfold pin_verify_gen, verify_result, bind, modify.
  destruct ((len <? pin_min p) || (pin_max p <? len)) eqn:El; [reflexivity|].
  unfold fdata, fattr in *. destruct (F P) as [f|] eqn:EF; [|discriminate].
  injection Hd as Hd.
  unfold read_attr at 1; cbn -[attr1 firstn]. rewrite EF; cbn -[attr1 firstn].
  rewrite Ha0. destruct (Z.eqb_spec (attr1 cv) 0) as [E0|E0].
  { rewrite E0; reflexivity. }
  unfold read_file; cbn -[attr1 firstn]. rewrite EF; cbn -[attr1 firstn].
  assert (slice 0 PIN_MAX_LENGTH (f_data f) = d) as Hs.
  { rewrite Hd. unfold slice. cbn [Z.to_nat skipn]. apply firstn_all2. unfold zlen, PIN_MAX_LENGTH in *; lia. }
  change (match (0:Z) with Z.neg _ => true | _ => false end) with false.
  cbn -[attr1 firstn]. rewrite Hs.
  rewrite (sub_ok buf 0 len) by lia. cbn -[attr1 firstn].
  destruct (cmp_ok neq junk d buf len) as [y [Hy Hc]]; try assumption; try lia.
  cbv zeta in Hy, Hc. rewrite Hy. cbn -[attr1 firstn memcmp_s].
  rewrite Hc.
  destruct (beqb _ d && _); cbn -[attr1 firstn memcmp_s].
  - unfold read_attr; cbn. rewrite EF, Ha1. unfold write_attr; cbn. rewrite EF. unfold commit; cbn.
    unfold fsetattr; rewrite EF. reflexivity.
  - unfold write_attr; cbn. rewrite EF. unfold commit, fsetattr; cbn; rewrite EF. reflexivity.
Qed.

Lemma update_exact Nv buf len s F L R T O :
  len <= zlen buf -> 0 <= pin_min p -> F P <> None -> fattr F P DEFAULT_RETRY_ATTR = Some Nv ->
  pin_update p setv buf len s (mkE F L [] R T O)
  = if (len <? pin_min p) || (pin_max p <? len) then (Ret PIN_LENGTH_INVALID, s, mkE F L [] R T O)
    else let F1 := fwrite F P (slice 0 len buf) 0 true in
         let F2 := fsetattr F1 P RETRY_ATTR [attr1 Nv] in
         (Ret 0, setv false s, mkE F2 (F2 :: F1 :: L) [] R T O).
Proof.
  intros Hl Hm HF Ha. unfold pin_update.
  destruct ((len <? pin_min p) || (pin_max p <? len)) eqn:El; [reflexivity|].
  erewrite bind_eq by reflexivity. rewrite sub_ok by lia. erewrite bind_eq by reflexivity.
  erewrite bind_eq by (apply run_write_file). cbn [negb].
  erewrite bind_eq by (apply run_read_attr). rewrite fattr_fwrite, Ha by assumption.
  erewrite bind_eq by (apply run_write_attr, fwrite_some). cbn [negb].
  unfold lcreate. destruct (F P); [reflexivity|congruence].
Qed.
End P.

(** ** Invariant of PIN storage *)
Definition pin_inv (p : pin_t) (N : Z) (d : bytes) (c : Z) (F : fs) : Prop :=
  fdata F (pin_path p) = Some d /\ zlen d <= 64 /\ 0 <= c <= N /\
  fattr F (pin_path p) RETRY_ATTR = Some [c] /\ fattr F (pin_path p) DEFAULT_RETRY_ATTR = Some [N].

Lemma fdata_some F q d : fdata F q = Some d -> F q <> None.
Proof. unfold fdata; destruct (F q); congruence. Qed.

Lemma pin_inv_setattr p N d c c' F : 0 <= c' <= N ->
  pin_inv p N d c F -> pin_inv p N d c' (fsetattr F (pin_path p) RETRY_ATTR [c']).
Proof.
  intros Hc (Hd & H64 & Hc0 & Ha & Hb). repeat split; auto; try lia.
  - rewrite fdata_fsetattr; assumption.
  - rewrite fattr_fsetattr by (eapply fdata_some; eauto). reflexivity.
  - rewrite fattr_fsetattr by (eapply fdata_some; eauto). exact Hb.
Qed.

Lemma pin_inv_write p N d c d' F : zlen d' <= 64 ->
  pin_inv p N d c F -> pin_inv p N d' c (fwrite F (pin_path p) d' 0 true).
Proof.
  intros Hl (Hd & H64 & Hc0 & Ha & Hb). pose proof (fdata_some _ _ _ Hd) as HF.
  split; [apply fdata_fwrite_trunc|]. rewrite !fattr_fwrite by assumption. auto.
Qed.

Section Hist.
Variable p : pin_t.
Hypothesis Hmin : 0 <= pin_min p.
Hypothesis Hmax : pin_max p <= 64.
Notation P := (pin_path p).

Lemma verify_run N d c F g v :
  N < 256 -> pin_inv p N d c F ->
  pin_verify p setf g (zlen g) v (start F [] [] []) =
  if (zlen g <? pin_min p) || (pin_max p <? zlen g)
  then (Ret (PIN_LENGTH_INVALID, None), false, start F [] [] [])
  else if c =? 0 then (Ret (PIN_AUTH_FAIL, Some 0), false, start F [] [] [])
  else if beqb g d
       then let F' := fsetattr F P RETRY_ATTR [N] in
            (Ret (0, Some c), true, mkE F' [F'; F] [] [] [] [])
       else let F' := fsetattr F P RETRY_ATTR [c - 1] in
            (Ret (PIN_AUTH_FAIL, Some (c - 1)), false, mkE F' [F'; F] [] [] [] []).
Proof.
  intros HN (Hd & H64 & Hc & Ha & Hb).
  unfold pin_verify, start.
  rewrite (verify_exact p setf (-1) [] d [c] [N]) by (assumption || lia).
  unfold verify_result, setf. cbn [attr1]. rewrite slice_all.
  destruct (_ || _) eqn:El; [reflexivity|].
  destruct (Z.eqb_spec c 0); [reflexivity|].
  replace (beqb g d && (zlen d =? zlen g)) with (beqb g d).
  2:{ destruct (beqb_spec g d) as [->|]; [rewrite Z.eqb_refl|]; reflexivity. }
  destruct (beqb g d); [reflexivity|].
  replace (u8 (c - 1)) with (c - 1) by (unfold u8; rewrite Z.mod_small; lia). reflexivity.
Qed.

Lemma verify_inv N d c F g v :
  N < 256 -> pin_inv p N d c F ->
  let '(_, _, e') := pin_verify p setf g (zlen g) v (start F [] [] []) in
  (exists c', pin_inv p N d c' (e_fs e') /\ (g <> d -> c' <= c)) /\
  forall F', In F' (e_log e') -> exists c', pin_inv p N d c' F' /\ (g <> d -> c' <= c).
Proof.
  intros HN Hi. pose proof (proj1 (proj2 (proj2 Hi))) as Hc.
  rewrite (verify_run N d c F g v HN Hi).
  destruct (_ || _).
  { cbn. split; [exists c; auto with zarith|]. intros F' [<-|[]]. exists c; auto with zarith. }
  destruct (Z.eqb_spec c 0).
  { cbn. split; [exists c; auto with zarith|]. intros F' [<-|[]]. exists c; auto with zarith. }
  destruct (beqb_spec g d) as [->|Hne]; cbn [e_fs e_log].
  - assert (exists c', pin_inv p N d c' (fsetattr F P RETRY_ATTR [N]) /\ (d <> d -> c' <= c)) as H1.
    { exists N; split; [eapply pin_inv_setattr; eauto; lia|congruence]. }
    split; [exact H1|]. intros F' [<-|[<-|[]]]; [exact H1|exists c; auto with zarith].
  - assert (exists c', pin_inv p N d c' (fsetattr F P RETRY_ATTR [c - 1]) /\ (g <> d -> c' <= c)) as H1.
    { exists (c - 1); split; [eapply pin_inv_setattr; eauto; lia|lia]. }
    split; [exact H1|]. intros F' [<-|[<-|[]]]; [exact H1|exists c; auto with zarith].
Qed.

Lemma update_inv N d c F g v :
  N < 256 -> pin_inv p N d c F ->
  let '(_, _, e') := pin_update p setf g (zlen g) v (start F [] [] []) in
  (exists d' c', pin_inv p N d' c' (e_fs e')) /\
  forall F', In F' (e_log e') -> exists d' c', pin_inv p N d' c' F'.
Proof.
  intros HN Hi. pose proof Hi as (Hd & H64 & Hc & Ha & Hb). unfold start.
  rewrite (update_exact p setf [N]) by (try lia; try assumption; eapply fdata_some; eauto).
  destruct (_ || _) eqn:El.
  { cbn. split; [eauto|]. intros F' [<-|[]]; eauto. }
  rewrite slice_all. cbn [e_fs e_log attr1].
  assert (pin_inv p N g c (fwrite F P g 0 true)) as H1 by (eapply pin_inv_write; eauto; lia).
  assert (pin_inv p N g N (fsetattr (fwrite F P g 0 true) P RETRY_ATTR [N])) as H2
    by (eapply pin_inv_setattr; eauto; lia).
  split; [eauto|]. intros F' [<-|[<-|[<-|[]]]]; eauto.
Qed.

Lemma nth_In_or {A} n (l : list A) d (Q : A -> Prop) : Q d -> (forall x, In x l -> Q x) -> Q (nth n l d).
Proof. intros Hd Hl. destruct (nth_in_or_default n l d) as [Hi| ->]; auto. Qed.

Lemma pin_step_inv N v F ev :
  N < 256 -> (exists d c, pin_inv p N d c F) ->
  exists d c, pin_inv p N d c (snd (snd (pin_step p (v, F) ev))).
Proof.
  intros HN (d & c & Hi). destruct ev; cbn [pin_step].
  - pose proof (verify_inv N d c F g v HN Hi) as H.
    destruct (pin_verify p setf g (zlen g) v (start F [] [] [])) as [[o v'] e'].
    destruct H as [(c' & H & _) _]. destruct o as [[? ?]| | |]; cbn; eauto.
  - pose proof (verify_inv N d c F g v HN Hi) as H.
    destruct (pin_verify p setf g (zlen g) v (start F [] [] [])) as [[o v'] e'].
    destruct H as [_ H]. cbn. apply nth_In_or; [eauto|].
    intros x Hx. destruct (H x Hx) as (c' & ? & _); eauto.
  - pose proof (update_inv N d c F g v HN Hi) as H.
    destruct (pin_update p setf g (zlen g) v (start F [] [] [])) as [[o v'] e'].
    destruct H as [(d' & c' & H) _]. destruct o as [?| | |]; cbn; eauto.
  - pose proof (update_inv N d c F g v HN Hi) as H.
    destruct (pin_update p setf g (zlen g) v (start F [] [] [])) as [[o v'] e'].
    destruct H as [_ H]. cbn. apply nth_In_or; eauto.
  - cbn; eauto.
Qed.

Lemma pin_run_inv N evs v F :
  N < 256 -> (exists d c, pin_inv p N d c F) ->
  exists d c, pin_inv p N d c (snd (snd (pin_run p (v, F) evs))).
Proof.
  intros HN. revert v F; induction evs as [|ev evs IH]; intros v F Hi; [exact Hi|].
  cbn [pin_run]. pose proof (pin_step_inv N v F ev HN Hi) as H1.
  destruct (pin_step p (v, F) ev) as [a [v' F']]. cbn [snd] in H1.
  specialize (IH v' F' H1). destruct (pin_run p (v', F') evs) as [l st]. exact IH.
Qed.

(** Guesses only, all different from [d]. *)
Definition wrong_guess (d : bytes) (ev : pin_ev) : Prop :=
  match ev with
  | EvVerify g | EvVerifyCut g _ => g <> d
  | EvReboot => True
  | _ => False
  end.
Definition is_rejection (a : pin_ans) : bool :=
  match a with AnsVerify c _ _ => c =? PIN_AUTH_FAIL | _ => false end.
Definition rejections (l : list pin_ans) : Z := zlen (filter is_rejection l).

Lemma wrong_step N d c F v ev :
  N < 256 -> pin_inv p N d c F -> wrong_guess d ev ->
  let '(a, (v', F')) := pin_step p (v, F) ev in
  exists c', pin_inv p N d c' F' /\ c' <= Z.max 0 (c - (if is_rejection a then 1 else 0)).
Proof.
  intros HN Hi Hw. pose proof (proj1 (proj2 (proj2 Hi))) as Hc. destruct ev; cbn [wrong_guess pin_step] in *; try contradiction.
  - rewrite (verify_run N d c F g v HN Hi).
    destruct (_ || _); [cbn; exists c; split; [assumption|lia]|].
    destruct (Z.eqb_spec c 0); [cbn; exists c; split; [assumption|lia]|].
    destruct (beqb_spec g d) as [->|]; [congruence|].
    cbn. exists (c - 1). split; [eapply pin_inv_setattr; eauto; lia|lia].
  - pose proof (verify_inv N d c F g v HN Hi) as H.
    destruct (pin_verify p setf g (zlen g) v (start F [] [] [])) as [[o v'] e'].
    destruct H as [_ H]. cbn. apply nth_In_or; [exists c; split; [assumption|lia]|].
    intros x Hx. destruct (H x Hx) as (c' & ? & Hle); eauto. exists c'; split; [assumption|]. specialize (Hle Hw). lia.
  - cbn. exists c; split; [assumption|lia].
Qed.

Lemma wrong_run N d evs : N < 256 -> forall c F v,
  pin_inv p N d c F -> Forall (wrong_guess d) evs ->
  let '(l, (v', F')) := pin_run p (v, F) evs in
  exists c', pin_inv p N d c' F' /\ c' <= Z.max 0 (c - rejections l).
Proof.
  intros HN. induction evs as [|ev evs IH]; intros c F v Hi Hw.
  - cbn [pin_run]. exists c; split; [assumption|]. change (rejections []) with 0. pose proof (proj1 (proj2 (proj2 Hi))); lia.
  - inversion Hw as [|? ? Hw1 Hw2]; subst. cbn [pin_run].
    pose proof (wrong_step N d c F v ev HN Hi Hw1) as H1.
    destruct (pin_step p (v, F) ev) as [a [v' F']]. destruct H1 as (c' & Hi' & Hle).
    specialize (IH c' F' v' Hi' Hw2). destruct (pin_run p (v', F') evs) as [l [v'' F'']].
    destruct IH as (c'' & Hi'' & Hle'). exists c''; split; [assumption|].
    unfold rejections in *. cbn [filter]. destruct (is_rejection a); autorewrite with zlen; pose proof (zlen_nonneg (filter is_rejection l)); lia.
Qed.

(** No guess of an allowed length is accepted or even compared. *)
Definition locked (F : fs) : Prop := forall v g,
  pin_min p <= zlen g <= pin_max p ->
  pin_step p (v, F) (EvVerify g) = (AnsVerify PIN_AUTH_FAIL (Some 0) false, (false, F)).

Lemma zero_locked N d F : N < 256 -> pin_inv p N d 0 F -> locked F.
Proof.
  intros HN Hi v g Hg. cbn [pin_step]. rewrite (verify_run N d 0 F g v HN Hi).
  destruct (_ || _) eqn:E; [lia|]. reflexivity.
Qed.

Lemma zero_stays N d evs F v : N < 256 -> pin_inv p N d 0 F ->
  Forall (fun ev => match ev with EvUpdate _ | EvUpdateCut _ _ => False | _ => True end) evs ->
  snd (snd (pin_run p (v, F) evs)) = F.
Proof.
  intros HN Hi. revert v. induction evs as [|ev evs IH]; intros v Hu; [reflexivity|].
  inversion Hu as [|? ? Hu1 Hu2]; subst. cbn [pin_run].
  assert (snd (snd (pin_step p (v, F) ev)) = F) as H1.
  { destruct ev; cbn [pin_step]; try contradiction; rewrite ?(verify_run N d 0 F g v HN Hi); destruct (_ || _) || idtac; cbn.
    all: try reflexivity.
    all: destruct n as [|[|]]; reflexivity. }
  destruct (pin_step p (v, F) ev) as [a [v' F']]. cbn [snd] in H1; subst F'.
  specialize (IH v' Hu2). destruct (pin_run p (v', F) evs). exact IH.
Qed.

Theorem retry_limit N d0 F0 v0 pre mid :
  0 <= N < 256 -> pin_inv p N d0 N F0 ->
  let '(_, (v1, F1)) := pin_run p (v0, F0) pre in
  forall d, fdata F1 P = Some d -> Forall (wrong_guess d) mid ->
  let '(answers, (_, F2)) := pin_run p (v1, F1) mid in
  N <= rejections answers -> locked F2.
Proof.
  intros HN Hi. pose proof (pin_run_inv N pre v0 F0 ltac:(lia) ltac:(eauto)) as H1.
  destruct (pin_run p (v0, F0) pre) as [l1 [v1 F1]]. cbn [snd] in H1. destruct H1 as (d1 & c1 & Hi1).
  intros d Hd Hw. pose proof (proj1 Hi1) as Hd1. rewrite Hd in Hd1. injection Hd1 as <-.
  pose proof (wrong_run N d mid ltac:(lia) c1 F1 v1 Hi1 Hw) as H2.
  destruct (pin_run p (v1, F1) mid) as [l2 [v2 F2]]. destruct H2 as (c2 & Hi2 & Hle).
  intros Hr. pose proof (proj1 (proj2 (proj2 Hi1))). pose proof (proj1 (proj2 (proj2 Hi2))).
  assert (c2 = 0) by lia. subst c2. eapply zero_locked; [|eassumption]. lia.
Qed.

Theorem locked_forever N d0 F0 v0 pre mid :
  0 <= N < 256 -> pin_inv p N d0 N F0 ->
  let '(_, (v1, F1)) := pin_run p (v0, F0) pre in
  locked F1 -> pin_min p <= pin_max p -> 
  Forall (fun ev => match ev with EvUpdate _ | EvUpdateCut _ _ => False | _ => True end) mid ->
  let '(_, (_, F2)) := pin_run p (v1, F1) mid in F2 = F1.
Proof.
  intros HN Hi. pose proof (pin_run_inv N pre v0 F0 ltac:(lia) ltac:(eauto)) as H1.
  destruct (pin_run p (v0, F0) pre) as [l1 [v1 F1]]. cbn [snd] in H1. destruct H1 as (d1 & c1 & Hi1).
  intros Hl Hmm Hu.
  assert (c1 = 0) as ->.
  { specialize (Hl false (zeros (pin_min p))). rewrite zlen_zeros in Hl by lia. specialize (Hl ltac:(lia)).
    cbn [pin_step] in Hl. rewrite (verify_run N d1 c1 F1 _ false ltac:(lia) Hi1) in Hl.
    rewrite zlen_zeros in Hl by lia.
    destruct (_ || _) eqn:E; [lia|]. destruct (Z.eqb_spec c1 0); [assumption|].
    destruct (beqb _ _); [discriminate|].
    injection Hl as Hc HF. assert (c1 = 1) as -> by lia.
    cbn [e_fs] in HF. exfalso. pose proof (proj1 (proj2 (proj2 (proj2 Hi1)))) as Hat.
    rewrite <- HF in Hat. rewrite fattr_fsetattr in Hat by (eapply fdata_some; exact (proj1 Hi1)).
    discriminate. }
  pose proof (zero_stays N d1 mid F1 v1 ltac:(lia) Hi1 Hu) as H2.
  destruct (pin_run p (v1, F1) mid) as [l2 [v2 F2]]. exact H2.
Qed.
End Hist.

(** ** Verification under arbitrary storage faults *)
Section Faults.
Context {S : Type}.
Variable p : pin_t.
Variable setv : bool -> S -> S.
Variable isv : S -> bool.
Hypothesis isv_setv : forall b s, isv (setv b s) = b.
Notation P := (pin_path p).

Lemma verify_faults N d c buf len s F L X R T O :
  0 <= pin_min p -> pin_max p <= 64 -> len <= zlen buf -> N < 256 ->
  pin_inv p N d c F ->
  wp (pin_verify p setv buf len)
     (fun o s' e' => exists code r, o = Ret (code, r) /\
        (isv s' = true -> c <> 0 /\ slice 0 len buf = d /\ zlen d = len) /\
        (code = 0 -> isv s' = true /\ pin_inv p N d N (e_fs e')) /\
        (code = PIN_AUTH_FAIL -> isv s' = false /\
           ((c = 0 /\ e_fs e' = F) \/
            (c <> 0 /\ ~ (slice 0 len buf = d /\ zlen d = len) /\ r = Some (c - 1) /\ pin_inv p N d (c - 1) (e_fs e')))) /\
        (code = PIN_IO_FAIL -> pin_inv p N d c (e_fs e')))
     s (mkE F L X R T O).
Proof.
  intros Hmin Hmax Hlen HN Hi. pose proof Hi as (Hd & H64 & Hc & Ha & Hb).
  pose proof (fdata_some _ _ _ Hd) as HF.
  unfold pin_verify, pin_verify_gen.
  apply wp_bind. unfold wp at 1, modify.
  destruct ((len <? pin_min p) || (pin_max p <? len)) eqn:El.
  { cbn. exists PIN_LENGTH_INVALID, None. rewrite isv_setv. split; [reflexivity|split; [|split; [|split]]]; intros Hx; try discriminate Hx; auto. }
  apply wp_bind, wp_read_attr. intros X1 r1 _ [->|Hr1].
  { cbn. exists PIN_IO_FAIL, None. rewrite isv_setv. split; [reflexivity|split; [|split; [|split]]]; intros Hx; try discriminate Hx; auto. }
  rewrite Ha in Hr1; subst r1. cbn [attr1].
  destruct (Z.eqb_spec c 0).
  { cbn. exists PIN_AUTH_FAIL, (Some c). rewrite isv_setv. split; [reflexivity|split; [|split; [|split]]]; intros Hx; try discriminate Hx; auto. }
  apply wp_bind, wp_read_file. intros X2 r2 _ [->|Hr2].
  { cbn. exists PIN_IO_FAIL, (Some c). rewrite isv_setv. split; [reflexivity|split; [|split; [|split]]]; intros Hx; try discriminate Hx; auto. }
  assert (r2 = Some d) as ->.
  { subst r2. unfold fread. unfold fdata in Hd. destruct (F P); [|discriminate]. cbn. injection Hd as ->.
    f_equal. unfold slice. cbn [Z.to_nat skipn]. apply firstn_all2. unfold zlen, PIN_MAX_LENGTH in *; lia. }
  rewrite (sub_ok buf 0 len) by lia.
  destruct (cmp_ok (-1) [] d buf len) as [y [Hy Hcmp]]; try assumption; try lia.
  cbv zeta in Hy, Hcmp.
  apply wp_bind. unfold wp at 1, need, ret.
  apply wp_bind. rewrite Hy. unfold wp at 1, need, ret. rewrite Hcmp.
  destruct (beqb (slice 0 len buf) d && (zlen d =? len)) eqn:Em; cbn [negb].
  - apply andb_true_iff in Em. destruct Em as [Em1 Em2]. apply beqb_eq in Em1.
    assert (zlen d = len) as Em2' by lia.
    apply wp_bind. unfold wp at 1, modify.
    apply wp_bind, wp_read_attr. intros X3 r3 _ [->|Hr3].
    { cbn. exists PIN_IO_FAIL, (Some c). rewrite isv_setv. split; [reflexivity|split; [|split; [|split]]]; intros Hx; try discriminate Hx; auto. }
    rewrite Hb in Hr3; subst r3.
    apply wp_bind, wp_write_attr.
    + intros _ X4 _. cbn. exists 0, (Some c). rewrite isv_setv. split; [reflexivity|].
      split; [auto|]. split; [|split; intros; discriminate].
      intros _. split; [reflexivity|]. eapply pin_inv_setattr; eauto; lia.
    + intros _ X4 _. cbn. exists PIN_IO_FAIL, (Some c). rewrite isv_setv.
      split; [reflexivity|split; [|split; [|split]]]; intros Hx; try discriminate Hx; auto.
  - assert (~ (slice 0 len buf = d /\ zlen d = len)) as Hne.
    { intros [E1 E2]. rewrite E1, E2, beqb_refl, Z.eqb_refl in Em. discriminate. }
    assert (u8 (c - 1) = c - 1) as Hu8 by (unfold u8; rewrite Z.mod_small; lia).
    cbv zeta. rewrite Hu8.
    apply wp_bind, wp_write_attr.
    + intros _ X4 _. cbn. exists PIN_AUTH_FAIL, (Some (c - 1)). rewrite isv_setv.
      split; [reflexivity|]. split; [discriminate|]. split; [discriminate|]. split; [|discriminate].
      intros _. split; [reflexivity|]. right. split; [assumption|]. split; [assumption|]. split; [reflexivity|].
      eapply pin_inv_setattr; eauto; lia.
    + intros _ X4 _. cbn. exists PIN_IO_FAIL, (Some (c - 1)). rewrite isv_setv.
      split; [reflexivity|split; [|split; [|split]]]; intros Hx; try discriminate Hx; auto.
Qed.
End Faults.
