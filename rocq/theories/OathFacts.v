(** Facts used by the property theorems of the OATH applet. *)
From Coq Require Import Permutation.
From Verif Require Import Sys Apdu Applet Pass Oath OathProofs OathCmds OathEff OathSpec OathPres OathHist OathStep.
Open Scope string_scope. Open Scope list_scope. Open Scope Z_scope.

(** ** Records are determined by the storage *)
Lemma concat_inj (a b : list bytes) : Forall (fun r => zlen r = 141) a -> Forall (fun r => zlen r = 141) b ->
  concat a = concat b -> a = b.
Proof.
  revert b; induction a as [|x a IH]; intros [|y b] Ha Hb E; cbn [concat] in E.
  - reflexivity.
  - exfalso. inversion Hb; subst. apply (f_equal zlen) in E. rewrite zlen_app in E. pose proof (zlen_nonneg (concat b)). change (zlen (@nil Z)) with 0 in E. lia.
  - exfalso. inversion Ha; subst. apply (f_equal zlen) in E. rewrite zlen_app in E. pose proof (zlen_nonneg (concat a)). change (zlen (@nil Z)) with 0 in E. lia.
  - inversion Ha; inversion Hb; subst. unfold zlen in *.
    assert (length x = length y) as El by lia.
    assert (x = y) as ->.
    { apply (f_equal (firstn (length x))) in E. rewrite firstn_app, firstn_all, Nat.sub_diag in E. rewrite El in E.
      rewrite firstn_app, firstn_all, Nat.sub_diag in E. cbn [firstn] in E. rewrite !app_nil_r in E. exact E. }
    f_equal. apply IH; [assumption..|]. apply app_inv_head in E. exact E.
Qed.
Lemma recs_uniq F rs rs1 : oath_ok F rs -> records F rs1 -> rs1 = rs.
Proof.
  intros ((H1 & H2) & _) (H3 & H4). change "oath" with OATH_FILE in H3. rewrite H3 in H1. injection H1 as E.
  apply concat_inj; assumption.
Qed.
Lemma ok_records F rs : oath_ok F rs -> records F rs.
Proof. intros (H & _). exact H. Qed.

Lemma nodup_used rs r1 r2 : NoDup (names rs) -> In r1 (filter used rs) -> In r2 (filter used rs) -> rname r1 = rname r2 -> r1 = r2.
Proof.
  unfold names, live. change islive with used. generalize (filter used rs) as l. induction l as [|x l IH]; intros Hnd H1 H2 E; [contradiction|].
  cbn [map] in Hnd. inversion Hnd as [|? ? Hx Hl]; subst.
  destruct H1 as [-> |H1], H2 as [-> |H2]; [reflexivity| | |auto].
  - exfalso. apply Hx. rewrite E. apply in_map, H2.
  - exfalso. apply Hx. rewrite <- E. apply in_map, H1.
Qed.
Lemma used_nth rs j : 0 <= j < zlen rs -> islive (nth (Z.to_nat j) rs []) = true -> In (nth (Z.to_nat j) rs []) (filter used rs).
Proof. intros Hj Hl. apply filter_In. split; [apply nth_In; unfold zlen in Hj; lia|exact Hl]. Qed.

(** ** One credential through one change *)
Definition keeps (c : capdu) (b : bool) (rs rs1 : list bytes) (r : bytes) : Prop :=
  if b && (c_ins c =? 2) && beqb (arg1 c) (rname r) then True
  else exists r1, In r1 (filter used rs1) /\ ctr_of r <= ctr_of r1 /\
    cred_of r1 = (if b && (c_ins c =? 5) && beqb (arg1 c) (rname r) then mkCred (arg2 c) (rkey r) (r_prop r) else cred_of r).

Lemma in_upd_other (rs : list bytes) i x n : (n < length rs)%nat -> n <> i -> (i <= length rs)%nat -> In (nth n rs []) (upd i x rs).
Proof.
  intros Hn Hne Hi. assert (nth n (upd i x rs) [] = nth n rs []) as <-.
  { rewrite nth_upd by lia. destruct (Nat.eqb_spec n i); [contradiction|reflexivity]. }
  apply nth_In. unfold upd. rewrite app_length. cbn [length]. rewrite firstn_length, skipn_length. lia.
Qed.
Lemma in_upd_same (rs : list bytes) i x : (i <= length rs)%nat -> In x (upd i x rs).
Proof. intros. unfold upd. apply in_or_app. right. left. reflexivity. Qed.

Lemma incs_keep (rs rs1 : list bytes) r : Forall rec_ok rs -> Forall2 incd rs rs1 -> In r rs -> used r = true ->
  exists r1, In r1 (filter used rs1) /\ ctr_of r <= ctr_of r1 /\ cred_of r1 = cred_of r.
Proof.
  intros Hok Hi Hr Hu. induction Hi as [|x y l m Hx _ IH]; [contradiction|]. inversion Hok as [|? ? Hox Hol]; subst.
  destruct Hr as [-> |Hr].
  - destruct (incd_cred r y Hox Hx) as (_ & E1 & E2 & E3). exists y. split; [|split; assumption]. apply filter_In. split; [left; reflexivity|congruence].
  - destruct IH as (r1 & H1 & H2); try assumption. exists r1. split; [|exact H2].
    apply filter_In in H1 as [H1 H3]. apply filter_In. split; [right; assumption|assumption].
Qed.

Lemma chg_keep c rs b rs1 r : Forall rec_ok rs -> NoDup (names rs) -> all_bytes (c_data c) -> chg c rs b rs1 ->
  In r (filter used rs) -> keeps c b rs rs1 r.
Proof.
  intros Hok Hnd Hb H Hr. apply filter_In in Hr as [Hr Hu].
  assert (Hid : forall b', (b' = false \/ beqb (arg1 c) (rname r) = false \/ (c_ins c <> 2 /\ c_ins c <> 5)) ->
    (exists r1, In r1 (filter used rs1) /\ ctr_of r <= ctr_of r1 /\ cred_of r1 = cred_of r) -> keeps c b' rs rs1 r).
  { intros b' Hb' (r1 & H1 & H2 & H3). unfold keeps.
    assert (b' && (c_ins c =? 2) && beqb (arg1 c) (rname r) = false) as -> by (destruct Hb' as [-> |[-> |[? ?]]]; [reflexivity|apply andb_false_r|lia]).
    assert (b' && (c_ins c =? 5) && beqb (arg1 c) (rname r) = false) as -> by (destruct Hb' as [-> |[-> |[? ?]]]; [reflexivity|apply andb_false_r|lia]).
    exists r1. repeat split; assumption. }
  assert (Hup : forall i x, (i <= length rs)%nat -> nth i rs [] <> r -> exists r1, In r1 (filter used (upd i x rs)) /\ ctr_of r <= ctr_of r1 /\ cred_of r1 = cred_of r).
  { intros i x Hi Hne. destruct (In_nth rs r [] Hr) as (n & Hn & En). exists r. split; [|split; [lia|reflexivity]].
    apply filter_In. split; [|assumption]. rewrite <- En. apply in_upd_other; try assumption. intros ->. contradiction. }
  destruct H as [rs1 Hi|j Hj Hl Ht Hlt|name key prop chal i r0 Hin Hp1 Hp2 Hp Hnn Hi Hd Hr0 En Ek Ep Ec
    |name j Hin Hp Hn Ha|old new j Hin Hp Ho Hn Hbn Hnn Ha].
  - apply Hid; [left; reflexivity|]. apply (incs_keep rs); assumption.
  - apply Hid; [left; reflexivity|]. set (r0 := nth (Z.to_nat j) rs []) in *.
    assert ((Z.to_nat j < length rs)%nat) as Hj' by (unfold zlen in Hj; lia).
    assert (rec_ok r0) as Hr0 by (apply oks_nth; assumption).
    destruct (list_eq_dec Z.eq_dec r0 r) as [E|E].
    + destruct (rechal_cred r0 (to_be 8 (ctr_of r0 + 1)) Hr0 ltac:(apply zlen_to_be)) as (E1 & E2 & E3).
      eexists. split; [apply filter_In; split; [apply in_upd_same; lia|]|].
      * rewrite E2, E. assumption.
      * rewrite E1, E3, E. split; [|reflexivity]. rewrite <- E, be_to_be, Z.mod_small; [lia|]. split; [|exact Hlt].
        assert (all_bytes (slice 133 8 r0)) as Hcb by (apply all_bytes_slice, Hr0). pose proof (be_nonneg _ Hcb) as Hp.
        change (be (slice 133 8 r0)) with (ctr_of r0) in Hp. lia.
    + apply Hup; [lia|exact E].
  - apply Hid; [right; right; rewrite Hin; split; discriminate|]. apply Hup; [unfold zlen in Hi; lia|]. intros E.
    destruct (Z.eq_dec i (zlen rs)) as [E2|E2].
    + rewrite nth_overflow in E by (unfold zlen in E2; lia). subst r. discriminate Hu.
    + specialize (Hd ltac:(lia)). rewrite E in Hd. unfold islive in Hd. unfold used in Hu. unfold r_name_len in Hd. congruence.
  - pose proof (parse_name_sound 2 (c_data c) ltac:(lia) Hb) as Hs. rewrite Hp in Hs. destruct Hs as (_ & _ & _ & Ed).
    pose proof (arg1_name c name _ Ed) as Ea. destruct Ha as [Hj En].
    destruct (beqb_spec (arg1 c) (rname r)) as [E|E].
    + unfold keeps. rewrite Hin, E, beqb_refl. exact I.
    + apply Hid; [right; left; reflexivity|]. apply Hup; [unfold zlen in Hj; lia|]. intros E2. apply E. congruence.
  - pose proof (parse_rename_sound (c_data c) Hb) as Hs. rewrite Hp in Hs. destruct Hs as (_ & _ & _ & _ & rest & Ed).
    pose proof (arg1_name c old _ Ed) as Ea. pose proof (arg2_name c old new rest Ed) as Ea2.
    destruct (at_live rs old j Hok ltac:(lia) Ha) as [Hl Hr0]. destruct Ha as [Hj En].
    assert ((Z.to_nat j < length rs)%nat) as Hj' by (unfold zlen in Hj; lia).
    destruct (beqb_spec (arg1 c) (rname r)) as [E|E].
    + assert (nth (Z.to_nat j) rs [] = r) as Er.
      { apply (nodup_used rs); [assumption|apply used_nth; assumption|apply filter_In; split; assumption|congruence]. }
      unfold keeps. rewrite Hin, E, beqb_refl. cbn [andb]. change (OATH_INS_RENAME =? 2) with false. change (OATH_INS_RENAME =? 5) with true. cbn [andb].
      destruct (rehead_fields (nth (Z.to_nat j) rs []) new ltac:(apply Hr0) ltac:(lia)) as (_ & F2 & F3 & _ & F4 & F5 & F6 & _).
      fold (renamed (nth (Z.to_nat j) rs []) new) in F2, F3, F4, F5, F6.
      exists (renamed (nth (Z.to_nat j) rs []) new). split; [|split].
      * apply filter_In. split; [apply in_upd_same; lia|]. unfold used. change (nth 0 ?x 0) with (r_name_len x). rewrite F2. lia.
      * unfold ctr_of. change (slice 133 8 ?x) with (r_chal x). rewrite F6, Er. lia.
      * change (cred_of (renamed ?x new)) with (mkCred (rname (renamed x new)) (rkey (renamed x new)) (r_prop (renamed x new))).
        rewrite F3, F4, F5, Ea2, Er. reflexivity.
    + apply Hid; [right; left; reflexivity|]. apply Hup; [lia|]. intros E2. apply E. congruence.
Qed.

(** ** Histories *)
Section Facts.
Variables hmac_sha1 hmac_sha256 hmac_sha512 : bytes -> bytes -> bytes.
Hypothesis Hsha1 : digest_ok 20 hmac_sha1.
Hypothesis Hsha256 : digest_ok 32 hmac_sha256.
Hypothesis Hsha512 : digest_ok 64 hmac_sha512.
Variable junk : bytes.
Hypothesis Hjunk : zlen junk = 141.
Hypothesis Hjunkb : all_bytes junk.
Notation step := (step hmac_sha1 hmac_sha256 hmac_sha512 junk).
Notation hist := (hist hmac_sha1 hmac_sha256 hmac_sha512 junk).
Notation step_good := (step_good hmac_sha1 hmac_sha256 hmac_sha512 Hsha1 Hsha256 Hsha512 junk Hjunk Hjunkb).

Lemma hist_good d tr d' rs k h : good d rs k h -> hist d tr d' -> tr_ok tr -> exists rs' k', good d' rs' k' h.
Proof.
  intros Hg H. revert rs k Hg. induction H as [d|d ev o d1 tr d2 Hs H IH]; intros rs k Hg Ht; [eauto|].
  inversion Ht as [|? ? He Ht']; subst. destruct (step_good d ev rs k h Hg He) as (o' & d' & rs' & k' & Hs' & Hg' & _).
  rewrite Hs in Hs'. injection Hs' as <- <-. eapply IH; eassumption.
Qed.
Lemma hist_app d tr1 d1 tr2 d2 : hist d tr1 d1 -> hist d1 tr2 d2 -> hist d (tr1 ++ tr2) d2.
Proof. induction 1; intros H2; [exact H2|]. cbn [app]. econstructor; eauto. Qed.

Definition ev_data (ev : event) : option capdu :=
  match ev with Cmd _ c _ _ _ | CutCmd _ c _ _ _ _ => Some c | _ => None end.
Lemma ev_data_ok ev c : ev_ok ev -> ev_data ev = Some c -> all_bytes (c_data c).
Proof. destruct ev; cbn; intros H [= <-]; apply H. Qed.

Lemma expected_perm A B tr A' : Permutation A B -> expected A tr A' -> exists B', expected B tr B' /\ Permutation A' B'.
Proof.
  intros HP H. revert B HP. induction H as [A|A nfc c flt rnd tch r tr A' Hsw H IH|A nfc c flt rnd tch r tr A' Hsw H IH|A nfc c flt rnd tch n o tr A' H IH|A ev o tr A' Hev H IH];
    intros B HP.
  - exists B. split; [constructor|assumption].
  - assert (Permutation (apply_cmd c A) (apply_cmd c B)) as HP'.
    { unfold apply_cmd. destruct (_ =? _); [apply Permutation_cons; [reflexivity|assumption]|].
      destruct (_ =? _).
      - clear -HP. induction HP; cbn [filter]; [constructor| | |eapply Permutation_trans; eassumption].
        + destruct (not_named _ x); [constructor; assumption|assumption].
        + destruct (not_named _ x), (not_named _ y); try reflexivity. apply perm_swap.
      - destruct (_ =? _); [apply Permutation_map; assumption|assumption]. }
    destruct (IH _ HP') as (B' & H1 & H2). exists B'. split; [constructor; assumption|assumption].
  - destruct (IH _ HP) as (B' & H1 & H2). exists B'. split; [apply ex_refused; assumption|assumption].
  - assert (Permutation (apply_cmd c A) (apply_cmd c B)) as HP'.
    { unfold apply_cmd. destruct (_ =? _); [apply Permutation_cons; [reflexivity|assumption]|].
      destruct (_ =? _).
      - clear -HP. induction HP; cbn [filter]; [constructor| | |eapply Permutation_trans; eassumption].
        + destruct (not_named _ x); [constructor; assumption|assumption].
        + destruct (not_named _ x), (not_named _ y); try reflexivity. apply perm_swap.
      - destruct (_ =? _); [apply Permutation_map; assumption|assumption]. }
    destruct (IH _ HP') as (B' & H1 & H2). exists B'. split; [apply ex_cut; assumption|assumption].
  - destruct (IH _ HP) as (B' & H1 & H2). exists B'. split; [apply ex_other; assumption|assumption].
Qed.

Lemma step_resp d nfc c flt rnd tch o d' : step d (Cmd nfc c flt rnd tch) = Some (o, d') -> exists r, o = Resp r.
Proof. cbn [OathSpec.step]. destruct (cmd_run _ _ _ _ _ _ _ _ _ d) as [[[r|] s] e]; [|discriminate]. intros [= <- _]. eauto. Qed.

Lemma hist_creds d tr d' rs k h : good d rs k h -> hist d tr d' -> tr_ok tr ->
  exists rs' k' A, good d' rs' k' h /\ expected (creds rs) tr A /\ Permutation A (creds rs').
Proof.
  intros Hg H. revert rs k Hg. induction H as [d|d ev o d1 tr d2 Hs H IH]; intros rs k Hg Ht.
  { exists rs, k, (creds rs). split; [assumption|]. split; [constructor|reflexivity]. }
  inversion Ht as [|? ? He Ht']; subst. cbn [fst] in He. destruct (step_good d ev rs k h Hg He) as (o' & d' & rs1 & k1 & Hs' & Hg' & Hc).
  rewrite Hs in Hs'. injection Hs' as <- <-.
  destruct (IH rs1 k1 Hg' Ht') as (rs' & k' & A & Hg2 & HA & HP). exists rs', k'.
  assert (Hperm : forall B, Permutation (creds rs1) B -> exists A', expected B tr A' /\ Permutation A' (creds rs')).
  { intros B HB. destruct (expected_perm _ B tr A HB HA) as (A' & H1 & H2). exists A'. split; [assumption|].
    eapply Permutation_trans; [apply Permutation_sym, H2|exact HP]. }
  destruct Hg as ((_ & Hoks & _ & Hnd) & _).
  destruct ev as [nfc c flt rnd tch|kind flt|c flt| |nfc c flt rnd tch n|kind flt n|c flt n]; cbn [ev_chg] in Hc.
  - destruct (step_resp _ _ _ _ _ _ _ _ Hs) as [r ->].
    apply chg_creds in Hc; [|assumption|assumption|apply He].
    destruct (Z.eqb_spec (r_sw r) 0x9000) as [Esw|Esw]; cbn [andb] in Hc.
    + destruct (Hperm (apply_cmd c (creds rs))) as (A' & H1 & H2).
      { destruct (store_cmd c) eqn:Est; [exact Hc|]. unfold apply_cmd. unfold store_cmd in Est.
        destruct (c_ins c =? 1), (c_ins c =? 2), (c_ins c =? 5); try discriminate. exact Hc. }
      exists A'. split; [assumption|]. split; [apply ex_done; assumption|assumption].
    + destruct (Hperm (creds rs) Hc) as (A' & H1 & H2).
      exists A'. split; [assumption|]. split; [apply ex_refused; assumption|assumption].
  - specialize (Hc (mkC 0 0 0 0 [] 0)). apply chg_creds in Hc; [|assumption|assumption|constructor].
    destruct (Hperm _ Hc) as (A' & H1 & H2). exists A'. split; [assumption|]. split; [apply ex_other; [discriminate|assumption]|assumption].
  - specialize (Hc (mkC 0 0 0 0 [] 0)). apply chg_creds in Hc; [|assumption|assumption|constructor].
    destruct (Hperm _ Hc) as (A' & H1 & H2). exists A'. split; [assumption|]. split; [apply ex_other; [discriminate|assumption]|assumption].
  - specialize (Hc (mkC 0 0 0 0 [] 0)). apply chg_creds in Hc; [|assumption|assumption|constructor].
    destruct (Hperm _ Hc) as (A' & H1 & H2). exists A'. split; [assumption|]. split; [apply ex_other; [discriminate|assumption]|assumption].
  - destruct Hc as [b Hc]. apply chg_creds in Hc; [|assumption|assumption|apply He].
    destruct (Hperm _ Hc) as (A' & H1 & H2). exists A'. split; [assumption|]. split; [|assumption].
    destruct b; [apply ex_cut; assumption|apply ex_other; [discriminate|assumption]].
  - specialize (Hc (mkC 0 0 0 0 [] 0)). apply chg_creds in Hc; [|assumption|assumption|constructor].
    destruct (Hperm _ Hc) as (A' & H1 & H2). exists A'. split; [assumption|]. split; [apply ex_other; [discriminate|assumption]|assumption].
  - specialize (Hc (mkC 0 0 0 0 [] 0)). apply chg_creds in Hc; [|assumption|assumption|constructor].
    destruct (Hperm _ Hc) as (A' & H1 & H2). exists A'. split; [assumption|]. split; [apply ex_other; [discriminate|assumption]|assumption].
Qed.

(** One credential through a history: its counter never decreases. *)
Lemma keeps_none c rs rs1 r b : keeps c b rs rs1 r -> b = false \/ c_ins c <> 2 /\ c_ins c <> 5 \/ beqb (arg1 c) (rname r) = false ->
  exists r1, In r1 (filter used rs1) /\ ctr_of r <= ctr_of r1 /\ cred_of r1 = cred_of r.
Proof.
  unfold keeps. intros H Hb.
  assert (b && (c_ins c =? 2) && beqb (arg1 c) (rname r) = false) as E1 by (destruct Hb as [-> |[[? ?]| ->]]; [reflexivity|lia|apply andb_false_r]).
  assert (b && (c_ins c =? 5) && beqb (arg1 c) (rname r) = false) as E2 by (destruct Hb as [-> |[[? ?]| ->]]; [reflexivity|lia|apply andb_false_r]).
  rewrite E1, E2 in H. exact H.
Qed.
Lemma follow_ctr d tr d' rs k h r t' : good d rs k h -> hist d tr d' -> tr_ok tr -> In r (filter used rs) ->
  follow (rname r) tr = Some t' ->
  exists rs' k' r', good d' rs' k' h /\ In r' (filter used rs') /\ cred_of r' = mkCred t' (rkey r) (r_prop r) /\ ctr_of r <= ctr_of r'.
Proof.
  intros Hg H. revert rs k r Hg. induction H as [d|d ev o d1 tr d2 Hs H IH]; intros rs k r Hg Ht Hr Hf.
  { cbn [follow] in Hf. injection Hf as <-. exists rs, k, r. split; [assumption|]. split; [assumption|]. split; [reflexivity|lia]. }
  inversion Ht as [|? ? He Ht']; subst. cbn [fst] in He. destruct (step_good d ev rs k h Hg He) as (o' & d' & rs1 & k1 & Hs' & Hg' & Hc).
  rewrite Hs in Hs'. injection Hs' as <- <-.
  destruct Hg as ((_ & Hoks & _ & Hnd) & _).
  assert (Hgo : forall r1, In r1 (filter used rs1) -> ctr_of r <= ctr_of r1 -> rkey r1 = rkey r -> r_prop r1 = r_prop r ->
     follow (rname r1) tr = Some t' ->
     exists rs' k' r', good d2 rs' k' h /\ In r' (filter used rs') /\ cred_of r' = mkCred t' (rkey r) (r_prop r) /\ ctr_of r <= ctr_of r').
  { intros r1 H1 H2 H3 H4 H5. destruct (IH rs1 k1 r1 Hg' Ht' H1 H5) as (rs' & k' & r' & G1 & G2 & G3 & G4).
    exists rs', k', r'. split; [assumption|]. split; [assumption|]. split; [congruence|lia]. }
  assert (Hsame : follow (rname r) tr = Some t' -> (exists r1, In r1 (filter used rs1) /\ ctr_of r <= ctr_of r1 /\ cred_of r1 = cred_of r) ->
     exists rs' k' r', good d2 rs' k' h /\ In r' (filter used rs') /\ cred_of r' = mkCred t' (rkey r) (r_prop r) /\ ctr_of r <= ctr_of r').
  { intros Hf' (r1 & H1 & H2 & H3). change (cred_of ?x) with (mkCred (rname x) (rkey x) (r_prop x)) in H3. injection H3 as E1 E2 E3.
    apply (Hgo r1); try assumption. rewrite E1. assumption. }
  assert (Hother : (forall c, chg c rs false rs1) -> follow (rname r) tr = Some t' ->
     exists rs' k' r', good d2 rs' k' h /\ In r' (filter used rs') /\ cred_of r' = mkCred t' (rkey r) (r_prop r) /\ ctr_of r <= ctr_of r').
  { intros Hc' Hf'. apply Hsame; [assumption|]. specialize (Hc' (mkC 0 0 0 0 [] 0)).
    apply (chg_keep _ _ _ _ r) in Hc'; [|assumption|assumption|constructor|assumption]. eapply keeps_none; [eassumption|left; reflexivity]. }
  destruct ev as [nfc c flt rnd tch|kind flt|c flt| |nfc c flt rnd tch n|kind flt n|c flt n]; cbn [ev_chg follow] in Hc, Hf;
    try (apply Hother; assumption).
  - destruct (step_resp _ _ _ _ _ _ _ _ Hs) as [rr ->].
    apply (chg_keep _ _ _ _ r) in Hc; [|assumption|assumption|apply He|assumption].
    destruct ((c_ins c =? 2) && beqb (arg1 c) (rname r) && (r_sw rr =? 0x9000)) eqn:E2; [discriminate|].
    destruct ((c_ins c =? 5) && beqb (arg1 c) (rname r) && (r_sw rr =? 0x9000)) eqn:E5.
    + unfold keeps, store_cmd in Hc. apply andb_prop in E5 as [E5 Esw]. apply andb_prop in E5 as [E5 Ea]. apply Z.eqb_eq in E5.
      rewrite Esw, Ea, E5 in Hc. cbn [andb orb Z.eqb Pos.eqb] in Hc. destruct Hc as (r1 & H1 & H2 & H3).
      change (cred_of r1) with (mkCred (rname r1) (rkey r1) (r_prop r1)) in H3. injection H3 as F1 F2 F3.
      apply (Hgo r1); try assumption. rewrite F1. assumption.
    + apply Hsame; [assumption|]. eapply keeps_none; [exact Hc|]. unfold store_cmd.
      destruct (beqb (arg1 c) (rname r)); [|right; right; reflexivity]. rewrite !andb_true_r in *.
      destruct (Z.eqb_spec (r_sw rr) 0x9000); [|left; reflexivity]. rewrite !andb_true_r in *. right; left. lia.
  - destruct Hc as [b Hc]. apply (chg_keep _ _ _ _ r) in Hc; [|assumption|assumption|apply He|assumption].
    destruct (((c_ins c =? 2) || (c_ins c =? 5)) && beqb (arg1 c) (rname r)) eqn:E; [discriminate|].
    apply Hsame; [assumption|]. eapply keeps_none; [exact Hc|]. right.
    destruct (beqb (arg1 c) (rname r)); [left|right; reflexivity]. lia.
Qed.

(** ** Codes *)
Lemma trunc_dt h : all_bytes h -> 20 <= zlen h -> oath_trunc h = Some (to_be 4 (dt h)) /\ 0 <= dt h < 2 ^ 31.
Proof.
  intros Hb Hz. destruct (trunc_ok hmac_sha1 hmac_sha256 hmac_sha512 Hsha1 Hsha256 Hsha512 junk h Hb Hz) as (b & E & Hl & Hbb & Hv). unfold dt.
  assert (last h 0 = nth (length h - 1) h 0) as El.
  { clear. induction h as [|x h IH]; [reflexivity|]. destruct h as [|y h]; [reflexivity|]. change (last (x :: y :: h) 0) with (last (y :: h) 0).
    rewrite IH. cbn [length]. replace (S (S (length h)) - 1)%nat with (S (length h)) by lia. cbn [nth]. replace (S (length h) - 1)%nat with (length h) by lia. reflexivity. }
  rewrite El. change 15 with (Z.ones 4) in Hv. rewrite Z.land_ones in Hv by lia. change (2 ^ 4) with 16 in Hv. rewrite <- Hv.
  split; [|rewrite Hv; apply Z.mod_pos_bound; lia]. rewrite E. f_equal. replace 4%nat with (length b) by (unfold zlen in Hl; lia). symmetry. apply to_be_be. assumption.
Qed.
Lemma hmac_mac r m : rec_ok r -> oath_hmac hmac_sha1 hmac_sha256 hmac_sha512 r m = Some (mac hmac_sha1 hmac_sha256 hmac_sha512 (cred_of r) m).
Proof.
  intros Hr. pose proof Hr as (Hz & _ & _ & Hk & _). unfold REC in Hz. unfold oath_hmac. rewrite (r_secret_ok r Hr).
  assert (forall i, 0 <= i < r_key_len r -> nth (Z.to_nat i) (rkey r) 0 = nth (66 + Z.to_nat i) r 0) as Hn.
  { intros i Hi. unfold rkey. rewrite nth_slice by lia. destruct (Nat.ltb_spec (Z.to_nat i) (Z.to_nat (r_key_len r))); [reflexivity|lia]. }
  unfold mac, alg. change (cr_key (cred_of r)) with (rkey r). pose proof (Hn 0 ltac:(lia)) as H0. change (Z.to_nat 0) with 0%nat in H0. rewrite H0. change (nth (66 + 0) r 0) with (r_algbyte r). fold (r_alg r).
  assert (secret (cred_of r) = slice 68 (r_key_len r - 2) r) as ->; [|reflexivity].
  unfold secret. change (cr_key (cred_of r)) with (rkey r). unfold rkey, slice. rewrite skipn_firstn_comm, skipn_skipn.
  replace (Z.to_nat (r_key_len r - 2)) with (Z.to_nat (r_key_len r) - 2)%nat by lia. reflexivity.
Qed.
Lemma mac_ok r m : rec_ok r -> all_bytes (mac hmac_sha1 hmac_sha256 hmac_sha512 (cred_of r) m) /\ 20 <= zlen (mac hmac_sha1 hmac_sha256 hmac_sha512 (cred_of r) m) <= 64.
Proof.
  intros Hr. unfold mac. destruct (_ =? _); [|destruct (_ =? _)].
  - destruct (Hsha1 (secret (cred_of r)) m) as [E ?]. split; [assumption|lia].
  - destruct (Hsha256 (secret (cred_of r)) m) as [E ?]. split; [assumption|lia].
  - destruct (Hsha512 (secret (cred_of r)) m) as [E ?]. split; [assumption|lia].
Qed.
Lemma answer_code tr r m : rec_ok r -> answer hmac_sha1 hmac_sha256 hmac_sha512 tr r m = Some (code_resp hmac_sha1 hmac_sha256 hmac_sha512 tr (cred_of r) m).
Proof.
  intros Hr. pose proof Hr as (Hz & _ & _ & Hk & _). unfold REC in Hz. unfold answer. rewrite (hmac_mac r m Hr). destruct (mac_ok r m Hr) as [Hb Hl].
  assert (ndigits (cred_of r) = r_digits r) as Ed.
  { unfold ndigits, r_digits. change (cr_key (cred_of r)) with (slice 66 (r_key_len r) r). rewrite nth_slice by lia. destruct (Nat.ltb_spec 1 (Z.to_nat (r_key_len r))); [reflexivity|lia]. }
  unfold code_resp. rewrite Ed. destruct tr.
  - destruct (trunc_dt _ Hb ltac:(lia)) as [-> _]. reflexivity.
  - unfold u8. rewrite Z.mod_small by lia. reflexivity.
Qed.
End Facts.

Ltac kill_ins Hins := first [discriminate | congruence | lia
  | match goal with H : c_ins ?c = _ |- _ => rewrite Hins in H; discriminate H end
  | match goal with H : c_ins ?c = _ \/ c_ins ?c = _ /\ _ |- _ => rewrite Hins in H; destruct H as [H|[H _]]; discriminate H end
  | match goal with H : c_ins ?c = _ /\ _ \/ c_ins ?c = _ /\ _ |- _ => rewrite Hins in H; destruct H as [[H _]|[H _]]; discriminate H end
  | match goal with H : ~ In (c_ins ?c) _ |- _ => rewrite Hins in H; exfalso; apply H; cbn; tauto end
  | match goal with H : [] <> [] |- _ => exfalso; apply H; reflexivity end ].
