(** The metadata of the relying parties: one record of 76 bytes for each, with the hash of its id and the set of the slots of its credentials. *)
From Verif Require Import CtapSpec CtapFrame CtapRel CtapCred CtapStore.
Open Scope string_scope. Open Scope list_scope. Open Scope Z_scope.

(** ** Specification *)
(** The record number [i] *)
Definition entry_at (F : fs) (i : Z) : option bytes :=
  match fdata F "ctap_dm" with
  | Some l => if (0 <=? i) && ((i + 1) * 76 <=? zlen l) then Some (slice (i * 76) 76 l) else None
  | None => None
  end.
(** The relying party (hash of the id: bytes 34 to 65 of a credential id) of the credential shown in slot [j] *)
Definition party (F : fs) (j : Z) : option bytes := match shown_at F j with Some d => Some (slice 34 32 (slice 0 70 d)) | None => None end.
(** Slot [j] is in the set of record [i], which is for the relying party [h]; the slot of an unfinished operation does not count. *)
Definition in_set (F : fs) (i j : Z) (h : bytes) : Prop :=
  exists m, entry_at F i = Some m /\ slice 0 32 m = h /\ Z.testbit (le (slice 68 8 m)) j = true /\ unfinished F <> Some j.
(** The metadata is consistent: the slots in the sets are those with credentials, of that relying party, and no relying party has two records
    with slots. *)
Definition consistent (F : fs) : Prop :=
  (forall i j h, in_set F i j h -> party F j = Some h) /\
  (forall j h, party F j = Some h -> exists i, in_set F i j h) /\
  (forall i1 i2 j1 j2 h, in_set F i1 j1 h -> in_set F i2 j2 h -> i1 = i2).

(** ** The invariant *)
Definition MI (P : Z -> option bytes) (U : option Z) (E : Z -> option bytes) : Prop :=
  (forall i m j, E i = Some m -> Z.testbit (m_slots m) j = true -> U = Some j \/ P j = Some (m_hash m)) /\
  (forall j h, P j = Some h -> U <> Some j /\ exists i m, E i = Some m /\ Z.testbit (m_slots m) j = true) /\
  (forall i1 i2 m1 m2, i1 < i2 -> E i1 = Some m1 -> E i2 = Some m2 -> m_hash m1 = m_hash m2 -> m_slots m2 = 0) /\
  (forall i1 i2 m1 m2 j, E i1 = Some m1 -> E i2 = Some m2 -> Z.testbit (m_slots m1) j = true -> Z.testbit (m_slots m2) j = true -> i1 = i2) /\
  (forall i m, E i = Some m -> 0 <= i < 64 /\ 0 <= m_slots m < 2 ^ 64).
Definition MIF (F : fs) : Prop := MI (party F) (unfinished F) (entry_at F).
Definition upd {A} (f : Z -> A) (k : Z) (v : A) (j : Z) : A := if j =? k then v else f j.
Lemma upd_same {A} (f : Z -> A) k v : upd f k v k = v. Proof. unfold upd. rewrite Z.eqb_refl. reflexivity. Qed.
Lemma upd_other {A} (f : Z -> A) k v j : j <> k -> upd f k v j = f j. Proof. intros H. unfold upd. destruct (j =? k) eqn:E; [lia|reflexivity]. Qed.
Lemma bit_nz n j : Z.testbit n j = true -> n <> 0. Proof. intros H ->. rewrite Z.testbit_0_l in H. discriminate. Qed.

Lemma MI_ext P P' U E E' : (forall j, P' j = P j) -> (forall i, E' i = E i) -> MI P U E -> MI P' U E'.
Proof.
  intros HP HE (A & B & C & D & G). split; [|split; [|split; [|split]]].
  - intros i m j. rewrite HE, HP. apply A.
  - intros j h. rewrite HP. intros H. destruct (B j h H) as (B1 & i & m & B2). split; [exact B1|]. exists i, m. rewrite HE. exact B2.
  - intros i1 i2 m1 m2. rewrite !HE. apply C.
  - intros i1 i2 m1 m2 j. rewrite !HE. apply D.
  - intros i m. rewrite HE. apply G.
Qed.
Lemma MI_consistent F : MIF F -> consistent F.
Proof.
  intros (A & B & C & D & G). unfold consistent, in_set. change (fun m => le (slice 68 8 m)) with m_slots. split; [|split].
  - intros i j h (m & H1 & H2 & H3 & H4). destruct (A i m j H1 H3) as [H|H]; [congruence|]. rewrite H, <- H2. reflexivity.
  - intros j h H. destruct (B j h H) as (B1 & i & m & B2 & B3). exists i, m. split; [exact B2|]. split; [|auto]. destruct (A i m j B2 B3) as [H1|H1]; [congruence|]. rewrite H in H1. injection H1 as ->. reflexivity.
  - intros i1 i2 j1 j2 h (m1 & H1 & H2 & H3 & _) (m2 & K1 & K2 & K3 & _). destruct (Z.lt_trichotomy i1 i2) as [L|[L|L]]; [|exact L|].
    + elim (bit_nz _ _ K3). apply (C i1 i2 m1 m2 L H1 K1). unfold m_hash. congruence.
    + elim (bit_nz _ _ H3). apply (C i2 i1 m2 m1 L K1 H1). unfold m_hash. congruence.
Qed.
(** An operation on slot [k] is begun. *)
Lemma MI_begin P E k : MI P None E -> MI (upd P k None) (Some k) E.
Proof.
  intros (A & B & C & D & G). split; [|split; [|split; [|split]]]; try assumption.
  - intros i m j H1 H2. destruct (Z.eq_dec j k) as [->|Hj]; [left; reflexivity|]. rewrite upd_other by exact Hj. destruct (A i m j H1 H2); [discriminate|auto].
  - intros j h H. destruct (Z.eq_dec j k) as [->|Hj]; [rewrite upd_same in H; discriminate|]. rewrite upd_other in H by exact Hj. destruct (B j h H) as (_ & B1). split; [congruence|exact B1].
Qed.
(** It is finished: the slot is empty, *)
Lemma MI_end_none P E k : MI P (Some k) E -> (forall i m, E i = Some m -> Z.testbit (m_slots m) k = false) -> MI P None E.
Proof.
  intros (A & B & C & D & G) H. split; [|split; [|split; [|split]]]; try assumption.
  - intros i m j H1 H2. destruct (A i m j H1 H2) as [H3|H3]; [|auto]. injection H3 as ->. rewrite (H i m H1) in H2. discriminate.
  - intros j h H1. destruct (B j h H1) as (_ & B1). split; [discriminate|exact B1].
Qed.
(** or it has a credential of the party that has it. *)
Lemma MI_end_some P E k h : MI P (Some k) E -> (exists i m, E i = Some m /\ Z.testbit (m_slots m) k = true /\ m_hash m = h) -> MI (upd P k (Some h)) None E.
Proof.
  intros (A & B & C & D & G) (i0 & m0 & H1 & H2 & H3). split; [|split; [|split; [|split]]]; try assumption.
  - intros i m j K1 K2. right. destruct (Z.eq_dec j k) as [->|Hj].
    + rewrite upd_same. assert (i = i0) as -> by (apply (D i i0 m m0 k); assumption). rewrite H1 in K1. injection K1 as <-. congruence.
    + rewrite upd_other by exact Hj. destruct (A i m j K1 K2) as [K|K]; [congruence|exact K].
  - intros j h' H. split; [discriminate|]. destruct (Z.eq_dec j k) as [->|Hj]; [eauto|]. rewrite upd_other in H by exact Hj. apply (B j h' H).
Qed.
(** A slot is taken out of a set. *)
Lemma bit_drop n k j : 0 <= k -> 0 <= j -> Z.testbit (Z.land n (Z.lnot (2 ^ k))) j = Z.testbit n j && negb (j =? k).
Proof. intros Hk Hj. rewrite Z.land_spec, Z.lnot_spec by exact Hj. rewrite Z.pow2_bits_eqb by exact Hk. rewrite (Z.eqb_sym k j). reflexivity. Qed.
Lemma drop_bound n k : 0 <= n < 2 ^ 64 -> 0 <= Z.land n (Z.lnot (2 ^ k)) < 2 ^ 64.
Proof.
  intros H. assert (H0 : 0 <= Z.land n (Z.lnot (2 ^ k))) by (apply Z.land_nonneg; lia). split; [exact H0|].
  assert (Z.land n (Z.lnot (2 ^ k)) <= n); [|lia]. rewrite <- Z.ldiff_land. apply Z.ldiff_le; [lia|]. apply Z.bits_inj'. intros j Hj. rewrite Z.ldiff_spec, Z.ldiff_spec, Z.bits_0. destruct (Z.testbit n j); [|reflexivity]. cbn. rewrite andb_false_r. reflexivity.
Qed.
Lemma bit_range n j : 0 <= n < 2 ^ 64 -> Z.testbit n j = true -> 0 <= j < 64.
Proof.
  intros Hn H. destruct (Z_lt_dec j 0) as [Hj|Hj]; [rewrite Z.testbit_neg_r in H by exact Hj; discriminate|]. split; [lia|]. destruct (Z_lt_dec j 64) as [|Hge]; [assumption|]. rewrite Z.bits_above_log2 in H; [discriminate|lia|].
  destruct (Z.eq_dec n 0) as [->|Hz]; [change (Z.log2 0) with 0; lia|]. assert (Z.log2 n < 64) by (apply Z.log2_lt_pow2; lia). lia.
Qed.
Lemma MI_drop P E k i m m' : MI P (Some k) E -> E i = Some m -> 0 <= k -> m_hash m' = m_hash m -> m_slots m' = Z.land (m_slots m) (Z.lnot (2 ^ k)) -> MI P (Some k) (upd E i (Some m')).
Proof.
  intros (A & B & C & D & G) Hi Hk Hh Hs.
  assert (S : forall i' m2, upd E i (Some m') i' = Some m2 -> exists m1, E i' = Some m1 /\ m_hash m2 = m_hash m1 /\ (m_slots m1 = 0 -> m_slots m2 = 0) /\ (forall j, Z.testbit (m_slots m2) j = true -> Z.testbit (m_slots m1) j = true) /\ (0 <= m_slots m1 < 2 ^ 64 -> 0 <= m_slots m2 < 2 ^ 64)).
  { intros i' m2. destruct (Z.eq_dec i' i) as [->|Hn]; [rewrite upd_same; intros H; injection H as <-; exists m|rewrite upd_other by exact Hn; intros H; exists m2; auto].
    split; [exact Hi|]. split; [exact Hh|]. rewrite Hs. split; [intros ->; reflexivity|]. split; [|apply drop_bound]. intros j Hj. destruct (Z_lt_dec j 0); [rewrite Z.testbit_neg_r in Hj by lia; discriminate|]. rewrite bit_drop in Hj by lia. apply andb_true_iff in Hj. tauto. }
  split; [|split; [|split; [|split]]].
  - intros i' m2 j H1 H2. destruct (S i' m2 H1) as (m1 & S1 & S2 & _ & S4 & _). destruct (A i' m1 j S1 (S4 j H2)); [auto|right; congruence].
  - intros j h H. destruct (B j h H) as (B1 & i' & m1 & B2 & B3). split; [exact B1|]. exists i'. destruct (Z.eq_dec i' i) as [->|Hn]; [|exists m1; rewrite upd_other by exact Hn; auto]. exists m'. rewrite upd_same. split; [reflexivity|].
    assert (m1 = m) as -> by congruence. destruct (G i m Hi) as (_ & G1). pose proof (bit_range _ _ G1 B3). rewrite Hs, bit_drop by lia. rewrite B3. destruct (j =? k) eqn:Ejk; [elim B1; f_equal; lia|reflexivity].
  - intros i1 i2 m1 m2 L H1 H2 H3. destruct (S i1 m1 H1) as (a1 & S1 & S2 & _). destruct (S i2 m2 H2) as (a2 & T1 & T2 & T3 & _). apply T3. apply (C i1 i2 a1 a2 L S1 T1). congruence.
  - intros i1 i2 m1 m2 j H1 H2 K1 K2. destruct (S i1 m1 H1) as (a1 & S1 & _ & _ & S2 & _). destruct (S i2 m2 H2) as (a2 & T1 & _ & _ & T2 & _). apply (D i1 i2 a1 a2 j S1 T1 (S2 j K1) (T2 j K2)).
  - intros i' m2 H. destruct (S i' m2 H) as (a1 & S1 & _ & _ & _ & S2). destruct (G i' a1 S1). auto.
Qed.
Lemma MI_gone P E k i m m' : MI P (Some k) E -> E i = Some m -> 0 <= k -> Z.testbit (m_slots m) k = true -> m_slots m' = Z.land (m_slots m) (Z.lnot (2 ^ k)) ->
  forall i2 m2, upd E i (Some m') i2 = Some m2 -> Z.testbit (m_slots m2) k = false.
Proof.
  intros (_ & _ & _ & D & _) Hi Hk Hb Hs i2 m2. destruct (Z.eq_dec i2 i) as [->|Hn].
  - rewrite upd_same. intros H. injection H as <-. rewrite Hs, bit_drop by lia. rewrite Z.eqb_refl. apply andb_false_r.
  - rewrite upd_other by exact Hn. intros H. destruct (Z.testbit (m_slots m2) k) eqn:E2; [|reflexivity]. elim Hn. apply (D i2 i m2 m k); assumption.
Qed.
(** A slot is put into the set of a party; before, only sets of this party had it. *)
Lemma bit_add n k j : 0 <= k -> Z.testbit (Z.lor n (2 ^ k)) j = Z.testbit n j || (j =? k).
Proof. intros Hk. rewrite Z.lor_spec, Z.pow2_bits_eqb by exact Hk. rewrite (Z.eqb_sym k j). reflexivity. Qed.
Lemma add_bound n k : 0 <= n < 2 ^ 64 -> 0 <= k < 64 -> 0 <= Z.lor n (2 ^ k) < 2 ^ 64.
Proof.
  intros H Hk. assert (H0 : 0 < 2 ^ k) by lia. assert (H1 : 0 <= Z.lor n (2 ^ k)) by (apply Z.lor_nonneg; lia). split; [exact H1|].
  assert (Hz : Z.lor n (2 ^ k) <> 0) by (intros E; apply Z.lor_eq_0_iff in E; lia). apply Z.log2_lt_pow2; [lia|]. rewrite Z.log2_lor by lia. rewrite Z.log2_pow2 by lia.
  destruct (Z.eq_dec n 0) as [->|]; [change (Z.log2 0) with 0; lia|]. assert (Z.log2 n < 64) by (apply Z.log2_lt_pow2; lia). lia.
Qed.
Lemma MI_add P E k i m m' : MI P (Some k) E -> E i = Some m -> 0 <= k < 64 -> m_slots m <> 0 -> m_hash m' = m_hash m -> m_slots m' = Z.lor (m_slots m) (2 ^ k) ->
  (forall i2 m2, E i2 = Some m2 -> Z.testbit (m_slots m2) k = true -> m_hash m2 = m_hash m) -> MI P (Some k) (upd E i (Some m')).
Proof.
  intros (A & B & C & D & G) Hi Hk Hnz Hh Hs Hu.
  assert (U1 : forall i2 m2, E i2 = Some m2 -> Z.testbit (m_slots m2) k = true -> i2 = i).
  { intros i2 m2 H1 H2. pose proof (Hu i2 m2 H1 H2) as H3. destruct (Z.lt_trichotomy i2 i) as [L|[L|L]]; [|exact L|]; exfalso.
    - apply Hnz. apply (C i2 i m2 m L H1 Hi). exact H3.
    - apply (bit_nz _ _ H2). apply (C i i2 m m2 L Hi H1). congruence. }
  assert (S : forall i' m2, upd E i (Some m') i' = Some m2 -> exists m1, E i' = Some m1 /\ m_hash m2 = m_hash m1 /\ (i' <> i -> m2 = m1) /\ (forall j, Z.testbit (m_slots m2) j = true -> Z.testbit (m_slots m1) j = true \/ i' = i /\ j = k) /\ (0 <= m_slots m1 < 2 ^ 64 -> 0 <= m_slots m2 < 2 ^ 64)).
  { intros i' m2. destruct (Z.eq_dec i' i) as [->|Hn]; [rewrite upd_same; intros H; injection H as <-; exists m|rewrite upd_other by exact Hn; intros H; exists m2; repeat split; auto; lia].
    split; [exact Hi|]. split; [exact Hh|]. rewrite Hs. split; [congruence|]. split; [|intros H; apply add_bound; lia]. intros j Hj. rewrite bit_add in Hj by lia. apply orb_true_iff in Hj. destruct Hj; [auto|right; lia]. }
  split; [|split; [|split; [|split]]].
  - intros i' m2 j H1 H2. destruct (S i' m2 H1) as (m1 & S1 & S2 & _ & S4 & _). destruct (S4 j H2) as [H3|(_ & ->)]; [|left; reflexivity]. destruct (A i' m1 j S1 H3); [auto|right; congruence].
  - intros j h H. destruct (B j h H) as (B1 & i' & m1 & B2 & B3). split; [exact B1|]. exists i'. destruct (Z.eq_dec i' i) as [->|Hn]; [|exists m1; rewrite upd_other by exact Hn; auto]. exists m'. rewrite upd_same. split; [reflexivity|].
    assert (m1 = m) as -> by congruence. rewrite Hs, bit_add by lia. rewrite B3. reflexivity.
  - intros i1 i2 m1 m2 L H1 H2 H3. destruct (S i1 m1 H1) as (a1 & S1 & S2 & _). destruct (S i2 m2 H2) as (a2 & T1 & T2 & T3 & _).
    assert (Z0 : m_slots a2 = 0) by (apply (C i1 i2 a1 a2 L S1 T1); congruence). destruct (Z.eq_dec i2 i) as [->|Hn]; [congruence|]. rewrite (T3 Hn). exact Z0.
  - intros i1 i2 m1 m2 j H1 H2 K1 K2. destruct (S i1 m1 H1) as (a1 & S1 & _ & _ & S2 & _). destruct (S i2 m2 H2) as (a2 & T1 & _ & _ & T2 & _).
    destruct (S2 j K1) as [K3|(K7 & K8)]; destruct (T2 j K2) as [K4|(K5 & K6)]; [apply (D i1 i2 a1 a2 j S1 T1 K3 K4)| | |congruence]; subst j; [rewrite K5; apply (U1 i1 a1 S1 K3)|rewrite K7; symmetry; apply (U1 i2 a2 T1 K4)].
  - intros i' m2 H. destruct (S i' m2 H) as (a1 & S1 & _ & _ & _ & S2). destruct (G i' a1 S1). auto.
Qed.
(** A record for a party that has none: it takes the place of the first one without slots, or comes last. *)
Lemma MI_new P E k i m' : MI P (Some k) E -> 0 <= i < 64 -> 0 <= k < 64 -> m_slots m' = 2 ^ k -> (forall m, E i = Some m -> m_slots m = 0) ->
  (forall i2 m2, E i2 = Some m2 -> m_hash m2 = m_hash m' -> m_slots m2 = 0) -> (forall i2 m2, i2 < i -> E i2 = Some m2 -> m_slots m2 <> 0) ->
  (forall i2 m2, E i2 = Some m2 -> Z.testbit (m_slots m2) k = false) -> MI P (Some k) (upd E i (Some m')).
Proof.
  intros (A & B & C & D & G) Hi Hk Hs H0 Hu Hfirst Hbit. assert (Hb : forall j, Z.testbit (m_slots m') j = true -> j = k) by (intros j; rewrite Hs, Z.pow2_bits_eqb by lia; lia).
  split; [|split; [|split; [|split]]].
  - intros i' m j. destruct (Z.eq_dec i' i) as [->|Hn]; [rewrite upd_same|rewrite upd_other by exact Hn; apply A]. intros H1 H2. injection H1 as <-. left. f_equal. symmetry. apply Hb, H2.
  - intros j h H. destruct (B j h H) as (B1 & i' & m1 & B2 & B3). split; [exact B1|]. exists i', m1. rewrite upd_other; [auto|]. intros ->. apply (bit_nz _ _ B3). apply H0, B2.
  - intros i1 i2 m1 m2 L. destruct (Z.eq_dec i1 i) as [->|N1]; [rewrite upd_same, upd_other by lia|rewrite (upd_other _ _ _ i1) by exact N1; destruct (Z.eq_dec i2 i) as [->|N2]; [rewrite upd_same|rewrite upd_other by exact N2; apply C; exact L]].
    + intros H1 H2 H3. injection H1 as <-. apply (Hu i2 m2 H2). congruence.
    + intros H1 H2 H3. injection H2 as <-. elim (Hfirst i1 m1 L H1). apply (Hu i1 m1 H1). exact H3.
  - assert (N : forall i1 m1 j, i1 <> i -> E i1 = Some m1 -> Z.testbit (m_slots m1) j = true -> Z.testbit (m_slots m') j = true -> False).
    { intros i1 m1 j _ H1 H2 H3. apply Hb in H3. subst j. rewrite (Hbit i1 m1 H1) in H2. discriminate. }
    intros i1 i2 m1 m2 j. destruct (Z.eq_dec i1 i) as [->|N1]; [rewrite upd_same|rewrite (upd_other _ _ _ i1) by exact N1]; (destruct (Z.eq_dec i2 i) as [->|N2]; [rewrite upd_same|rewrite upd_other by exact N2]); intros H1 H2 K1 K2.
    + reflexivity.
    + injection H1 as <-. elim (N i2 m2 j N2 H2 K2 K1).
    + injection H2 as <-. elim (N i1 m1 j N1 H1 K1 K2).
    + apply (D i1 i2 m1 m2 j); assumption.
  - intros i' m. destruct (Z.eq_dec i' i) as [->|Hn]; [rewrite upd_same|rewrite upd_other by exact Hn; apply G]. intros H. injection H as <-. split; [exact Hi|]. rewrite Hs. split; [lia|]. apply Z.pow_lt_mono_r; lia.
Qed.
Lemma map_nodup {A B} (f : A -> B) l : (forall a b, In a l -> In b l -> f a = f b -> a = b) -> NoDup l -> NoDup (map f l).
Proof.
  intros H N. induction N as [|a l Ha N IH]; [constructor|]. cbn [map]. constructor; [|apply IH; intros x y Hx Hy; apply H; right; assumption].
  intros Hi. apply in_map_iff in Hi. destruct Hi as (b & H1 & H2). apply Ha. replace a with b; [exact H2|]. apply H; [right; exact H2|left; reflexivity|exact H1].
Qed.
(** If all of the first [n] records have slots, and none has slot [k], there is room for another one. *)
Lemma MI_room P U E n k : MI P U E -> 0 <= k < 64 -> 0 <= n -> (forall i, 0 <= i < n -> exists m, E i = Some m /\ m_slots m <> 0 /\ Z.testbit (m_slots m) k = false) -> n < 64.
Proof.
  intros (A & B & C & D & G) Hk Hn H. set (f := fun i => match E (Z.of_nat i) with Some m => Z.to_nat (Z.log2 (m_slots m)) | None => O end).
  assert (Hf : forall i, 0 <= i < n -> exists m, E i = Some m /\ Z.testbit (m_slots m) (Z.log2 (m_slots m)) = true /\ 0 <= Z.log2 (m_slots m) < 64 /\ Z.log2 (m_slots m) <> k).
  { intros i Hi. destruct (H i Hi) as (m & H1 & H2 & H3). destruct (G i m H1) as (_ & G1). exists m. assert (Hb : Z.testbit (m_slots m) (Z.log2 (m_slots m)) = true) by (apply Z.bit_log2; lia). split; [exact H1|]. split; [exact Hb|]. split; [apply (bit_range _ _ G1 Hb)|]. intros <-. congruence. }
  set (l := map f (seq 0 (Z.to_nat n))). assert (ND : NoDup (Z.to_nat k :: l)).
  { constructor.
    - intros HI. apply in_map_iff in HI. destruct HI as (i & H1 & H2). apply in_seq in H2. destruct (Hf (Z.of_nat i)) as (m & K1 & _ & K2 & K3); [lia|]. unfold f in H1. rewrite K1 in H1. apply K3. lia.
    - apply map_nodup; [|apply seq_NoDup]. intros a b Ha Hb He. apply in_seq in Ha, Hb. destruct (Hf (Z.of_nat a)) as (m1 & K1 & K2 & K3 & _); [lia|]. destruct (Hf (Z.of_nat b)) as (m2 & J1 & J2 & J3 & _); [lia|]. unfold f in He. rewrite K1, J1 in He.
      assert (He' : Z.log2 (m_slots m1) = Z.log2 (m_slots m2)) by lia. rewrite He' in K2. pose proof (D _ _ m1 m2 _ K1 J1 K2 J2). lia. }
  assert (IN : incl (Z.to_nat k :: l) (seq 0 64)).
  { intros x [<-|Hx]; [apply in_seq; lia|]. apply in_map_iff in Hx. destruct Hx as (i & <- & H2). apply in_seq in H2. destruct (Hf (Z.of_nat i)) as (m & K1 & _ & K2 & _); [lia|]. unfold f. rewrite K1. apply in_seq. lia. }
  pose proof (NoDup_incl_length ND IN) as HL. cbn [length] in HL. unfold l in HL. rewrite map_length, !seq_length in HL. lia.
Qed.
(** ** The file *)
Lemma entry_read F j d : fread F "ctap_dm" (j * 76) 76 = Some d -> zlen d = 76 -> entry_at F j = Some d /\ 0 <= j.
Proof.
  unfold fread, entry_at, fdata. destruct (F "ctap_dm") as [f|]; [|discriminate]. destruct (j * 76 <? 0) eqn:E; [discriminate|]. intros H Hz. injection H as <-. rewrite zlen_slice in Hz by lia.
  destruct (0 <=? j) eqn:E1; [|lia]. destruct ((j + 1) * 76 <=? zlen (f_data f)) eqn:E2; [split; [reflexivity|lia]|lia].
Qed.
Lemma entry_len F j d : entry_at F j = Some d -> zlen d = 76 /\ 0 <= j.
Proof.
  unfold entry_at. destruct (fdata F "ctap_dm") as [l|]; [|discriminate]. destruct (0 <=? j) eqn:E1; [|discriminate]. cbn [andb]. destruct ((j + 1) * 76 <=? zlen l) eqn:E2; [|discriminate]. intros H. injection H as <-. split; [rewrite zlen_slice; lia|lia].
Qed.
Lemma slice_at76 (l r : bytes) k j : 0 <= k -> 0 <= j -> k * 76 <= zlen l -> zlen r = 76 -> j <> k -> (j + 1) * 76 <= zlen l -> slice (j * 76) 76 (write_at l (k * 76) r) = slice (j * 76) 76 l.
Proof.
  intros Hk Hj Hl Hr Hn Hs. unfold write_at. replace (zeros (k * 76 - zlen l)) with (@nil Z) by (unfold zeros; replace (Z.to_nat (k * 76 - zlen l)) with O by lia; reflexivity). rewrite app_nil_r.
  assert (Hr' : length r = 76%nat) by (unfold zlen in Hr; lia). destruct (Z_lt_dec j k) as [H|H].
  - unfold slice. set (a := Z.to_nat (j * 76)). set (n := Z.to_nat 76). assert (Hf : length (firstn (Z.to_nat (k * 76)) l) = Z.to_nat (k * 76)) by (rewrite firstn_length; unfold zlen in Hl; lia).
    rewrite skipn_app, firstn_app. replace (n - length (skipn a (firstn (Z.to_nat (k * 76)) l)))%nat with O by (rewrite skipn_length, Hf; unfold a, n; lia). rewrite firstn_O, app_nil_r.
    rewrite skipn_firstn_comm, firstn_firstn. f_equal. unfold a, n. lia.
  - rewrite app_assoc. assert (Hf : zlen (firstn (Z.to_nat (k * 76)) l ++ r) = (k + 1) * 76) by (rewrite zlen_app, zlen_firstn; lia). rewrite slice_app_r by lia. rewrite Hf, Hr'.
    unfold slice. rewrite skipn_skipn. f_equal. f_equal. lia.
Qed.
Lemma slice_same76 (l r : bytes) k : 0 <= k -> k * 76 <= zlen l -> zlen r = 76 -> slice (k * 76) 76 (write_at l (k * 76) r) = r.
Proof.
  intros Hk Hl Hr. unfold write_at. replace (zeros (k * 76 - zlen l)) with (@nil Z) by (unfold zeros; replace (Z.to_nat (k * 76 - zlen l)) with O by lia; reflexivity). rewrite app_nil_r.
  pose proof (slice_mid (firstn (Z.to_nat (k * 76)) l) r (skipn (Z.to_nat (k * 76) + length r) l)) as H. rewrite Hr, zlen_firstn in H. replace (Z.min (Z.of_nat (Z.to_nat (k * 76))) (zlen l)) with (k * 76) in H by lia. exact H.
Qed.
Lemma zlen_write76 (l r : bytes) k : 0 <= k -> k * 76 <= zlen l -> zlen r = 76 -> zlen (write_at l (k * 76) r) = Z.max (zlen l) ((k + 1) * 76).
Proof.
  intros Hk Hl Hr. unfold write_at. replace (zeros (k * 76 - zlen l)) with (@nil Z) by (unfold zeros; replace (Z.to_nat (k * 76 - zlen l)) with O by lia; reflexivity). rewrite app_nil_r.
  rewrite !zlen_app, zlen_firstn, zlen_skipn. assert (Z.of_nat (length r) = 76) by exact Hr. lia.
Qed.
(** The file can take a record in slot [k]. *)
Definition room76 (F : fs) (k : Z) : Prop := 0 <= k /\ match fdata F "ctap_dm" with Some l => k * 76 <= zlen l | None => False end.
Lemma fwrite_dm F k r f : F DC_META_FILE = Some f -> r <> [] -> fwrite F DC_META_FILE r (k * 76) false DC_META_FILE = Some (mkF (write_at (f_data f) (k * 76) r) (f_attr f)).
Proof. intros Hf Hr. unfold fwrite, fcreate. rewrite Hf. rewrite Hf, fset_same. destruct r as [|x r]; [congruence|]. reflexivity. Qed.
Lemma room76_file F k : room76 F k -> exists f, F DC_META_FILE = Some f /\ k * 76 <= zlen (f_data f) /\ 0 <= k.
Proof. intros (H1 & H2). unfold fdata in H2. change "ctap_dm" with DC_META_FILE in H2. destruct (F DC_META_FILE) as [f|]; [|destruct H2]. exists f. auto. Qed.
Lemma entry_write F k r j : room76 F k -> zlen r = 76 -> entry_at (fwrite F DC_META_FILE r (k * 76) false) j = if j =? k then Some r else entry_at F j.
Proof.
  intros HR Hr. destruct (room76_file F k HR) as (f & Hf & Hl & Hk). assert (Hn : r <> []) by (intros ->; discriminate Hr). unfold entry_at, fdata. change "ctap_dm" with DC_META_FILE. rewrite (fwrite_dm F k r f Hf Hn), Hf. cbn [f_data]. rewrite zlen_write76 by assumption.
  destruct (j =? k) eqn:E.
  - apply Z.eqb_eq in E. subst j. destruct (0 <=? k) eqn:E1; [|lia]. cbn [andb]. destruct ((k + 1) * 76 <=? Z.max (zlen (f_data f)) ((k + 1) * 76)) eqn:E2; [|lia]. f_equal. apply slice_same76; assumption.
  - destruct (0 <=? j) eqn:E1; [|reflexivity]. cbn [andb]. destruct ((j + 1) * 76 <=? zlen (f_data f)) eqn:E2.
    + destruct ((j + 1) * 76 <=? Z.max (zlen (f_data f)) ((k + 1) * 76)) eqn:E3; [|lia]. f_equal. apply slice_at76; lia.
    + destruct ((j + 1) * 76 <=? Z.max (zlen (f_data f)) ((k + 1) * 76)) eqn:E3; [lia|reflexivity].
Qed.

Lemma m_parts h r l s : zlen h = 32 -> zlen r = 32 -> 0 <= s < 2 ^ 64 -> zlen (meta_make h r l s) = 76 /\ m_hash (meta_make h r l s) = h /\ m_slots (meta_make h r l s) = s.
Proof.
  intros Hh Hr Hs. assert (T : forall n c, zlen (to_le n c) = Z.of_nat n) by (intros n c; unfold to_le, zlen; rewrite rev_length, to_be_length; reflexivity).
  unfold meta_make. split; [rewrite !zlen_app, Hh, Hr, !T; reflexivity|]. split.
  - unfold m_hash. pose proof (slice_mid [] h (r ++ to_le 4 l ++ to_le 8 s)) as H. rewrite Hh in H. exact H.
  - unfold m_slots. pose proof (slice_mid (h ++ r ++ to_le 4 l) (to_le 8 s) []) as H. rewrite !zlen_app, Hh, Hr, !T, app_nil_r in H. rewrite <- !app_assoc in H. change (32 + (32 + Z.of_nat 4)) with 68 in H. change (Z.of_nat 8) with 8 in H. rewrite H.
    unfold le, to_le. rewrite rev_involutive, be_to_be. apply Z.mod_small. exact Hs.
Qed.
Lemma party_dc F G j : G DC_FILE = F DC_FILE -> party G j = party F j.
Proof. intros H. unfold party. rewrite (same_dc F G H j). reflexivity. Qed.
Lemma entry_dm F G i : G DC_META_FILE = F DC_META_FILE -> entry_at G i = entry_at F i.
Proof. intros H. unfold entry_at, fdata. change "ctap_dm" with DC_META_FILE. rewrite H. reflexivity. Qed.
Lemma MIF_as F G : G DC_FILE = F DC_FILE -> G DC_META_FILE = F DC_META_FILE -> MIF F -> MIF G.
Proof. intros H1 H2 H. unfold MIF. rewrite (unfinished_dc F G H1). apply (MI_ext (party F) _ _ (entry_at F)); [intros j; apply party_dc; exact H1|intros i; apply entry_dm; exact H2|exact H]. Qed.
Lemma MIF_indep p : p <> DC_FILE -> p <> DC_META_FILE -> indep MIF p.
Proof. intros H1 H2 F x H. apply (MIF_as F); [apply fset_other; congruence|apply fset_other; congruence|exact H]. Qed.
Lemma entry_room F i m : entry_at F i = Some m -> room76 F i.
Proof. unfold entry_at, room76. destruct (fdata F "ctap_dm") as [l|]; [|discriminate]. destruct (0 <=? i) eqn:E; [|discriminate]. cbn [andb]. destruct ((i + 1) * 76 <=? zlen l) eqn:E2; [|discriminate]. intros _. lia. Qed.
Lemma entry_dom F z i : fsize F DC_META_FILE = Some z -> (entry_at F i <> None <-> 0 <= i < z / 76).
Proof.
  intros H. unfold fsize in H. unfold entry_at, fdata. change "ctap_dm" with DC_META_FILE. destruct (F DC_META_FILE) as [f|]; [|discriminate]. injection H as <-. pose proof (Z.div_mod (zlen (f_data f)) 76). pose proof (Z.mod_pos_bound (zlen (f_data f)) 76).
  destruct (0 <=? i) eqn:E; cbn [andb]; [|split; [congruence|lia]]. destruct ((i + 1) * 76 <=? zlen (f_data f)) eqn:E2; (split; [intros _; lia || congruence|intros _; try discriminate; lia]) || (split; [congruence|lia]).
Qed.
(** ** The operations on the metadata *)
Definition post {A} (F : fs) (R : fs -> Prop) (o : out A) (_ : ctap) (e : env) : Prop :=
  Forall MIF (e_log e) /\ MIF (e_fs e) /\ e_fs e DC_FILE = F DC_FILE /\ match o with Ret _ => R (e_fs e) | _ => True end.
Lemma meta_write_wp F i r s L X R T O : room76 F i -> zlen r = 76 -> MIF F -> Forall MIF L -> MI (party F) (unfinished F) (upd (entry_at F) i (Some r)) ->
  wp (must (write_file DC_META_FILE r (i * 76) false)) (post F (fun G => forall i', entry_at G i' = upd (entry_at F) i (Some r) i')) s (mkE F L X R T O).
Proof.
  intros HR Hr HF HL HN. destruct (room76_file F i HR) as (f & Hf & _). assert (LC : lcreate F L DC_META_FILE = L) by (unfold lcreate; rewrite Hf; reflexivity). assert (FC : fcreate F DC_META_FILE = F) by (unfold fcreate; rewrite Hf; reflexivity).
  unfold must. apply wp_bind. apply wp_write_file; [intros X3 _|intros _ X3|intros _ X3]; rewrite ?LC, ?FC.
  2,3: apply wp_guard; intros Eg; [discriminate|]; split; [exact HL|]; split; [exact HF|]; split; [reflexivity|exact I].
  apply wp_guard; intros Eg; [|discriminate]. assert (HD : fwrite F DC_META_FILE r (i * 76) false DC_FILE = F DC_FILE).
  { unfold fwrite. rewrite FC, Hf. destruct r; [reflexivity|]. apply fset_other. discriminate. }
  assert (HE : forall i', entry_at (fwrite F DC_META_FILE r (i * 76) false) i' = upd (entry_at F) i (Some r) i') by (intros i'; apply entry_write; assumption).
  assert (HM : MIF (fwrite F DC_META_FILE r (i * 76) false)). { unfold MIF. rewrite (unfinished_dc F _ HD). eapply MI_ext; [| |exact HN]; [intros j; apply party_dc; exact HD|exact HE]. }
  split; [constructor; [exact HM|exact HL]|]. split; [exact HM|]. split; [exact HD|exact HE].
Qed.
Lemma rec_wp F i s L X R T O {B} (f : bytes -> Mc B) (Q : out B -> ctap -> env -> Prop) :
  (forall X' m, entry_at F i = Some m -> zlen m = 76 -> wp (f m) Q s (mkE F L X' R T O)) -> (forall o X', match o with Ret _ => False | _ => True end -> Q o s (mkE F L X' R T O)) ->
  wp (m <- read_rec DC_META_FILE META_SIZE i ;; f m) Q s (mkE F L X R T O).
Proof.
  intros H1 H2. apply wp_bind. unfold read_rec, got. apply wp_bind, wp_bind. apply wp_read_file. intros X' r _ Hr. destruct r as [m|]; [|apply H2; exact I]. apply wp_ret. change META_SIZE with 76 in *. destruct (zlen m =? 76) eqn:E; [|apply H2; exact I]. apply wp_ret.
  destruct Hr as [Hr|Hr]; [discriminate|]. apply Z.eqb_eq in E. destruct (entry_read F i m) as (Hm & _); [symmetry; exact Hr|exact E|]. apply H1; assumption.
Qed.
Lemma cleared F i m k : MIF F -> unfinished F = Some k -> 0 <= k -> entry_at F i = Some m -> zlen m = 76 ->
  let m' := meta_make (m_hash m) (m_rpid m) (m_len m) (Z.land (m_slots m) (Z.lnot (2 ^ k))) in
  zlen m' = 76 /\ m_slots m' = Z.land (m_slots m) (Z.lnot (2 ^ k)) /\ MI (party F) (unfinished F) (upd (entry_at F) i (Some m')).
Proof.
  intros HF Hu Hk Hm Hl m'. pose proof HF as (_ & _ & _ & _ & G). destruct (G i m Hm) as (_ & Gs). destruct (m_parts (m_hash m) (m_rpid m) (m_len m) (Z.land (m_slots m) (Z.lnot (2 ^ k)))) as (P1 & P2 & P3); [unfold m_hash; rewrite zlen_slice; lia|unfold m_rpid; rewrite zlen_slice; lia|apply drop_bound, Gs|].
  split; [exact P1|]. split; [exact P3|]. unfold MIF in HF. rewrite Hu in *. apply (MI_drop _ _ k i m); assumption.
Qed.
Lemma drop_slot_wp k n i F s L X R T O : MIF F -> unfinished F = Some k -> Forall MIF L -> (forall i' m, i' < i -> entry_at F i' = Some m -> Z.testbit (m_slots m) k = false) ->
  (forall i', entry_at F i' <> None -> i' < i + Z.of_nat n) ->
  wp (drop_slot n i k) (post F (fun G => forall i' m, entry_at G i' = Some m -> Z.testbit (m_slots m) k = false)) s (mkE F L X R T O).
Proof.
  revert i X. induction n as [|n IH]; intros i X HF Hu HL Hb Ha; cbn [drop_slot].
  - apply wp_ret. split; [exact HL|]. split; [exact HF|]. split; [reflexivity|]. cbn [e_fs]. intros i' m Hm. apply (Hb i' m); [|exact Hm]. specialize (Ha i'). rewrite Hm in Ha. assert (i' < i + Z.of_nat 0) by (apply Ha; discriminate). lia.
  - apply rec_wp; [|intros o X' Ho; split; [exact HL|]; split; [exact HF|]; split; [reflexivity|destruct o; [destruct Ho|exact I|exact I|exact I]]]. intros X' m Hm Hl. destruct (Z.testbit (m_slots m) k) eqn:E.
    + assert (Hk : 0 <= k) by (destruct (Z_lt_dec k 0) as [Hn|]; [rewrite Z.testbit_neg_r in E by exact Hn; discriminate|lia]).
      destruct (cleared F i m k HF Hu Hk Hm Hl) as (P1 & P2 & P3). eapply wp_mono; [apply (meta_write_wp F i); [apply (entry_room F i m Hm)|exact P1|exact HF|exact HL|exact P3]|].
      intros [u|w| |] s' e' (H1 & H2 & H3 & H4); (split; [exact H1|]; split; [exact H2|]; split; [exact H3|]); try exact I. intros i' m'. rewrite H4. unfold MIF in HF. rewrite Hu in HF. apply (MI_gone _ _ k i m _ HF Hm Hk E P2).
    + apply IH; try assumption; [|intros i' Hi'; specialize (Ha i' Hi'); lia]. intros i' m' Hi Hm'. destruct (Z.eq_dec i' i) as [->|]; [congruence|]. apply (Hb i'); [lia|exact Hm'].
Qed.
Lemma drop_from_wp k h n i F s L X R T O i0 m0 : MIF F -> unfinished F = Some k -> 0 <= k -> Forall MIF L -> entry_at F i0 = Some m0 -> Z.testbit (m_slots m0) k = true -> m_hash m0 = h -> i <= i0 < i + Z.of_nat n ->
  wp (drop_from_meta n i k h) (post F (fun G => forall i' m, entry_at G i' = Some m -> Z.testbit (m_slots m) k = false)) s (mkE F L X R T O).
Proof.
  intros HF Hu Hk HL He Hb Hh. revert i X. induction n as [|n IH]; intros i X Hi; cbn [drop_from_meta]; [lia|].
  apply rec_wp; [|intros o X' Ho; split; [exact HL|]; split; [exact HF|]; split; [reflexivity|destruct o; [destruct Ho|exact I|exact I|exact I]]]. intros X' m Hm Hl. destruct (beqb (m_hash m) h) eqn:E.
  - apply beqb_eq in E. assert (i0 = i) as ->. { destruct (Z.eq_dec i0 i) as [|Hne]; [assumption|]. pose proof HF as (_ & _ & C & _). elim (bit_nz _ _ Hb). apply (C i i0 m m0); [lia|exact Hm|exact He|congruence]. } assert (m0 = m) as -> by congruence.
    destruct (cleared F i m k HF Hu Hk Hm Hl) as (P1 & P2 & P3). eapply wp_mono; [apply (meta_write_wp F i); [apply (entry_room F i m Hm)|exact P1|exact HF|exact HL|exact P3]|].
    intros [u|w| |] s' e' (H1 & H2 & H3 & H4); (split; [exact H1|]; split; [exact H2|]; split; [exact H3|]); try exact I. intros i' m'. rewrite H4. unfold MIF in HF. rewrite Hu in HF. apply (MI_gone _ _ k i m _ HF Hm Hk Hb P2).
  - apply IH. destruct (Z.eq_dec i0 i) as [->|]; [|lia]. assert (m0 = m) as -> by congruence. rewrite Hh, beqb_refl in E. discriminate.
Qed.
(** What the search for the record of a party finds among the first [n] *)
Definition meta_found (F : fs) (rp : bytes) (n : Z) (r : Z * Z * option Z) : Prop :=
  let '(mp, mf, sl) := r in
  match sl with
  | Some z => exists m, entry_at F mp = Some m /\ m_slots m = z /\ z <> 0 /\ m_hash m = rp
  | None => mp = n /\ (forall i m, 0 <= i < n -> entry_at F i = Some m -> m_slots m = 0 \/ m_hash m <> rp) /\
      (mf = 64 /\ (forall i m, 0 <= i < n -> entry_at F i = Some m -> m_slots m <> 0) \/
       0 <= mf < 64 /\ (exists m, entry_at F mf = Some m /\ m_slots m = 0) /\ forall i m, 0 <= i < mf -> entry_at F i = Some m -> m_slots m <> 0)
  end.
Lemma find_meta_wp rp F n pos fd s L X R T O : MIF F -> 0 <= pos -> meta_found F rp pos (pos, fd, None) ->
  wp (find_meta n pos fd rp) (fun o s' e' => e_fs e' = F /\ e_log e' = L /\ match o with Ret r => meta_found F rp (pos + Z.of_nat n) r | _ => True end) s (mkE F L X R T O).
Proof.
  intros HF. revert pos fd X. induction n as [|n IH]; intros pos fd X Hp Hf; cbn [find_meta].
  - apply wp_ret. cbn [e_fs e_log]. replace (pos + Z.of_nat 0) with pos by lia. auto.
  - apply rec_wp; [|intros o X' Ho; destruct o; [destruct Ho|cbn; auto|cbn; auto|cbn; auto]]. intros X' m Hm Hl. cbn [meta_found] in Hf. destruct Hf as (_ & H1 & H2). replace (pos + Z.of_nat (S n)) with (pos + 1 + Z.of_nat n) by lia.
    pose proof HF as (_ & _ & _ & _ & G). destruct (G pos m Hm) as (G1 & _). change MAX_DC_NUM with 64 in *. destruct (m_slots m =? 0) eqn:E0.
    + apply IH; [lia|]. cbn [meta_found]. split; [reflexivity|]. split.
      * intros i m2 Hi Hm2. destruct (Z.eq_dec i pos) as [->|]; [left; assert (m2 = m) by congruence; subst; lia|apply (H1 i); [lia|exact Hm2]].
      * right. destruct H2 as [(-> & H2)|(H2 & H3 & H4)].
        -- rewrite Z.eqb_refl. split; [lia|]. split; [exists m; split; [exact Hm|lia]|exact H2].
        -- destruct (fd =? 64) eqn:E; [lia|]. auto.
    + destruct (beqb rp (m_hash m)) eqn:Eh.
      * apply wp_ret. cbn [e_fs e_log meta_found]. split; [reflexivity|]. split; [reflexivity|]. exists m. apply beqb_eq in Eh. split; [exact Hm|]. split; [reflexivity|]. split; [lia|congruence].
      * apply IH; [lia|]. cbn [meta_found]. split; [reflexivity|]. split.
        -- intros i m2 Hi Hm2. destruct (Z.eq_dec i pos) as [->|]; [right; assert (m2 = m) by congruence; subst m2; intros Hx; rewrite <- Hx, beqb_refl in Eh; discriminate|apply (H1 i); [lia|exact Hm2]].
        -- destruct H2 as [(-> & H2)|H2]; [left|right; exact H2]. split; [reflexivity|]. intros i m2 Hi Hm2. destruct (Z.eq_dec i pos) as [->|]; [assert (m2 = m) by congruence; subst; lia|apply (H2 i); [lia|exact Hm2]].
Qed.
(** ** The file of the credentials *)
(** [F'] has the records of [F], but for that of slot [k], and the same metadata. *)
Definition but (k : Z) (F F' : fs) : Prop := (forall j, j <> k -> credential F' j = credential F j) /\ F' DC_META_FILE = F DC_META_FILE.
Lemma party_none F j : unfinished F = None -> party F j = match credential F j with Some d => Some (id_rp (dc_id d)) | None => None end.
Proof. intros H. unfold party. rewrite (shown_none F j H). reflexivity. Qed.
Lemma party_some F k j : unfinished F = Some k -> party F j = if j =? k then None else match credential F j with Some d => Some (id_rp (dc_id d)) | None => None end.
Proof. intros H. unfold party. rewrite (shown_some F k j H), Z.eqb_sym. destruct (j =? k); reflexivity. Qed.
Lemma MIF_begun k F F' : unfinished F = None -> unfinished F' = Some k -> but k F F' -> MIF F -> MIF F'.
Proof.
  intros U U' (HC & HM) H. unfold MIF in *. rewrite U' in *. rewrite U in H. apply (MI_ext (upd (party F) k None) _ _ (entry_at F)); [|intros i; apply entry_dm; exact HM|apply MI_begin; exact H].
  intros j. rewrite (party_some F' k j U'). unfold upd. destruct (j =? k) eqn:E; [reflexivity|]. rewrite (party_none F j U), HC by lia. reflexivity.
Qed.
Lemma MIF_hidden k F F' : unfinished F = Some k -> unfinished F' = Some k -> but k F F' -> MIF F -> MIF F'.
Proof.
  intros U U' (HC & HM) H. unfold MIF in *. rewrite U' in *. rewrite U in H. apply (MI_ext (party F) _ _ (entry_at F)); [|intros i; apply entry_dm; exact HM|exact H].
  intros j. rewrite (party_some F' k j U'), (party_some F k j U). destruct (j =? k) eqn:E; [reflexivity|]. rewrite HC by lia. reflexivity.
Qed.
Lemma MIF_removed k F F' : unfinished F = Some k -> unfinished F' = None -> but k F F' -> credential F' k = None -> (forall i m, entry_at F i = Some m -> Z.testbit (m_slots m) k = false) -> MIF F -> MIF F'.
Proof.
  intros U U' (HC & HM) Hk Hb H. unfold MIF in *. rewrite U' in *. rewrite U in H. apply (MI_ext (party F) _ _ (entry_at F)); [|intros i; apply entry_dm; exact HM|apply (MI_end_none _ _ k); assumption].
  intros j. rewrite (party_none F' j U'), (party_some F k j U). destruct (j =? k) eqn:E; [apply Z.eqb_eq in E; subst j; rewrite Hk; reflexivity|]. rewrite HC by lia. reflexivity.
Qed.
Lemma MIF_added k F F' d : unfinished F = Some k -> unfinished F' = None -> but k F F' -> credential F' k = Some d ->
  (exists i m, entry_at F i = Some m /\ Z.testbit (m_slots m) k = true /\ m_hash m = id_rp (dc_id d)) -> MIF F -> MIF F'.
Proof.
  intros U U' (HC & HM) Hk Hb H. unfold MIF in *. rewrite U' in *. rewrite U in H. apply (MI_ext (upd (party F) k (Some (id_rp (dc_id d)))) _ _ (entry_at F)); [|intros i; apply entry_dm; exact HM|apply MI_end_some; assumption].
  intros j. rewrite (party_none F' j U'). unfold upd. destruct (j =? k) eqn:E; [apply Z.eqb_eq in E; subst j; rewrite Hk; reflexivity|]. rewrite (party_some F k j U), E. rewrite HC by lia. reflexivity.
Qed.
Lemma MIF_same F F' : unfinished F = None -> unfinished F' = None -> (forall j, party F' j = party F j) -> F' DC_META_FILE = F DC_META_FILE -> MIF F -> MIF F'.
Proof. intros U U' HP HM H. unfold MIF in *. rewrite U' in *. rewrite U in H. apply (MI_ext (party F) _ _ (entry_at F)); [exact HP|intros i; apply entry_dm; exact HM|exact H]. Qed.
