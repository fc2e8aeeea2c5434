(** Lemmas about the OATH applet. *)
From Verif Require Import Sys Apdu Applet Pass Oath.
From Coq Require Import Permutation.
Open Scope string_scope. Open Scope list_scope. Open Scope Z_scope.

(** ** The credential file as a list of records *)
Definition upd {A} (i : nat) (x : A) (l : list A) : list A := firstn i l ++ x :: skipn (S i) l.

Definition recs_of (F : fs) (rs : list bytes) : Prop :=
  fdata F OATH_FILE = Some (concat rs) /\ Forall (fun r => zlen r = REC) rs.

Lemma zlen_concat (rs : list bytes) : Forall (fun r => zlen r = REC) rs -> zlen (concat rs) = REC * zlen rs.
Proof.
  induction 1 as [|r rs Hr _ IH]; [reflexivity|]. cbn [concat].
  rewrite zlen_app, zlen_cons, IH, Hr. lia.
Qed.
Lemma nat_concat (rs : list bytes) : Forall (fun r => zlen r = REC) rs -> length (concat rs) = (141 * length rs)%nat.
Proof. intros H. apply zlen_concat in H. unfold zlen, REC in H. lia. Qed.

Lemma Forall_firstn' {A} (P : A -> Prop) n l : Forall P l -> Forall P (firstn n l).
Proof. intros H; revert n; induction H; intros [|n]; cbn; constructor; auto. Qed.
Lemma Forall_skipn' {A} (P : A -> Prop) n l : Forall P l -> Forall P (skipn n l).
Proof. intros H; revert n; induction H; intros [|n]; cbn; auto. Qed.
Lemma Forall_upd {A} (P : A -> Prop) i x l : Forall P l -> P x -> Forall P (upd i x l).
Proof.
  intros H Hx. unfold upd. apply Forall_app; split; [apply Forall_firstn'; assumption|].
  constructor; [assumption|apply Forall_skipn'; assumption].
Qed.
Lemma Forall_nth' {A} (P : A -> Prop) l d i : Forall P l -> (i < length l)%nat -> P (nth i l d).
Proof. intros H Hi. rewrite Forall_forall in H. apply H, nth_In, Hi. Qed.

Lemma list_split_nth {A} i (l : list A) d : (i < length l)%nat -> l = firstn i l ++ nth i l d :: skipn (S i) l.
Proof.
  revert i; induction l as [|x l IH]; intros [|i] H; cbn in *; try lia; [reflexivity|].
  f_equal. apply IH. lia.
Qed.

Lemma firstn_concat i (rs : list bytes) : Forall (fun r => zlen r = REC) rs ->
  firstn (141 * i) (concat rs) = concat (firstn i rs).
Proof.
  intros H. revert i; induction H as [|r rs Hr Hf IH]; intros i.
  - cbn [concat]. rewrite !firstn_nil. reflexivity.
  - destruct i as [|i]; [rewrite Nat.mul_0_r; reflexivity|].
    cbn [concat firstn]. rewrite firstn_app.
    assert (length r = 141%nat) as Hl by (unfold zlen, REC in Hr; lia).
    rewrite firstn_all2 by lia. f_equal. rewrite Hl. rewrite <- IH. f_equal. lia.
Qed.
Lemma skipn_concat i (rs : list bytes) : Forall (fun r => zlen r = REC) rs ->
  skipn (141 * i) (concat rs) = concat (skipn i rs).
Proof.
  intros H. revert i; induction H as [|r rs Hr Hf IH]; intros i.
  - cbn [concat]. rewrite !skipn_nil. reflexivity.
  - destruct i as [|i]; [rewrite Nat.mul_0_r; reflexivity|].
    cbn [concat skipn]. rewrite skipn_app.
    assert (length r = 141%nat) as Hl by (unfold zlen, REC in Hr; lia).
    rewrite skipn_all2 by lia. cbn [app]. rewrite Hl. rewrite <- IH. f_equal. lia.
Qed.

Lemma recs_fread F rs i : recs_of F rs -> 0 <= i < zlen rs ->
  fread F OATH_FILE (i * REC) REC = Some (nth (Z.to_nat i) rs []).
Proof.
  intros [Hd Hf] Hi. unfold fdata, fread in *. destruct (F OATH_FILE) as [f|]; [|discriminate].
  injection Hd as ->. unfold REC in *. destruct (Z.ltb_spec (i * 141) 0); [lia|]. f_equal.
  unfold slice. replace (Z.to_nat (i * 141)) with (141 * Z.to_nat i)%nat by lia.
  rewrite skipn_concat by assumption.
  assert (Z.to_nat i < length rs)%nat as Hn by (unfold zlen in Hi; lia).
  rewrite (list_split_nth (Z.to_nat i) rs []) at 1 by assumption.
  rewrite skipn_app, firstn_length, Nat.min_l by lia. rewrite skipn_firstn_comm, Nat.sub_diag.
  cbn [firstn skipn app concat].
  assert (zlen (nth (Z.to_nat i) rs []) = 141) as Hz by (apply (Forall_nth' (fun r => zlen r = 141)); assumption).
  rewrite firstn_app. rewrite firstn_all2 by (unfold zlen in Hz; lia).
  replace (Z.to_nat 141 - length (nth (Z.to_nat i) rs []))%nat with 0%nat by (unfold zlen in Hz; lia).
  apply app_nil_r.
Qed.

Lemma recs_fsize F rs : recs_of F rs -> fsize F OATH_FILE = Some (REC * zlen rs).
Proof.
  intros [Hd Hf]. unfold fdata, fsize in *. destruct (F OATH_FILE); [|discriminate].
  injection Hd as ->. rewrite zlen_concat by assumption. reflexivity.
Qed.
Lemma recs_n (rs : list bytes) : REC * zlen rs / REC = zlen rs.
Proof. unfold REC. rewrite Z.mul_comm. apply Z.div_mul. lia. Qed.

Lemma recs_some F rs : recs_of F rs -> F OATH_FILE <> None.
Proof. intros [H _]. unfold fdata in H. destruct (F OATH_FILE); discriminate. Qed.

Lemma fdata_fwrite F p d off : F p <> None -> d <> [] ->
  fdata (fwrite F p d off false) p = option_map (fun c => write_at c off d) (fdata F p).
Proof.
  intros H Hd. unfold fwrite, fdata, fcreate. destruct (F p) as [f|] eqn:E; [|congruence].
  rewrite E, fset_same. cbn [f_data option_map]. destruct d; [congruence|reflexivity].
Qed.

Lemma write_at_inside c off d : 0 <= off <= zlen c ->
  write_at c off d = firstn (Z.to_nat off) c ++ d ++ skipn (Z.to_nat off + length d) c.
Proof.
  intros H. unfold write_at, zeros. replace (Z.to_nat (off - zlen c)) with 0%nat by lia.
  cbn [repeat]. rewrite app_nil_r. reflexivity.
Qed.

Lemma recs_write F rs i r : recs_of F rs -> zlen r = REC -> 0 <= i <= zlen rs ->
  recs_of (fwrite F OATH_FILE r (i * REC) false) (upd (Z.to_nat i) r rs).
Proof.
  intros [Hd Hf] Hr Hi. split; [|apply Forall_upd; assumption].
  rewrite fdata_fwrite.
  2: eapply recs_some; split; eassumption.
  2: intros ->; discriminate Hr.
  rewrite Hd. cbn [option_map]. f_equal.
  rewrite write_at_inside by (rewrite zlen_concat by assumption; unfold REC; lia).
  replace (Z.to_nat (i * REC)) with (141 * Z.to_nat i)%nat by (unfold REC; lia).
  replace (141 * Z.to_nat i + length r)%nat with (141 * S (Z.to_nat i))%nat by (unfold zlen, REC in Hr; lia).
  rewrite firstn_concat, skipn_concat by assumption.
  unfold upd. rewrite concat_app. reflexivity.
Qed.

Lemma recs_write_chal F rs i ch : recs_of F rs -> zlen ch = 8 -> 0 <= i < zlen rs ->
  recs_of (fwrite F OATH_FILE ch (i * REC + 133) false)
          (upd (Z.to_nat i) (splice (nth (Z.to_nat i) rs []) 133 ch) rs).
Proof.
  intros [Hd Hf] Hc Hi.
  assert (Z.to_nat i < length rs)%nat as Hn by (unfold zlen in Hi; lia).
  assert (zlen (nth (Z.to_nat i) rs []) = 141) as Hz by (apply (Forall_nth' (fun r => zlen r = 141)); assumption).
  set (r := nth (Z.to_nat i) rs []) in *.
  split; [|apply Forall_upd; [assumption|]; rewrite zlen_splice; unfold REC; lia].
  rewrite fdata_fwrite.
  2: eapply recs_some; split; eassumption.
  2: intros ->; discriminate Hc.
  rewrite Hd. cbn [option_map]. f_equal.
  rewrite write_at_inside by (rewrite zlen_concat by assumption; unfold REC; lia).
  pose proof (list_split_nth (Z.to_nat i) rs [] Hn) as Hs. fold r in Hs.
  rewrite Hs at 1 2. rewrite !concat_app. cbn [concat].
  assert (length (concat (firstn (Z.to_nat i) rs)) = 141 * Z.to_nat i)%nat as Hla.
  { rewrite nat_concat by (apply Forall_firstn'; assumption). rewrite firstn_length. lia. }
  assert (length r = 141)%nat as Hlr by (unfold zlen in Hz; lia).
  assert (length ch = 8)%nat as Hlc by (unfold zlen in Hc; lia).
  replace (Z.to_nat (i * REC + 133)) with (141 * Z.to_nat i + 133)%nat by (unfold REC; lia).
  unfold upd. rewrite concat_app. cbn [concat]. unfold splice.
  change (Z.to_nat 133) with 133%nat. rewrite Hlc.
  rewrite firstn_app, Hla. rewrite firstn_all2 by lia.
  replace (141 * Z.to_nat i + 133 - 141 * Z.to_nat i)%nat with 133%nat by lia.
  rewrite firstn_app. replace (133 - length r)%nat with 0%nat by lia. change (firstn 0 (concat (skipn (S (Z.to_nat i)) rs))) with (@nil Z).
  rewrite app_nil_r. rewrite skipn_app, Hla. rewrite skipn_all2 by lia.
  replace (141 * Z.to_nat i + 133 + 8 - 141 * Z.to_nat i)%nat with 141%nat by lia.
  rewrite skipn_app. rewrite (skipn_all2 r) by lia. replace (141 - length r)%nat with 0%nat by lia.
  change (133 + 8)%nat with 141%nat. rewrite (skipn_all2 r) by lia.
  change (skipn 0 (concat (skipn (S (Z.to_nat i)) rs))) with (concat (skipn (S (Z.to_nat i)) rs)).
  rewrite <- !app_assoc. reflexivity.
Qed.

Lemma recs_other F F' rs : (F' OATH_FILE = F OATH_FILE) -> recs_of F rs -> recs_of F' rs.
Proof. intros E [H1 H2]. split; [|assumption]. unfold fdata in *. rewrite E. assumption. Qed.

Lemma length_upd {A} i (x : A) l : (i < length l)%nat -> length (upd i x l) = length l.
Proof. intros H. unfold upd. rewrite app_length. cbn [length]. rewrite firstn_length, skipn_length. lia. Qed.
Lemma length_upd_le {A} i (x : A) l : (i <= length l)%nat -> (length (upd i x l) <= S (length l))%nat.
Proof. intros H. unfold upd. rewrite app_length. cbn [length]. rewrite firstn_length, skipn_length. lia. Qed.
Lemma nth_upd {A} i j (x d : A) l : (i <= length l)%nat ->
  nth j (upd i x l) d = if (j =? i)%nat then x else nth j l d.
Proof.
  intros H. unfold upd. destruct (Nat.eqb_spec j i) as [->|Hn].
  - rewrite app_nth2; rewrite firstn_length, Nat.min_l by lia; [|lia]. rewrite Nat.sub_diag. reflexivity.
  - destruct (Nat.lt_ge_cases j i).
    + rewrite app_nth1 by (rewrite firstn_length; lia).
      rewrite <- (firstn_skipn i l) at 2. rewrite app_nth1 by (rewrite firstn_length; lia). reflexivity.
    + rewrite app_nth2 by (rewrite firstn_length; lia). rewrite firstn_length, Nat.min_l by lia.
      replace (j - i)%nat with (S (j - S i)) by lia. cbn [nth].
      destruct (Nat.lt_ge_cases i (length l)).
      * rewrite <- (firstn_skipn (S i) l) at 2. rewrite app_nth2 by (rewrite firstn_length; lia).
        rewrite firstn_length, Nat.min_l by lia. reflexivity.
      * rewrite skipn_all2 by lia. rewrite !nth_overflow by (cbn; lia). reflexivity.
Qed.

(** ** Records *)
Definition rname (r : bytes) : bytes := slice 1 (r_name_len r) r.
Definition rkey (r : bytes) : bytes := slice 66 (r_key_len r) r.

Definition rec_ok (r : bytes) : Prop :=
  zlen r = REC /\ all_bytes r /\ r_name_len r <= 64 /\ 3 <= r_key_len r <= 66 /\
  (r_type r = OATH_TYPE_HOTP \/ r_type r = OATH_TYPE_TOTP) /\
  (r_alg r = OATH_ALG_SHA1 \/ r_alg r = OATH_ALG_SHA256 \/ r_alg r = OATH_ALG_SHA512) /\
  4 <= r_digits r <= 8 /\ 0 <= r_prop r <= 3.

Lemma rec_name_len r : all_bytes r -> 0 <= r_name_len r.
Proof. intros H. pose proof (nth_byte r 0 H) as Hb. unfold r_name_len. unfold is_byte in Hb. lia. Qed.

Lemma zlen_rname r : rec_ok r -> zlen (rname r) = r_name_len r.
Proof.
  intros (Hz & Hb & Hn & _). pose proof (rec_name_len r Hb). unfold rname.
  rewrite zlen_slice by lia. unfold REC in Hz. lia.
Qed.
Lemma r_name_ok r : rec_ok r -> r_name r = Some (rname r).
Proof.
  intros (Hz & Hb & Hn & _). pose proof (rec_name_len r Hb). unfold r_name, r_name_buf, rname, REC in *.
  rewrite sub_ok; [|lia|lia|rewrite zlen_slice; lia]. f_equal. rewrite slice_slice by lia. reflexivity.
Qed.
Lemma r_secret_ok r : rec_ok r -> r_secret r = Some (slice 68 (r_key_len r - 2) r).
Proof.
  intros (Hz & Hb & Hn & Hk & _). unfold r_secret, r_key, REC in *.
  rewrite sub_ok; [|lia|lia|rewrite zlen_slice; lia]. f_equal. rewrite slice_slice by lia. reflexivity.
Qed.
Lemma r_named_spec r name : rec_ok r -> r_named r name = true <-> rname r = name.
Proof.
  intros Hr. pose proof (zlen_rname r Hr) as Hz. unfold r_named. rewrite andb_true_iff, Z.eqb_eq, beqb_eq. split.
  - intros [E1 E2]. unfold rname. rewrite E1. assumption.
  - intros <-. rewrite Hz. split; [reflexivity|]. reflexivity.
Qed.

Lemma r_chal_len r : zlen r = REC -> zlen (r_chal r) = 8.
Proof. intros H. unfold r_chal, REC in *. rewrite zlen_slice; lia. Qed.

(** Fields after each kind of update. *)
Lemma fill_ok rec name key prop chal :
  zlen rec = REC -> all_bytes rec -> zlen name <= 64 -> 3 <= zlen key <= 66 -> zlen chal = 8 ->
  all_bytes name -> all_bytes key -> is_byte prop -> all_bytes chal ->
  let r := fill_record rec name key prop chal in
  zlen r = REC /\ all_bytes r /\ r_name_len r = zlen name /\ rname r = name /\ r_key_len r = zlen key /\
  rkey r = key /\ r_prop r = prop /\ r_chal r = chal /\ r_algbyte r = nth 0 key 0 /\ r_digits r = nth 1 key 0.
Proof.
  intros Hz Hb Hn Hk Hc Hbn Hbk Hbp Hbc r. unfold r, fill_record. pose proof (zlen_nonneg name) as Hn0.
  set (r1 := splice rec 0 (zlen name :: name)).
  assert (zlen r1 = REC) as H1 by (unfold r1; rewrite zlen_splice; zl || (rewrite zlen_cons; unfold REC in *; lia)).
  set (r2 := splice r1 65 (zlen key :: key)).
  assert (zlen r2 = REC) as H2 by (unfold r2; rewrite zlen_splice; [assumption|lia|rewrite zlen_cons; unfold REC in *; lia]).
  set (r3 := splice r2 132 (prop :: chal)).
  assert (zlen r3 = REC) as H3 by (unfold r3; rewrite zlen_splice; [assumption|lia|rewrite zlen_cons; unfold REC in *; lia]).
  unfold REC in *.
  assert (r_name_len r3 = zlen name) as En.
  { unfold r_name_len, r3, r2, r1.
    repeat (rewrite nth_splice by (rewrite ?zlen_cons; fold r1; fold r2; lia); cbn [Z.to_nat Nat.ltb Nat.leb Nat.sub nth Pos.to_nat Pos.iter_op Nat.add length]).
    reflexivity. }
  assert (r_key_len r3 = zlen key) as Ek.
  { unfold r_key_len, r3. rewrite nth_splice by (rewrite ?zlen_cons; lia).
    change (Z.to_nat 132) with 132%nat. cbn [Nat.ltb Nat.leb].
    unfold r2. rewrite nth_splice by (rewrite ?zlen_cons; lia). reflexivity. }
  assert (slice 1 (zlen name) r3 = name) as E1.
  { unfold r3. rewrite slice_splice_disj by (rewrite ?zlen_cons; lia).
    unfold r2. rewrite slice_splice_disj by (rewrite ?zlen_cons; lia).
    unfold r1. change (slice 1 (zlen name) (splice rec 0 (zlen name :: name))) with
      (slice (0 + 1) (zlen name) (splice rec 0 (zlen name :: name))).
    rewrite <- (slice_slice 0 (1 + zlen name) 1) by lia.
    rewrite <- (zlen_cons (zlen name) name). rewrite slice_splice_same by (rewrite ?zlen_cons; lia).
    rewrite slice_cons_S by lia. rewrite slice_all. reflexivity. }
  assert (slice 66 (zlen key) r3 = key) as E2.
  { unfold r3. rewrite slice_splice_disj by (rewrite ?zlen_cons; lia).
    unfold r2. change 66 with (65 + 1).
    rewrite <- (slice_slice 65 (1 + zlen key) 1) by lia.
    rewrite <- (zlen_cons (zlen key) key). rewrite slice_splice_same by (rewrite ?zlen_cons; lia).
    rewrite slice_cons_S by lia. rewrite slice_all. reflexivity. }
  assert (slice 132 9 r3 = prop :: chal) as E3.
  { unfold r3. rewrite <- (slice_splice_same r2 132 (prop :: chal)) at 2 by (rewrite ?zlen_cons; lia).
    f_equal. rewrite zlen_cons. lia. }
  assert (forall i, (i < length key)%nat -> nth (66 + i) r3 0 = nth i key 0) as Ekn.
  { intros i Hi. transitivity (nth i (slice 66 (zlen key) r3) 0); [|rewrite E2; reflexivity].
    rewrite nth_slice by lia. unfold zlen at 1. rewrite Nat2Z.id. destruct (Nat.ltb_spec i (length key)); [reflexivity|lia]. }
  assert (3 <= length key)%nat by (unfold zlen in Hk; lia).
  split; [assumption|]. split.
  { unfold r3, r2, r1. repeat apply all_bytes_splice; try assumption; constructor; try assumption; unfold is_byte; lia. }
  split; [assumption|]. split; [unfold rname; rewrite En; assumption|]. split; [assumption|].
  split; [unfold rkey; rewrite Ek; assumption|].
  split. { unfold r_prop, r3. rewrite nth_splice by (rewrite ?zlen_cons; lia). reflexivity. }
  split. { unfold r_chal. transitivity (slice 1 8 (slice 132 9 r3)); [rewrite slice_slice by lia; reflexivity|].
           rewrite E3, slice_cons_S by lia. change (1 - 1) with 0. rewrite <- Hc. apply slice_all. }
  split; [exact (Ekn 0%nat ltac:(lia))|exact (Ekn 1%nat ltac:(lia))].
Qed.

(** Replacing the name field. *)
Lemma rehead_fields r name : zlen r = REC -> zlen name <= 64 ->
  let r' := splice r 0 (zlen name :: name) in
  zlen r' = REC /\ r_name_len r' = zlen name /\ rname r' = name /\ r_key_len r' = r_key_len r /\
  rkey r' = rkey r /\ r_prop r' = r_prop r /\ r_chal r' = r_chal r /\ r_algbyte r' = r_algbyte r /\
  r_digits r' = r_digits r /\ r_secret r' = r_secret r.
Proof.
  intros Hz Hn. cbv zeta. pose proof (zlen_nonneg name) as Hn0. unfold REC in *.
  set (r' := splice r 0 (zlen name :: name)).
  assert (zlen r' = 141) as Hz' by (unfold r'; rewrite zlen_splice; rewrite ?zlen_cons; lia).
  assert (forall i, (65 <= i)%nat -> nth i r' 0 = nth i r 0) as Hnth.
  { intros i Hi. unfold r'. rewrite nth_splice by (rewrite ?zlen_cons; lia).
    destruct (Nat.ltb_spec i (Z.to_nat 0)); [lia|].
    destruct (Nat.ltb_spec i (Z.to_nat 0 + length (zlen name :: name))); [|reflexivity].
    cbn [length] in *. unfold zlen in *. lia. }
  assert (forall a n, 65 <= a -> 0 <= n -> slice a n r' = slice a n r) as Hsl.
  { intros a n Ha Hn'. unfold r'. rewrite slice_splice_disj by (rewrite ?zlen_cons; lia). reflexivity. }
  assert (r_name_len r' = zlen name) as En.
  { unfold r_name_len, r'. rewrite nth_splice by (rewrite ?zlen_cons; lia). reflexivity. }
  assert (rname r' = name) as E1.
  { unfold rname. rewrite En. change 1 with (0 + 1).
    rewrite <- (slice_slice 0 (1 + zlen name) 1) by lia. unfold r'.
    rewrite <- (zlen_cons (zlen name) name). rewrite slice_splice_same by (rewrite ?zlen_cons; lia).
    rewrite slice_cons_S by lia. rewrite slice_all. reflexivity. }
  assert (r_key_len r' = r_key_len r) as Ek by (apply Hnth; lia).
  assert (r_key r' = r_key r) as Eky by (apply Hsl; lia).
  repeat split; try assumption.
  - unfold rkey. rewrite Ek. destruct (Z.le_gt_cases 0 (r_key_len r)); [apply Hsl; lia|].
    unfold slice. replace (Z.to_nat (r_key_len r)) with 0%nat by lia. reflexivity.
  - apply Hnth; lia.
  - apply Hsl; lia.
  - apply Hnth; lia.
  - apply Hnth; lia.
  - unfold r_secret. rewrite Ek, Eky. reflexivity.
Qed.
Lemma rehead_ok r name : rec_ok r -> zlen name <= 64 -> all_bytes name -> rec_ok (splice r 0 (zlen name :: name)).
Proof.
  intros (Hz & Hb & Hnl & Hk & Ht & Ha & Hd & Hp) Hn Hbn. pose proof (zlen_nonneg name).
  destruct (rehead_fields r name Hz Hn) as (E1 & E2 & E3 & E4 & E5 & E6 & E7 & E8 & E9 & E10).
  unfold rec_ok, r_type, r_alg. rewrite E4, E6, E8, E9. fold (r_type r) (r_alg r).
  repeat split; try assumption; try lia.
  apply all_bytes_splice; [assumption|]. constructor; [unfold is_byte; lia|assumption].
Qed.

(** Replacing the challenge (moving factor). *)
Lemma rechal_fields r ch : rec_ok r -> zlen ch = 8 ->
  let r' := splice r 133 ch in
  zlen r' = REC /\ r_name_len r' = r_name_len r /\ rname r' = rname r /\ r_key_len r' = r_key_len r /\
  rkey r' = rkey r /\ r_prop r' = r_prop r /\ r_chal r' = ch /\ r_algbyte r' = r_algbyte r /\
  r_digits r' = r_digits r /\ r_secret r' = r_secret r.
Proof.
  intros (Hz & _ & Hnl & Hkl & _) Hn. cbv zeta. unfold REC in *. set (r' := splice r 133 ch).
  assert (zlen r' = 141) as Hz' by (unfold r'; rewrite zlen_splice; lia).
  assert (forall i, (i < 133)%nat -> nth i r' 0 = nth i r 0) as Hnth.
  { intros i Hi. unfold r'. rewrite nth_splice by lia. change (Z.to_nat 133) with 133%nat.
    destruct (Nat.ltb_spec i 133); [reflexivity|lia]. }
  assert (forall a n, 0 <= a -> a + n <= 133 -> slice a n r' = slice a n r) as Hsl.
  { intros a n Ha Hn'. destruct (Z.le_gt_cases 0 n).
    - unfold r'. rewrite slice_splice_disj by lia. reflexivity.
    - unfold slice. replace (Z.to_nat n) with 0%nat by lia. reflexivity. }
  assert (r_name_len r' = r_name_len r) as En by (apply Hnth; lia).
  assert (r_key_len r' = r_key_len r) as Ek by (apply Hnth; lia).
  assert (r_key r' = r_key r) as Eky by (apply Hsl; lia).
  assert (r_chal r' = ch) as Ec.
  { unfold r_chal. rewrite <- Hn. unfold r'. apply slice_splice_same; lia. }
  repeat split; try assumption.
  - unfold rname. rewrite En. apply Hsl; lia.
  - unfold rkey. rewrite Ek. apply Hsl; lia.
  - apply Hnth; lia.
  - apply Hnth; lia.
  - apply Hnth; lia.
  - unfold r_secret. rewrite Ek, Eky. reflexivity.
Qed.
Lemma rechal_ok r ch : rec_ok r -> zlen ch = 8 -> all_bytes ch -> rec_ok (splice r 133 ch).
Proof.
  intros Hr Hc Hbc. destruct (rechal_fields r ch Hr Hc) as (E1 & E2 & E3 & E4 & E5 & E6 & E7 & E8 & E9 & E10).
  destruct Hr as (Hz & Hb & Hnl & Hk & Ht & Ha & Hd & Hp).
  unfold rec_ok, r_type, r_alg. rewrite E2, E4, E6, E8, E9. fold (r_type r) (r_alg r).
  repeat split; try assumption; try lia. apply all_bytes_splice; assumption.
Qed.

(** ** The store *)
Definition islive (r : bytes) : bool := negb (r_name_len r =? 0).
Definition live (rs : list bytes) : list bytes := filter islive rs.
Definition names (rs : list bytes) : list bytes := map rname (live rs).

Definition oath_ok (F : fs) (rs : list bytes) : Prop :=
  recs_of F rs /\ Forall rec_ok rs /\ zlen rs <= MAX_RECORDS /\ NoDup (names rs).

Lemma islive_spec r : rec_ok r -> islive r = true <-> rname r <> [].
Proof.
  intros Hr. pose proof (zlen_rname r Hr) as Hz. unfold islive. rewrite negb_true_iff, Z.eqb_neq. split.
  - intros H E. rewrite E in Hz. change (zlen (@nil Z)) with 0 in Hz. lia.
  - intros H E. apply H, zlen_zero. lia.
Qed.
Lemma in_names rs name : Forall rec_ok rs -> name <> [] ->
  In name (names rs) <-> exists i, (i < length rs)%nat /\ rname (nth i rs []) = name.
Proof.
  intros Hf Hn. unfold names, live. rewrite in_map_iff. split.
  - intros (r & E & Hi). apply filter_In in Hi as [Hi _]. apply (In_nth _ _ []) in Hi as (i & Hl & Hi).
    exists i. split; [assumption|]. transitivity (rname r); [apply f_equal, Hi|assumption].
  - intros (i & Hl & E). exists (nth i rs []). split; [assumption|]. apply filter_In.
    split; [apply nth_In, Hl|]. apply islive_spec; [apply Forall_nth'; assumption|congruence].
Qed.

(** The live records before, at and after slot [i]. *)
Lemma live_upd i r rs : live (upd i r rs) = live (firstn i rs) ++ live [r] ++ live (skipn (S i) rs).
Proof. unfold live, upd. rewrite filter_app. cbn [filter]. destruct (islive r); reflexivity. Qed.
Lemma live_split i rs : (i < length rs)%nat ->
  live rs = live (firstn i rs) ++ live [nth i rs []] ++ live (skipn (S i) rs).
Proof. intros H. rewrite (list_split_nth i rs [] H) at 1. apply live_upd. Qed.
Lemma names_upd i r rs : names (upd i r rs) = names (firstn i rs) ++ names [r] ++ names (skipn (S i) rs).
Proof. unfold names. rewrite live_upd, !map_app. reflexivity. Qed.
Lemma names_split i rs : (i < length rs)%nat ->
  names rs = names (firstn i rs) ++ names [nth i rs []] ++ names (skipn (S i) rs).
Proof. intros H. rewrite (list_split_nth i rs [] H) at 1. apply names_upd. Qed.
Lemma names_append rs r : names (upd (length rs) r rs) = names rs ++ names [r].
Proof. rewrite names_upd, firstn_all, skipn_all2 by lia. rewrite app_nil_r. reflexivity. Qed.

Lemma names_one_live r : islive r = true -> names [r] = [rname r].
Proof. intros H. unfold names, live. cbn [filter]. rewrite H. reflexivity. Qed.
Lemma names_one_dead r : islive r = false -> names [r] = [].
Proof. intros H. unfold names, live. cbn [filter]. rewrite H. reflexivity. Qed.

Lemma NoDup_drop_mid {A} (a b c : list A) : NoDup (a ++ b ++ c) -> NoDup (a ++ c).
Proof.
  induction b as [|x b IH]; [auto|]. cbn [app]. intros H. apply IH. apply NoDup_remove_1 in H. assumption.
Qed.
Lemma NoDup_add_mid {A} (a c : list A) x : NoDup (a ++ c) -> ~ In x (a ++ c) -> NoDup (a ++ [x] ++ c).
Proof. intros H1 H2. cbn [app]. apply (NoDup_Add (Add_app x a c)). auto. Qed.

Lemma ok_upd F rs i r : oath_ok F rs -> rec_ok r -> 0 <= i <= zlen rs -> (i = zlen rs -> i < MAX_RECORDS) ->
  (i < zlen rs /\ rname r = rname (nth (Z.to_nat i) rs []) \/ rname r = [] \/ ~ In (rname r) (names rs)) ->
  forall F', recs_of F' (upd (Z.to_nat i) r rs) -> oath_ok F' (upd (Z.to_nat i) r rs).
Proof.
  intros (Hrs & Hok & H100 & Hnd) Hr Hi Hmax Hname F' HF'.
  split; [assumption|]. split; [apply Forall_upd; assumption|].
  assert (Z.to_nat i <= length rs)%nat as Hil by (unfold zlen in Hi; lia).
  split.
  { destruct (Z.eq_dec i (zlen rs)) as [E|E].
    - pose proof (length_upd_le (Z.to_nat i) r rs Hil). specialize (Hmax E). unfold zlen in *. lia.
    - unfold zlen. rewrite length_upd by (unfold zlen in *; lia). assumption. }
  rewrite names_upd.
  assert (NoDup (names (firstn (Z.to_nat i) rs) ++ names (skipn (S (Z.to_nat i)) rs))) as Hd.
  { destruct (Z.eq_dec i (zlen rs)) as [E|E].
    - replace (Z.to_nat i) with (length rs) by (unfold zlen in E; lia).
      rewrite firstn_all, skipn_all2 by lia. rewrite app_nil_r. assumption.
    - rewrite (names_split (Z.to_nat i)) in Hnd by (unfold zlen in *; lia). apply NoDup_drop_mid in Hnd. assumption. }
  destruct (islive r) eqn:El.
  2:{ rewrite names_one_dead by assumption. assumption. }
  rewrite names_one_live by assumption. apply NoDup_add_mid; [assumption|].
  destruct Hname as [[Hlt E]|[E|Hni]].
  - rewrite E. assert (islive (nth (Z.to_nat i) rs []) = true) as El'.
    { apply islive_spec; [apply Forall_nth'; [assumption|unfold zlen in *; lia]|].
      rewrite <- E. apply islive_spec; assumption. }
    rewrite (names_split (Z.to_nat i)) in Hnd by (unfold zlen in *; lia).
    rewrite names_one_live in Hnd by assumption. cbn [app] in Hnd. apply NoDup_remove_2 in Hnd. assumption.
  - apply islive_spec in El; [congruence|assumption].
  - intros Hin. apply Hni. destruct (Z.eq_dec i (zlen rs)) as [E|E].
    + replace (Z.to_nat i) with (length rs) in Hin by (unfold zlen in E; lia).
      rewrite firstn_all, skipn_all2, app_nil_r in Hin by lia. assumption.
    + rewrite (names_split (Z.to_nat i)) by (unfold zlen in *; lia).
      apply in_app_or in Hin. apply in_or_app. destruct Hin; [left; assumption|right; apply in_or_app; right; assumption].
Qed.


Lemma overlay_full d old : zlen d = REC -> zlen old = REC -> overlay d old = d.
Proof. intros H1 H2. unfold overlay. rewrite skipn_all2 by (unfold zlen in *; lia). apply app_nil_r. Qed.

Definition nxt (X X' : list fault) : Prop := X = [] -> X' = [].
Lemma nxt_refl X : nxt X X. Proof. intros H; exact H. Qed.
Lemma nxt_trans X Y Z : nxt X Y -> nxt Y Z -> nxt X Z. Proof. intros H1 H2 H. auto. Qed.
Lemma nxt_ne X Y : nxt X Y -> Y <> [] -> X <> []. Proof. intros H1 H2 H. auto. Qed.

Lemma wp_rd_rec i rec rs (Q : out bytes -> oath -> env -> Prop) s F L X R T O :
  recs_of F rs -> 0 <= i < zlen rs -> zlen rec = REC ->
  (forall X', nxt X X' -> Q (Ret (nth (Z.to_nat i) rs [])) s (mkE F L X' R T O)) ->
  (X <> [] -> forall X', Q Fail s (mkE F L X' R T O)) ->
  wp (rd_rec (i * REC) rec) Q s (mkE F L X R T O).
Proof.
  intros Hrs Hi Hrec H1 H2. unfold rd_rec. apply wp_bind, wp_read_file.
  intros X' r Hx [-> | ->].
  - apply wp_fail. apply H2. intros E. destruct (Hx E) as [_ E']. rewrite (recs_fread F rs i Hrs Hi) in E'. discriminate.
  - rewrite (recs_fread F rs i Hrs Hi). apply wp_ret. rewrite overlay_full.
    + apply H1. intros E. apply Hx, E.
    + apply (Forall_nth' (A:=bytes) (fun r : bytes => zlen r = REC)); [apply Hrs|unfold zlen in Hi; lia].
    + assumption.
Qed.

Lemma wp_n_records rs (Q : out Z -> oath -> env -> Prop) s F L X R T O :
  recs_of F rs ->
  (forall X', nxt X X' -> Q (Ret (zlen rs)) s (mkE F L X' R T O)) ->
  (X <> [] -> forall X', Q Fail s (mkE F L X' R T O)) ->
  wp n_records Q s (mkE F L X R T O).
Proof.
  intros Hrs H1 H2. unfold n_records. apply wp_bind, wp_get_file_size.
  intros X' r Hx [-> | ->].
  - apply wp_fail. apply H2. intros E. destruct (Hx E) as [_ E']. rewrite (recs_fsize F rs Hrs) in E'. discriminate.
  - rewrite (recs_fsize F rs Hrs). rewrite recs_n. apply wp_ret, H1. intros E; apply Hx, E.
Qed.

Lemma recs_nth_len F rs i : recs_of F rs -> 0 <= i < zlen rs -> zlen (nth (Z.to_nat i) rs []) = REC.
Proof. intros [_ Hf] Hi. apply (Forall_nth' (A:=bytes) (fun r : bytes => zlen r = REC)); [assumption|unfold zlen in Hi; lia]. Qed.
Lemma oks_nth rs i : Forall rec_ok rs -> 0 <= i < zlen rs -> rec_ok (nth (Z.to_nat i) rs []).
Proof. intros Hf Hi. apply Forall_nth'; [assumption|unfold zlen in Hi; lia]. Qed.

Lemma wp_find_loop name rs (Q : out (Z * bytes) -> oath -> env -> Prop) s F L R T O :
  recs_of F rs -> Forall rec_ok rs -> forall k i rec X,
  Z.of_nat k = zlen rs - i -> 0 <= i -> zlen rec = REC ->
  (forall j rec' X', nxt X X' -> i <= j <= zlen rs -> zlen rec' = REC ->
     (forall m, i <= m < j -> rname (nth (Z.to_nat m) rs []) <> name) ->
     (j < zlen rs -> rec' = nth (Z.to_nat j) rs [] /\ rname rec' = name) ->
     Q (Ret (j, rec')) s (mkE F L X' R T O)) ->
  (X <> [] -> forall X', Q Fail s (mkE F L X' R T O)) ->
  wp (find_loop k i rec name) Q s (mkE F L X R T O).
Proof.
  intros Hrs Hok. induction k as [|k IH]; intros i rec X Hk Hi Hrec H1 H2; cbn [find_loop].
  - apply wp_ret. apply H1; [apply nxt_refl|lia|assumption|intros; lia|intros; lia].
  - apply wp_bind. apply (wp_rd_rec i rec rs); [assumption|lia|assumption| |intros Hx X'; apply H2, Hx].
    intros X' Hx. set (r := nth (Z.to_nat i) rs []).
    assert (rec_ok r) as Hr by (apply oks_nth; [assumption|lia]).
    destruct (r_named r name) eqn:En.
    + apply wp_ret. apply H1; [assumption|lia|apply Hr|intros; lia|].
      intros _. split; [reflexivity|]. apply r_named_spec; assumption.
    + apply IH; try lia; [apply Hr| |].
      * intros j rec' X'' Hx' Hj Hl Hb Hf. apply H1; [eapply nxt_trans; eassumption|lia|assumption| |assumption].
        intros m Hm. destruct (Z.eq_dec m i) as [->|]; [|apply Hb; lia].
        fold r. intros E. apply r_named_spec in E; [congruence|assumption].
      * intros Hne X''. apply H2. eapply nxt_ne; eassumption.
Qed.

(** Lookup of a name in the store: position of the (only) record with that name. *)
Definition at_name (rs : list bytes) (name : bytes) (j : Z) : Prop :=
  0 <= j < zlen rs /\ rname (nth (Z.to_nat j) rs []) = name.

Lemma wp_find junk (Hjunk : zlen junk = REC) name rs (Q : out (Z * bytes) -> oath -> env -> Prop) s F L X R T O :
  recs_of F rs -> Forall rec_ok rs -> name <> [] ->
  (forall rec' X', nxt X X' -> zlen rec' = REC -> ~ In name (names rs) -> Q (Ret (zlen rs, rec')) s (mkE F L X' R T O)) ->
  (forall j X', nxt X X' -> at_name rs name j ->
     Q (Ret (j, nth (Z.to_nat j) rs [])) s (mkE F L X' R T O)) ->
  (X <> [] -> forall X', Q Fail s (mkE F L X' R T O)) ->
  wp (find_loop (Z.to_nat (zlen rs)) 0 junk name) Q s (mkE F L X R T O).
Proof.
  intros Hrs Hok Hne H1 H2 H3. pose proof (zlen_nonneg rs).
  apply (wp_find_loop name rs); try assumption; try lia.
  intros j rec' X' Hx Hj Hl Hb Hf. destruct (Z.eq_dec j (zlen rs)) as [->|].
  - apply H1; try assumption. intros Hin. apply in_names in Hin; [|assumption|assumption].
    destruct Hin as (i & Hi & E). apply (Hb (Z.of_nat i)); [unfold zlen; lia|]. rewrite Nat2Z.id. assumption.
  - destruct Hf as [-> E]; [lia|]. apply H2; [assumption|]. split; [lia|assumption].
Qed.

(** The position is unique and decides membership. *)
Lemma at_name_in rs name j : Forall rec_ok rs -> name <> [] -> at_name rs name j -> In name (names rs).
Proof.
  intros Hok Hne [Hj E]. apply in_names; try assumption. exists (Z.to_nat j). split; [unfold zlen in Hj; lia|assumption].
Qed.

Lemma wp_put_loop name rs (Q : out (bytes * Z) -> oath -> env -> Prop) s F L R T O :
  recs_of F rs -> Forall rec_ok rs -> forall k i rec un X,
  Z.of_nat k = zlen rs - i -> 0 <= i -> zlen rec = REC -> all_bytes rec ->
  (forall rec' X' un', nxt X X' -> zlen rec' = REC -> all_bytes rec' ->
     (forall m, i <= m < zlen rs -> rname (nth (Z.to_nat m) rs []) <> name) ->
     (un' = un /\ (un = zlen rs -> forall m, i <= m < zlen rs -> islive (nth (Z.to_nat m) rs []) = true) \/
      un = zlen rs /\ i <= un' < zlen rs /\ islive (nth (Z.to_nat un') rs []) = false) ->
     Q (Ret (rec', un')) s (mkE F L X' R T O)) ->
  (forall X' m, nxt X X' -> i <= m < zlen rs -> rname (nth (Z.to_nat m) rs []) = name ->
     Q (Exc SW_CONDITIONS_NOT_SATISFIED) s (mkE F L X' R T O)) ->
  (X <> [] -> forall X', Q Fail s (mkE F L X' R T O)) ->
  wp (put_loop k i (zlen rs) rec un name) Q s (mkE F L X R T O).
Proof.
  intros Hrs Hok. induction k as [|k IH]; intros i rec un X Hk Hi Hrec Hrecb H1 H2 H3; cbn [put_loop].
  - apply wp_ret. apply H1; try assumption; [apply nxt_refl|intros; lia|]. left. split; [reflexivity|]. intros; lia.
  - apply wp_bind. apply (wp_rd_rec i rec rs); [assumption|lia|assumption| |intros Hx X'; apply H3, Hx].
    intros X' Hx. set (r := nth (Z.to_nat i) rs []).
    assert (rec_ok r) as Hr by (apply oks_nth; [assumption|lia]).
    apply wp_bind, wp_guard; intros En.
    2:{ apply negb_false_iff, r_named_spec in En; [|assumption]. apply (H2 X' i); [assumption|lia|assumption]. }
    apply negb_true_iff in En.
    assert (rname r <> name) as Hne by (intros E; apply r_named_spec in E; [congruence|assumption]).
    apply IH; try lia; [apply Hr|apply Hr| | |].
    + intros rec' X'' un' Hx' Hz Hb Hnone Hun.
      apply H1; try assumption; [eapply nxt_trans; eassumption| |].
      { intros m Hm. destruct (Z.eq_dec m i) as [->|]; [assumption|apply Hnone; lia]. }
      destruct (r_name_len r =? 0) eqn:E0; cbn [andb] in Hun.
      * destruct (Z.eqb_spec un (zlen rs)) as [Eu|Eu].
        -- right. destruct Hun as [[-> Hl]|[E [Hr1 Hr2]]].
           ++ repeat split; try lia. unfold islive. fold r. rewrite E0. reflexivity.
           ++ repeat split; try lia; assumption.
        -- left. destruct Hun as [[-> Hl]|[E _]]; [|congruence]. split; [reflexivity|congruence].
      * destruct Hun as [[-> Hl]|[E [Hr1 Hr2]]].
        -- left. split; [reflexivity|]. intros E m Hm. destruct (Z.eq_dec m i) as [->|]; [|apply Hl; [assumption|lia]].
           unfold islive. fold r. rewrite E0. reflexivity.
        -- right. repeat split; try lia; assumption.
    + intros X'' m Hx' Hm E. apply (H2 X'' m); [eapply nxt_trans; eassumption|lia|assumption].
    + intros Hne' X''. apply H3. eapply nxt_ne; eassumption.
Qed.

Lemma wp_rename_loop old new rs (Q : out (bytes * Z) -> oath -> env -> Prop) s F L R T O :
  recs_of F rs -> Forall rec_ok rs -> forall k i rec idx X,
  Z.of_nat k = zlen rs - i -> 0 <= i -> zlen rec = REC ->
  (forall rec' X' idx', nxt X X' -> zlen rec' = REC ->
     (forall m, i <= m < zlen rs -> rname (nth (Z.to_nat m) rs []) <> new) ->
     (idx' = idx /\ (idx = zlen rs -> forall m, i <= m < zlen rs -> rname (nth (Z.to_nat m) rs []) <> old) \/
      idx = zlen rs /\ i <= idx' < zlen rs /\ rname (nth (Z.to_nat idx') rs []) = old) ->
     Q (Ret (rec', idx')) s (mkE F L X' R T O)) ->
  (forall X' m, nxt X X' -> i <= m < zlen rs -> rname (nth (Z.to_nat m) rs []) = new ->
     Q (Exc SW_CONDITIONS_NOT_SATISFIED) s (mkE F L X' R T O)) ->
  (X <> [] -> forall X', Q Fail s (mkE F L X' R T O)) ->
  wp (rename_loop k i (zlen rs) rec idx old new) Q s (mkE F L X R T O).
Proof.
  intros Hrs Hok. induction k as [|k IH]; intros i rec idx X Hk Hi Hrec H1 H2 H3; cbn [rename_loop].
  - apply wp_ret. apply H1; try assumption; [apply nxt_refl|intros; lia|]. left. split; [reflexivity|]. intros; lia.
  - apply wp_bind. apply (wp_rd_rec i rec rs); [assumption|lia|assumption| |intros Hx X'; apply H3, Hx].
    intros X' Hx. set (r := nth (Z.to_nat i) rs []).
    assert (rec_ok r) as Hr by (apply oks_nth; [assumption|lia]).
    apply wp_bind, wp_guard; intros En.
    2:{ apply negb_false_iff, r_named_spec in En; [|assumption]. apply (H2 X' i); [assumption|lia|assumption]. }
    apply negb_true_iff in En.
    assert (rname r <> new) as Hne by (intros E; apply r_named_spec in E; [congruence|assumption]).
    apply IH; try lia; [apply Hr| | |].
    + intros rec' X'' un' Hx' Hz Hnone Hun.
      apply H1; try assumption; [eapply nxt_trans; eassumption| |].
      { intros m Hm. destruct (Z.eq_dec m i) as [->|]; [assumption|apply Hnone; lia]. }
      destruct (Z.eqb_spec idx (zlen rs)) as [Eu|Eu]; cbn [andb] in Hun.
      * destruct (r_named r old) eqn:Eo.
        -- apply r_named_spec in Eo; [|assumption].
           right. destruct Hun as [[-> Hl]|[E [Hr1 Hr2]]]; repeat split; try lia; assumption.
        -- assert (rname r <> old) as Hno by (intros E; apply r_named_spec in E; [congruence|assumption]).
           destruct Hun as [[-> Hl]|[E [Hr1 Hr2]]]; [left|right; repeat split; try lia; assumption].
           split; [reflexivity|]. intros E m Hm. destruct (Z.eq_dec m i) as [->|]; [assumption|apply Hl; [assumption|lia]].
      * left. destruct Hun as [[-> Hl]|[E _]]; [|congruence]. split; [reflexivity|congruence].
    + intros X'' m Hx' Hm E. apply (H2 X'' m); [eapply nxt_trans; eassumption|lia|assumption].
    + intros Hne' X''. apply H3. eapply nxt_ne; eassumption.
Qed.

(** ** Command data *)
(** YKOATH PUT data: name, key (type/algorithm, digits, secret), optional property byte, optional initial
    moving factor *)
Definition enc_put (name key : bytes) (prop : option Z) (imf : option bytes) : bytes :=
  [OATH_TAG_NAME; zlen name] ++ name ++ [OATH_TAG_KEY; zlen key] ++ key ++
  match prop with Some p => [OATH_TAG_PROPERTY; p] | None => [] end ++
  match imf with Some c => [OATH_TAG_COUNTER; 4] ++ c | None => [] end.
Definition put_ok (name key : bytes) (prop : option Z) (imf : option bytes) : Prop :=
  1 <= zlen name <= 64 /\ 3 <= zlen key <= 66 /\
  (Z.land (nth 0 key 0) 0xF0 = 0x10 \/ Z.land (nth 0 key 0) 0xF0 = 0x20) /\
  (Z.land (nth 0 key 0) 0x0F = 1 \/ Z.land (nth 0 key 0) 0x0F = 2 \/ Z.land (nth 0 key 0) 0x0F = 3) /\
  4 <= nth 1 key 0 <= 8 /\
  match prop with Some p => 0 <= p <= 3 | None => True end /\
  match imf with Some c => zlen c = 4 /\ Z.land (nth 0 key 0) 0xF0 = 0x10 | None => True end.

Lemma land_fc p : is_byte p -> Z.land p 0xFC = 0 <-> 0 <= p <= 3.
Proof.
  intros Hp. unfold is_byte in Hp.
  assert (Forall (fun x => Z.land x 0xFC = 0 <-> 0 <= x <= 3) (map Z.of_nat (seq 0 256))) as H.
  { repeat (constructor; [vm_compute; intuition discriminate|]). constructor. }
  rewrite Forall_forall in H. apply H. apply in_map_iff. exists (Z.to_nat p). split; [lia|]. apply in_seq. lia.
Qed.

Lemma rd_nth d i : 0 <= i < zlen d -> rd d i = Some (nth (Z.to_nat i) d 0).
Proof.
  intros H. unfold rd. destruct (Z.ltb_spec i 0); [lia|]. apply nth_error_nth'. unfold zlen in H; lia.
Qed.

Lemma parse_put_sound d : all_bytes d ->
  match parse_put d with
  | Ret (name, key, prop, chal) =>
    exists po imf, put_ok name key po imf /\ d = enc_put name key po imf /\
      prop = match po with Some p => p | None => 0 end /\
      chal = match imf with Some c => zeros 4 ++ c | None => zeros 8 end
  | Exc w => w <> SW_NO_ERROR
  | Fail | UB => False
  end.
Proof.
  intros Hb. unfold parse_put. cbv zeta.
  ostep; [|discriminate].
  ostep; [|in_buf]. rename z into t0. ostep; [|discriminate]. ostep; [|in_buf]. rename z into nl.
  assert (is_byte nl) as Hnl by (eapply rd_byte; eassumption). unfold is_byte in Hnl.
  ostep; [|discriminate]. ostep; [|discriminate]. ostep; [|in_buf]. rename z into t1. ostep; [|discriminate].
  ostep; [|in_buf]. rename z into kl. assert (is_byte kl) as Hkl by (eapply rd_byte; eassumption). unfold is_byte in Hkl.
  ostep; [|discriminate]. ostep; [|in_buf]. rename z into alg. ostep; [|discriminate]. ostep; [|discriminate].
  ostep; [|in_buf]. rename z into dig. ostep; [|discriminate].
  set (off := 2 + nl + 2 + kl) in *. unfold MAX_NAME_LEN, MAX_KEY_LEN in *.
  (* property *)
  assert (exists po,
    match (if off <? zlen d then
           t <~ oneed (rd d off) ;;
           if t =? OATH_TAG_PROPERTY then
             _ <~ oguard (negb (zlen d <=? off + 1)) SW_WRONG_LENGTH ;;
             p <~ oneed (rd d (off + 1)) ;;
             _ <~ oguard (Z.land p 0xFC =? 0) SW_WRONG_DATA ;;
             Ret (p, off + 2)
           else Ret (0, off)
         else Ret (0, off)) with
    | Ret (p, off') => p = match po with Some p => p | None => 0 end /\
        match po with Some p => 0 <= p <= 3 /\ off' = off + 2 | None => off' = off end /\ off <= off' /\
        drop off d = match po with Some p => [OATH_TAG_PROPERTY; p] | None => [] end ++ drop off' d
    | Exc w => w <> SW_NO_ERROR | Fail | UB => False end) as (po & Hpo).
  { destruct (Z.ltb_spec off (zlen d)); [|exists None; repeat split; lia || reflexivity].
    ostep; [|in_buf]. destruct (Z.eqb_spec z OATH_TAG_PROPERTY); [|exists None; repeat split; lia || reflexivity].
    ostep; [|exists None; discriminate]. ostep; [|in_buf]. ostep; [|exists None; discriminate].
    exists (Some z0). repeat split; try lia.
    - apply land_fc; [eapply rd_byte; eassumption|lia].
    - apply land_fc; [eapply rd_byte; eassumption|lia].
    - rewrite (rd_drop _ _ _ En5), (rd_drop _ _ _ En6). subst z. replace (off + 1 + 1) with (off + 2) by lia. reflexivity. }
  destruct (if off <? zlen d then _ else _) as [[prop off']|w| |]; cbn [obind]; [|exact Hpo|exact Hpo|exact Hpo].
  destruct Hpo as (Hp1 & Hp2 & Hp3 & Hp4).
  assert (exists imf,
    match (if off' <? zlen d then
           t <~ oneed (rd d off') ;;
           if t =? OATH_TAG_COUNTER then
             _ <~ oguard (negb (zlen d <=? off' + 1)) SW_WRONG_LENGTH ;;
             n <~ oneed (rd d (off' + 1)) ;;
             _ <~ oguard (n =? 4) SW_WRONG_DATA ;;
             _ <~ oguard (Z.land alg 0xF0 =? OATH_TYPE_HOTP) SW_WRONG_DATA ;;
             _ <~ oguard (negb (zlen d <? off' + 2 + 4)) SW_WRONG_LENGTH ;;
             ctr <~ oneed (sub d (off' + 2) 4) ;;
             Ret (zeros 4 ++ ctr, off' + 6)
           else Ret (zeros 8, off')
         else Ret (zeros 8, off')) with
    | Ret (chal, off'') => chal = match imf with Some c => zeros 4 ++ c | None => zeros 8 end /\
        match imf with Some c => zlen c = 4 /\ Z.land alg 0xF0 = OATH_TYPE_HOTP | None => True end /\ off' <= off'' /\
        drop off' d = match imf with Some c => [OATH_TAG_COUNTER; 4] ++ c | None => [] end ++ drop off'' d
    | Exc w => w <> SW_NO_ERROR | Fail | UB => False end) as (imf & Him).
  { destruct (Z.ltb_spec off' (zlen d)); [|exists None; repeat split; lia || reflexivity].
    ostep; [|in_buf]. destruct (Z.eqb_spec z OATH_TAG_COUNTER); [|exists None; repeat split; lia || reflexivity].
    ostep; [|exists None; discriminate]. ostep; [|in_buf]. ostep; [|exists None; discriminate].
    ostep; [|exists None; discriminate]. ostep; [|exists None; discriminate]. ostep; [|in_buf].
    destruct (sub_drop _ _ _ _ En7) as [E6 Hz6].
    exists (Some b). repeat split; try lia.
    rewrite (rd_drop _ _ _ En5), (rd_drop _ _ _ En6). replace (off' + 1 + 1) with (off' + 2) by lia. rewrite E6.
    replace (off' + 2 + 4) with (off' + 6) by lia. subst z. replace z0 with 4 by lia. reflexivity. }
  destruct (if off' <? zlen d then _ else _) as [[chal off'']|w| |]; cbn [obind]; [|exact Him|exact Him|exact Him].
  destruct Him as (Hi1 & Hi2 & Hi3 & Hi4).
  ostep; [|discriminate]. ostep; [|in_buf]. rename b into name. ostep; [|in_buf]. rename b into key.
  destruct (sub_drop _ _ _ _ En5) as [E4 Hz4]. destruct (sub_drop _ _ _ _ En6) as [E5 Hz5].
  assert (nth 0 key 0 = alg /\ nth 1 key 0 = dig) as [Ha Hdg].
  { apply sub_some in En6 as (_ & _ & _ & ->). rewrite !nth_slice by lia.
    destruct (Nat.ltb_spec 0 (Z.to_nat kl)); [|lia]. destruct (Nat.ltb_spec 1 (Z.to_nat kl)); [|lia].
    rewrite rd_nth in En3 by lia. rewrite rd_nth in En4 by lia.
    split; [transitivity (nth (Z.to_nat (2 + nl + 2)) d 0)|transitivity (nth (Z.to_nat (2 + nl + 2 + 1)) d 0)];
      try congruence; f_equal; lia. }
  exists po, imf. split.
  { unfold put_ok. rewrite Ha, Hdg. unfold OATH_TYPE_HOTP, OATH_TYPE_TOTP, OATH_ALG_SHA1, OATH_ALG_SHA256, OATH_ALG_SHA512 in *.
    repeat split; try lia; [destruct po as [p|]; [destruct Hp2; lia|exact I]|destruct imf; exact Hi2]. }
  split; [|split; assumption].
  rewrite <- (drop_0 d) at 1. rewrite (rd_drop _ _ _ En). change (0 + 1) with 1. rewrite (rd_drop _ _ _ En0).
  change (1 + 1) with 2. rewrite E4. rewrite (rd_drop _ _ _ En1), (rd_drop _ _ _ En2).
  replace (2 + nl + 1 + 1) with (2 + nl + 2) by lia. rewrite E5. fold off. rewrite Hp4, Hi4.
  rewrite (drop_end off'') by lia. rewrite app_nil_r. unfold enc_put. rewrite Hz4, Hz5.
  replace t0 with OATH_TAG_NAME by lia. replace t1 with OATH_TAG_KEY by lia.
  cbn [app]. do 2 f_equal.
Qed.

(** One step of a parser run on known data. *)
Lemma obind_oguard {A} b w (k : unit -> out A) : b = true -> obind (oguard b w) k = k tt.
Proof. intros ->. reflexivity. Qed.
Lemma obind_oneed {A B} (o : option A) a (k : A -> out B) : o = Some a -> obind (oneed o) k = k a.
Proof. intros ->. reflexivity. Qed.

Lemma parse_put_complete name key po imf : all_bytes (enc_put name key po imf) -> put_ok name key po imf ->
  parse_put (enc_put name key po imf) =
  Ret (name, key, match po with Some p => p | None => 0 end,
       match imf with Some c => zeros 4 ++ c | None => zeros 8 end).
Proof.
  intros Hb (Hn & Hk & Ht & Ha & Hd & Hp & Hi). set (d := enc_put name key po imf) in *.
  set (tp := match po with Some p => [OATH_TAG_PROPERTY; p] | None => [] end).
  set (ti := match imf with Some c => [OATH_TAG_COUNTER; 4] ++ c | None => [] end).
  assert (zlen d = 4 + zlen name + zlen key + zlen tp + zlen ti) as Hz.
  { unfold d, enc_put. fold tp ti. rewrite !zlen_app. change (zlen [OATH_TAG_NAME; zlen name]) with 2.
    change (zlen [OATH_TAG_KEY; zlen key]) with 2. lia. }
  pose proof (zlen_nonneg tp) as Htp. pose proof (zlen_nonneg ti) as Hti.
  assert (drop 0 d = OATH_TAG_NAME :: zlen name :: name ++ [OATH_TAG_KEY; zlen key] ++ key ++ tp ++ ti) as D0 by reflexivity.
  destruct (drop_rd d 0 _ _ D0 ltac:(lia)) as [R0 D1]. change (0 + 1) with 1 in D1.
  destruct (drop_rd d 1 _ _ D1 ltac:(lia)) as [R1 D2]. change (1 + 1) with 2 in D2.
  destruct (drop_app d 2 _ _ D2 ltac:(lia)) as (S2 & D3 & _).
  destruct (drop_rd d _ _ _ D3 ltac:(lia)) as [R3 D4].
  destruct (drop_rd d _ _ _ D4 ltac:(lia)) as [R4 D5].
  replace (2 + zlen name + 1 + 1) with (2 + zlen name + 2) in * by lia.
  destruct (drop_app d _ _ _ D5 ltac:(lia)) as (S5 & D6 & _).
  set (off := 2 + zlen name + 2 + zlen key) in *.
  destruct (drop_app d off _ _ D6 ltac:(lia)) as (_ & D7 & _).
  unfold parse_put. cbv zeta.
  rewrite obind_oguard by lia. rewrite (obind_oneed _ _ _ R0). rewrite obind_oguard by reflexivity.
  rewrite (obind_oneed _ _ _ R1). rewrite obind_oguard by (unfold MAX_NAME_LEN; lia). rewrite obind_oguard by lia.
  rewrite (obind_oneed _ _ _ R3). rewrite obind_oguard by reflexivity. rewrite (obind_oneed _ _ _ R4).
  rewrite obind_oguard by (unfold MAX_KEY_LEN; lia).
  assert (forall j, 0 <= j < zlen key -> rd d (2 + zlen name + 2 + j) = Some (nth (Z.to_nat j) key 0)) as Rk.
  { intros j Hj. rewrite rd_nth by lia. f_equal. apply sub_some in S5 as (_ & _ & _ & S5). rewrite S5 at 1.
    rewrite nth_slice by lia. destruct (Nat.ltb_spec (Z.to_nat j) (Z.to_nat (zlen key))); [|lia]. f_equal. lia. }
  rewrite (obind_oneed _ (nth 0 key 0)).
  2:{ pose proof (Rk 0 ltac:(lia)) as R. rewrite Z.add_0_r in R. exact R. }
  rewrite obind_oguard by (unfold OATH_TYPE_HOTP, OATH_TYPE_TOTP; lia).
  rewrite obind_oguard by (unfold OATH_ALG_SHA1, OATH_ALG_SHA256, OATH_ALG_SHA512; lia).
  rewrite (obind_oneed _ (nth 1 key 0)).
  2:{ exact (Rk 1 ltac:(lia)). }
  rewrite obind_oguard by lia. fold off.
  match goal with |- obind ?e _ = _ =>
    assert (e = Ret (match po with Some p => p | None => 0 end, off + zlen tp)) as -> end.
  { destruct po as [p|].
    - change (zlen tp) with 2 in *. destruct (Z.ltb_spec off (zlen d)); [|lia].
      destruct (drop_rd d off _ _ D6 ltac:(lia)) as [Rp D8]. destruct (drop_rd d _ _ _ D8 ltac:(lia)) as [Rq _].
      rewrite (obind_oneed _ _ _ Rp). change (OATH_TAG_PROPERTY =? OATH_TAG_PROPERTY) with true. cbv iota.
      rewrite obind_oguard by lia. rewrite (obind_oneed _ _ _ Rq). rewrite obind_oguard; [reflexivity|].
      apply Z.eqb_eq. apply land_fc; [|assumption]. eapply rd_byte; eassumption.
    - change (zlen tp) with 0 in *. replace (off + 0) with off by lia. destruct (Z.ltb_spec off (zlen d)); [|reflexivity].
      destruct imf as [c|]; [|change (zlen ti) with 0 in *; lia].
      destruct (drop_rd d off _ _ D6 ltac:(lia)) as [Rp D8]. rewrite (obind_oneed _ _ _ Rp). reflexivity. }
  cbn [obind]. set (off' := off + zlen tp) in *.
  match goal with |- obind ?e _ = _ =>
    assert (e = Ret (match imf with Some c => zeros 4 ++ c | None => zeros 8 end, off' + zlen ti)) as -> end.
  { destruct imf as [c|].
    - destruct Hi as [Hc Hh]. assert (zlen ti = 6) as Hz6 by (unfold ti; rewrite zlen_app, Hc; reflexivity).
      destruct (Z.ltb_spec off' (zlen d)); [|lia].
      destruct (drop_rd d off' _ _ D7 ltac:(lia)) as [Rp D8]. destruct (drop_rd d _ _ _ D8 ltac:(lia)) as [Rq D9].
      replace (off' + 1 + 1) with (off' + 2) in D9 by lia.
      rewrite <- (app_nil_r c) in D9. change ([] ++ c ++ []) with (c ++ []) in D9.
      destruct (drop_app d (off' + 2) c [] D9 ltac:(lia)) as (Sc & _ & _). rewrite Hc in Sc.
      rewrite (obind_oneed _ _ _ Rp). change (OATH_TAG_COUNTER =? OATH_TAG_COUNTER) with true. cbv iota.
      rewrite obind_oguard by lia. rewrite (obind_oneed _ _ _ Rq). rewrite obind_oguard by reflexivity.
      rewrite obind_oguard by (unfold OATH_TYPE_HOTP; lia). rewrite obind_oguard by lia.
      rewrite (obind_oneed _ _ _ Sc). rewrite Hz6. reflexivity.
    - change (zlen ti) with 0 in *. replace (off' + 0) with off' by lia. destruct (Z.ltb_spec off' (zlen d)); [lia|reflexivity]. }
  cbn [obind]. rewrite obind_oguard by lia. rewrite (obind_oneed _ _ _ S2), (obind_oneed _ _ _ S5). reflexivity.
Qed.

(** Name-only data *)
Definition enc_name (name : bytes) : bytes := [OATH_TAG_NAME; zlen name] ++ name.

Lemma parse_name_sound m d : 2 <= m -> all_bytes d ->
  match parse_name m d with
  | Ret name => 1 <= zlen name <= 64 /\ m <= zlen d /\ all_bytes name /\ d = enc_name name ++ drop (2 + zlen name) d
  | Exc w => w <> SW_NO_ERROR
  | Fail | UB => False
  end.
Proof.
  intros Hm Hb. unfold parse_name. cbv zeta.
  ostep; [|discriminate]. ostep; [|in_buf]. rename z into t0. ostep; [|discriminate]. ostep; [|in_buf]. rename z into nl.
  assert (is_byte nl) as Hnl by (eapply rd_byte; eassumption). unfold is_byte, MAX_NAME_LEN in *.
  ostep; [|discriminate]. ostep; [|discriminate]. ostep; [|in_buf]. rename b into name.
  destruct (sub_drop _ _ _ _ En1) as [E1 Hz1]. repeat split; try lia; [eapply sub_bytes; eassumption|].
  rewrite <- (drop_0 d) at 1. rewrite (rd_drop _ _ _ En). change (0 + 1) with 1. rewrite (rd_drop _ _ _ En0).
  change (1 + 1) with 2. rewrite E1. unfold enc_name. rewrite Hz1. replace t0 with OATH_TAG_NAME by lia. reflexivity.
Qed.
Lemma parse_name_complete m name rest : 1 <= zlen name <= 64 -> m <= 2 + zlen name + zlen rest ->
  parse_name m (enc_name name ++ rest) = Ret name.
Proof.
  intros Hn Hm. set (d := enc_name name ++ rest).
  assert (zlen d = 2 + zlen name + zlen rest) as Hz.
  { unfold d, enc_name. rewrite !zlen_app. change (zlen [OATH_TAG_NAME; zlen name]) with 2. lia. }
  pose proof (zlen_nonneg rest).
  assert (drop 0 d = OATH_TAG_NAME :: zlen name :: name ++ rest) as D0 by reflexivity.
  destruct (drop_rd d 0 _ _ D0 ltac:(lia)) as [R0 D1]. change (0 + 1) with 1 in D1.
  destruct (drop_rd d 1 _ _ D1 ltac:(lia)) as [R1 D2]. change (1 + 1) with 2 in D2.
  destruct (drop_app d 2 _ _ D2 ltac:(lia)) as (S2 & D3 & _).
  unfold parse_name. cbv zeta. rewrite obind_oguard by lia. rewrite (obind_oneed _ _ _ R0).
  rewrite obind_oguard by reflexivity. rewrite (obind_oneed _ _ _ R1).
  rewrite obind_oguard by (unfold MAX_NAME_LEN; lia). rewrite obind_oguard by lia. rewrite S2. reflexivity.
Qed.

Lemma parse_rename_sound d : all_bytes d ->
  match parse_rename d with
  | Ret (old, new) => 1 <= zlen old <= 64 /\ 1 <= zlen new <= 64 /\ all_bytes old /\ all_bytes new /\
      exists rest, d = enc_name old ++ enc_name new ++ rest
  | Exc w => w <> SW_NO_ERROR
  | Fail | UB => False
  end.
Proof.
  intros Hb. unfold parse_rename. cbv zeta.
  ostep; [|discriminate]. ostep; [|in_buf]. rename z into t0. ostep; [|discriminate]. ostep; [|in_buf]. rename z into nl.
  assert (is_byte nl) as Hnl by (eapply rd_byte; eassumption). unfold is_byte, MAX_NAME_LEN in *.
  ostep; [|discriminate]. ostep; [|discriminate]. ostep; [|in_buf]. rename z into t1. ostep; [|discriminate].
  ostep; [|in_buf]. rename z into ml. assert (is_byte ml) as Hml by (eapply rd_byte; eassumption). unfold is_byte in Hml.
  ostep; [|discriminate]. ostep; [|discriminate]. ostep; [|in_buf]. rename b into old. ostep; [|in_buf]. rename b into new.
  destruct (sub_drop _ _ _ _ En3) as [E3 Hz3]. destruct (sub_drop _ _ _ _ En4) as [E4 Hz4].
  repeat split; try lia; try (eapply sub_bytes; eassumption).
  exists (drop (2 + nl + 2 + ml) d).
  rewrite <- (drop_0 d) at 1. rewrite (rd_drop _ _ _ En). change (0 + 1) with 1. rewrite (rd_drop _ _ _ En0).
  change (1 + 1) with 2. rewrite E3. rewrite (rd_drop _ _ _ En1), (rd_drop _ _ _ En2).
  replace (2 + nl + 1 + 1) with (2 + nl + 2) by lia. rewrite E4. unfold enc_name. rewrite Hz3, Hz4.
  replace t0 with OATH_TAG_NAME by lia. replace t1 with OATH_TAG_NAME by lia. rewrite <- !app_assoc. reflexivity.
Qed.
Lemma parse_rename_complete old new rest : 1 <= zlen old <= 64 -> 1 <= zlen new <= 64 ->
  parse_rename (enc_name old ++ enc_name new ++ rest) = Ret (old, new).
Proof.
  intros Ho Hn. set (d := enc_name old ++ enc_name new ++ rest).
  assert (zlen d = 4 + zlen old + zlen new + zlen rest) as Hz.
  { unfold d, enc_name. rewrite !zlen_app. change (zlen [OATH_TAG_NAME; zlen old]) with 2.
    change (zlen [OATH_TAG_NAME; zlen new]) with 2. lia. }
  pose proof (zlen_nonneg rest).
  assert (drop 0 d = OATH_TAG_NAME :: zlen old :: old ++ OATH_TAG_NAME :: zlen new :: new ++ rest) as D0.
  { unfold d, enc_name, drop. change (Z.to_nat 0) with 0%nat. cbn [skipn app]. reflexivity. }
  destruct (drop_rd d 0 _ _ D0 ltac:(lia)) as [R0 D1]. change (0 + 1) with 1 in D1.
  destruct (drop_rd d 1 _ _ D1 ltac:(lia)) as [R1 D2]. change (1 + 1) with 2 in D2.
  destruct (drop_app d 2 _ _ D2 ltac:(lia)) as (S2 & D3 & _).
  destruct (drop_rd d _ _ _ D3 ltac:(lia)) as [R3 D4]. destruct (drop_rd d _ _ _ D4 ltac:(lia)) as [R4 D5].
  replace (2 + zlen old + 1 + 1) with (2 + zlen old + 2) in * by lia.
  destruct (drop_app d _ _ _ D5 ltac:(lia)) as (S5 & D6 & _).
  unfold parse_rename. cbv zeta. rewrite obind_oguard by lia. rewrite (obind_oneed _ _ _ R0).
  rewrite obind_oguard by reflexivity. rewrite (obind_oneed _ _ _ R1).
  rewrite obind_oguard by (unfold MAX_NAME_LEN; lia). rewrite obind_oguard by lia.
  rewrite (obind_oneed _ _ _ R3). rewrite obind_oguard by reflexivity. rewrite (obind_oneed _ _ _ R4).
  rewrite obind_oguard by (unfold MAX_NAME_LEN; lia). rewrite obind_oguard by lia.
  rewrite (obind_oneed _ _ _ S2), (obind_oneed _ _ _ S5). reflexivity.
Qed.

Lemma parse_set_code_sound d : all_bytes d ->
  match parse_set_code d with
  | Ret None => True
  | Ret (Some (key, chal, resp)) => zlen key = 16 /\ zlen resp = 20 /\ zlen chal <= 255 /\
      exists alg, d = [OATH_TAG_KEY; 17; alg] ++ key ++ [OATH_TAG_CHALLENGE; zlen chal] ++ chal ++
                      [OATH_TAG_FULL_RESPONSE; 20] ++ resp
  | Exc w => w <> SW_NO_ERROR
  | Fail | UB => False
  end.
Proof.
  intros Hb. unfold parse_set_code. cbv zeta. destruct (Z.eqb_spec (zlen d) 0); [exact I|].
  ostep; [|discriminate]. ostep; [|in_buf]. ostep; [|discriminate]. ostep; [|in_buf]. destruct (Z.eqb_spec z0 0); [exact I|].
  unfold KEY_LEN in *. ostep; [|discriminate]. assert (z0 = 17) by lia. subst z0. ostep; [|discriminate]. ostep; [|in_buf]. ostep; [|discriminate].
  ostep; [|in_buf]. assert (is_byte z1) as Hcl by (eapply rd_byte; eassumption). unfold is_byte in Hcl.
  ostep; [|discriminate]. ostep; [|in_buf]. ostep; [|discriminate].
  ostep; [|in_buf]. ostep; [|discriminate]. ostep; [|discriminate]. ostep; [|in_buf]. ostep; [|in_buf]. ostep; [|in_buf].
  destruct (sub_drop _ _ _ _ En5) as [E5 Hz5]. destruct (sub_drop _ _ _ _ En6) as [E6 Hz6].
  destruct (sub_drop _ _ _ _ En7) as [E7 Hz7].
  repeat split; try lia. destruct (rd_some d 2) as [alg Hal]; [lia|]. exists alg.
  rewrite <- (drop_0 d) at 1. rewrite (rd_drop _ _ _ En). change (0 + 1) with 1. rewrite (rd_drop _ _ _ En0).
  change (1 + 1) with 2. rewrite (rd_drop _ _ _ Hal). change (2 + 1) with 3. rewrite E5.
  change (3 + 16) with (2 + 17). rewrite (rd_drop _ _ _ En1), (rd_drop _ _ _ En2).
  replace (2 + 17 + 1 + 1) with (2 + 17 + 2) by lia. rewrite E6.
  rewrite (rd_drop _ _ _ En3), (rd_drop _ _ _ En4).
  replace (2 + 17 + 2 + z1 + 1 + 1) with (2 + 17 + 2 + z1 + 2) by lia. rewrite E7.
  rewrite drop_end by lia. rewrite app_nil_r. rewrite Hz6.
  replace z with OATH_TAG_KEY by lia. replace z0 with OATH_TAG_CHALLENGE by lia. replace z2 with OATH_TAG_FULL_RESPONSE by lia.
  replace z3 with 20 by lia. cbn [app]. reflexivity.
Qed.

Lemma parse_validate_sound d : all_bytes d ->
  match parse_validate d with
  | Ret (resp, chal) => zlen resp = 20 /\ zlen chal <= 255 /\
      d = [OATH_TAG_FULL_RESPONSE; 20] ++ resp ++ [OATH_TAG_CHALLENGE; zlen chal] ++ chal
  | Exc w => w <> SW_NO_ERROR
  | Fail | UB => False
  end.
Proof.
  intros Hb. unfold parse_validate. cbv zeta.
  ostep; [|discriminate]. ostep; [|in_buf]. ostep; [|discriminate]. ostep; [|in_buf]. ostep; [|discriminate].
  ostep; [|discriminate]. ostep; [|in_buf]. ostep; [|discriminate]. ostep; [|in_buf].
  assert (is_byte z2) as Hcl by (eapply rd_byte; eassumption). unfold is_byte in Hcl.
  ostep; [|discriminate]. ostep; [|in_buf]. ostep; [|in_buf].
  destruct (sub_drop _ _ _ _ En3) as [E3 Hz3]. destruct (sub_drop _ _ _ _ En4) as [E4 Hz4].
  repeat split; try lia.
  rewrite <- (drop_0 d) at 1. rewrite (rd_drop _ _ _ En). change (0 + 1) with 1. rewrite (rd_drop _ _ _ En0).
  change (1 + 1) with 2. rewrite E3. change (2 + 20) with 22. rewrite (rd_drop _ _ _ En1). change (22 + 1) with 23. rewrite (rd_drop _ _ _ En2).
  change (23 + 1) with 24. rewrite E4. rewrite drop_end by lia. rewrite app_nil_r, Hz4.
  replace z with OATH_TAG_FULL_RESPONSE by lia. replace z1 with OATH_TAG_CHALLENGE by lia. replace z0 with 20 by lia.
  reflexivity.
Qed.

Lemma parse_challenge_sound d off : 0 <= off -> all_bytes d ->
  match parse_challenge d off with
  | Ret chal => 1 <= zlen chal <= 8 /\ all_bytes chal /\
                exists rest, drop off d = [OATH_TAG_CHALLENGE; zlen chal] ++ chal ++ rest
  | Exc w => w <> SW_NO_ERROR
  | Fail | UB => False
  end.
Proof.
  intros Ho Hb. unfold parse_challenge, MAX_CHALLENGE_LEN. cbv zeta.
  ostep; [|discriminate]. ostep; [|in_buf]. ostep; [|discriminate]. ostep; [|in_buf].
  assert (is_byte z0) as Hcl by (eapply rd_byte; eassumption). unfold is_byte in Hcl.
  ostep; [|discriminate]. ostep; [|discriminate]. ostep; [|in_buf].
  destruct (sub_drop _ _ _ _ En1) as [E3 Hz3].
  repeat split; try lia; [eapply sub_bytes; eassumption|]. eexists.
  rewrite (rd_drop _ _ _ En). rewrite (rd_drop _ _ _ En0).
  replace (off + 1 + 1) with (off + 2) by lia. rewrite E3, Hz3. replace z with OATH_TAG_CHALLENGE by lia. reflexivity.
Qed.
Lemma parse_challenge_complete d off chal rest : 0 <= off <= zlen d -> 1 <= zlen chal <= 8 ->
  drop off d = [OATH_TAG_CHALLENGE; zlen chal] ++ chal ++ rest -> parse_challenge d off = Ret chal.
Proof.
  intros Ho Hc D0. cbn [app] in D0.
  assert (zlen d = off + 2 + zlen chal + zlen rest) as Hz.
  { assert (zlen (drop off d) = 2 + zlen chal + zlen rest) as E by (rewrite D0, !zlen_cons, zlen_app; lia).
    rewrite zlen_drop in E by lia. pose proof (zlen_nonneg rest). lia. }
  pose proof (zlen_nonneg rest).
  destruct (drop_rd d off _ _ D0 ltac:(lia)) as [R0 D1]. destruct (drop_rd d _ _ _ D1 ltac:(lia)) as [R1 D2].
  replace (off + 1 + 1) with (off + 2) in D2 by lia. destruct (drop_app d _ _ _ D2 ltac:(lia)) as (S2 & _ & _).
  unfold parse_challenge, MAX_CHALLENGE_LEN. cbv zeta. rewrite obind_oguard by lia. rewrite (obind_oneed _ _ _ R0).
  rewrite obind_oguard by reflexivity. rewrite (obind_oneed _ _ _ R1). rewrite obind_oguard by lia.
  rewrite obind_oguard by lia. rewrite S2. reflexivity.
Qed.
