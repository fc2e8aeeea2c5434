(** Bytes, buffers and fixed-width arithmetic used by the whole model.

    A byte is a [Z]; a buffer is a [list Z].  Buffer lengths and offsets computed by the C code are
    [Z]s.  Reads are partial ([rd]): a read outside the buffer yields [None], which the model turns
    into an explicit undefined-behaviour outcome. *)
From Coq Require Export List ZArith Lia Bool.
From Coq Require Export ZifyBool ZifyNat.
Export ListNotations.
Open Scope Z_scope.

Definition bytes := list Z.

Definition is_byte (b : Z) : Prop := 0 <= b < 256.
Definition all_bytes (l : bytes) : Prop := Forall is_byte l.

Definition zlen {A} (l : list A) : Z := Z.of_nat (length l).

(** [rd l i]: the C expression [l[i]]; [None] when [i] is outside the object. *)
Definition rd (l : bytes) (i : Z) : option Z :=
  if i <? 0 then None else nth_error l (Z.to_nat i).

(** [sub l off n]: the [n] bytes starting at [off]; [None] when the range is not inside the object. *)
Definition sub (l : bytes) (off n : Z) : option bytes :=
  if (off <? 0) || (n <? 0) || (zlen l <? off + n) then None
  else Some (firstn (Z.to_nat n) (skipn (Z.to_nat off) l)).

(** Total slice used in specifications: bytes [off .. off+n) clipped to the list. *)
Definition slice (off n : Z) (l : bytes) : bytes :=
  firstn (Z.to_nat n) (skipn (Z.to_nat off) l).

(** [splice l off d]: the buffer [l] after [memcpy(l+off, d, |d|)], when it fits. *)
Definition splice (l : bytes) (off : Z) (d : bytes) : bytes :=
  firstn (Z.to_nat off) l ++ d ++ skipn (Z.to_nat off + length d) l.

Definition zeros (n : Z) : bytes := repeat 0 (Z.to_nat n).

Definition u8 (z : Z) : Z := z mod 256.
Definition u16 (z : Z) : Z := z mod 65536.
Definition u32 (z : Z) : Z := z mod 4294967296.
Definition u64 (z : Z) : Z := z mod 18446744073709551616.

(** Big-endian numbers of any width. *)
Fixpoint be_acc (acc : Z) (l : bytes) : Z :=
  match l with [] => acc | b :: r => be_acc (acc * 256 + b) r end.
Definition be (l : bytes) : Z := be_acc 0 l.

Fixpoint to_be (n : nat) (z : Z) : bytes :=
  match n with O => [] | S n' => to_be n' (z / 256) ++ [z mod 256] end.

Fixpoint beqb (a b : bytes) : bool :=
  match a, b with
  | [], [] => true
  | x :: a', y :: b' => (x =? y) && beqb a' b'
  | _, _ => false
  end.

Lemma beqb_spec a b : reflect (a = b) (beqb a b).
Proof.
  revert b; induction a as [|x a IH]; intros [|y b]; cbn; try (constructor; congruence).
  destruct (Z.eqb_spec x y) as [->|Hn]; cbn.
  - destruct (IH b) as [->|Hn]; constructor; congruence.
  - constructor; congruence.
Qed.

Lemma beqb_refl a : beqb a a = true.
Proof. destruct (beqb_spec a a); congruence. Qed.

Lemma beqb_eq a b : beqb a b = true <-> a = b.
Proof. destruct (beqb_spec a b); split; congruence. Qed.

Lemma zlen_nonneg {A} (l : list A) : 0 <= zlen l.
Proof. unfold zlen; lia. Qed.
Lemma zlen_nil {A} : zlen (@nil A) = 0.
Proof. reflexivity. Qed.
Lemma zlen_cons {A} (x : A) l : zlen (x :: l) = 1 + zlen l.
Proof. unfold zlen; cbn [length]; lia. Qed.
Lemma zlen_app {A} (a b : list A) : zlen (a ++ b) = zlen a + zlen b.
Proof. unfold zlen; rewrite app_length; lia. Qed.
Lemma zlen_zero {A} (l : list A) : zlen l = 0 -> l = [].
Proof. destruct l; [auto|]; unfold zlen; cbn [length]; lia. Qed.
Lemma zlen_firstn {A} n (l : list A) : zlen (firstn n l) = Z.min (Z.of_nat n) (zlen l).
Proof. unfold zlen; rewrite firstn_length; lia. Qed.
Lemma zlen_skipn {A} n (l : list A) : zlen (skipn n l) = Z.max 0 (zlen l - Z.of_nat n).
Proof. unfold zlen; rewrite skipn_length; lia. Qed.
Lemma zlen_repeat {A} (x : A) n : zlen (repeat x n) = Z.of_nat n.
Proof. unfold zlen; rewrite repeat_length; lia. Qed.
Lemma zlen_zeros n : 0 <= n -> zlen (zeros n) = n.
Proof. intros; unfold zeros; rewrite zlen_repeat; lia. Qed.
Lemma zlen_map {A B} (f : A -> B) l : zlen (map f l) = zlen l.
Proof. unfold zlen; rewrite map_length; lia. Qed.
Lemma zlen_rev {A} (l : list A) : zlen (rev l) = zlen l.
Proof. unfold zlen; rewrite rev_length; lia. Qed.
Lemma zlen_slice off n l :
  0 <= off -> 0 <= n -> zlen (slice off n l) = Z.max 0 (Z.min n (zlen l - off)).
Proof. intros; unfold slice; rewrite zlen_firstn, zlen_skipn; lia. Qed.

#[export] Hint Rewrite @zlen_nil @zlen_cons @zlen_app @zlen_firstn @zlen_skipn @zlen_repeat @zlen_map @zlen_rev : zlen.

Lemma rd_in l i b : rd l i = Some b -> 0 <= i < zlen l.
Proof.
  unfold rd; destruct (Z.ltb_spec i 0); [discriminate|]; intros He.
  assert (Z.to_nat i < length l)%nat by (apply nth_error_Some; congruence).
  unfold zlen; lia.
Qed.
Lemma rd_some l i : 0 <= i < zlen l -> exists b, rd l i = Some b.
Proof.
  intros H; unfold rd; destruct (Z.ltb_spec i 0); [lia|].
  destruct (nth_error l (Z.to_nat i)) eqn:E; [eauto|].
  apply nth_error_None in E; unfold zlen in H; lia.
Qed.
Lemma rd_byte l i b : all_bytes l -> rd l i = Some b -> is_byte b.
Proof.
  unfold rd; destruct (i <? 0); [discriminate|]; intros Ha He.
  apply nth_error_In in He. exact (proj1 (Forall_forall _ _) Ha _ He).
Qed.
Lemma rd_app_l a b i : 0 <= i < zlen a -> rd (a ++ b) i = rd a i.
Proof.
  intros H; unfold rd; destruct (i <? 0); [reflexivity|].
  apply nth_error_app1. unfold zlen in H; lia.
Qed.
Lemma rd_app_r a b i : zlen a <= i -> rd (a ++ b) i = rd b (i - zlen a).
Proof.
  intros H; unfold rd.
  destruct (Z.ltb_spec i 0); [unfold zlen in H; lia|].
  destruct (Z.ltb_spec (i - zlen a) 0); [lia|].
  rewrite nth_error_app2 by (unfold zlen in H; lia).
  f_equal. unfold zlen; lia.
Qed.
Lemma rd_cons_0 x l : rd (x :: l) 0 = Some x.
Proof. reflexivity. Qed.
Lemma rd_cons_S x l i : 0 < i -> rd (x :: l) i = rd l (i - 1).
Proof.
  intros H; unfold rd; destruct (Z.ltb_spec i 0); [lia|]; destruct (Z.ltb_spec (i - 1) 0); [lia|].
  replace (Z.to_nat i) with (S (Z.to_nat (i - 1))) by lia. reflexivity.
Qed.

Lemma sub_some l off n d : sub l off n = Some d -> 0 <= off /\ 0 <= n /\ off + n <= zlen l /\ d = slice off n l.
Proof.
  unfold sub; destruct (Z.ltb_spec off 0); [discriminate|]; destruct (Z.ltb_spec n 0); [discriminate|].
  destruct (Z.ltb_spec (zlen l) (off + n)); [discriminate|]; cbn.
  intros [= <-]; auto.
Qed.
Lemma sub_ok l off n : 0 <= off -> 0 <= n -> off + n <= zlen l -> sub l off n = Some (slice off n l).
Proof.
  intros; unfold sub; destruct (Z.ltb_spec off 0); [lia|]; destruct (Z.ltb_spec n 0); [lia|].
  destruct (Z.ltb_spec (zlen l) (off + n)); [lia|]; reflexivity.
Qed.

Lemma slice_all l : slice 0 (zlen l) l = l.
Proof. unfold slice, zlen; rewrite Nat2Z.id; cbn [Z.to_nat skipn]. apply firstn_all. Qed.
Lemma slice_0_app a b : slice 0 (zlen a) (a ++ b) = a.
Proof.
  unfold slice, zlen; rewrite Nat2Z.id; cbn [Z.to_nat skipn].
  rewrite firstn_app, firstn_all, Nat.sub_diag; cbn; apply app_nil_r.
Qed.
Lemma slice_app_r a b off n : zlen a <= off -> slice off n (a ++ b) = slice (off - zlen a) n b.
Proof.
  intros H; unfold slice. rewrite skipn_app.
  rewrite skipn_all2 by (unfold zlen in H; lia). cbn [app].
  f_equal. f_equal. unfold zlen in *; lia.
Qed.
Lemma slice_mid a b c : slice (zlen a) (zlen b) (a ++ b ++ c) = b.
Proof. rewrite slice_app_r by lia. rewrite Z.sub_diag. apply slice_0_app. Qed.
Lemma slice_cons_S x l off n : 0 < off -> slice off n (x :: l) = slice (off - 1) n l.
Proof.
  intros H; unfold slice. replace (Z.to_nat off) with (S (Z.to_nat (off - 1))) by lia. reflexivity.
Qed.
Lemma skipn_skipn {A} n m (l : list A) : skipn n (skipn m l) = skipn (n + m) l.
Proof.
  revert l; induction m as [|m IH]; intros l; [rewrite Nat.add_0_r; reflexivity|].
  rewrite Nat.add_succ_r. destruct l; cbn; [apply skipn_nil|apply IH].
Qed.
Lemma slice_split off n m l : 0 <= off -> 0 <= n -> 0 <= m ->
  slice off (n + m) l = slice off n l ++ slice (off + n) m l.
Proof.
  intros Ho Hn Hm; unfold slice.
  replace (Z.to_nat (n + m)) with (Z.to_nat n + Z.to_nat m)%nat by lia.
  replace (Z.to_nat (off + n)) with (Z.to_nat n + Z.to_nat off)%nat by lia.
  rewrite <- skipn_skipn. generalize (skipn (Z.to_nat off) l) as k. intros k.
  revert k; induction (Z.to_nat n) as [|i IH]; intros k; cbn; [reflexivity|].
  destruct k; cbn; [destruct (Z.to_nat m); reflexivity|]. f_equal. apply IH.
Qed.

Lemma be_acc_app acc a b : be_acc acc (a ++ b) = be_acc (be_acc acc a) b.
Proof. revert acc; induction a; intros acc; cbn; auto. Qed.
Lemma be_acc_lin acc l : be_acc acc l = acc * 256 ^ zlen l + be_acc 0 l.
Proof.
  revert acc; induction l as [|b l IH]; intros acc.
  - cbn; lia.
  - cbn [be_acc]. rewrite (IH (acc * 256 + b)), (IH (0 * 256 + b)), zlen_cons, Z.pow_add_r by (try apply zlen_nonneg; lia).
    ring.
Qed.
Lemma be_snoc l b : be (l ++ [b]) = be l * 256 + b.
Proof. unfold be; rewrite be_acc_app; reflexivity. Qed.
Lemma be_nonneg l : all_bytes l -> 0 <= be l < 256 ^ zlen l.
Proof.
  intros H; induction l as [|b l IH] using rev_ind; [unfold be; cbn; lia|].
  apply Forall_app in H; destruct H as [Hl Hb]. inversion Hb as [|? ? Hb' _]; subst.
  specialize (IH Hl). rewrite be_snoc, zlen_app, Z.pow_add_r by (try apply zlen_nonneg; cbn; lia).
  change (256 ^ zlen [b]) with 256. unfold is_byte in Hb'. nia.
Qed.
Lemma to_be_length n z : length (to_be n z) = n.
Proof. revert z; induction n; intros z; cbn; [reflexivity|]. rewrite app_length, IHn; cbn; lia. Qed.
Lemma zlen_to_be n z : zlen (to_be n z) = Z.of_nat n.
Proof. unfold zlen; rewrite to_be_length; reflexivity. Qed.
Lemma to_be_bytes n z : all_bytes (to_be n z).
Proof.
  revert z; induction n; intros z; cbn; [constructor|].
  apply Forall_app; split; [apply IHn|]. constructor; [|constructor].
  unfold is_byte. apply Z.mod_pos_bound; lia.
Qed.
Lemma be_to_be n z : be (to_be n z) = z mod 256 ^ Z.of_nat n.
Proof.
  revert z; induction n; intros z.
  - cbn. rewrite Z.mod_1_r. reflexivity.
  - cbn [to_be]. rewrite be_snoc, IHn.
    replace (Z.of_nat (S n)) with (Z.of_nat n + 1) by lia.
    rewrite Z.pow_add_r, Z.pow_1_r by lia.
    rewrite (Z.mul_comm (256 ^ Z.of_nat n) 256).
    rewrite Z.rem_mul_r by (try apply Z.pow_pos_nonneg; lia). lia.
Qed.
Lemma to_be_be l : all_bytes l -> to_be (length l) (be l) = l.
Proof.
  induction l as [|b l IH] using rev_ind; intros H; [reflexivity|].
  apply Forall_app in H; destruct H as [Hl Hb]. inversion Hb as [|? ? Hb' _]; subst.
  rewrite app_length, Nat.add_comm; cbn [Nat.add length to_be]. rewrite be_snoc.
  unfold is_byte in Hb'.
  rewrite Z.div_add_l, Z.div_small by lia. rewrite Z.add_0_r, IH by assumption.
  f_equal. f_equal. rewrite Z.add_comm, Z.mod_add, Z.mod_small by lia. reflexivity.
Qed.

Lemma all_bytes_app a b : all_bytes (a ++ b) <-> all_bytes a /\ all_bytes b.
Proof. apply Forall_app. Qed.
Lemma all_bytes_firstn n l : all_bytes l -> all_bytes (firstn n l).
Proof. intros H; apply Forall_forall; intros x Hx. apply (proj1 (Forall_forall _ _) H). rewrite <- (firstn_skipn n l). apply in_or_app; auto. Qed.
Lemma all_bytes_skipn n l : all_bytes l -> all_bytes (skipn n l).
Proof. intros H; apply Forall_forall; intros x Hx. apply (proj1 (Forall_forall _ _) H). rewrite <- (firstn_skipn n l). apply in_or_app; auto. Qed.
Lemma all_bytes_slice off n l : all_bytes l -> all_bytes (slice off n l).
Proof. intros H; apply all_bytes_firstn, all_bytes_skipn, H. Qed.

Lemma zlen_splice l off d : 0 <= off -> off + zlen d <= zlen l -> zlen (splice l off d) = zlen l.
Proof. intros; unfold splice; autorewrite with zlen. unfold zlen in *. lia. Qed.

(** A boolean decision procedure for [all_bytes], for concrete examples. *)
Definition all_bytesb (l : bytes) : bool := forallb (fun b => (0 <=? b) && (b <? 256)) l.
Lemma all_bytesb_spec l : all_bytesb l = true <-> all_bytes l.
Proof.
  unfold all_bytesb, all_bytes. rewrite forallb_forall, Forall_forall. unfold is_byte.
  split; intros H x Hx; specialize (H x Hx); lia.
Qed.

(** Length goals. *)
Ltac zl := autorewrite with zlen in *; lia.
