(** What all applet models share: status words, the pure error monad of the parsers, the wrapper which
    turns the end of an applet's [*_process_apdu] into a response. *)
From Verif Require Export Sys.
From Verif Require Export Apdu.
Open Scope Z_scope.

(** include/apdu.h:25-45 *)
Definition SW_TERMINATED := 0x6285.
Definition SW_PIN_RETRIES := 0x63C0.
Definition SW_ERR_NOT_PERSIST := 0x6400.
Definition SW_WRONG_LENGTH := 0x6700.
Definition SW_UNABLE_TO_PROCESS := 0x6900.
Definition SW_SECURITY_STATUS_NOT_SATISFIED := 0x6982.
Definition SW_AUTHENTICATION_BLOCKED := 0x6983.
Definition SW_DATA_INVALID := 0x6984.
Definition SW_CONDITIONS_NOT_SATISFIED := 0x6985.
Definition SW_COMMAND_NOT_ALLOWED := 0x6986.
Definition SW_WRONG_DATA := 0x6A80.
Definition SW_NOT_ENOUGH_SPACE := 0x6A84.
Definition SW_WRONG_P1P2 := 0x6A86.
Definition SW_REFERENCE_DATA_NOT_FOUND := 0x6A88.
Definition SW_INS_NOT_SUPPORTED := 0x6D00.
Definition SW_CLA_NOT_SUPPORTED := 0x6E00.

(** Pure code (parsers) uses [out] itself as an error monad. *)
Definition obind {A B} (m : out A) (k : A -> out B) : out B :=
  match m with Ret a => k a | Exc w => Exc w | Fail => Fail | UB => UB end.
Notation "x <~ m ;; k" := (obind m (fun x => k)) (at level 61, m at next level, right associativity).
Definition oguard (b : bool) (sw : Z) : out unit := if b then Ret tt else Exc sw.
Definition oneed {A} (o : option A) : out A := match o with Some a => Ret a | None => UB end.
Definition lift {S A} (o : out A) : M S A := fun s e => (o, s, e).

(** The shape of every [*_process_apdu]: LL = 0; SW = 9000; a switch which may EXCEPT or return a
    negative value, the latter being answered 6900 with whatever LL is at that moment.  [None]:
    undefined behaviour. *)
Definition run_apdu {S} (m : M S Z) (s : S) (e : env) : option rapdu * S * env :=
  let e0 := mkE (e_fs e) (e_log e) (e_flt e) (e_rnd e) (e_tch e) [] in
  match m s e0 with
  | (Ret sw, s', e') => (Some (mkR (e_out e') sw), s', e')
  | (Exc sw, s', e') => (Some (mkR (e_out e') sw), s', e')
  | (Fail, s', e') => (Some (mkR (e_out e') SW_UNABLE_TO_PROCESS), s', e')
  | (UB, s', e') => (None, s', e')
  end.

(** A struct read from a file: a short read leaves the rest of the variable as it was. *)
Definition overlay (d old : bytes) : bytes := d ++ skipn (length d) old.

Lemma wp_lift {S A} (o : out A) (Q : out A -> S -> env -> Prop) s e : Q o s e -> wp (lift o) Q s e.
Proof. auto. Qed.
Lemma wp_get {S} (Q : out S -> S -> env -> Prop) s e : Q (Ret s) s e -> wp get Q s e.
Proof. auto. Qed.
Lemma wp_modify {S} f (Q : out unit -> S -> env -> Prop) s e : Q (Ret tt) (f s) e -> wp (modify f) Q s e.
Proof. auto. Qed.
Lemma wp_put {S} s1 (Q : out unit -> S -> env -> Prop) s e : Q (Ret tt) s1 e -> wp (put s1) Q s e.
Proof. auto. Qed.
Lemma wp_guard {S} b sw (Q : out unit -> S -> env -> Prop) s e :
  (b = true -> Q (Ret tt) s e) -> (b = false -> Q (Exc sw) s e) -> wp (guard b sw) Q s e.
Proof. destruct b; cbn; auto. Qed.
Lemma wp_except {S A} sw (Q : out A -> S -> env -> Prop) s e : Q (Exc sw) s e -> wp (except sw) Q s e.
Proof. auto. Qed.
Lemma wp_fail {S A} (Q : out A -> S -> env -> Prop) s e : Q Fail s e -> wp fail Q s e.
Proof. auto. Qed.
Lemma wp_need {S A} (o : option A) (Q : out A -> S -> env -> Prop) s e a :
  o = Some a -> Q (Ret a) s e -> wp (need o) Q s e.
Proof. intros ->; auto. Qed.
Lemma wp_set_out {S} d (Q : out unit -> S -> env -> Prop) s F L X R T O :
  Q (Ret tt) s (mkE F L X R T d) -> wp (set_out d) Q s (mkE F L X R T O).
Proof. auto. Qed.

Lemma bind_assoc {S A B C} (m : M S A) (k : A -> M S B) (h : B -> M S C) s e :
  bind (bind m k) h s e = bind m (fun a => bind (k a) h) s e.
Proof. unfold bind. destruct (m s e) as [[[a|w| |] s'] e']; reflexivity. Qed.
Lemma bind_lift_ret {S A B} (o : out A) (k : A -> M S B) s e a :
  o = Ret a -> bind (lift o) k s e = k a s e.
Proof. intros ->; reflexivity. Qed.

(** ** Buffers *)
Lemma nth_splice l off d i x : 0 <= off -> off + zlen d <= zlen l ->
  nth i (splice l off d) x =
  if (i <? Z.to_nat off)%nat then nth i l x
  else if (i <? Z.to_nat off + length d)%nat then nth (i - Z.to_nat off) d x else nth i l x.
Proof.
  intros Ho Hd. unfold splice, zlen in *.
  assert (length (firstn (Z.to_nat off) l) = Z.to_nat off) as Hl by (rewrite firstn_length; lia).
  destruct (Nat.ltb_spec i (Z.to_nat off)).
  - rewrite app_nth1 by lia. rewrite <- (firstn_skipn (Z.to_nat off) l) at 2. rewrite app_nth1 by lia. reflexivity.
  - rewrite app_nth2 by lia. rewrite Hl. destruct (Nat.ltb_spec i (Z.to_nat off + length d)).
    + rewrite app_nth1 by lia. reflexivity.
    + rewrite app_nth2 by lia.
      rewrite <- (firstn_skipn (Z.to_nat off + length d) l) at 2.
      rewrite app_nth2 by (rewrite firstn_length; lia). rewrite firstn_length. f_equal. lia.
Qed.
Lemma nth_firstn {A} i n (l : list A) x : nth i (firstn n l) x = if (i <? n)%nat then nth i l x else x.
Proof.
  destruct (Nat.ltb_spec i n).
  - revert n l H; induction i; intros [|n] [|a l] H; try lia; cbn; try reflexivity. apply IHi; lia.
  - apply nth_overflow. rewrite firstn_length. lia.
Qed.
Lemma nth_skipn {A} i n (l : list A) x : nth i (skipn n l) x = nth (n + i) l x.
Proof. revert l; induction n; intros l; [reflexivity|]. destruct l; cbn; [destruct i; reflexivity|apply IHn]. Qed.
Lemma nth_slice i off n l x : 0 <= off -> nth i (slice off n l) x = if (i <? Z.to_nat n)%nat then nth (Z.to_nat off + i) l x else x.
Proof. intros. unfold slice. rewrite nth_firstn, nth_skipn. reflexivity. Qed.

Lemma nth_ext' {A} (a b : list A) (x : A) : zlen a = zlen b -> (forall i, (i < length a)%nat -> nth i a x = nth i b x) -> a = b.
Proof. intros Hl Hn. apply nth_ext with (d := x) (d' := x); [unfold zlen in Hl; lia|assumption]. Qed.

Lemma slice_splice_same l off d : 0 <= off -> off + zlen d <= zlen l -> slice off (zlen d) (splice l off d) = d.
Proof.
  intros Ho Hd. pose proof (zlen_nonneg d) as Hd0. apply nth_ext' with (x := 0).
  - rewrite zlen_slice by lia. rewrite zlen_splice by lia. lia.
  - intros i Hi. rewrite nth_slice, nth_splice by lia.
    unfold slice in Hi. rewrite firstn_length in Hi. unfold zlen in *.
    destruct (Nat.ltb_spec i (Z.to_nat (Z.of_nat (length d)))); [|lia].
    destruct (Nat.ltb_spec (Z.to_nat off + i) (Z.to_nat off)); [lia|].
    destruct (Nat.ltb_spec (Z.to_nat off + i) (Z.to_nat off + length d)); [|lia]. f_equal. lia.
Qed.
Lemma slice_splice_disj l off d a n : 0 <= off -> 0 <= a -> 0 <= n -> off + zlen d <= zlen l ->
  a + n <= off \/ off + zlen d <= a -> slice a n (splice l off d) = slice a n l.
Proof.
  intros Ho Ha Hn Hd Hdisj. apply nth_ext' with (x := 0).
  - rewrite !zlen_slice by lia. rewrite zlen_splice by lia. reflexivity.
  - intros i Hi. rewrite !nth_slice, nth_splice by lia. unfold zlen in *.
    destruct (Nat.ltb_spec i (Z.to_nat n)); [|reflexivity].
    destruct (Nat.ltb_spec (Z.to_nat a + i) (Z.to_nat off)); [reflexivity|].
    destruct (Nat.ltb_spec (Z.to_nat a + i) (Z.to_nat off + length d)); [lia|reflexivity].
Qed.
Lemma slice_slice a n b m l : 0 <= a -> 0 <= b -> 0 <= m -> b + m <= n -> slice b m (slice a n l) = slice (a + b) m l.
Proof.
  intros Ha Hb Hm Hn. unfold slice. rewrite skipn_firstn_comm, skipn_skipn, firstn_firstn.
  f_equal; [lia|]. f_equal. lia.
Qed.
Lemma all_bytes_splice l off d : all_bytes l -> all_bytes d -> all_bytes (splice l off d).
Proof.
  intros Hl Hd. unfold splice. apply all_bytes_app; split; [apply all_bytes_firstn, Hl|].
  apply all_bytes_app; split; [assumption|apply all_bytes_skipn, Hl].
Qed.
Lemma nth_byte l i : all_bytes l -> is_byte (nth i l 0).
Proof.
  intros H. destruct (Nat.lt_ge_cases i (length l)).
  - unfold all_bytes in H. rewrite Forall_forall in H. apply H, nth_In; assumption.
  - rewrite nth_overflow by assumption. unfold is_byte; lia.
Qed.
Lemma zeros_bytes n : all_bytes (zeros n).
Proof. unfold zeros. apply Forall_forall. intros x Hx. apply repeat_spec in Hx. subst. unfold is_byte; lia. Qed.

(** ** What is left of a buffer from position [i] on; parsers are followed with it *)
Definition drop (i : Z) (d : bytes) : bytes := skipn (Z.to_nat i) d.
#[global] Arguments drop : simpl never.
Lemma drop_0 d : drop 0 d = d. Proof. reflexivity. Qed.
Lemma zlen_drop i d : 0 <= i -> zlen (drop i d) = Z.max 0 (zlen d - i).
Proof. intros. unfold drop. rewrite zlen_skipn. lia. Qed.
Lemma drop_end i d : 0 <= i -> zlen d <= i -> drop i d = [].
Proof. intros. apply zlen_zero. rewrite zlen_drop; lia. Qed.
Lemma rd_drop d i b : rd d i = Some b -> drop i d = b :: drop (i + 1) d.
Proof.
  intros H. pose proof (rd_in _ _ _ H) as Hi. unfold rd in H. destruct (Z.ltb_spec i 0); [lia|].
  unfold drop. replace (Z.to_nat (i + 1)) with (S (Z.to_nat i)) by lia.
  revert H. generalize (Z.to_nat i) as n. clear. intros n H. revert d H.
  induction n; intros [|x d] H; try discriminate; cbn in *; [congruence|]. apply IHn, H.
Qed.
Lemma drop_drop i j d : 0 <= i -> 0 <= j -> drop j (drop i d) = drop (i + j) d.
Proof. intros. unfold drop. rewrite skipn_skipn. f_equal. lia. Qed.
Lemma drop_rd d i b t : drop i d = b :: t -> 0 <= i -> rd d i = Some b /\ drop (i + 1) d = t.
Proof.
  intros H Hi. assert (i < zlen d).
  { assert (zlen (drop i d) = 1 + zlen t) by (rewrite H; apply zlen_cons). rewrite zlen_drop in * by lia. pose proof (zlen_nonneg t). lia. }
  destruct (rd_some d i) as [b' Hb]; [lia|]. pose proof (rd_drop _ _ _ Hb) as E. rewrite H in E. injection E as <- ->. auto.
Qed.
Lemma drop_app d i x t : drop i d = x ++ t -> 0 <= i <= zlen d ->
  sub d i (zlen x) = Some x /\ drop (i + zlen x) d = t /\ i + zlen x <= zlen d.
Proof.
  intros H Hi. pose proof (zlen_nonneg x) as Hx. pose proof (zlen_nonneg t) as Ht.
  assert (i + zlen x <= zlen d) as Hc.
  { assert (zlen (drop i d) = zlen x + zlen t) as E by (rewrite H; apply zlen_app). rewrite zlen_drop in E by lia. lia. }
  rewrite <- drop_drop by lia. rewrite H. split; [|split; [|assumption]].
  - rewrite sub_ok by lia. f_equal. unfold slice, drop in *. rewrite H. unfold zlen. rewrite Nat2Z.id.
    rewrite firstn_app, firstn_all, Nat.sub_diag. apply app_nil_r.
  - unfold drop, zlen. rewrite Nat2Z.id. rewrite skipn_app, skipn_all, Nat.sub_diag. reflexivity.
Qed.
Lemma sub_drop d i n x : sub d i n = Some x -> drop i d = x ++ drop (i + n) d /\ zlen x = n.
Proof.
  intros H. apply sub_some in H as (Hi & Hn & Hz & ->). split; [|rewrite zlen_slice; lia].
  rewrite <- drop_drop by lia. unfold slice, drop. symmetry. apply firstn_skipn.
Qed.
Lemma sub_bytes d i n x : all_bytes d -> sub d i n = Some x -> all_bytes x.
Proof. intros Hb H. apply sub_some in H as (_ & _ & _ & ->). apply all_bytes_slice, Hb. Qed.

(** Following a parser: split on its next test or read. *)
Ltac ohead m :=
  lazymatch m with
  | obind ?x _ => ohead x
  | oguard ?b _ => let E := fresh "Eg" in destruct b eqn:E; cbn [oguard obind]
  | oneed ?o => let E := fresh "En" in destruct o eqn:E; cbn [oneed obind]
  end.
Ltac ostep :=
  match goal with
  | |- context [obind ?x ?k] => ohead x
  | |- context [oneed ?o] => ohead (oneed o)
  end.
(** A read inside the buffer cannot fail. *)
Ltac in_buf :=
  match goal with
  | H : rd ?d ?i = None |- _ =>
      let b := fresh in let Hb := fresh in exfalso; destruct (rd_some d i) as [b Hb]; [lia|congruence]
  | H : sub ?d ?i ?n = None |- _ => exfalso; rewrite sub_ok in H by lia; discriminate
  end.
