(** C92: the secrets of the OATH credentials. *)
From Verif Require Import Sys Apdu Applet Pass Oath OathProofs OathSpec OathEx.
Open Scope string_scope. Open Scope list_scope. Open Scope Z_scope.

(** ** What may differ *)
(** The credentials are kept in records of 141 bytes (include/oath.h:53-63); the secret of a credential is in bytes 68 to 131 of its record, after
    the name, the length of the key, the algorithm and the number of digits, and before the properties and the counter. *)
Definition secret_at (i : nat) : bool := let k := Nat.modulo i 141 in (Nat.leb 68 k && Nat.ltb k 132)%bool.
(** The same bytes, except where [m] allows others. *)
Definition same_except (m : nat -> bool) (a b : bytes) : Prop := length a = length b /\ forall i, m i = false -> nth i a 0 = nth i b 0.
(** Two storages with the same contents except for the secrets of the OATH credentials. *)
Definition same_file (q : path) (x y : option file) : Prop :=
  match x, y with
  | None, None => True
  | Some f, Some g => if string_dec q "oath" then (forall a, f_attr f a = f_attr g a) /\ same_except secret_at (f_data f) (f_data g) else f = g
  | _, _ => False
  end.
Definition other_secrets (F G : fs) : Prop := forall q, same_file q (F q) (G q).
(** Two devices that differ only in those secrets. *)
Definition same_dev (d d' : dev) : Prop := d_ram d = d_ram d' /\ other_secrets (d_fs d) (d_fs d').

(** Two commands that differ only in the secret which a PUT brings: 71 len name 73 len algorithm digits SECRET ... *)
Definition put_secret_at (d : bytes) (i : nat) : bool :=
  let nl := nth 1 d 0 in let kl := nth (Z.to_nat (3 + nl)) d 0 in
  (6 + nl <=? Z.of_nat i) && (Z.of_nat i <? 4 + nl + kl).
Definition same_cmd (c c' : capdu) : Prop := c = c' \/
  (c_ins c = 0x01 /\ c' = mkC (c_cla c) 0x01 (c_p1 c) (c_p2 c) (c_data c') (c_le c) /\ all_bytes (c_data c) /\ all_bytes (c_data c') /\
   same_except (put_secret_at (c_data c)) (c_data c) (c_data c')).
Inductive same_event : event -> event -> Prop :=
| same_ev ev : same_event ev ev
| same_put nfc c c' flt rnd tch : same_cmd c c' -> same_event (Cmd nfc c flt rnd tch) (Cmd nfc c' flt rnd tch)
| same_cut nfc c c' flt rnd tch n : same_cmd c c' -> same_event (CutCmd nfc c flt rnd tch n) (CutCmd nfc c' flt rnd tch n).

(** Who is given codes: CALCULATE; CALCULATE ALL (instruction A4 with P1 = 0) and SEND REMAINING (A5) after it; a touch when its slot is set to a
    credential. *)
Definition gives_code (s : oath) (ev : event) : bool :=
  match ev with
  | Cmd _ c _ _ _ => (c_ins c =? 0xA2) || ((c_ins c =? 0xA4) && (c_p1 c =? 0)) || ((c_ins c =? 0xA5) && (remaining_eqb (o_rem s) REMAINING_CALC_FULL || remaining_eqb (o_rem s) REMAINING_CALC_TRUNC))
  | Touch kind _ => sl_type (if kind =? 1 then fst (o_slots s) else snd (o_slots s)) =? PASS_SLOT_OATH
  | _ => false
  end.
(** The same answer but for the codes in it: a code is what follows tag 75 (full) or 76 (truncated), a length and the number of digits. *)
Inductive same_but_codes : bytes -> bytes -> Prop :=
| sbc_nil : same_but_codes [] []
| sbc_same a b x : same_but_codes a b -> same_but_codes (a ++ x) (b ++ x)
| sbc_code a b t g x y : same_but_codes a b -> t = 0x75 \/ t = 0x76 -> zlen x = zlen y -> same_but_codes (a ++ [t; 1 + zlen x; g] ++ x) (b ++ [t; 1 + zlen y; g] ++ y).
(** The same status word and the same answer but for the codes; as many digits typed. *)
Definition same_shape (o o' : obs) : Prop :=
  match o, o' with
  | Resp r, Resp r' => r_sw r = r_sw r' /\ same_but_codes (r_data r) (r_data r')
  | Typed (Some t), Typed (Some t') => zlen t = zlen t'
  | Typed None, Typed None => True
  | Nothing, Nothing => True
  | _, _ => False
  end.

(** ** Lists that agree outside the mask *)
Definition shift (n : nat) (m : nat -> bool) : nat -> bool := fun i => m (n + i)%nat.
Notation ag := same_except.
Lemma ag_refl m a : ag m a a. Proof. split; auto. Qed.
Lemma ag_len m a b : ag m a b -> length a = length b. Proof. intros H; apply H. Qed.
Lemma ag_zlen m a b : ag m a b -> zlen a = zlen b. Proof. intros H; unfold zlen; f_equal; apply H. Qed.
Lemma ag_mono (m m' : nat -> bool) a b : (forall i, (i < length a)%nat -> m' i = false -> m i = false) -> ag m a b -> ag m' a b.
Proof.
  intros Hm [L N]. split; [exact L|]. intros i Hi. destruct (Nat.lt_ge_cases i (length a)); [apply N, Hm; assumption|].
  rewrite !nth_overflow by lia. reflexivity.
Qed.
Lemma ag_app m a b c d : ag m a b -> ag (shift (length a) m) c d -> ag m (a ++ c) (b ++ d).
Proof.
  intros [L N] [L' N']. split; [rewrite !app_length; lia|]. intros i Hi. destruct (Nat.lt_ge_cases i (length a)).
  - rewrite !app_nth1 by lia. auto.
  - rewrite !app_nth2 by lia. rewrite <- L. apply N'. unfold shift. replace (length a + (i - length a))%nat with i by lia. exact Hi.
Qed.
Lemma nth_firstn_lt (l : bytes) n i : (i < n)%nat -> nth i (firstn n l) 0 = nth i l 0.
Proof. revert l i; induction n; intros [|x l] [|i] H; cbn; try lia; auto. apply IHn; lia. Qed.
Lemma nth_skipn_add (l : bytes) n i : nth i (skipn n l) 0 = nth (n + i) l 0.
Proof. revert l; induction n; intros [|x l]; cbn; auto. destruct i; reflexivity. Qed.
Lemma ag_firstn m n a b : ag m a b -> ag m (firstn n a) (firstn n b).
Proof.
  intros [L N]. split; [rewrite !firstn_length; lia|]. intros i Hi. destruct (Nat.lt_ge_cases i n).
  - rewrite !nth_firstn_lt by assumption. auto.
  - rewrite !nth_overflow by (rewrite firstn_length; lia). reflexivity.
Qed.
Lemma ag_skipn m n a b : ag m a b -> ag (shift n m) (skipn n a) (skipn n b).
Proof. intros [L N]. split; [rewrite !skipn_length; lia|]. intros i Hi. rewrite !nth_skipn_add. apply N. exact Hi. Qed.
Lemma ag_slice m o n a b : ag m a b -> ag (shift (Z.to_nat o) m) (slice o n a) (slice o n b).
Proof. intros H. apply ag_firstn, ag_skipn, H. Qed.
Lemma ag_eq m a b : (forall i, (i < length a)%nat -> m i = false) -> ag m a b -> a = b.
Proof. intros Hm [L N]. apply (nth_ext _ _ 0 0 L). intros i Hi. apply N, Hm, Hi. Qed.
Lemma ag_splice m o x y a b : (Z.to_nat o <= length a)%nat -> ag m a b -> ag (shift (Z.to_nat o) m) x y -> ag m (splice a o x) (splice b o y).
Proof.
  intros G H Hx. unfold splice. apply ag_app; [apply ag_firstn, H|]. pose proof (ag_len _ _ _ H) as L. pose proof (ag_len _ _ _ Hx) as L'.
  rewrite firstn_length, Nat.min_l by assumption. apply ag_app; [exact Hx|]. rewrite <- L'.
  apply (ag_mono (shift (Z.to_nat o + length x) m)); [|apply ag_skipn, H]. intros i _. unfold shift. rewrite Nat.add_assoc. auto.
Qed.
Lemma ag_splice_eq m o x a b : ag m a b -> ag m (splice a o x) (splice b o x).
Proof.
  intros H. destruct (Nat.le_gt_cases (Z.to_nat o) (length a)) as [G|G]; [apply ag_splice; [exact G|exact H|apply ag_refl]|].
  unfold splice. pose proof (ag_len _ _ _ H) as L. rewrite !skipn_all2 by lia. apply ag_app; [apply ag_firstn, H|apply ag_refl].
Qed.
Lemma length_zeros n : length (zeros n) = Z.to_nat n. Proof. apply repeat_length. Qed.
Lemma ag_write_at m o x y a b : ag m a b -> ag (shift (Z.to_nat o) m) x y -> ag m (write_at a o x) (write_at b o y).
Proof.
  intros H Hx. unfold write_at. rewrite <- (ag_zlen _ _ _ H). apply ag_splice; [|apply ag_app; [exact H|apply ag_refl]|exact Hx].
  rewrite app_length, length_zeros. unfold zlen. lia.
Qed.
Lemma sec_period k i : secret_at (141 * k + i) = secret_at i.
Proof. unfold secret_at. rewrite Nat.add_comm, Nat.mul_comm, Nat.mod_add by discriminate. reflexivity. Qed.
Lemma shift_rec o : 0 <= o -> o mod 141 = 0 -> forall i, shift (Z.to_nat o) secret_at i = secret_at i.
Proof.
  intros P Q i. unfold shift. rewrite <- (sec_period (Z.to_nat (o / 141)) i). f_equal. f_equal.
  pose proof (Z.div_mod o 141 ltac:(lia)). assert (0 <= o / 141) by (apply Z.div_pos; lia). nia.
Qed.
Lemma sec_small i : (i < 68 \/ 132 <= i < 141)%nat -> secret_at i = false.
Proof. intros H. unfold secret_at. rewrite Nat.mod_small by lia. cbv zeta. destruct (Nat.leb_spec 68 i), (Nat.ltb_spec i 132); cbn; auto; lia. Qed.

(** ** Records *)
Definition rr (r r' : bytes) : Prop := ag secret_at r r' /\ length r = 141%nat.
Lemma rr_refl r : length r = 141%nat -> rr r r. Proof. intros H; split; [apply ag_refl|exact H]. Qed.
Lemma rr_nth r r' n : rr r r' -> (n < 68 \/ 132 <= n < 141)%nat -> nth n r 0 = nth n r' 0.
Proof. intros [[_ H] _] Hn. apply H, sec_small, Hn. Qed.
Lemma rr_slice r r' o n : rr r r' -> 0 <= o -> (o + n <= 68 \/ 132 <= o /\ o + n <= 141) -> slice o n r = slice o n r'.
Proof.
  intros [H L] Ho Hn. apply (ag_eq (shift (Z.to_nat o) secret_at)); [|apply ag_slice, H]. intros i Hi. unfold slice in Hi. rewrite firstn_length in Hi.
  apply sec_small. lia.
Qed.
Lemma rr_name_len r r' : rr r r' -> r_name_len r = r_name_len r'. Proof. intros H; apply (rr_nth _ _ 0 H); lia. Qed.
Lemma rr_key_len r r' : rr r r' -> r_key_len r = r_key_len r'. Proof. intros H; apply (rr_nth _ _ 65 H); lia. Qed.
Lemma rr_alg r r' : rr r r' -> r_algbyte r = r_algbyte r'. Proof. intros H; apply (rr_nth _ _ 66 H); lia. Qed.
Lemma rr_digits r r' : rr r r' -> r_digits r = r_digits r'. Proof. intros H; apply (rr_nth _ _ 67 H); lia. Qed.
Lemma rr_prop r r' : rr r r' -> r_prop r = r_prop r'. Proof. intros H; apply (rr_nth _ _ 132 H); lia. Qed.
Lemma rr_chal r r' : rr r r' -> r_chal r = r_chal r'. Proof. intros H; apply (rr_slice _ _ 133 8 H); lia. Qed.
Lemma rr_name r r' : rr r r' -> r_name r = r_name r'.
Proof. intros H. unfold r_name, r_name_buf. rewrite (rr_slice _ _ 1 64 H), (rr_name_len _ _ H) by lia. reflexivity. Qed.
Lemma rr_named r r' n : rr r r' -> zlen n <= 64 -> r_named r n = r_named r' n.
Proof. intros H L. unfold r_named. rewrite (rr_slice _ _ 1 (zlen n) H), (rr_name_len _ _ H) by lia. reflexivity. Qed.
Lemma rr_type r r' : rr r r' -> r_type r = r_type r'. Proof. intros H; unfold r_type; rewrite (rr_alg _ _ H); reflexivity. Qed.
Lemma rr_ralg r r' : rr r r' -> r_alg r = r_alg r'. Proof. intros H; unfold r_alg; rewrite (rr_alg _ _ H); reflexivity. Qed.
Lemma rr_inc r r' : rr r r' -> r_inc r = r_inc r'. Proof. intros H; unfold r_inc; rewrite (rr_prop _ _ H); reflexivity. Qed.
Lemma rr_touch r r' : rr r r' -> r_touch r = r_touch r'. Proof. intros H; unfold r_touch; rewrite (rr_prop _ _ H); reflexivity. Qed.
Lemma length_splice_in (l : bytes) o d : (Z.to_nat o + length d <= length l)%nat -> length (splice l o d) = length l.
Proof. intros H. unfold splice. rewrite !app_length, firstn_length, skipn_length. lia. Qed.
Lemma rr_splice r r' o d : rr r r' -> (Z.to_nat o + length d <= 141)%nat -> rr (splice r o d) (splice r' o d).
Proof. intros [H L] D. split; [apply ag_splice_eq, H|]. rewrite length_splice_in; lia. Qed.
Lemma ag_overlay d d' r r' : ag secret_at d d' -> (length d <= 141)%nat -> rr r r' -> rr (overlay d r) (overlay d' r').
Proof.
  intros D Ld [H L]. unfold overlay. split.
  - rewrite <- (ag_len _ _ _ D). apply ag_app; [exact D|apply ag_skipn, H].
  - rewrite app_length, skipn_length. lia.
Qed.

(** ** Two runs *)
Definition other := other_secrets.
Definition env0 (e f : env) : Prop :=
  other (e_fs e) (e_fs f) /\ Forall2 other (e_log e) (e_log f) /\ e_flt e = e_flt f /\ e_rnd e = e_rnd f /\ e_tch e = e_tch f.
Definition env1 (e f : env) : Prop := env0 e f /\ e_out e = e_out f.
Notation sbc := same_but_codes.
Lemma sbc_refl a : sbc a a. Proof. exact (sbc_same [] [] a sbc_nil). Qed.
Lemma sbc_zlen a b : sbc a b -> zlen a = zlen b. Proof. induction 1; rewrite ?zlen_app; cbn [zlen] in *; congruence. Qed.
Definition env2 (e f : env) : Prop := env0 e f /\ sbc (e_out e) (e_out f).
Definition orel {A} (R : A -> A -> Prop) (x y : out A) : Prop :=
  match x, y with Ret a, Ret b => R a b | Exc a, Exc b => a = b | Fail, Fail => True | UB, UB => True | _, _ => False end.
(** related results, same RAM, same answer so far *)
Definition two {A} (R : A -> A -> Prop) (m m' : Mo A) : Prop := forall s e f, env1 e f ->
  let '(o1, s1, e1) := m s e in let '(o2, s2, e2) := m' s f in orel R o1 o2 /\ s1 = s2 /\ env1 e1 e2.
(** the answers may differ in codes *)
Definition weak {A} (m m' : Mo A) : Prop := forall s e f, env1 e f ->
  let '(o1, s1, e1) := m s e in let '(o2, s2, e2) := m' s f in orel eq o1 o2 /\ s1 = s2 /\ env2 e1 e2.
Notation ni m := (two eq m m).
Lemma env12 e f : env1 e f -> env2 e f. Proof. intros [H Q]. split; [exact H|rewrite Q; apply sbc_refl]. Qed.
Lemma two_bind {A B} (R : A -> A -> Prop) (Q : B -> B -> Prop) m m' k k' :
  two R m m' -> (forall a b, R a b -> two Q (k a) (k' b)) -> two Q (bind m k) (bind m' k').
Proof.
  intros Hm Hk s e f E. specialize (Hm s e f E). unfold bind. destruct (m s e) as [[o1 s1] e1], (m' s f) as [[o2 s2] e2].
  destruct Hm as (H1 & <- & E'). destruct o1, o2; cbn in H1; try contradiction; subst; cbn; auto. exact (Hk _ _ H1 _ _ _ E').
Qed.
Lemma weak_bind {A B} (R : A -> A -> Prop) m m' (k k' : A -> Mo B) :
  two R m m' -> (forall a b, R a b -> weak (k a) (k' b)) -> weak (bind m k) (bind m' k').
Proof.
  intros Hm Hk s e f E. specialize (Hm s e f E). unfold bind. destruct (m s e) as [[o1 s1] e1], (m' s f) as [[o2 s2] e2].
  destruct Hm as (H1 & <- & E'). destruct o1, o2; cbn in H1; try contradiction; subst; cbn; auto using env12. exact (Hk _ _ H1 _ _ _ E').
Qed.
Lemma weak_two {A} (m m' : Mo A) : two eq m m' -> weak m m'.
Proof.
  intros Hm s e f E. specialize (Hm s e f E). destruct (m s e) as [[o1 s1] e1], (m' s f) as [[o2 s2] e2].
  destruct Hm as (H1 & H2 & E'). auto using env12.
Qed.
Lemma weak_out {A} d d' (x : A) : sbc d d' -> weak (set_out d ;;; ret x) (set_out d' ;;; ret x).
Proof. intros L s e f [(E1 & E2 & E3 & E4 & E5) _]. cbn. split; [reflexivity|]. split; [reflexivity|]. unfold env2, env0. cbn. auto 10. Qed.
Lemma two_get {A} (R : A -> A -> Prop) (k k' : oath -> Mo A) : (forall s, two R (k s) (k' s)) -> two R (bind get k) (bind get k').
Proof. intros Hk s e f E. exact (Hk s s e f E). Qed.
Lemma weak_get {A} (k k' : oath -> Mo A) : (forall s, weak (k s) (k' s)) -> weak (bind get k) (bind get k').
Proof. intros Hk s e f E. exact (Hk s s e f E). Qed.
Lemma two_ret {A} (R : A -> A -> Prop) a b : R a b -> two R (ret a) (ret b). Proof. intros H s e f E; cbn; auto. Qed.
Lemma two_fail {A} (R : A -> A -> Prop) : two R (@fail oath A) fail. Proof. intros s e f E; cbn; auto. Qed.
Lemma two_ub {A} (R : A -> A -> Prop) : two R (@ub oath A) ub. Proof. intros s e f E; cbn; auto. Qed.
Lemma two_except {A} (R : A -> A -> Prop) w : two R (@except oath A w) (except w). Proof. intros s e f E; cbn; auto. Qed.
Lemma two_lift {A} (R : A -> A -> Prop) x y : orel R x y -> two R (@lift oath A x) (lift y).
Proof. intros H s e f E. unfold lift. destruct x, y; cbn in *; try contradiction; subst; cbn; auto. Qed.
Lemma two_guard b w : ni (@guard oath b w). Proof. destruct b; [apply two_ret; reflexivity|apply two_except]. Qed.
Definition oprel {A} (R : A -> A -> Prop) (x y : option A) : Prop := match x, y with Some a, Some b => R a b | None, None => True | _, _ => False end.
Lemma two_need {A} (R : A -> A -> Prop) (x y : option A) : oprel R x y -> two R (@need oath A x) (need y).
Proof. intros H. destruct x, y; cbn in H; try contradiction; [apply two_ret; exact H|apply two_ub]. Qed.
Lemma oprel_eq {A} (x : option A) : oprel eq x x. Proof. destruct x; cbn; auto. Qed.
Lemma orel_eq {A} (x : out A) : orel eq x x. Proof. destruct x; cbn; auto. Qed.
Lemma two_modify g : ni (@modify oath g). Proof. intros s e f E; cbn; auto. Qed.
Lemma two_set_out d : ni (@set_out oath d). Proof. intros s e f ((E1 & E2 & E3 & E4 & E5) & E6); cbn; unfold env1, env0; cbn; auto 10. Qed.
Lemma two_wait : ni (@wait_touch oath).
Proof.
  intros s e f ((E1 & E2 & E3 & E4 & E5) & E6). unfold wait_touch. rewrite <- E5.
  destruct (e_tch e) eqn:T; (split; [reflexivity|]; split; [reflexivity|]); unfold env1, env0; cbn; (split; [repeat (split; [assumption|]); congruence|assumption]).
Qed.
Lemma two_random n : ni (@random_buffer oath n).
Proof.
  intros s e f ((E1 & E2 & E3 & E4 & E5) & E6). unfold random_buffer. rewrite <- E4.
  split; [reflexivity|]. split; [reflexivity|]. unfold env1, env0; cbn; auto 10.
Qed.
Lemma pop_two e f : env1 e f -> fst (pop_fault e) = fst (pop_fault f) /\ env1 (snd (pop_fault e)) (snd (pop_fault f)).
Proof.
  intros ((E1 & E2 & E3 & E4 & E5) & E6). unfold pop_fault. rewrite <- E3.
  destruct (e_flt e) as [|x r] eqn:Q; cbn; (split; [reflexivity|]); unfold env1, env0; cbn; rewrite ?Q; auto 10.
Qed.
Ltac pops := intros s e f E; destruct (pop_two e f E) as [Ex E']; clear E;
  destruct (pop_fault e) as [x e0] eqn:P, (pop_fault f) as [x' f0] eqn:Q; cbn [fst snd] in Ex, E'; subst x'.
Lemma same_file_refl q x : same_file q x x.
Proof. unfold same_file. destruct x; [|exact I]. destruct (string_dec q "oath"); [split; [reflexivity|apply ag_refl]|reflexivity]. Qed.
(** what is known of the two versions of a file *)
Definition files (p : path) (x y : option file) : Prop :=
  oprel (fun f g => (forall a, f_attr f a = f_attr g a) /\ ag secret_at (f_data f) (f_data g) /\ (p <> "oath" -> f = g)) x y.
Lemma other_files p F G : other F G -> files p (F p) (G p).
Proof.
  intros H. specialize (H p). unfold same_file in H. unfold files, oprel. destruct (F p), (G p); try contradiction; try exact I.
  destruct (string_dec p "oath"); [split; [apply H|]; split; [apply H|contradiction]|subst; split; [reflexivity|]; split; [apply ag_refl|reflexivity]].
Qed.
Lemma two_read_attr p a : ni (@read_attr oath p a).
Proof.
  pops. unfold read_attr. rewrite P, Q. destruct x; cbn; auto. pose proof (other_files p _ _ (proj1 (proj1 E'))) as W. unfold files, oprel in W.
  destruct (e_fs e0 p), (e_fs f0 p); try contradiction; cbn; auto. destruct W as [W _]. rewrite W. auto.
Qed.
Lemma two_size p : ni (@get_file_size oath p).
Proof.
  pops. unfold get_file_size. rewrite P, Q. destruct x; cbn; auto. pose proof (other_files p _ _ (proj1 (proj1 E'))) as W. unfold files, oprel in W.
  destruct (e_fs e0 p), (e_fs f0 p); try contradiction; cbn; auto. destruct W as (_ & W & _). rewrite (ag_zlen _ _ _ W). auto.
Qed.
Lemma two_read_pass o n : ni (@read_file oath PASS_FILE o n).
Proof.
  pops. unfold read_file. rewrite P, Q. destruct x; cbn; auto. pose proof (other_files PASS_FILE _ _ (proj1 (proj1 E'))) as W. unfold files, oprel in W.
  destruct (e_fs e0 PASS_FILE), (e_fs f0 PASS_FILE); try contradiction; cbn; auto. destruct W as (_ & _ & W). rewrite W by discriminate. auto.
Qed.
(** a read at a record boundary *)
Definition dr (d d' : bytes) : Prop := ag secret_at d d' /\ (length d <= 141)%nat.
Lemma two_read o : o mod 141 = 0 -> two (oprel dr) (@read_file oath OATH_FILE o REC) (read_file OATH_FILE o REC).
Proof.
  intros Ho. pops. unfold read_file. rewrite P, Q. destruct x; cbn; auto. pose proof (other_files OATH_FILE _ _ (proj1 (proj1 E'))) as W. unfold files, oprel in W.
  destruct (e_fs e0 OATH_FILE), (e_fs f0 OATH_FILE); try contradiction; cbn; auto. destruct W as (_ & W & _).
  split; [|auto]. destruct (Z.ltb_spec o 0) as [N|N]; [exact I|]. cbn. split.
  - eapply ag_mono; [|apply ag_slice, W]. intros i _. rewrite (shift_rec o N Ho). auto.
  - unfold slice. rewrite firstn_length. unfold REC. lia.
Qed.
Lemma other_fset F G p x y : other F G -> same_file p x y -> other (fset F p x) (fset G p y).
Proof. intros H Hx q. destruct (string_dec q p) as [->|N]; [rewrite !fset_same; exact Hx|rewrite !fset_other by assumption; apply H]. Qed.
Lemma env1_commit e f p x y : env1 e f -> same_file p x y -> env1 (commit (fset (e_fs e) p x) e) (commit (fset (e_fs f) p y) f).
Proof.
  intros ((E1 & E2 & E3 & E4 & E5) & E6) Hx. unfold env1, env0, commit. cbn. pose proof (other_fset _ _ p x y E1 Hx).
  split; [|exact E6]. split; [assumption|]. split; [constructor; assumption|auto].
Qed.
Definition created (p : path) (e : env) : env := match e_fs e p with None => commit (fset (e_fs e) p (Some (mkF [] no_attr))) e | Some _ => e end.
Lemma created_some p e : exists g, e_fs (created p e) p = Some g.
Proof. unfold created. destruct (e_fs e p) eqn:W; [eauto|]. cbn. rewrite fset_same. eauto. Qed.
Lemma env1_created p e f : env1 e f -> env1 (created p e) (created p f).
Proof.
  intros E. unfold created. pose proof (other_files p _ _ (proj1 (proj1 E))) as W. unfold files, oprel in W. destruct (e_fs e p), (e_fs f p); try contradiction; auto.
  apply env1_commit; [assumption|apply same_file_refl].
Qed.
Lemma two_write p d d' o t : (p = "oath" -> ag (shift (Z.to_nat o) secret_at) d d') -> (p <> "oath" -> d = d') ->
  two eq (@write_file oath p d o t) (write_file p d' o t).
Proof.
  intros Hd Hn. pops. unfold write_file. rewrite P, Q. destruct x; cbn; auto.
  all: fold (created p e0) (created p f0); pose proof (env1_created p e0 f0 E') as C; auto.
  destruct (created_some p e0) as [g Hg], (created_some p f0) as [g' Hg']. rewrite Hg, Hg'. split; [reflexivity|]. split; [reflexivity|].
  apply env1_commit; [assumption|]. pose proof (other_files p _ _ (proj1 (proj1 C))) as W. rewrite Hg, Hg' in W. cbn in W. destruct W as (W1 & W2 & W3).
  unfold same_file. cbn [f_attr f_data]. destruct (string_dec p "oath") as [Ep|Ep].
  - split; [exact W1|]. specialize (Hd Ep). rewrite <- (ag_len _ _ _ Hd).
    assert (ag secret_at (if t then [] else f_data g) (if t then [] else f_data g')) as B by (destruct t; [apply ag_refl|exact W2]).
    destruct (length d =? 0)%nat; [exact B|]. apply ag_write_at; assumption.
  - rewrite (Hn Ep), (W3 Ep). reflexivity.
Qed.
Lemma two_write_eq p d o t : ni (@write_file oath p d o t).
Proof. apply two_write; intros _; [apply ag_refl|reflexivity]. Qed.
Lemma two_write_rec d d' o t : 0 <= o -> o mod 141 = 0 -> ag secret_at d d' -> two eq (@write_file oath OATH_FILE d o t) (write_file OATH_FILE d' o t).
Proof.
  intros Ho Hm H. apply two_write; [|intros N; contradiction (N eq_refl)]. intros _. eapply ag_mono; [|exact H]. intros i _. rewrite (shift_rec o Ho Hm). auto.
Qed.
Lemma two_write_attr p a v : ni (@write_attr oath p a v).
Proof.
  pops. unfold write_attr. rewrite P, Q. destruct x; cbn; auto. pose proof (other_files p _ _ (proj1 (proj1 E'))) as W. unfold files, oprel in W.
  destruct (e_fs e0 p) as [g|], (e_fs f0 p) as [g'|]; try contradiction; cbn; auto. split; [reflexivity|]. split; [reflexivity|]. apply env1_commit; [assumption|].
  destruct W as (W1 & W2 & W3). unfold same_file. cbn. destruct (string_dec p "oath"); [|rewrite W3 by assumption; reflexivity]. split; [|exact W2].
  intros b. unfold aset. destruct (b =? a); auto.
Qed.
(** ** The data of PUT *)
Lemma orel_bind {A B} (R : A -> A -> Prop) (Q : B -> B -> Prop) x y k k' : orel R x y -> (forall a b, R a b -> orel Q (k a) (k' b)) -> orel Q (obind x k) (obind y k').
Proof. destruct x, y; cbn; auto; contradiction. Qed.
Definition kr (k k' : bytes) : Prop := ag (fun i => Nat.leb 2 i) k k' /\ (length k <= 66)%nat.
Definition pr (x y : bytes * bytes * Z * bytes) : Prop :=
  let '(n, k, p, c) := x in let '(n', k', p', c') := y in n = n' /\ kr k k' /\ p = p' /\ c = c' /\ zlen n <= 64 /\ zlen c = 8.
Lemma parse_put_two d d' : all_bytes d -> all_bytes d' -> ag (put_secret_at d) d d' -> orel pr (parse_put d) (parse_put d').
Proof.
  intros Hb Hb' H. pose proof (ag_zlen _ _ _ H) as L.
  assert (forall i, put_secret_at d (Z.to_nat i) = false -> rd d' i = rd d i) as RD.
  { intros i Hi. unfold rd. destruct (Z.ltb_spec i 0); [reflexivity|]. destruct (Nat.lt_ge_cases (Z.to_nat i) (length d)) as [B|B].
    - rewrite (nth_error_nth' d 0) by exact B. rewrite (nth_error_nth' d' 0) by (destruct H; lia). f_equal. symmetry. apply H, Hi.
    - destruct H. rewrite !(proj2 (nth_error_None _ _)) by lia. reflexivity. }
  assert (forall i, 0 <= i -> i < 6 + nth 1 d 0 \/ 4 + nth 1 d 0 + nth (Z.to_nat (3 + nth 1 d 0)) d 0 <= i -> rd d' i = rd d i) as R.
  { intros i I0 Hi. apply RD. unfold put_secret_at. cbv zeta. lia. }
  assert (0 <= nth 1 d 0) as P1 by (pose proof (nth_byte d 1 Hb); unfold is_byte in *; lia).
  assert (0 <= nth (Z.to_nat (3 + nth 1 d 0)) d 0) as P2 by (pose proof (nth_byte d (Z.to_nat (3 + nth 1 d 0)) Hb); unfold is_byte in *; lia).
  unfold parse_put. cbv zeta. rewrite <- L.
  destruct (negb (zlen d <? 2)) eqn:G0; cbn [oguard obind orel]; [|reflexivity].
  rewrite (R 0) by lia. destruct (rd d 0) as [t|] eqn:R0; cbn [oneed obind orel]; [|exact I].
  destruct (t =? OATH_TAG_NAME); cbn [oguard obind orel]; [|reflexivity].
  rewrite (R 1) by lia. destruct (rd d 1) as [nl|] eqn:R1; cbn [oneed obind orel]; [|exact I].
  rewrite rd_nth in R1 by lia. assert (nth 1 d 0 = nl) as R1' by (injection R1; auto). clear R1; rename R1' into R1. setoid_rewrite R1 in R. rewrite R1 in P1, P2.
  destruct (negb ((MAX_NAME_LEN <? nl) || (nl =? 0))) eqn:G1; cbn [oguard obind orel]; [|reflexivity].
  destruct (negb (zlen d <=? 2 + nl + 4)) eqn:G2; cbn [oguard obind orel]; [|reflexivity].
  rewrite (R (2 + nl)) by lia. destruct (rd d (2 + nl)) as [t1|]; cbn [oneed obind orel]; [|exact I].
  destruct (t1 =? OATH_TAG_KEY); cbn [oguard obind orel]; [|reflexivity].
  replace (2 + nl + 1) with (3 + nl) by lia.
  rewrite (R (3 + nl)) by lia. destruct (rd d (3 + nl)) as [kl|] eqn:R3; cbn [oneed obind orel]; [|exact I].
  rewrite rd_nth in R3 by lia. assert (nth (Z.to_nat (3 + nl)) d 0 = kl) as R3' by congruence. clear R3; rename R3' into R3. setoid_rewrite R3 in R. rewrite R3 in P2.
  destruct (negb ((MAX_KEY_LEN <? kl) || (kl <=? 2))) eqn:G3; cbn [oguard obind orel]; [|reflexivity].
  rewrite (R (2 + nl + 2)) by lia. destruct (rd d (2 + nl + 2)) as [al|]; cbn [oneed obind orel]; [|exact I].
  destruct ((Z.land al 0xF0 =? OATH_TYPE_HOTP) || (Z.land al 0xF0 =? OATH_TYPE_TOTP)); cbn [oguard obind orel]; [|reflexivity].
  destruct ((Z.land al 0x0F =? OATH_ALG_SHA1) || (Z.land al 0x0F =? OATH_ALG_SHA256) || (Z.land al 0x0F =? OATH_ALG_SHA512)); cbn [oguard obind orel]; [|reflexivity].
  rewrite (R (2 + nl + 2 + 1)) by lia. destruct (rd d (2 + nl + 2 + 1)) as [dg|]; cbn [oneed obind orel]; [|exact I].
  destruct (negb ((dg <? 4) || (8 <? dg))); cbn [oguard obind orel]; [|reflexivity].
  assert (orel (fun x y : Z * Z => x = y /\ 4 + nl + kl <= snd x)
    (if 2 + nl + 2 + kl <? zlen d then t <~ oneed (rd d (2 + nl + 2 + kl)) ;; if t =? OATH_TAG_PROPERTY then
       _ <~ oguard (negb (zlen d <=? 2 + nl + 2 + kl + 1)) SW_WRONG_LENGTH ;; p <~ oneed (rd d (2 + nl + 2 + kl + 1)) ;; _ <~ oguard (Z.land p 0xFC =? 0) SW_WRONG_DATA ;;
       Ret (p, 2 + nl + 2 + kl + 2) else Ret (0, 2 + nl + 2 + kl) else Ret (0, 2 + nl + 2 + kl))
    (if 2 + nl + 2 + kl <? zlen d then t <~ oneed (rd d' (2 + nl + 2 + kl)) ;; if t =? OATH_TAG_PROPERTY then
       _ <~ oguard (negb (zlen d <=? 2 + nl + 2 + kl + 1)) SW_WRONG_LENGTH ;; p <~ oneed (rd d' (2 + nl + 2 + kl + 1)) ;; _ <~ oguard (Z.land p 0xFC =? 0) SW_WRONG_DATA ;;
       Ret (p, 2 + nl + 2 + kl + 2) else Ret (0, 2 + nl + 2 + kl) else Ret (0, 2 + nl + 2 + kl))) as B1.
  { rewrite (R (2 + nl + 2 + kl)), (R (2 + nl + 2 + kl + 1)) by lia. destruct (2 + nl + 2 + kl <? zlen d); [|cbn [orel snd]; split; [reflexivity|lia]].
    destruct (rd d (2 + nl + 2 + kl)) as [t2|]; cbn [oneed obind orel]; [|exact I]. destruct (t2 =? OATH_TAG_PROPERTY); [|cbn [orel snd]; split; [reflexivity|lia]].
    destruct (negb (zlen d <=? 2 + nl + 2 + kl + 1)); cbn [oguard obind orel]; [|reflexivity]. destruct (rd d (2 + nl + 2 + kl + 1)) as [p|]; cbn [oneed obind orel]; [|exact I].
    destruct (Z.land p 0xFC =? 0); cbn [oguard obind orel snd]; [split; [reflexivity|lia]|reflexivity]. }
  eapply orel_bind; [exact B1|]. intros [pp off] y [<- O1]. cbn [snd] in O1. clear B1.
  assert (orel (fun x y : bytes * Z => x = y /\ zlen (fst x) = 8)
    (if off <? zlen d then t <~ oneed (rd d off) ;; if t =? OATH_TAG_COUNTER then
       _ <~ oguard (negb (zlen d <=? off + 1)) SW_WRONG_LENGTH ;; n <~ oneed (rd d (off + 1)) ;; _ <~ oguard (n =? 4) SW_WRONG_DATA ;;
       _ <~ oguard (Z.land al 0xF0 =? OATH_TYPE_HOTP) SW_WRONG_DATA ;; _ <~ oguard (negb (zlen d <? off + 2 + 4)) SW_WRONG_LENGTH ;;
       ctr <~ oneed (sub d (off + 2) 4) ;; Ret (zeros 4 ++ ctr, off + 6) else Ret (zeros 8, off) else Ret (zeros 8, off))
    (if off <? zlen d then t <~ oneed (rd d' off) ;; if t =? OATH_TAG_COUNTER then
       _ <~ oguard (negb (zlen d <=? off + 1)) SW_WRONG_LENGTH ;; n <~ oneed (rd d' (off + 1)) ;; _ <~ oguard (n =? 4) SW_WRONG_DATA ;;
       _ <~ oguard (Z.land al 0xF0 =? OATH_TYPE_HOTP) SW_WRONG_DATA ;; _ <~ oguard (negb (zlen d <? off + 2 + 4)) SW_WRONG_LENGTH ;;
       ctr <~ oneed (sub d' (off + 2) 4) ;; Ret (zeros 4 ++ ctr, off + 6) else Ret (zeros 8, off) else Ret (zeros 8, off))) as B2.
  { rewrite (R off), (R (off + 1)) by lia. destruct (off <? zlen d); [|cbn; auto].
    destruct (rd d off) as [t2|]; cbn [oneed obind orel]; [|exact I]. destruct (t2 =? OATH_TAG_COUNTER); [|cbn; auto].
    destruct (negb (zlen d <=? off + 1)); cbn [oguard obind orel]; [|reflexivity]. destruct (rd d (off + 1)) as [p|]; cbn [oneed obind orel]; [|exact I].
    destruct (p =? 4); cbn [oguard obind orel]; [|reflexivity]. destruct (Z.land al 0xF0 =? OATH_TYPE_HOTP); cbn [oguard obind orel]; [|reflexivity].
    destruct (negb (zlen d <? off + 2 + 4)) eqn:G4; cbn [oguard obind orel]; [|reflexivity].
    rewrite !sub_ok by lia. cbn [oneed obind orel fst]. split; [|rewrite zlen_app, zlen_slice, zlen_zeros by lia; lia]. f_equal. f_equal.
    apply (ag_eq (shift (Z.to_nat (off + 2)) (put_secret_at d))); [|apply ag_slice, H]. intros i _. unfold shift, put_secret_at. cbv zeta. rewrite R1, R3. lia. }
  eapply orel_bind; [exact B2|]. intros [ch of2] y [<- O2]. cbn [fst] in O2. clear B2. destruct (zlen d =? of2); cbn [oguard obind orel]; [|reflexivity].
  unfold sub. rewrite <- L. destruct ((2 <? 0) || (nl <? 0) || (zlen d <? 2 + nl)) eqn:G5; cbn [oneed obind orel]; [exact I|].
  destruct ((2 + nl + 2 <? 0) || (kl <? 0) || (zlen d <? 2 + nl + 2 + kl)) eqn:G6; cbn [oneed obind orel]; [exact I|].
  fold (slice 2 nl d) (slice 2 nl d') (slice (2 + nl + 2) kl d) (slice (2 + nl + 2) kl d').
  split; [|split; [split|]].
  - apply (ag_eq (shift (Z.to_nat 2) (put_secret_at d))); [|apply ag_slice, H]. intros i Hi. unfold slice in Hi. rewrite firstn_length in Hi.
    unfold shift, put_secret_at. cbv zeta. rewrite R1, R3. lia.
  - eapply ag_mono; [|apply ag_slice, H]. intros i Hi. unfold slice in Hi. rewrite firstn_length in Hi. unfold shift, put_secret_at. cbv zeta. rewrite R1, R3. lia.
  - unfold slice. rewrite firstn_length. unfold MAX_KEY_LEN in *. lia.
  - split; [reflexivity|]. split; [reflexivity|]. split; [|exact O2]. rewrite zlen_slice by lia. unfold MAX_NAME_LEN in *. lia.
Qed.

(** ** The applet *)
Section Applet.
Variables hmac_sha1 hmac_sha256 hmac_sha512 : bytes -> bytes -> bytes.
Variable junk : bytes.
Hypothesis Hsha1 : digest_ok 20 hmac_sha1.
Hypothesis Hsha256 : digest_ok 32 hmac_sha256.
Hypothesis Hsha512 : digest_ok 64 hmac_sha512.
Hypothesis Hjunk : zlen junk = 141.
Lemma junk_rr : rr junk junk. Proof. apply rr_refl. unfold zlen in Hjunk. lia. Qed.

Ltac tb := eapply two_bind.
Ltac same := intros ? ? <-.
Ltac wr := apply (two_bind eq); [|intros ok ? <-; destruct ok; [apply two_ret; reflexivity|apply two_fail]].
Lemma two_lift_ret {A B} (a : A) (k k' : A -> Mo B) : two eq (k a) (k' a) -> two eq (bind (lift (Ret a)) k) (bind (lift (Ret a)) k').
Proof. intros H. exact H. Qed.
Lemma weak_lift_ret {A B} (a : A) (k k' : A -> Mo B) : weak (k a) (k' a) -> weak (bind (lift (Ret a)) k) (bind (lift (Ret a)) k').
Proof. intros H. exact H. Qed.
Lemma mod_rec i : (i * REC) mod 141 = 0. Proof. unfold REC. apply Z.mod_mul. lia. Qed.
Lemma two_rec i r r' : rr r r' -> two rr (rd_rec (i * REC) r) (rd_rec (i * REC) r').
Proof.
  intros H. unfold rd_rec. tb; [apply two_read, mod_rec|]. intros [d|] [d'|] D; cbn in D; try contradiction; [|apply two_fail].
  apply two_ret, ag_overlay; [apply D|apply D|exact H].
Qed.
Lemma two_n : ni n_records.
Proof. unfold n_records. tb; [apply two_size|]. same. destruct a; [apply two_ret; reflexivity|apply two_fail]. Qed.
Lemma two_put_loop k : forall i n r r' u name, zlen name <= 64 -> 0 <= i -> 0 <= u -> rr r r' ->
  two (fun a b => rr (fst a) (fst b) /\ snd a = snd b /\ 0 <= snd a) (put_loop k i n r u name) (put_loop k i n r' u name).
Proof.
  induction k as [|k IH]; intros i n r r' u name Hn Hi Hu H; cbn [put_loop]; [apply two_ret; auto|].
  tb; [apply two_rec, H|]. clear r r' H. intros r r' H. rewrite (rr_named _ _ _ H Hn), (rr_name_len _ _ H). tb; [apply two_guard|]. same.
  apply IH; auto; [lia|]. destruct (_ && _); lia.
Qed.
Lemma two_find_loop k : forall i r r' name, zlen name <= 64 -> rr r r' ->
  two (fun a b => fst a = fst b /\ rr (snd a) (snd b) /\ i <= fst a) (find_loop k i r name) (find_loop k i r' name).
Proof.
  induction k as [|k IH]; intros i r r' name Hn H; cbn [find_loop]; [apply two_ret; cbn; auto with zarith|].
  tb; [apply two_rec, H|]. clear r r' H. intros r r' H. rewrite (rr_named _ _ _ H Hn). destruct (r_named r' name); [apply two_ret; cbn; auto with zarith|].
  intros s e f E. specialize (IH (i + 1) r r' name Hn H s e f E). destruct (find_loop k (i + 1) r name s e) as [[o1 s1] e1], (find_loop k (i + 1) r' name s f) as [[o2 s2] e2].
  destruct IH as (O & IH). split; [|exact IH]. destruct o1, o2; cbn in *; try contradiction; auto. destruct O as (? & ? & ?); auto with zarith.
Qed.
Lemma two_ren_loop k : forall i n r r' x old new, zlen old <= 64 -> zlen new <= 64 -> 0 <= i -> 0 <= x -> rr r r' ->
  two (fun a b => rr (fst a) (fst b) /\ snd a = snd b /\ 0 <= snd a) (rename_loop k i n r x old new) (rename_loop k i n r' x old new).
Proof.
  induction k as [|k IH]; intros i n r r' x old new Ho Hn Hi Hx H; cbn [rename_loop]; [apply two_ret; auto|].
  tb; [apply two_rec, H|]. clear r r' H. intros r r' H. rewrite (rr_named _ _ _ H Hn), (rr_named _ _ _ H Ho). tb; [apply two_guard|]. same.
  apply IH; auto; [lia|]. destruct (_ && _); lia.
Qed.
Lemma n_nonneg : two (fun a b => a = b /\ 0 <= a) n_records n_records.
Proof.
  pose proof two_n as H. intros s e f E. specialize (H s e f E). destruct (n_records s e) as [[o1 s1] e1] eqn:W, (n_records s f) as [[o2 s2] e2]. destruct H as (O & H).
  split; [|exact H]. destruct o1, o2; cbn in *; try contradiction; auto. split; [exact O|].
  unfold n_records, bind, get_file_size in W. destruct (pop_fault e) as [x e']. destruct x; cbn in W; try discriminate. destruct (e_fs e' OATH_FILE); cbn in W; [|discriminate].
  injection W as <- _ _. apply Z.div_pos; [unfold zlen; lia|reflexivity].
Qed.
Lemma ag_fill r r' n k k' p c : rr r r' -> zlen n <= 64 -> kr k k' -> ag secret_at (fill_record r n k p c) (fill_record r' n k' p c).
Proof.
  intros H Hn [K Lk]. unfold fill_record. cbv zeta. apply ag_splice_eq.
  assert (rr (splice r 0 (zlen n :: n)) (splice r' 0 (zlen n :: n))) as [H1 L1] by (apply rr_splice; [exact H|]; cbn [length]; unfold zlen in Hn; lia).
  apply ag_splice; [rewrite L1; lia|exact H1|]. rewrite (ag_zlen _ _ _ K). change (zlen k' :: k) with ([zlen k'] ++ k). change (zlen k' :: k') with ([zlen k'] ++ k').
  apply ag_app; [apply ag_refl|]. eapply ag_mono; [|exact K]. intros i Hi. unfold shift, secret_at. cbv zeta. cbn [length].
  change (Z.to_nat 65) with 65%nat. rewrite Nat.mod_small by lia. lia.
Qed.
Lemma two_put c c' : c_p1 c = c_p1 c' -> c_p2 c = c_p2 c' -> orel pr (parse_put (c_data c)) (parse_put (c_data c')) -> two eq (oath_put junk c) (oath_put junk c').
Proof.
  intros P1 P2 D. unfold oath_put. rewrite <- P1, <- P2. tb; [apply two_guard|]. same. tb; [apply two_lift, D|].
  intros [[[n k] p] ch] [[[n' k'] p'] ch'] (<- & Hk & <- & <- & Hn & _). tb; [exact n_nonneg|]. intros m m' [<- Hm].
  tb; [apply two_put_loop; auto; [lia|exact junk_rr]|]. intros [r u] [r' u'] (Hr & Hu & Hu0); cbn in *; subst u'. tb; [apply two_guard|]. same.
  wr. apply two_write_rec; [unfold REC; lia|apply mod_rec|]. apply ag_fill; assumption.
Qed.
Lemma two_save : ni (save_slots o_slots).
Proof. unfold save_slots. apply two_get. intros s. apply two_write_eq. Qed.
Lemma two_del_slot o : ni (pass_delete_oath o_slots oset_slots o).
Proof.
  unfold pass_delete_oath. apply two_get. intros s. destruct (o_slots s) as [a b]. destruct (_ && _); [tb; [apply two_modify|]; same; apply two_save|].
  destruct (_ && _); [tb; [apply two_modify|]; same; apply two_save|]. apply two_ret; reflexivity.
Qed.
Lemma two_delete c : all_bytes (c_data c) -> ni (oath_delete junk c).
Proof.
  intros Hb. unfold oath_delete. tb; [apply two_guard|]. same. pose proof (parse_name_sound 2 (c_data c) ltac:(lia) Hb) as Hs.
  destruct (parse_name 2 (c_data c)) as [name|w| |]; [|apply (two_except eq)|contradiction|contradiction]. 
  apply two_lift_ret. destruct Hs as ((_ & Hn) & _). tb; [apply two_n|]. same.
  tb; [apply two_find_loop; [assumption|exact junk_rr]|]. intros [i r] [i' r'] (Hi & Hr & H0); cbn in *; subst i'. tb; [apply two_guard|]. same.
  tb; [apply two_del_slot|]. intros ok ? <-. destruct ok; cbn [negb]; [|apply two_fail]. 
  wr. apply two_write_rec; [unfold REC; lia|apply mod_rec|apply ag_splice_eq, Hr].
Qed.
Lemma two_rename c : all_bytes (c_data c) -> ni (oath_rename junk c).
Proof.
  intros Hb. unfold oath_rename. tb; [apply two_guard|]. same. pose proof (parse_rename_sound (c_data c) Hb) as Hs.
  destruct (parse_rename (c_data c)) as [[old new]|w| |]; [|apply (two_except eq)|contradiction|contradiction].
  apply two_lift_ret. destruct Hs as ((_ & Ho) & (_ & Hn) & _). tb; [exact n_nonneg|]. intros n n' [<- Hm].
  tb; [apply two_ren_loop; auto; [lia|exact junk_rr]|]. intros [r u] [r' u'] (Hr & Hu & Hu0); cbn [fst snd] in *; subst u'. tb; [apply two_guard|]. same.
  tb; [apply two_rec, Hr|]. clear r r' Hr. intros r r' Hr.
  wr. apply two_write_rec; [unfold REC; lia|apply mod_rec|apply ag_splice_eq, Hr].
Qed.
Lemma two_if_ok (b : bool) : ni (if b then ret SW_NO_ERROR else @fail oath Z). Proof. destruct b; [apply two_ret; reflexivity|apply two_fail]. Qed.
Lemma two_set_code c : ni (oath_set_code hmac_sha1 c).
Proof.
  unfold oath_set_code. tb; [apply two_guard|]. same. tb; [apply (two_lift eq), orel_eq|]. same. destruct a0 as [[[key chal] resp]|].
  - tb; [apply two_guard|]. same. tb; [apply two_modify|]. same. tb; [apply two_write_attr|]. same. apply two_if_ok.
  - tb; [apply two_modify|]. same. tb; [apply two_write_attr|]. same. apply two_if_ok.
Qed.
Lemma two_validate c : ni (oath_validate hmac_sha1 c).
Proof.
  unfold oath_validate. tb; [apply two_guard|]. same. tb; [apply (two_lift eq), orel_eq|]. same. destruct a0 as [resp chal].
  tb; [apply two_read_attr|]. same. destruct a0; [|apply two_fail]. tb; [apply two_guard|]. same. apply two_get. intros s. tb; [apply two_modify|]. same.
  tb; [apply two_guard|]. same. tb; [apply two_set_out|]. same. apply two_ret; reflexivity.
Qed.
Lemma two_select c : ni (oath_select c).
Proof.
  unfold oath_select. tb; [apply two_guard|]. same. tb; [apply two_read_attr|]. same. destruct a0; [|apply two_fail]. cbv zeta. tb; [apply two_set_out|]. same.
  tb; [apply two_read_attr|]. same. destruct a1 as [kv|]; [|apply two_fail]. destruct (zlen kv =? 0); [tb; [apply two_modify|]; same; apply two_ret; reflexivity|].
  tb; [apply two_random|]. same. tb; [apply two_modify|]. same. tb; [apply two_set_out|]. same. apply two_ret; reflexivity.
Qed.
Lemma two_list_loop k : forall r r' acc le, rr r r' -> two eq (list_loop k r acc le) (list_loop k r' acc le).
Proof.
  induction k as [|k IH]; intros r r' acc le H; cbn [list_loop]; [apply two_ret; reflexivity|]. apply two_get. intros s.
  tb; [apply two_rec, H|]. clear r r' H. intros r r' H. rewrite (rr_name_len _ _ H). destruct (_ <? _); [apply two_ret; reflexivity|].
  tb; [apply two_modify|]. same. destruct (_ =? 0); [apply IH, H|]. rewrite (rr_name _ _ H), (rr_alg _ _ H). tb; [apply (two_need eq), oprel_eq|]. same. apply IH, H.
Qed.
Lemma two_list c : ni (oath_list junk c).
Proof.
  unfold oath_list. tb; [apply two_guard|]. same. tb; [apply two_modify|]. same. tb; [apply two_n|]. same. apply two_get. intros s.
  tb; [apply two_list_loop, junk_rr|]. same. destruct a2 as [sw acc]. apply two_get. intros s'. 
  tb; [instantiate (1 := eq); destruct (_ <=? _); [apply two_modify|apply two_ret; reflexivity]|]. same. tb; [apply two_set_out|]. same. apply two_ret; reflexivity.
Qed.
Lemma two_default c : all_bytes (c_data c) -> ni (oath_set_default junk c).
Proof.
  intros Hb. unfold oath_set_default. tb; [apply two_guard|]. same. tb; [apply two_guard|]. same. pose proof (parse_name_sound 2 (c_data c) ltac:(lia) Hb) as Hs.
  destruct (parse_name 2 (c_data c)) as [name|w| |]; [|apply (two_except eq)|contradiction|contradiction].
  apply two_lift_ret. destruct Hs as ((_ & Hn) & _). tb; [apply two_n|]. same.
  tb; [apply two_find_loop; [assumption|exact junk_rr]|]. intros [i r] [i' r'] (Hi & Hr & H0); cbn [fst snd] in *; subst i'. tb; [apply two_guard|]. same.
  rewrite (rr_type _ _ Hr), (rr_name _ _ Hr). tb; [apply two_guard|]. same. tb; [apply (two_need eq), oprel_eq|]. same.
  apply (two_bind eq); [|same; apply two_if_ok]. unfold pass_update_oath. tb; [apply two_modify|]. same. apply two_save.
Qed.

(** codes: of the same length *)
Lemma hmac_two r r' ch : rr r r' ->
  oprel (fun a b => zlen a = zlen b /\ 20 <= zlen a <= 64) (oath_hmac hmac_sha1 hmac_sha256 hmac_sha512 r ch) (oath_hmac hmac_sha1 hmac_sha256 hmac_sha512 r' ch).
Proof.
  intros H. unfold oath_hmac, r_secret, sub. rewrite (rr_key_len _ _ H), (rr_ralg _ _ H).
  assert (zlen (r_key r) = zlen (r_key r')) as -> by (destruct H as [H L]; exact (ag_zlen _ _ _ (ag_slice _ 66 66 _ _ H))).
  destruct ((2 <? 0) || (r_key_len r' - 2 <? 0) || (zlen (r_key r') <? 2 + (r_key_len r' - 2))); [exact I|].
  unfold oprel. destruct (r_alg r' =? OATH_ALG_SHA1); [|destruct (r_alg r' =? OATH_ALG_SHA256)]; rewrite ?(proj1 (Hsha1 _ _)), ?(proj1 (Hsha256 _ _)), ?(proj1 (Hsha512 _ _)); split; [reflexivity|split; discriminate|reflexivity|split; discriminate|reflexivity|split; discriminate].
Qed.
Lemma trunc_two h h' : zlen h = zlen h' -> 20 <= zlen h <= 64 -> oprel (fun a b => zlen a = 4 /\ zlen b = 4) (oath_trunc h) (oath_trunc h').
Proof.
  assert (forall h, 20 <= zlen h -> exists c, oath_trunc h = Some c /\ zlen c = 4) as T.
  { clear. intros h H. unfold oath_trunc. destruct (rd_some h (zlen h - 1) ltac:(lia)) as [l ->].
    assert (0 <= Z.land l 0xF < 16) as B by (change 15 with (Z.ones 4); rewrite Z.land_ones by lia; apply Z.mod_pos_bound; reflexivity).
    rewrite sub_ok by lia. destruct (slice (Z.land l 15) 4 h) as [|b r] eqn:S; [apply (f_equal zlen) in S; rewrite zlen_slice in S by lia; change (zlen (@nil Z)) with 0 in S; lia|].
    eexists. split; [reflexivity|]. apply (f_equal zlen) in S. rewrite zlen_slice in S by lia. unfold zlen in *. cbn [length] in *. lia. }
  intros L H. destruct (T h ltac:(lia)) as (c & -> & Hc). destruct (T h' ltac:(lia)) as (c' & -> & Hc'). cbn. auto.
Qed.
(** a code and another one *)
Definition piece (a b : bytes) : Prop := exists t g x y, (t = 0x75 \/ t = 0x76) /\ zlen x = zlen y /\ a = [t; 1 + zlen x; g] ++ x /\ b = [t; 1 + zlen y; g] ++ y.
Lemma answer_two t r r' ch : rr r r' -> oprel piece (answer hmac_sha1 hmac_sha256 hmac_sha512 t r ch) (answer hmac_sha1 hmac_sha256 hmac_sha512 t r' ch).
Proof.
  intros H. unfold answer. rewrite (rr_digits _ _ H). pose proof (hmac_two r r' ch H) as M. destruct (oath_hmac _ _ _ r ch) as [h|], (oath_hmac _ _ _ r' ch) as [h'|]; cbn in M; try contradiction; [|exact I].
  destruct M as [L B]. destruct t.
  - pose proof (trunc_two h h' L B) as M. destruct (oath_trunc h) as [c|], (oath_trunc h') as [c'|]; cbn in M; try contradiction; [|exact I]. cbn [oprel]. destruct M as [M1 M2].
    exists OATH_TAG_RESPONSE, (r_digits r'), c, c'. split; [right; reflexivity|]. rewrite M1, M2. auto.
  - cbn [oprel]. exists OATH_TAG_FULL_RESPONSE, (r_digits r'), h, h'. split; [left; reflexivity|]. split; [exact L|]. unfold u8. rewrite !Z.mod_small by lia. auto.
Qed.
Lemma sbc_piece a b x y : sbc a b -> piece x y -> sbc (a ++ x) (b ++ y).
Proof. intros H (t & g & p & q & T & L & -> & ->). apply sbc_code; assumption. Qed.
Lemma two_upd r r' o : rr r r' -> two eq (oath_update_challenge_field r o) (oath_update_challenge_field r' o).
Proof. intros H. unfold oath_update_challenge_field. rewrite (rr_chal _ _ H). apply two_write_eq. Qed.
Lemma two_inc r r' o ch : rr r r' -> two (oprel rr) (oath_enforce_increasing r o ch) (oath_enforce_increasing r' o ch).
Proof.
  intros H. unfold oath_enforce_increasing. rewrite (rr_inc _ _ H), (rr_chal _ _ H). destruct (r_inc r'); [|apply two_ret; exact H].
  destruct (zlen ch =? 8) eqn:L; cbn [negb]; [|apply two_ret; exact I]. destruct (bgtb _ _); [apply two_ret; exact I|].
  assert (rr (splice r 133 ch) (splice r' 133 ch)) as R by (apply rr_splice; [exact H|]; apply Z.eqb_eq in L; unfold zlen in L; lia).
  tb; [apply two_upd, R|]. same. apply two_ret. exact R.
Qed.
Lemma incr_rev_len l c : incr_rev l = Some c -> length c = length l.
Proof.
  revert c; induction l as [|b l IH]; intros c; cbn [incr_rev]; [discriminate|]. destruct (_ =? 0); [|intros [= <-]; reflexivity].
  destruct (incr_rev l) as [d|]; cbn; [|discriminate]. intros [= <-]. cbn. rewrite (IH d); reflexivity.
Qed.
Lemma inc_two r r' : rr r r' -> oprel rr (oath_increase_counter r) (oath_increase_counter r').
Proof.
  intros H. unfold oath_increase_counter. rewrite (rr_chal _ _ H). destruct (incr_rev (rev (r_chal r'))) as [c|] eqn:E; [|exact I]. cbn.
  apply rr_splice; [exact H|]. apply incr_rev_len in E. rewrite rev_length in *. rewrite E. unfold r_chal, slice. rewrite firstn_length. lia.
Qed.
Lemma weak_calculate nfc c : all_bytes (c_data c) -> weak (oath_calculate hmac_sha1 hmac_sha256 hmac_sha512 junk nfc c) (oath_calculate hmac_sha1 hmac_sha256 hmac_sha512 junk nfc c).
Proof.
  intros Hb. unfold oath_calculate. cbv zeta. eapply weak_bind; [apply two_guard|]. same. pose proof (parse_name_sound 3 (c_data c) ltac:(lia) Hb) as Hs.
  destruct (parse_name 3 (c_data c)) as [name|w| |]; [|apply weak_two, (two_except eq)|contradiction|contradiction].
  apply weak_lift_ret. destruct Hs as ((_ & Hn) & _). eapply weak_bind; [apply two_n|]. same.
  eapply weak_bind; [apply two_find_loop; [assumption|exact junk_rr]|]. intros [i r] [i' r'] (Hi & Hr & H0); cbn [fst snd] in *; subst i'.
  eapply weak_bind; [apply two_guard|]. same. rewrite (rr_touch _ _ Hr).
  eapply weak_bind; [instantiate (1 := eq); destruct (_ && _); [tb; [apply two_wait|]; same; apply two_guard|apply two_ret; reflexivity]|]. same.
  eapply weak_bind.
  { instantiate (1 := fun x y => rr (fst x) (fst y) /\ snd x = snd y). rewrite (rr_type _ _ Hr). destruct (_ =? OATH_TYPE_TOTP).
    - tb; [apply (two_lift eq), orel_eq|]. intros ch ? <-. tb; [apply two_inc, Hr|]. intros [x|] [y|] X; cbn in X; try contradiction; [apply two_ret; auto|apply two_except].
    - destruct (_ =? OATH_TYPE_HOTP); [|apply two_fail]. pose proof (inc_two r r' Hr) as X. destruct (oath_increase_counter r) as [x|], (oath_increase_counter r') as [y|]; cbn in X; try contradiction; [|apply two_except].
      tb; [apply two_upd, X|]. same. apply two_ret. split; [exact X|apply rr_chal, X]. }
  intros [x ch] [y ch'] [X Y]; cbn [fst snd] in *; subst ch'. eapply weak_bind; [apply two_need, answer_two, X|]. intros p q L. apply weak_out. exact (sbc_piece [] [] p q sbc_nil L).
Qed.
Lemma two_calc_loop k : forall r r' acc acc' le, rr r r' -> sbc acc acc' ->
  two (fun a b => fst a = fst b /\ sbc (snd a) (snd b)) (calc_loop hmac_sha1 hmac_sha256 hmac_sha512 k r acc le) (calc_loop hmac_sha1 hmac_sha256 hmac_sha512 k r' acc' le).
Proof.
  induction k as [|k IH]; intros r r' acc acc' le H L; cbn [calc_loop]; [apply two_ret; auto|]. apply two_get. intros s. cbv zeta.
  tb; [apply two_rec, H|]. clear r r' H. intros r r' H. rewrite (rr_name_len _ _ H), (sbc_zlen _ _ L). destruct (_ <? _); [apply two_ret; auto|].
  tb; [apply two_modify|]. same. destruct (_ =? 0); [apply IH; auto|]. rewrite (rr_name _ _ H). tb; [apply (two_need eq), oprel_eq|]. same.
  rewrite (rr_type _ _ H), (rr_digits _ _ H), (rr_touch _ _ H). destruct (_ =? _); [apply IH; [exact H|apply sbc_same, sbc_same, L]|].
  destruct (r_touch r'); [apply IH; [exact H|apply sbc_same, sbc_same, L]|].
  tb; [apply two_inc, H|]. intros [x|] [y|] X; cbn in X; try contradiction; [|apply two_except].
  tb; [apply two_need, answer_two, X|]. intros p q M. apply IH; [exact X|]. apply sbc_piece; [apply sbc_same, L|exact M].
Qed.
Lemma weak_all c : weak (oath_calculate_all hmac_sha1 hmac_sha256 hmac_sha512 junk c) (oath_calculate_all hmac_sha1 hmac_sha256 hmac_sha512 junk c).
Proof.
  unfold oath_calculate_all. eapply weak_bind; [apply two_guard|]. same. eapply weak_bind; [apply two_size|]. same. destruct a0 as [size|]; [|apply weak_two, two_fail].
  cbv zeta. apply weak_get. intros s. eapply weak_bind.
  { instantiate (1 := eq). destruct (_ =? 0); [|apply two_ret; reflexivity]. tb; [apply two_guard|]. same. tb; [apply (two_need eq), oprel_eq|]. same.
    tb; [apply two_guard|]. same. tb; [apply (two_need eq), oprel_eq|]. same. tb; [apply two_modify|]. same.
    tb; [instantiate (1 := eq); destruct (_ || _); [tb; [apply two_modify|]; same; apply two_except|apply two_ret; reflexivity]|]. same.
    tb; [apply two_guard|]. same. tb; [apply (two_need eq), oprel_eq|]. same. tb; [apply two_modify|]. same. apply two_modify. }
  same. eapply weak_bind; [apply two_calc_loop; [exact junk_rr|constructor]|]. intros [sw acc] [sw' acc'] [W L]; cbn [fst snd] in *; subst sw'. apply weak_get. intros s'.
  eapply weak_bind; [instantiate (1 := eq); destruct (_ <=? _); [apply two_modify|apply two_ret; reflexivity]|]. same. apply weak_out, L.
Qed.

(** a command *)
Notation body := (oath_body hmac_sha1 hmac_sha256 hmac_sha512 junk).
Definition code_cmd (s : oath) (c : capdu) : bool :=
  (c_ins c =? 0xA2) || ((c_ins c =? 0xA4) && (c_p1 c =? 0)) || ((c_ins c =? 0xA5) && (remaining_eqb (o_rem s) REMAINING_CALC_FULL || remaining_eqb (o_rem s) REMAINING_CALC_TRUNC)).
Definition twoat {A} (P : env -> env -> Prop) (s : oath) (m m' : Mo A) : Prop := forall e f, env1 e f ->
  let '(o1, s1, e1) := m s e in let '(o2, s2, e2) := m' s f in orel eq o1 o2 /\ s1 = s2 /\ P e1 e2.
Lemma at_two {A} s (m m' : Mo A) : two eq m m' -> twoat env1 s m m'. Proof. intros H e f E. exact (H s e f E). Qed.
Lemma at_weak {A} s (m m' : Mo A) : weak m m' -> twoat env2 s m m'. Proof. intros H e f E. exact (H s e f E). Qed.
Lemma at_12 {A} s (m m' : Mo A) : twoat env1 s m m' -> twoat env2 s m m'.
Proof. intros H e f E. specialize (H e f E). destruct (m s e) as [[o1 s1] e1], (m' s f) as [[o2 s2] e2]. destruct H as (? & ? & ?). auto using env12. Qed.
Lemma at_get {A} P s (k k' : oath -> Mo A) : twoat P s (k s) (k' s) -> twoat P s (bind get k) (bind get k'). Proof. intros H. exact H. Qed.
Lemma at_guard {A} (P : env -> env -> Prop) s b w (k k' : unit -> Mo A) : (forall e f, env1 e f -> P e f) -> twoat P s (k tt) (k' tt) -> twoat P s (bind (guard b w) k) (bind (guard b w) k').
Proof. intros HP H. destruct b; [exact H|]. intros e f E. cbn. auto. Qed.
Lemma same_cmd_hd c c' : same_cmd c c' -> c_ins c = c_ins c' /\ c_p1 c = c_p1 c' /\ c_p2 c = c_p2 c'.
Proof. intros [<-|(I1 & -> & _)]; [auto|]. cbn. auto. Qed.
Lemma same_cmd_put c c' : all_bytes (c_data c) -> same_cmd c c' -> two eq (oath_put junk c) (oath_put junk c').
Proof.
  intros Hb H. destruct (same_cmd_hd _ _ H) as (_ & P1 & P2). apply two_put; [assumption|assumption|]. destruct H as [<-|(_ & _ & B1 & B2 & D)]; apply parse_put_two; auto. apply ag_refl.
Qed.
Lemma same_cmd_eq c c' : c_ins c <> 1 -> same_cmd c c' -> c = c'. Proof. intros N [H|(I1 & _)]; [exact H|contradiction]. Qed.
Lemma body_two nfc c c' s : all_bytes (c_data c) -> same_cmd c c' -> code_cmd s c = false -> twoat env1 s (body nfc c) (body nfc c').
Proof.
  intros Hb Hc Hn. destruct (same_cmd_hd _ _ Hc) as (Ic & P1 & P2). unfold oath_body. apply at_get. cbv zeta. rewrite <- Ic. apply at_guard; [auto|].
  destruct (c_ins c =? OATH_INS_PUT) eqn:E1; [apply at_two, same_cmd_put; assumption|]. apply Z.eqb_neq in E1. apply (same_cmd_eq _ _ E1) in Hc. subst c'. clear Ic P1 P2.
  unfold code_cmd in Hn.
  destruct (c_ins c =? OATH_INS_DELETE); [apply at_two, two_delete, Hb|]. destruct (c_ins c =? OATH_INS_SET_CODE); [apply at_two, two_set_code|].
  destruct (c_ins c =? OATH_INS_RENAME); [apply at_two, two_rename, Hb|].
  destruct (c_ins c =? OATH_INS_LIST); [apply at_two, (two_bind eq); [apply two_modify|]; same; apply two_list|].
  destruct (c_ins c =? OATH_INS_CALCULATE) eqn:E2; [unfold OATH_INS_CALCULATE in E2; rewrite E2 in Hn; discriminate Hn|].
  destruct (c_ins c =? OATH_INS_VALIDATE); [apply at_two, two_validate|].
  destruct (c_ins c =? OATH_INS_SELECT) eqn:E3.
  { unfold OATH_INS_SELECT in E3. rewrite E3 in Hn. destruct (c_p1 c =? 4); [apply at_two, two_select|].
    destruct (c_p1 c =? 0); [rewrite Bool.orb_true_r in Hn; discriminate Hn|]. apply at_two, two_except. }
  destruct (c_ins c =? OATH_INS_SEND_REMAINING) eqn:E4.
  { unfold OATH_INS_SEND_REMAINING in E4. rewrite E4 in Hn. unfold oath_send_remaining. apply at_get. destruct (o_rem s); cbn in Hn; rewrite ?Bool.orb_true_r in Hn; try discriminate Hn; apply at_two; [apply two_except|apply two_list]. }
  destruct (c_ins c =? OATH_INS_SET_DEFAULT); [apply at_two, two_default, Hb|]. apply at_two, two_except.
Qed.
Lemma body_weak nfc c c' s : all_bytes (c_data c) -> same_cmd c c' -> twoat env2 s (body nfc c) (body nfc c').
Proof.
  intros Hb Hc. destruct (code_cmd s c) eqn:Hn; [|apply at_12, body_two; assumption].
  assert (c_ins c <> 1) as E1 by (intros E; unfold code_cmd in Hn; rewrite E in Hn; cbn in Hn; discriminate Hn).
  apply (same_cmd_eq _ _ E1) in Hc. subst c'. unfold oath_body. apply at_get. cbv zeta. apply at_guard; [apply env12|].
  destruct (c_ins c =? OATH_INS_PUT) eqn:E; [apply Z.eqb_eq in E; contradiction|]. unfold code_cmd in Hn.
  destruct (c_ins c =? OATH_INS_DELETE) eqn:X1; [apply Z.eqb_eq in X1; rewrite X1 in Hn; discriminate Hn|].
  destruct (c_ins c =? OATH_INS_SET_CODE) eqn:X2; [apply Z.eqb_eq in X2; rewrite X2 in Hn; discriminate Hn|].
  destruct (c_ins c =? OATH_INS_RENAME) eqn:X3; [apply Z.eqb_eq in X3; rewrite X3 in Hn; discriminate Hn|].
  destruct (c_ins c =? OATH_INS_LIST) eqn:X4; [apply Z.eqb_eq in X4; rewrite X4 in Hn; discriminate Hn|].
  destruct (c_ins c =? OATH_INS_CALCULATE); [apply at_weak, weak_calculate, Hb|].
  destruct (c_ins c =? OATH_INS_VALIDATE) eqn:X5; [apply Z.eqb_eq in X5; rewrite X5 in Hn; discriminate Hn|].
  destruct (c_ins c =? OATH_INS_SELECT).
  { destruct (c_p1 c =? 4); [apply at_weak, weak_two, two_select|]. destruct (c_p1 c =? 0); [|apply at_weak, weak_two, two_except].
    apply at_guard; [apply env12|]. apply at_weak. eapply weak_bind; [apply two_modify|]. same. apply weak_all. }
  destruct (c_ins c =? OATH_INS_SEND_REMAINING).
  { unfold oath_send_remaining. apply at_get. destruct (o_rem s); apply at_weak; try apply weak_all; apply weak_two; [apply two_except|apply two_list]. }
  destruct (c_ins c =? OATH_INS_SET_DEFAULT); apply at_weak, weak_two; [apply two_default, Hb|apply two_except].
Qed.
(** a touch *)
Definition trel (b : bool) (x y : option bytes) : Prop := if b then oprel (fun t t' => zlen t = zlen t') x y else x = y.
Lemma zlen_digits k z z' : zlen (digits_of k z) = zlen (digits_of k z').
Proof. revert z z'; induction k; intros z z'; cbn [digits_of]; [reflexivity|]. rewrite !zlen_app. rewrite (IHk (z / 10) (z' / 10)). reflexivity. Qed.
Notation by_offset := (oath_calculate_by_offset hmac_sha1 hmac_sha256 hmac_sha512 junk).
Definition crel (x y : Z + bytes * Z) : Prop := match x, y with inl a, inl b => a = b | inr a, inr b => snd a = snd b | _, _ => False end.
Lemma two_offset o : two crel (by_offset o) (by_offset o).
Proof.
  unfold oath_calculate_by_offset. destruct (o mod REC =? 0) eqn:M; cbn [negb]; [|apply two_ret; reflexivity]. apply Z.eqb_eq in M.
  tb; [apply two_size|]. same. destruct a as [size|]; [|apply two_ret; reflexivity]. destruct (size <=? o); [apply two_ret; reflexivity|].
  tb; [apply two_read, M|]. intros [d|] [d'|] D; cbn in D; try contradiction; [|apply two_ret; reflexivity]. cbv zeta.
  assert (rr (overlay d junk) (overlay d' junk)) as H by (apply ag_overlay; [apply D|apply D|exact junk_rr]).
  rewrite (rr_name_len _ _ H), (rr_type _ _ H). destruct (_ =? 0); [apply two_ret; reflexivity|]. destruct (_ =? OATH_TYPE_TOTP); [apply two_ret; reflexivity|].
  destruct (negb _); [apply two_ret; reflexivity|]. pose proof (inc_two _ _ H) as X.
  destruct (oath_increase_counter (overlay d junk)) as [x|], (oath_increase_counter (overlay d' junk)) as [y|]; cbn in X; try contradiction; [|apply two_ret; reflexivity].
  tb; [apply two_upd, X|]. same. rewrite (rr_chal _ _ X). tb; [apply two_need, hmac_two, X|]. intros h h' [L B].
  tb; [apply two_need, trunc_two; assumption|]. intros p q _. apply two_ret. cbn. apply rr_digits, X.
Qed.
Lemma touch_two kind s e f : env1 e f ->
  let '(o1, s1, e1) := pass_handle_touch hmac_sha1 hmac_sha256 hmac_sha512 junk kind s e in
  let '(o2, s2, e2) := pass_handle_touch hmac_sha1 hmac_sha256 hmac_sha512 junk kind s f in
  orel (trel (sl_type (if kind =? 1 then fst (o_slots s) else snd (o_slots s)) =? PASS_SLOT_OATH)) o1 o2 /\ s1 = s2 /\ env1 e1 e2.
Proof.
  revert s e f. 
  assert (forall s0, two (trel (sl_type (if kind =? 1 then fst (o_slots s0) else snd (o_slots s0)) =? PASS_SLOT_OATH))
    ((fun s : oath => if negb ((kind =? 1) || (kind =? 2)) then ret None else
  let sl := if kind =? 1 then fst (o_slots s) else snd (o_slots s) in
  let fin (t : bytes) : Mo (option bytes) := ret (Some (t ++ (if negb (sl_enter sl =? 0) then [13] else []))) in
  if sl_type sl =? PASS_SLOT_OFF then ret (Some [])
  else if sl_type sl =? PASS_SLOT_OATH then
    r <- oath_calculate_by_offset hmac_sha1 hmac_sha256 hmac_sha512 junk (sl_oath_offset sl) ;;
    match r with
    | inl _ => ret None
    | inr (code, n) => if 33 <? n then ub else fin (digits_of (Z.to_nat n) (be code))
    end
  else if sl_type sl =? PASS_SLOT_STATIC then
    pw <- need (sub (sl_password sl) 0 (sl_password_len sl)) ;; fin pw
  else ret None) s0) ((fun s : oath => if negb ((kind =? 1) || (kind =? 2)) then ret None else
  let sl := if kind =? 1 then fst (o_slots s) else snd (o_slots s) in
  let fin (t : bytes) : Mo (option bytes) := ret (Some (t ++ (if negb (sl_enter sl =? 0) then [13] else []))) in
  if sl_type sl =? PASS_SLOT_OFF then ret (Some [])
  else if sl_type sl =? PASS_SLOT_OATH then
    r <- oath_calculate_by_offset hmac_sha1 hmac_sha256 hmac_sha512 junk (sl_oath_offset sl) ;;
    match r with
    | inl _ => ret None
    | inr (code, n) => if 33 <? n then ub else fin (digits_of (Z.to_nat n) (be code))
    end
  else if sl_type sl =? PASS_SLOT_STATIC then
    pw <- need (sub (sl_password sl) 0 (sl_password_len sl)) ;; fin pw
  else ret None) s0)) as W.
  { intros s. cbv beta zeta. set (sl := if kind =? 1 then fst (o_slots s) else snd (o_slots s)). clearbody sl.
    destruct (negb _); [apply two_ret; unfold trel; destruct (sl_type sl =? PASS_SLOT_OATH); [exact I|reflexivity]|].
    destruct (sl_type sl =? PASS_SLOT_OFF) eqn:T0; [apply two_ret; apply Z.eqb_eq in T0; rewrite T0; reflexivity|].
    destruct (sl_type sl =? PASS_SLOT_OATH) eqn:T1.
    - tb; [apply two_offset|]. intros [x|[x n]] [y|[y m]] C; cbn in C; try contradiction; [apply two_ret; exact I|]. subst m. destruct (33 <? n); [apply two_ub|].
      apply two_ret. cbn [trel oprel]. rewrite !zlen_app, (zlen_digits _ (be x) (be y)). reflexivity.
    - destruct (sl_type sl =? PASS_SLOT_STATIC); [|apply two_ret; reflexivity]. tb; [apply (two_need eq), oprel_eq|]. same. apply two_ret; reflexivity. }
  intros s e f E. exact (W s s e f E).
Qed.
(** boot *)
Lemma two_install : ni (oath_install false).
Proof.
  unfold oath_install. tb; [apply two_modify|]. same. tb; [apply two_size|]. same. destruct a0; [apply two_ret; reflexivity|].
  tb; [apply two_write_eq|]. same. destruct a0; cbn [negb]; [|apply two_ret; reflexivity]. tb; [apply two_write_attr|]. same. destruct a0; cbn [negb]; [|apply two_ret; reflexivity].
  tb; [apply two_random|]. same. apply two_write_attr.
Qed.
Lemma two_pass_install : ni (pass_install o_slots oset_slots false).
Proof.
  unfold pass_install. tb; [apply two_size|]. same. destruct (_ || _); [tb; [apply two_modify|]; same; apply two_save|].
  tb; [apply two_read_pass|]. same. destruct a0; [|apply two_ret; reflexivity]. apply two_get. intros s. tb; [apply two_modify|]. same. apply two_ret; reflexivity.
Qed.
Lemma start1 F G flt rnd tch : other F G -> env1 (start F flt rnd tch) (start G flt rnd tch).
Proof. intros H. unfold env1, env0, start. cbn. split; [|reflexivity]. split; [exact H|]. split; [constructor; [exact H|constructor]|auto]. Qed.
Lemma boot_two F G rnd : other F G -> same_dev (oboot F rnd) (oboot G rnd).
Proof.
  intros H. unfold oboot.
  assert (two eq (oath_install false ;;; pass_install o_slots oset_slots false) (oath_install false ;;; pass_install o_slots oset_slots false)) as W
    by (tb; [apply two_install|]; same; apply two_pass_install).
  specialize (W oath_boot _ _ (start1 F G [] rnd [] H)).
  destruct ((oath_install false ;;; pass_install o_slots oset_slots false) oath_boot (start F [] rnd [])) as [[o1 s1] e1],
    ((oath_install false ;;; pass_install o_slots oset_slots false) oath_boot (start G [] rnd [])) as [[o2 s2] e2].
  destruct W as (_ & W & E & _). split; [exact W|apply E].
Qed.
Lemma conf_two c : ni (pass_write_config o_slots oset_slots c).
Proof.
  unfold pass_write_config. cbv zeta. tb; [apply two_guard|]. same. tb; [apply two_guard|]. same. tb; [apply (two_need eq), oprel_eq|]. intros t ? <-.
  tb.
  { instantiate (1 := eq). destruct (t =? PASS_SLOT_OFF); [apply two_guard|]. destruct (t =? PASS_SLOT_STATIC); [|apply two_except].
    tb; [apply two_guard|]. same. tb; [apply (two_need eq), oprel_eq|]. same. tb; [apply two_guard|]. same. tb; [apply two_guard|]. same.
    tb; [apply (two_need eq), oprel_eq|]. same. tb; [apply (two_need eq), oprel_eq|]. same. apply two_modify. }
  same. tb; [apply two_modify|]. same. tb; [apply two_save|]. same. apply two_if_ok.
Qed.

(** ** One event *)
Notation step := (step hmac_sha1 hmac_sha256 hmac_sha512 junk).
Notation hist := (hist hmac_sha1 hmac_sha256 hmac_sha512 junk).
Lemma cut_two e f n : env0 e f -> same_dev (after_cut e n) (after_cut f n).
Proof.
  intros (E1 & E2 & _). unfold after_cut. apply boot_two. revert n. induction E2; intros [|n]; cbn; auto.
Qed.
Lemma start0 F flt rnd tch : mkE (e_fs (start F flt rnd tch)) (e_log (start F flt rnd tch)) (e_flt (start F flt rnd tch)) (e_rnd (start F flt rnd tch)) (e_tch (start F flt rnd tch)) [] = start F flt rnd tch.
Proof. reflexivity. Qed.
Lemma run_two {A} P s e f (m m' : Mo A) : twoat P s m m' -> env1 e f -> let '(o1, s1, e1) := m s e in let '(o2, s2, e2) := m' s f in orel eq o1 o2 /\ s1 = s2 /\ P e1 e2.
Proof. intros H E. exact (H e f E). Qed.
Lemma step_two d d' ev ev' : ev_ok ev -> same_dev d d' -> same_event ev ev' ->
  match step d ev, step d' ev' with
  | Some (o, d1), Some (o', d1') => same_dev d1 d1' /\ same_shape o o' /\ (gives_code (d_ram d) ev = false -> o = o')
  | None, None => True
  | _, _ => False
  end.
Proof.
  intros Ok [R F] S.
  assert (forall nfc c c' flt rnd tch, all_bytes (c_data c) -> same_cmd c c' ->
    let '(r1, s1, e1) := cmd_run hmac_sha1 hmac_sha256 hmac_sha512 junk nfc c flt rnd tch d in
    let '(r2, s2, e2) := cmd_run hmac_sha1 hmac_sha256 hmac_sha512 junk nfc c' flt rnd tch d' in
    oprel (fun x y => r_sw x = r_sw y /\ sbc (r_data x) (r_data y) /\ (code_cmd (d_ram d) c = false -> x = y)) r1 r2 /\ s1 = s2 /\ env0 e1 e2) as C.
  { intros nfc c c' flt rnd tch Hb Hc. unfold cmd_run, oath_process_apdu, run_apdu. rewrite !start0. rewrite <- R.
    pose proof (start1 _ _ flt rnd tch F) as E. pose proof (run_two _ _ _ _ _ _ (body_weak nfc c c' (d_ram d) Hb Hc) E) as W.
    destruct (code_cmd (d_ram d) c) eqn:G.
    - destruct (body nfc c (d_ram d) (start (d_fs d) flt rnd tch)) as [[o1 s1] e1], (body nfc c' (d_ram d) (start (d_fs d') flt rnd tch)) as [[o2 s2] e2].
      destruct W as (W1 & <- & W2 & W3). destruct o1, o2; cbn in W1; try contradiction; subst; cbn; (split; [|auto]); auto; (split; [reflexivity|]; split; [exact W3|discriminate]).
    - pose proof (run_two _ _ _ _ _ _ (body_two nfc c c' (d_ram d) Hb Hc G) E) as V.
      destruct (body nfc c (d_ram d) (start (d_fs d) flt rnd tch)) as [[o1 s1] e1], (body nfc c' (d_ram d) (start (d_fs d') flt rnd tch)) as [[o2 s2] e2].
      destruct V as (W1 & <- & W2 & W3). rewrite <- W3. destruct o1, o2; cbn in W1; try contradiction; subst; cbn; (split; [|auto]); auto; (split; [reflexivity|]; split; [apply sbc_refl|reflexivity]). }
  assert (forall kind flt, let '(r1, s1, e1) := touch_run hmac_sha1 hmac_sha256 hmac_sha512 junk kind flt d in
    let '(r2, s2, e2) := touch_run hmac_sha1 hmac_sha256 hmac_sha512 junk kind flt d' in
    orel (trel (gives_code (d_ram d) (Touch kind flt))) r1 r2 /\ s1 = s2 /\ env1 e1 e2) as T.
  { intros kind flt. unfold touch_run. rewrite <- R. exact (touch_two kind (d_ram d) _ _ (start1 _ _ flt [] [] F)). }
  assert (forall c flt, let '(r1, s1, e1) := conf_run c flt d in let '(r2, s2, e2) := conf_run c flt d' in r1 = r2 /\ s1 = s2 /\ env0 e1 e2) as N.
  { intros c flt. unfold conf_run, run_apdu. rewrite !start0. rewrite <- R. pose proof (conf_two c (d_ram d) _ _ (start1 _ _ flt [] [] F)) as W.
    destruct (pass_write_config o_slots oset_slots c (d_ram d) (start (d_fs d) flt [] [])) as [[o1 s1] e1], (pass_write_config o_slots oset_slots c (d_ram d) (start (d_fs d') flt [] [])) as [[o2 s2] e2].
    destruct W as (W1 & <- & W2 & W3). rewrite <- W3. destruct o1, o2; cbn in W1; try contradiction; subst; auto. }
  assert (forall nfc c c' flt rnd tch, all_bytes (c_data c) -> same_cmd c c' -> 
    match step d (Cmd nfc c flt rnd tch), step d' (Cmd nfc c' flt rnd tch) with
    | Some (o, d1), Some (o', d1') => same_dev d1 d1' /\ same_shape o o' /\ (code_cmd (d_ram d) c = false -> o = o')
    | None, None => True | _, _ => False end) as C1.
  { intros nfc c c' flt rnd tch Hb Hc. specialize (C nfc c c' flt rnd tch Hb Hc). unfold OathSpec.step.
    destruct (cmd_run _ _ _ _ nfc c flt rnd tch d) as [[r1 s1] e1], (cmd_run _ _ _ _ nfc c' flt rnd tch d') as [[r2 s2] e2]. destruct C as (C1 & <- & C2 & _).
    destruct r1 as [x|], r2 as [y|]; cbn in C1; try contradiction; [|exact I]. destruct C1 as (X & Y & Z). split; [split; [reflexivity|exact C2]|]. split; [split; assumption|].
    intros G. rewrite (Z G). reflexivity. }
  assert (forall nfc c c' flt rnd tch n, all_bytes (c_data c) -> same_cmd c c' -> 
    match step d (CutCmd nfc c flt rnd tch n), step d' (CutCmd nfc c' flt rnd tch n) with
    | Some (o, d1), Some (o', d1') => same_dev d1 d1' /\ o = Nothing /\ o' = Nothing
    | _, _ => False end) as C2.
  { intros nfc c c' flt rnd tch n Hb Hc. specialize (C nfc c c' flt rnd tch Hb Hc). unfold OathSpec.step.
    destruct (cmd_run _ _ _ _ nfc c flt rnd tch d) as [[r1 s1] e1], (cmd_run _ _ _ _ nfc c' flt rnd tch d') as [[r2 s2] e2]. destruct C as (_ & _ & C2). split; [apply cut_two, C2|auto]. }
  destruct S as [ev|nfc c c' flt rnd tch Hc|nfc c c' flt rnd tch n Hc].
  - destruct ev as [nfc c flt rnd tch|kind flt|c flt| |nfc c flt rnd tch n|kind flt n|c flt n].
    + exact (C1 nfc c c flt rnd tch (proj1 Ok) (or_introl eq_refl)).
    + specialize (T kind flt). unfold OathSpec.step. destruct (touch_run _ _ _ _ kind flt d) as [[r1 s1] e1], (touch_run _ _ _ _ kind flt d') as [[r2 s2] e2].
      destruct T as (T1 & <- & [T2 _] & _). destruct r1 as [x| | |], r2 as [y| | |]; cbn [orel] in T1; try contradiction; try exact I.
      split; [split; [reflexivity|exact T2]|]. unfold trel in T1. destruct (gives_code _ _); [split; [|discriminate]|split; [|intros _; rewrite T1; reflexivity]].
      * destruct x, y; cbn in *; auto.
      * subst y. destruct x; cbn; auto.
    + specialize (N c flt). unfold OathSpec.step. destruct (conf_run c flt d) as [[r1 s1] e1], (conf_run c flt d') as [[r2 s2] e2]. destruct N as (<- & <- & N & _).
      destruct r1; [|exact I]. split; [split; [reflexivity|exact N]|]. cbn. auto using sbc_refl.
    + cbn. split; [split; [rewrite R; reflexivity|exact F]|auto].
    + specialize (C2 nfc c c flt rnd tch n (proj1 Ok) (or_introl eq_refl)). destruct (step d _) as [[o d1]|], (step d' _) as [[o' d1']|]; try contradiction.
      destruct C2 as (D & -> & ->). cbn; auto.
    + specialize (T kind flt). unfold OathSpec.step. destruct (touch_run _ _ _ _ kind flt d) as [[r1 s1] e1], (touch_run _ _ _ _ kind flt d') as [[r2 s2] e2].
      destruct T as (_ & _ & [T2 _]). split; [apply cut_two, T2|]. cbn; auto.
    + specialize (N c flt). unfold OathSpec.step. destruct (conf_run c flt d) as [[r1 s1] e1], (conf_run c flt d') as [[r2 s2] e2]. destruct N as (_ & _ & N). split; [apply cut_two, N|]. cbn; auto.
  - exact (C1 nfc c c' flt rnd tch (proj1 Ok) Hc).
  - specialize (C2 nfc c c' flt rnd tch n (proj1 Ok) Hc). destruct (step d _) as [[o d1]|], (step d' _) as [[o' d1']|]; try contradiction.
    destruct C2 as (D & -> & ->). cbn; auto.
Qed.

(** ** The property *)
(** The answers to a sequence of events, each with the note whether it gives codes. *)
Inductive watch : dev -> list event -> list (bool * obs) -> dev -> Prop :=
| watch_nil d : watch d [] [] d
| watch_cons d ev o d1 evs os d2 : step d ev = Some (o, d1) -> watch d1 evs os d2 -> watch d (ev :: evs) ((gives_code (d_ram d) ev, o) :: os) d2.
Definition alike (x y : bool * obs) : Prop := fst x = fst y /\ if fst x then same_shape (snd x) (snd y) else snd x = snd y.

(** The secrets can only be learned from the codes: whatever secrets the device holds, and whatever secrets it is given with PUT, everything else it
    answers is the same, through storage errors and power losses. *)
Theorem C92_secrets evs evs' d d' os d1 : same_dev d d' -> Forall ev_ok evs -> Forall2 same_event evs evs' -> watch d evs os d1 ->
  exists os' d1', watch d' evs' os' d1' /\ Forall2 alike os os' /\ same_dev d1 d1'.
Proof.
  intros D Ok S H. revert evs' d' D Ok S. induction H as [d|d ev o d1 evs os d2 St H IH]; intros evs' d' D Ok S.
  - inversion S; subst. exists [], d'. split; [constructor|]. split; [constructor|exact D].
  - inversion S as [|? ev' ? evs0 S1 S2]; subst. inversion Ok as [|? ? O1 O2]; subst. pose proof (step_two d d' ev ev' O1 D S1) as T. rewrite St in T.
    destruct (step d' ev') as [[o' d1']|] eqn:St'; [|contradiction]. destruct T as (D1 & Sh & Eq).
    destruct (IH evs0 d1' D1 O2 S2) as (os' & d2' & W & A & D2). exists ((gives_code (d_ram d') ev', o') :: os'), d2'.
    split; [econstructor; eassumption|]. split; [|exact D2]. constructor; [|exact A].
    assert (gives_code (d_ram d') ev' = gives_code (d_ram d) ev) as G.
    { rewrite <- (proj1 D). destruct S1 as [|? ? ? ? ? ? Hc|]; [reflexivity| |reflexivity]. destruct (same_cmd_hd _ _ Hc) as (I1 & I2 & _). cbn [gives_code]. rewrite I1, I2. reflexivity. }
    unfold alike. cbn [fst snd]. rewrite G. split; [reflexivity|]. destruct (gives_code (d_ram d) ev); [exact Sh|apply Eq; reflexivity].
Qed.
(** One event, seen by everyone. *)
Theorem C92_answer d d' ev ev' o d1 : same_dev d d' -> ev_ok ev -> same_event ev ev' -> gives_code (d_ram d) ev = false -> step d ev = Some (o, d1) ->
  exists d1', step d' ev' = Some (o, d1') /\ same_dev d1 d1'.
Proof.
  intros D Ok S G St. pose proof (step_two d d' ev ev' Ok D S) as T. rewrite St in T. destruct (step d' ev') as [[o' d1']|]; [|contradiction].
  destruct T as (D1 & _ & Eq). rewrite (Eq G). eauto.
Qed.
End Applet.
Print Assumptions C92_secrets.
Print Assumptions C92_answer.

(** ** Example: two devices are given different secrets for the HOTP credential "al", list their credentials, are asked for a code, lose power
    while a second credential is stored, and list again.  The codes differ, nothing else does. *)
Definition kH' : bytes := [0x11; 6; 200; 7; 31].
Definition watched (k : bytes) : list event :=
  [cmd c_select; cmd (c_put nA k [0x7A; 4; 0; 0; 0; 5]); cmd c_list; cmd (mkC 0 0xA2 0 0 ([0x71; 2] ++ nA ++ [0x74; 0]) 256); CutCmd false (c_put nB k []) [] [] [] 1; cmd c_select; cmd c_list].
Fixpoint watchf (d : dev) (evs : list event) : option (list (bool * obs) * dev) :=
  match evs with
  | [] => Some ([], d)
  | ev :: evs => match step h1 h2 h5 junk0 d ev with
                 | None => None
                 | Some (o, d1) => match watchf d1 evs with Some (os, d2) => Some ((gives_code (d_ram d) ev, o) :: os, d2) | None => None end
                 end
  end.
Lemma watchf_ok evs : forall d os d1, watchf d evs = Some (os, d1) -> watch h1 h2 h5 junk0 d evs os d1.
Proof.
  induction evs as [|ev evs IH]; intros d os d1; cbn [watchf]; [intros [= <- <-]; constructor|].
  destruct (step h1 h2 h5 junk0 d ev) as [[o d2]|] eqn:St; [|discriminate]. destruct (watchf d2 evs) as [[os' d3]|] eqn:W; [|discriminate].
  intros [= <- <-]. econstructor; [exact St|apply IH, W].
Qed.
Example C92_case : same_dev boot0 boot0 /\ Forall ev_ok (watched kH) /\ Forall2 same_event (watched kH) (watched kH') /\
  (exists os d1, watch h1 h2 h5 junk0 boot0 (watched kH) os d1 /\
     nth 2 os (true, Nothing) = (false, Resp (mkR [0x72; 3; 0x11; 97; 108] 0x9000)) /\ map fst os = [false; false; false; true; false; false; false]) /\
  nth 3 (map snd (tr_of boot0 (watched kH))) Nothing <> nth 3 (map snd (tr_of boot0 (watched kH'))) Nothing.
Proof.
  split; [split; [reflexivity|intros q; apply same_file_refl]|]. split; [|split; [|split]].
  - unfold watched. repeat (constructor; [split; apply bytesb_ok; vm_compute; reflexivity|]). constructor.
  - unfold watched, cmd.
    assert (forall n t, bytesb (c_data (c_put n kH t)) = true -> bytesb (c_data (c_put n kH' t)) = true -> 
      zlen n <= 64 -> same_cmd (c_put n kH t) (c_put n kH' t)) as P.
    { intros n t B1 B2 L. right. split; [reflexivity|]. split; [reflexivity|]. split; [apply bytesb_ok, B1|]. split; [apply bytesb_ok, B2|].
      assert (exists x y, c_data (c_put n kH t) = (([0x71; zlen n] ++ n ++ [0x73; 5; 0x11; 6]) ++ x) ++ t /\ c_data (c_put n kH' t) = (([0x71; zlen n] ++ n ++ [0x73; 5; 0x11; 6]) ++ y) ++ t /\
        length x = 3%nat /\ length y = 3%nat) as (x & y & X & Y & Lx & Ly).
      { exists [10; 20; 30], [200; 7; 31]. cbn [c_put c_data]. repeat split; rewrite <- !app_assoc; reflexivity. }
      assert (forall i, (6 + length n <= i < 9 + length n)%nat -> put_secret_at (c_data (c_put n kH t)) i = true) as M.
      { intros i Hi. unfold put_secret_at. cbn [c_put c_data]. cbv zeta. change (nth 1 ([113; zlen n] ++ n ++ [115; zlen kH] ++ kH ++ t) 0) with (zlen n).
        assert (nth (Z.to_nat (3 + zlen n)) ([113; zlen n] ++ n ++ [115; zlen kH] ++ kH ++ t) 0 = 5) as ->; [|unfold zlen; lia].
        rewrite app_nth2 by (cbn [length]; unfold zlen; lia). rewrite app_nth2 by (cbn [length]; unfold zlen; lia).
        replace (Z.to_nat (3 + zlen n) - length ([113; zlen n]%Z) - length n)%nat with 1%nat by (cbn [length]; unfold zlen; lia). reflexivity. }
      rewrite X, Y. rewrite X in M. apply ag_app; [apply ag_app; [apply ag_refl|]|].
      - split; [lia|]. intros i Hi. destruct (Nat.lt_ge_cases i 3) as [J|J]; [|rewrite !nth_overflow by lia; reflexivity].
        unfold shift in Hi. rewrite M in Hi; [discriminate Hi|]. rewrite !app_length. cbn [length]. lia.
      - apply ag_refl. }
    constructor; [apply same_ev|]. constructor; [apply same_put, P; [vm_compute; reflexivity|vm_compute; reflexivity|vm_compute; discriminate]|].
    constructor; [apply same_ev|]. constructor; [apply same_ev|]. constructor; [apply same_cut, P; [vm_compute; reflexivity|vm_compute; reflexivity|vm_compute; discriminate]|].
    repeat (constructor; [apply same_ev|]). constructor.
  - destruct (watchf boot0 (watched kH)) as [[os d1]|] eqn:W; [|vm_compute in W; discriminate W].
    assert (option_map fst (watchf boot0 (watched kH)) = Some os) as W' by (rewrite W; reflexivity). vm_compute in W'. injection W' as <-.
    eexists; exists d1. split; [apply watchf_ok, W|]. split; reflexivity.
  - vm_compute. discriminate.
Qed.
