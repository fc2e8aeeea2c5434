(** Computations whose result does not depend on what is in certain files. *)
From Verif Require Import Sys Applet.
Open Scope string_scope. Open Scope list_scope. Open Scope Z_scope.

Section NI.
Context {S : Type}.
(** the hidden files *)
Variable H : path -> Prop.
Hypothesis Hdec : forall p, H p \/ ~ H p.
Definition alike (F G : fs) : Prop := forall q, ~ H q -> F q = G q.
Definition ealike (e f : env) : Prop :=
  alike (e_fs e) (e_fs f) /\ e_flt e = e_flt f /\ e_rnd e = e_rnd f /\ e_tch e = e_tch f /\ e_out e = e_out f.
(** [I]: an invariant of the RAM *)
Variable I : S -> Prop.
Definition ni {A} (m : M S A) : Prop := forall s e f, I s -> ealike e f ->
  let '(o1, s1, e1) := m s e in let '(o2, s2, e2) := m s f in o1 = o2 /\ s1 = s2 /\ I s1 /\ ealike e1 e2.

Lemma ni_bind {A B} (m : M S A) (k : A -> M S B) : ni m -> (forall a, ni (k a)) -> ni (bind m k).
Proof.
  intros Hm Hk s e f Is E. specialize (Hm s e f Is E). unfold bind. destruct (m s e) as [[o1 s1] e1], (m s f) as [[o2 s2] e2].
  destruct Hm as (-> & <- & Is' & E'). destruct o2 as [a|w| |]; auto. apply Hk; assumption.
Qed.
Lemma ni_get {A} (k : S -> M S A) : (forall s, I s -> ni (k s)) -> ni (bind get k).
Proof. intros Hk s e f Is E. exact (Hk s Is s e f Is E). Qed.
Lemma ni_ret {A} (a : A) : ni (ret a). Proof. intros s e f Is E; cbn; auto. Qed.
Lemma ni_lift {A} (a : out A) : ni (lift a). Proof. intros s e f Is E; cbn; auto. Qed.
Lemma ni_fail {A} : ni (@fail S A). Proof. intros s e f Is E; cbn; auto. Qed.
Lemma ni_ub {A} : ni (@ub S A). Proof. intros s e f Is E; cbn; auto. Qed.
Lemma ni_except {A} w : ni (@except S A w). Proof. intros s e f Is E; cbn; auto. Qed.
Lemma ni_guard b w : ni (guard b w). Proof. destruct b; intros s e f Is E; cbn; auto. Qed.
Lemma ni_guard_bind {A} (b : bool) w (k : unit -> M S A) : (b = true -> ni (k tt)) -> ni (bind (guard b w) k).
Proof. intros Hk. destruct b; intros s e f Is E; [exact (Hk eq_refl s e f Is E)|cbn; auto]. Qed.
Lemma ni_need {A} (o : option A) : ni (need o). Proof. destruct o; intros s e f Is E; cbn; auto. Qed.
Lemma ni_modify g : (forall s, I s -> I (g s)) -> ni (modify g). Proof. intros Hg s e f Is E; cbn; auto. Qed.
Lemma ni_set_out d : ni (set_out d). Proof. intros s e f Is (E1 & E2 & E3 & E4 & E5); cbn; unfold ealike; cbn; auto 10. Qed.
Lemma ni_wait : ni wait_touch.
Proof. intros s e f Is (E1 & E2 & E3 & E4 & E5). unfold wait_touch. rewrite <- E4. destruct (e_tch e) eqn:T; repeat split; auto; unfold ealike; cbn; congruence. Qed.
Lemma ni_random n : ni (random_buffer n).
Proof. intros s e f Is (E1 & E2 & E3 & E4 & E5). unfold random_buffer. rewrite <- E3. repeat split; auto. Qed.
Lemma ni_pop e f : ealike e f -> fst (pop_fault e) = fst (pop_fault f) /\ ealike (snd (pop_fault e)) (snd (pop_fault f)).
Proof. intros (E1 & E2 & E3 & E4 & E5). unfold pop_fault. rewrite <- E2. destruct (e_flt e) eqn:Q; cbn; repeat split; auto; congruence. Qed.
Ltac pops := intros s e f Is E; destruct (ni_pop e f E) as [Ex E']; clear E;
  destruct (pop_fault e) as [x e0] eqn:P1, (pop_fault f) as [x' f0] eqn:P2; cbn [fst snd] in Ex, E'; subst x';
  assert (P : pop_fault e = (x, e0)) by exact P1; assert (Q : pop_fault f = (x, f0)) by exact P2; clear P1 P2.
Lemma ni_read_file p o n : ~ H p -> ni (read_file p o n).
Proof. intros Hp. pops. unfold read_file. rewrite P, Q. destruct x; auto. assert (W := proj1 E' p Hp). rewrite <- W. destruct (e_fs e0 p); auto. Qed.
Lemma ni_size p : ~ H p -> ni (get_file_size p).
Proof. intros Hp. pops. unfold get_file_size. rewrite P, Q. destruct x; auto. assert (W := proj1 E' p Hp). rewrite <- W. destruct (e_fs e0 p); auto. Qed.
Lemma ni_read_attr p a : ~ H p -> ni (read_attr p a).
Proof. intros Hp. pops. unfold read_attr. rewrite P, Q. destruct x; auto. assert (W := proj1 E' p Hp). rewrite <- W. destruct (e_fs e0 p); auto. Qed.
Lemma ealike_commit e f p x y : ealike e f -> (H p \/ x = y) -> ealike (commit (fset (e_fs e) p x) e) (commit (fset (e_fs f) p y) f).
Proof.
  intros (E1 & E2 & E3 & E4 & E5) Hx. unfold ealike, commit. cbn. repeat split; auto. intros q Hq.
  destruct (string_dec q p) as [->|N]; [|rewrite !fset_other by assumption; auto]. rewrite !fset_same. destruct Hx as [Hx|Hx]; [contradiction|exact Hx].
Qed.
Lemma ealike_left e f p x : ealike e f -> H p -> ealike (commit (fset (e_fs e) p x) e) f.
Proof.
  intros (E1 & E2 & E3 & E4 & E5) Hx. unfold ealike, commit. cbn. repeat split; auto. intros q Hq.
  destruct (string_dec q p) as [->|N]; [contradiction|rewrite !fset_other by assumption; auto].
Qed.
Lemma ealike_right e f p x : ealike e f -> H p -> ealike e (commit (fset (e_fs f) p x) f).
Proof.
  intros (E1 & E2 & E3 & E4 & E5) Hx. unfold ealike, commit. cbn. repeat split; auto. intros q Hq.
  destruct (string_dec q p) as [->|N]; [contradiction|rewrite !fset_other by assumption; auto].
Qed.
(** what [write_file] and [append_file] do first *)
Definition created (p : path) (e : env) : env := match e_fs e p with None => commit (fset (e_fs e) p (Some (mkF [] no_attr))) e | Some _ => e end.
Lemma created_some p e : exists g, e_fs (created p e) p = Some g.
Proof. unfold created. destruct (e_fs e p) eqn:W; [eauto|]. cbn. rewrite fset_same. eauto. Qed.
Lemma ealike_created p e f : ealike e f -> ealike (created p e) (created p f).
Proof.
  intros E. unfold created. destruct (Hdec p) as [Hp|Hp].
  - destruct (e_fs e p), (e_fs f p); auto; [apply ealike_right|apply ealike_left|apply ealike_commit]; auto.
  - rewrite <- (proj1 E p Hp). destruct (e_fs e p); auto. apply ealike_commit; auto.
Qed.
Lemma ni_write_file p d o t : ni (write_file p d o t).
Proof.
  pops. unfold write_file. rewrite P, Q. destruct x; auto.
  all: fold (created p e0) (created p f0); pose proof (ealike_created p e0 f0 E') as C; auto.
  destruct (created_some p e0) as [g Hg], (created_some p f0) as [g' Hg']. rewrite Hg, Hg'. split; [reflexivity|]. split; [reflexivity|]. split; [assumption|].
  apply ealike_commit; [assumption|]. destruct (Hdec p) as [Hp|Hp]; [left; exact Hp|right].
  assert (W := proj1 C p Hp). rewrite Hg, Hg' in W. injection W as <-. reflexivity.
Qed.
Lemma ni_append_file p d : ni (append_file p d).
Proof.
  pops. unfold append_file. rewrite P, Q. destruct x; auto.
  all: fold (created p e0) (created p f0); pose proof (ealike_created p e0 f0 E') as C; auto.
  destruct (created_some p e0) as [g Hg], (created_some p f0) as [g' Hg']. rewrite Hg, Hg'. split; [reflexivity|]. split; [reflexivity|]. split; [assumption|].
  apply ealike_commit; [assumption|]. destruct (Hdec p) as [Hp|Hp]; [left; exact Hp|right].
  assert (W := proj1 C p Hp). rewrite Hg, Hg' in W. injection W as <-. reflexivity.
Qed.
Lemma ni_write_attr p a v : ~ H p -> ni (write_attr p a v).
Proof.
  intros Hp. pops. unfold write_attr. rewrite P, Q. destruct x; auto. assert (W := proj1 E' p Hp). rewrite <- W.
  destruct (e_fs e0 p); auto. split; [reflexivity|]. split; [reflexivity|]. split; [assumption|]. apply ealike_commit; auto.
Qed.
End NI.

Ltac ni1 :=
  match goal with
  | |- ni _ _ (bind get _) => apply ni_get; intros ? ?
  | |- ni _ _ (bind _ _) => apply ni_bind; [|intros ?]
  | |- ni _ _ (ret _) => apply ni_ret
  | |- ni _ _ (lift _) => apply ni_lift
  | |- ni _ _ fail => apply ni_fail
  | |- ni _ _ ub => apply ni_ub
  | |- ni _ _ (except _) => apply ni_except
  | |- ni _ _ (guard _ _) => apply ni_guard
  | |- ni _ _ (need _) => apply ni_need
  | |- ni _ _ (set_out _) => apply ni_set_out
  | |- ni _ _ wait_touch => apply ni_wait
  | |- ni _ _ (random_buffer _) => apply ni_random
  | |- ni _ _ (modify _) => apply ni_modify; first [exact (fun _ H => H)|exact (fun _ _ => I)]
  | |- ni _ _ (if ?b then _ else _) => destruct b
  | |- ni _ _ (match ?x with _ => _ end) => destruct x eqn:?
  | |- ni _ _ (let _ := _ in _) => cbv zeta
  end.
