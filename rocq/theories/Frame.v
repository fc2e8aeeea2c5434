(** What a computation leaves alone: an invariant [I] of the applet's RAM and an invariant [P] of the storage
    that hold before each step hold after it, on every path, and for every image a power cut can leave. *)
From Verif Require Import Sys Applet.
Open Scope string_scope. Open Scope list_scope. Open Scope Z_scope.

Section Frame.
Context {S : Type}.
Variable I : S -> Prop.
Variable P : fs -> Prop.
Definition fgood (s : S) (e : env) : Prop := I s /\ P (e_fs e) /\ Forall P (e_log e).
Definition frame {A} (m : M S A) : Prop := forall s e, fgood s e -> wp m (fun _ s' e' => fgood s' e') s e.
(** [P] does not depend on file [p]. *)
Definition indep (p : path) : Prop := forall F x, P F -> P (fset F p x).

Lemma fr_bind {A B} (m : M S A) (k : A -> M S B) : frame m -> (forall a, frame (k a)) -> frame (bind m k).
Proof.
  intros Hm Hk s e H. apply wp_bind. eapply wp_mono; [apply Hm, H|]. intros [a|w| |] s' e' H'; try exact H'. apply Hk, H'.
Qed.
Lemma fr_ret {A} (a : A) : frame (ret a). Proof. intros s e H; exact H. Qed.
Lemma fr_lift {A} (a : out A) : frame (lift a). Proof. intros s e H; exact H. Qed.
Lemma fr_get : frame get. Proof. intros s e H; exact H. Qed.
Lemma fr_fail {A} : frame (@fail S A). Proof. intros s e H; exact H. Qed.
Lemma fr_ub {A} : frame (@ub S A). Proof. intros s e H; exact H. Qed.
Lemma fr_except {A} w : frame (@except S A w). Proof. intros s e H; exact H. Qed.
Lemma fr_guard b w : frame (guard b w). Proof. destruct b; intros s e H; exact H. Qed.
Lemma fr_need {A} (o : option A) : frame (need o). Proof. destruct o; intros s e H; exact H. Qed.
Lemma fr_set_out d : frame (set_out d). Proof. intros s e H; exact H. Qed.
Lemma fr_modify f : (forall s, I s -> I (f s)) -> frame (modify f).
Proof. intros Hf s e (H & H'). split; [apply Hf, H|exact H']. Qed.
Lemma fr_pop e : forall s, fgood s e -> fgood s (snd (pop_fault e)).
Proof. intros s H. unfold pop_fault. destruct (e_flt e); exact H. Qed.
Lemma fr_wait : frame wait_touch.
Proof. intros s e H. unfold wp, wait_touch. destruct (e_tch e); exact H. Qed.
Lemma fr_random n : frame (random_buffer n). Proof. intros s e H. exact H. Qed.
Lemma fr_read_file p o n : frame (read_file p o n).
Proof.
  intros s e H. apply fr_pop in H. unfold wp, read_file. destruct (pop_fault e) as [x e']. cbn [snd] in H.
  destruct x; try exact H. destruct (e_fs e' p); exact H.
Qed.
Lemma fr_size p : frame (get_file_size p).
Proof.
  intros s e H. apply fr_pop in H. unfold wp, get_file_size. destruct (pop_fault e) as [x e']. cbn [snd] in H.
  destruct x; try exact H. destruct (e_fs e' p); exact H.
Qed.
Lemma fr_read_attr p a : frame (read_attr p a).
Proof.
  intros s e H. apply fr_pop in H. unfold wp, read_attr. destruct (pop_fault e) as [x e']. cbn [snd] in H.
  destruct x; try exact H. destruct (e_fs e' p); exact H.
Qed.
Lemma fgood_commit s e G : fgood s e -> P G -> fgood s (commit G e).
Proof. intros (H1 & H2 & H3) H. split; [assumption|]. split; [assumption|]. constructor; assumption. Qed.
Lemma fgood_write s e p x : indep p -> fgood s e -> fgood s (commit (fset (e_fs e) p x) e).
Proof. intros Hp H. apply fgood_commit; [assumption|]. apply Hp, H. Qed.
Lemma fr_write_file p d o t : indep p -> frame (write_file p d o t).
Proof.
  intros Hp s e H. apply fr_pop in H. unfold wp, write_file. destruct (pop_fault e) as [x e']. cbn [snd] in H.
  destruct x; try exact H; (destruct (e_fs e' p) as [f|] eqn:E;
    [ rewrite ?E; try exact H; apply fgood_write; assumption
    | cbn [e_fs commit]; rewrite ?fset_same; pose proof (fgood_write s e' p (Some (mkF [] no_attr)) Hp H) as H1; try exact H1;
      exact (fgood_write s _ p _ Hp H1) ]).
Qed.
Lemma fr_append_file p d : indep p -> frame (append_file p d).
Proof.
  intros Hp s e H. apply fr_pop in H. unfold wp, append_file. destruct (pop_fault e) as [x e']. cbn [snd] in H.
  destruct x; try exact H; (destruct (e_fs e' p) as [f|] eqn:E;
    [ rewrite ?E; try exact H; apply fgood_write; assumption
    | cbn [e_fs commit]; rewrite ?fset_same; pose proof (fgood_write s e' p (Some (mkF [] no_attr)) Hp H) as H1; try exact H1;
      exact (fgood_write s _ p _ Hp H1) ]).
Qed.
Lemma fr_truncate_file p n : indep p -> frame (truncate_file p n).
Proof.
  intros Hp s e H. apply fr_pop in H. unfold wp, truncate_file. destruct (pop_fault e) as [x e']. cbn [snd] in H.
  destruct x; try exact H; (destruct (e_fs e' p) as [f|] eqn:E;
    [ rewrite ?E; try exact H; apply fgood_write; assumption
    | cbn [e_fs commit]; rewrite ?fset_same; pose proof (fgood_write s e' p (Some (mkF [] no_attr)) Hp H) as H1; try exact H1;
      exact (fgood_write s _ p _ Hp H1) ]).
Qed.
Lemma fr_write_attr p a v : indep p -> frame (write_attr p a v).
Proof.
  intros Hp s e H. apply fr_pop in H. unfold wp, write_attr. destruct (pop_fault e) as [x e']. cbn [snd] in H.
  destruct x; try exact H. destruct (e_fs e' p); try exact H. apply fgood_write; assumption.
Qed.
Lemma fr_rename p q : indep p -> indep q -> frame (fs_rename p q).
Proof.
  intros Hp Hq s e H. apply fr_pop in H. unfold wp, fs_rename. destruct (pop_fault e) as [x e']. cbn [snd] in H.
  destruct x; try exact H. destruct (e_fs e' p); try exact H. destruct (String.eqb p q); [exact H|].
  apply fgood_commit; [assumption|]. apply Hq, Hp, H.
Qed.

(** Using it: the final storage and every image. *)
Lemma frame_run {A} (m : M S A) s F flt rnd tch : frame m -> I s -> P F ->
  let '(_, s', e') := m s (start F flt rnd tch) in I s' /\ P (e_fs e') /\ Forall P (e_log e').
Proof.
  intros H Hs HF. specialize (H s (start F flt rnd tch)). unfold wp in H. destruct (m s (start F flt rnd tch)) as [[o s'] e'].
  apply H. split; [assumption|]. split; [assumption|]. constructor; [assumption|constructor].
Qed.
Lemma frame_apdu (m : M S Z) s F flt rnd tch : frame m -> I s -> P F ->
  let '(_, s', e') := run_apdu m s (start F flt rnd tch) in I s' /\ P (e_fs e') /\ Forall P (e_log e').
Proof.
  intros H Hs HF. pose proof (frame_run m s F flt rnd tch H Hs HF) as Hr. unfold run_apdu.
  change (mkE (e_fs (start F flt rnd tch)) (e_log (start F flt rnd tch)) (e_flt (start F flt rnd tch)) (e_rnd (start F flt rnd tch)) (e_tch (start F flt rnd tch)) [])
    with (start F flt rnd tch).
  destruct (m s (start F flt rnd tch)) as [[[a|w| |] s'] e']; exact Hr.
Qed.
End Frame.

Ltac frame1 :=
  first
  [ apply fr_bind; [|intros ?] | apply fr_ret | apply fr_lift | apply fr_get | apply fr_fail | apply fr_ub
  | apply fr_except | apply fr_guard | apply fr_need | apply fr_set_out | apply fr_wait | apply fr_random
  | apply fr_read_file | apply fr_size | apply fr_read_attr | apply fr_write_file; assumption | apply fr_append_file; assumption
  | apply fr_truncate_file; assumption
  | apply fr_write_attr; assumption | apply fr_rename; assumption | apply fr_modify; intros ? ?; first [assumption|exact (fun x => x)]
  | match goal with
    | |- frame _ _ (if ?b then _ else _) => destruct b
    | |- frame _ _ (match ?x with _ => _ end) => destruct x
    | |- frame _ _ (let _ := _ in _) => cbv zeta
    end ].
