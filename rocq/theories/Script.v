(** Sequences of storage updates, each of which must succeed: the shape of the installations of the applets.  For power losses: which
    images of the storage may be found after one. *)
From Verif Require Import Sys.
Open Scope string_scope. Open Scope list_scope. Open Scope Z_scope.

(** src/fs.c:38-61 [write_file] at offset 0, src/fs.c:100-102 [write_attr] *)
Inductive wr := WF (p : path) (d : bytes) (trunc : bool) | WA (p : path) (a : Z) (v : bytes).
Definition wpath (w : wr) : path := match w with WF p _ _ => p | WA p _ _ => p end.
(** An update, or one that is given so many random bytes *)
Inductive item := W (w : wr) | RW (n : Z) (f : bytes -> wr).
Definition drawn (n : Z) (R : bytes) : bytes := firstn (Z.to_nat n) (R ++ zeros n).
Definition what (i : item) (R : bytes) : wr := match i with W w => w | RW n f => f (drawn n R) end.
Definition rest (i : item) (R : bytes) : bytes := match i with W _ => R | RW n _ => skipn (Z.to_nat n) R end.
Definition eff (w : wr) (F : fs) : fs := match w with WF p d tr => fwrite F p d 0 tr | WA p a v => fsetattr F p a v end.
Fixpoint effs (ws : list item) (R : bytes) (F : fs) : fs := match ws with [] => F | i :: r => effs r (rest i R) (eff (what i R) F) end.
(** Attributes are only set on files that exist *)
Fixpoint wok (ws : list item) (R : bytes) (F : fs) : Prop :=
  match ws with
  | [] => True
  | i :: r => match what i R with WA p _ _ => F p <> None | _ => True end /\ wok r (rest i R) (eff (what i R) F)
  end.
(** The images on the way *)
Fixpoint mid (ws : list item) (R : bytes) (F G : fs) : Prop :=
  G = F \/ match ws with [] => False | i :: r => G = fcreate F (wpath (what i R)) \/ mid r (rest i R) (eff (what i R) F) G end.
Lemma mid_start ws R F : mid ws R F F. Proof. destruct ws; left; reflexivity. Qed.
Lemma mid_end ws : forall R F, mid ws R F (effs ws R F).
Proof. induction ws as [|i r IH]; intros R F; [left; reflexivity|]. right. right. apply IH. Qed.
Lemma eff_other w F p : p <> wpath w -> eff w F p = F p.
Proof. destruct w; cbn [wpath eff]; intros H; [apply fwrite_other|apply fsetattr_other]; exact H. Qed.
Definition touches (p : path) (i : item) : Prop := exists R, wpath (what i R) = p.
Lemma effs_other p ws : forall R F, Forall (fun i => ~ touches p i) ws -> effs ws R F p = F p.
Proof.
  induction ws as [|i r IH]; intros R F H; [reflexivity|]. inversion H as [|? ? H1 H2]; subst. cbn [effs]. rewrite IH by exact H2.
  apply eff_other. intros E. apply H1. exists R. congruence.
Qed.
Lemma mid_other p ws : forall R F G, Forall (fun i => ~ touches p i) ws -> mid ws R F G -> G p = F p.
Proof.
  induction ws as [|i r IH]; intros R F G H [->|HG]; try reflexivity; [destruct HG|]. inversion H as [|? ? H1 H2]; subst.
  assert (N : p <> wpath (what i R)) by (intros E; apply H1; exists R; congruence).
  destruct HG as [->|HG]; [apply fcreate_other; exact N|]. rewrite (IH _ _ _ H2 HG). apply eff_other. exact N.
Qed.
(** What becomes of one file *)
Definition eff1 (w : wr) (o : option file) : option file :=
  match w with
  | WF _ d tr => let f := match o with Some f => f | None => mkF [] no_attr end in
                 Some (mkF (if tr then d else if (length d =? 0)%nat then f_data f else write_at (f_data f) 0 d) (f_attr f))
  | WA _ a v => match o with Some f => Some (mkF (f_data f) (aset (f_attr f) a v)) | None => None end
  end.
Fixpoint file_of (p : path) (ws : list item) (R : bytes) (o : option file) : option file :=
  match ws with
  | [] => o
  | i :: r => file_of p r (rest i R) (if String.eqb (wpath (what i R)) p then eff1 (what i R) o else o)
  end.
Lemma eff_same w F : eff w F (wpath w) = eff1 w (F (wpath w)).
Proof.
  destruct w as [p d tr|p a v]; cbn [wpath eff eff1].
  - unfold fwrite, fcreate. destruct (F p) as [f|] eqn:E; [rewrite E|rewrite fset_same]; rewrite fset_same; do 2 f_equal; destruct tr; try reflexivity;
      (destruct d; [reflexivity|unfold write_at; cbn; rewrite ?app_nil_r; reflexivity]).
  - unfold fsetattr. destruct (F p) as [f|] eqn:E; [rewrite fset_same; reflexivity|exact E].
Qed.
Lemma effs_file p ws : forall R F, effs ws R F p = file_of p ws R (F p).
Proof.
  induction ws as [|i r IH]; intros R F; [reflexivity|]. cbn [effs file_of]. rewrite IH. f_equal.
  destruct (String.eqb_spec (wpath (what i R)) p) as [<-|N]; [apply eff_same|apply eff_other; congruence].
Qed.

Lemma eff_some p d tr F : eff (WF p d tr) F p <> None.
Proof. change p with (wpath (WF p d tr)) at 2. rewrite eff_same. discriminate. Qed.
Lemma eff_keep w F p : F p <> None -> eff w F p <> None.
Proof.
  intros H. destruct (string_dec p (wpath w)) as [->|N]; [|rewrite eff_other; assumption]. rewrite eff_same. destruct w; [discriminate|]. cbn [eff1]. destruct (F _); [discriminate|contradiction].
Qed.

Section Run.
Context {S : Type}.
(** How a failing update ends the sequence: by an exception or by a negative result *)
Variable how : option Z.
Definition die {A} : M S A := match how with Some w => except w | None => fail end.
Definition dead {A} : out A := match how with Some w => Exc w | None => Fail end.
Definition wrun (w : wr) : M S bool := match w with WF p d tr => write_file p d 0 tr | WA p a v => write_attr p a v end.
Definition must_w (w : wr) : M S unit := ok <- wrun w ;; if ok then ret tt else die.
Fixpoint script {A} (ws : list item) (k : M S A) : M S A :=
  match ws with
  | [] => k
  | W w :: r => must_w w ;;; script r k
  | RW n f :: r => b <- random_buffer n ;; must_w (f b) ;;; script r k
  end.
Lemma wp_die {A} (Q : out A -> S -> env -> Prop) s e : Q dead s e -> wp die Q s e.
Proof. unfold wp, die, dead. destruct how; intros H; exact H. Qed.
Lemma wp_die_bind {A B} (k : A -> M S B) (Q : out B -> S -> env -> Prop) s e : Q dead s e -> wp (bind die k) Q s e.
Proof. unfold wp, bind, die, dead. destruct how; intros H; exact H. Qed.
Lemma script_wp ws : forall A (k : M S A) (Q : out A -> S -> env -> Prop) s F L X R T O, wok ws R F ->
  (forall X' R' L', (X = [] -> X' = []) -> (forall G, In G L' -> In G L \/ mid ws R F G) -> wp k Q s (mkE (effs ws R F) L' X' R' T O)) ->
  (forall X' R' L' F', X <> [] -> (forall G, In G L' -> In G L \/ mid ws R F G) -> mid ws R F F' -> Q dead s (mkE F' L' X' R' T O)) ->
  wp (script ws k) Q s (mkE F L X R T O).
Proof.
  induction ws as [|i r IH]; intros A k Q s F L X R T O Hw Hk Hd.
  { apply Hk; auto. }
  assert (G : wp (must_w (what i R) ;;; script r k) Q s (mkE F L X (rest i R) T O)).
  { destruct Hw as (Hw1 & Hw2). cbn [effs mid] in Hk, Hd. set (w := what i R) in *. set (R' := rest i R) in *.
    assert (GO : forall X' L', (X = [] -> X' = []) -> (forall G, In G L' -> In G L \/ G = F \/ G = fcreate F (wpath w) \/ mid r R' (eff w F) G) ->
      wp (script r k) Q s (mkE (eff w F) L' X' R' T O)).
    { intros X' L' HX HL. apply IH; [exact Hw2| |].
      - intros X2 R2 L2 HX2 HL2. apply Hk; [auto|]. intros G HG. destruct (HL2 G HG) as [H|H]; [destruct (HL G H) as [H'|H']; [auto|right]|right]; tauto.
      - intros X2 R2 L2 F2 HX2 HL2 HF2. apply Hd; [intros E; apply HX2, HX, E| |tauto].
        intros G HG. destruct (HL2 G HG) as [H|H]; [destruct (HL G H) as [H'|H']; [auto|right]|right]; tauto. }
    unfold must_w. clearbody w R'. destruct w as [p d tr|p a v]; cbn [wrun wpath eff] in *; apply wp_bind, wp_bind.
    - assert (HC : forall G, In G (lcreate F L p) -> In G L \/ G = F \/ G = fcreate F p \/ mid r R' (fwrite F p d 0 tr) G).
      { intros G HG. unfold lcreate in HG. destruct (F p); [auto|]. destruct HG as [<-|HG]; auto. }
      apply wp_write_file.
      + intros X' HX. apply wp_ret. apply GO; [exact HX|]. intros G [<-|HG]; [right; right; right; apply mid_start|apply HC, HG].
      + intros HX X'. apply wp_die. unfold dead in *. destruct how; (apply Hd; [exact HX|auto|auto]).
      + intros HX X'. apply wp_die. unfold dead in *. destruct how; (apply Hd; [exact HX|exact HC|auto]).
    - apply wp_write_attr.
      + intros _ X' HX. apply wp_ret. apply GO; [exact HX|]. intros G [<-|HG]; [right; right; right; apply mid_start|auto].
      + intros [HX|HN] X' _; [|contradiction]. apply wp_die. unfold dead in *. destruct how; apply Hd; auto. }
  destruct i as [w|n f]; [exact G|]. exact G.
Qed.
End Run.
