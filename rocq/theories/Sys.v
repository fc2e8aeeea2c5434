(** The machine the applets run on: littlefs storage seen through src/fs.c, a fault oracle, the
    history of committed storage images (for power loss), randomness and touch oracles, and the
    state/exception monad in which the applets' code is written. *)
From Coq Require Export String.
From Verif Require Export Base.
Open Scope Z_scope.

(** A littlefs file: contents and user attributes (numbered by a byte). *)
Record file := mkF { f_data : bytes; f_attr : Z -> option bytes }.
Definition path := string.
Definition fs := path -> option file.

Definition fs_empty : fs := fun _ => None.
Definition fset (f : fs) (p : path) (x : option file) : fs :=
  fun q => if String.eqb q p then x else f q.
Definition aset (a : Z -> option bytes) (n : Z) (v : bytes) : Z -> option bytes :=
  fun m => if m =? n then Some v else a m.
Definition no_attr : Z -> option bytes := fun _ => None.

(** Outcome of one storage operation chosen by the environment: it works, fails at once, or fails
    late (after a missing file was created by the open). *)
Inductive fault := FNone | FEarly | FLate.

(** The environment.  [e_log] holds every storage image ever committed, newest first; its head is the
    current one.  [e_flt], [e_rnd], [e_tch] are consumed from the front: faults of the next storage
    operations, random bytes, results of the next waits for user presence.  [e_out] is the response
    under construction: RDATA[0..LL). *)
Record env := mkE {
  e_fs : fs; e_log : list fs; e_flt : list fault; e_rnd : bytes; e_tch : list Z; e_out : bytes }.

(** How a C function ends: normally with a value; by EXCEPT(sw) (include/apdu.h:62-66); by returning a
    negative value; or with undefined behaviour. *)
Inductive out (A : Type) := Ret (a : A) | Exc (sw : Z) | Fail | UB.
Arguments Ret {A}. Arguments Exc {A}. Arguments Fail {A}. Arguments UB {A}.

(** Programs over a RAM state [S] (the applet's static variables). *)
Definition M (S A : Type) := S -> env -> out A * S * env.

Definition ret {S A} (a : A) : M S A := fun s e => (Ret a, s, e).
Definition bind {S A B} (m : M S A) (k : A -> M S B) : M S B := fun s e =>
  match m s e with
  | (Ret a, s', e') => k a s' e'
  | (Exc w, s', e') => (Exc w, s', e')
  | (Fail, s', e') => (Fail, s', e')
  | (UB, s', e') => (UB, s', e')
  end.
Notation "x <- m ;; k" := (bind m (fun x => k)) (at level 61, m at next level, right associativity).
Notation "m ;;; k" := (bind m (fun _ => k)) (at level 61, right associativity).

Definition except {S A} (sw : Z) : M S A := fun s e => (Exc sw, s, e).
Definition fail {S A} : M S A := fun s e => (Fail, s, e).
Definition ub {S A} : M S A := fun s e => (UB, s, e).
Definition get {S} : M S S := fun s e => (Ret s, s, e).
Definition put {S} (s' : S) : M S unit := fun _ e => (Ret tt, s', e).
Definition modify {S} (f : S -> S) : M S unit := fun s e => (Ret tt, f s, e).
Definition set_out {S} (d : bytes) : M S unit := fun s e =>
  (Ret tt, s, mkE (e_fs e) (e_log e) (e_flt e) (e_rnd e) (e_tch e) d).
Definition get_out {S} : M S bytes := fun s e => (Ret (e_out e), s, e).
Definition guard {S} (b : bool) (sw : Z) : M S unit := if b then ret tt else except sw.
(** [if (cond < 0) return -1;] *)
Definition check {S} (b : bool) : M S unit := if b then ret tt else fail.
(** A value that must be there: reading outside a buffer is undefined behaviour. *)
Definition need {S A} (o : option A) : M S A := match o with Some a => ret a | None => ub end.

Definition pop_fault (e : env) : fault * env :=
  match e_flt e with
  | [] => (FNone, e)
  | x :: r => (x, mkE (e_fs e) (e_log e) r (e_rnd e) (e_tch e) (e_out e))
  end.
Definition commit (f : fs) (e : env) : env :=
  mkE f (f :: e_log e) (e_flt e) (e_rnd e) (e_tch e) (e_out e).

(** src/fs.c:17-36 [read_file]: [None] when an error code is returned; otherwise the bytes read
    (littlefs reads nothing at or beyond the end of the file). *)
Definition read_file {S} (p : path) (off len : Z) : M S (option bytes) := fun s e =>
  let '(x, e) := pop_fault e in
  match x with
  | FNone => match e_fs e p with
             | None => (Ret None, s, e)
             | Some f => (Ret (if off <? 0 then None else Some (slice off len (f_data f))), s, e)
             end
  | _ => (Ret None, s, e)
  end.

(** Contents after writing [d] at [off]; littlefs fills a gap with zeros. *)
Definition write_at (c : bytes) (off : Z) (d : bytes) : bytes :=
  let c' := c ++ zeros (off - zlen c) in
  firstn (Z.to_nat off) c' ++ d ++ skipn (Z.to_nat off + length d) c'.

(** src/fs.c:38-61 [write_file].  [true] = 0 returned.  Opening a missing file with O_CREAT commits an
    empty file; the contents (and a truncation) are committed by close, atomically.  Attributes of an
    existing file are kept. *)
Definition write_file {S} (p : path) (d : bytes) (off : Z) (trunc : bool) : M S bool := fun s e =>
  let '(x, e) := pop_fault e in
  match x with
  | FEarly => (Ret false, s, e)
  | _ =>
    let e := match e_fs e p with
             | None => commit (fset (e_fs e) p (Some (mkF [] no_attr))) e
             | Some _ => e
             end in
    match x with
    | FLate => (Ret false, s, e)
    | _ =>
      match e_fs e p with
      | None => (Ret false, s, e)          (* unreachable: just created *)
      | Some f =>
        let c := if trunc then [] else f_data f in
        let c' := if (length d =? 0)%nat then c else write_at c off d in
        (Ret true, s, commit (fset (e_fs e) p (Some (mkF c' (f_attr f)))) e)
      end
    end
  end.

(** src/fs.c:63-79 [append_file] *)
Definition append_file {S} (p : path) (d : bytes) : M S bool := fun s e =>
  let '(x, e) := pop_fault e in
  match x with
  | FEarly => (Ret false, s, e)
  | _ =>
    let e := match e_fs e p with
             | None => commit (fset (e_fs e) p (Some (mkF [] no_attr))) e
             | Some _ => e
             end in
    match x with
    | FLate => (Ret false, s, e)
    | _ =>
      match e_fs e p with
      | None => (Ret false, s, e)
      | Some f => (Ret true, s, commit (fset (e_fs e) p (Some (mkF (f_data f ++ d) (f_attr f)))) e)
      end
    end
  end.

(** src/fs.c:81-94 [truncate_file] *)
Definition truncate_file {S} (p : path) (len : Z) : M S bool := fun s e =>
  let '(x, e) := pop_fault e in
  match x with
  | FEarly => (Ret false, s, e)
  | _ =>
    let e := match e_fs e p with
             | None => commit (fset (e_fs e) p (Some (mkF [] no_attr))) e
             | Some _ => e
             end in
    match x with
    | FLate => (Ret false, s, e)
    | _ =>
      match e_fs e p with
      | None => (Ret false, s, e)
      | Some f =>
        let c := firstn (Z.to_nat len) (f_data f) ++ zeros (len - zlen (f_data f)) in
        (Ret true, s, commit (fset (e_fs e) p (Some (mkF c (f_attr f)))) e)
      end
    end
  end.

(** src/fs.c:96-98 [read_attr]: [None] on error; otherwise the stored attribute (its length is the
    return value; the caller's buffer receives its first bytes, zero-padded). *)
Definition read_attr {S} (p : path) (a : Z) : M S (option bytes) := fun s e =>
  let '(x, e) := pop_fault e in
  match x with
  | FNone => match e_fs e p with
             | None => (Ret None, s, e)
             | Some f => (Ret (f_attr f a), s, e)
             end
  | _ => (Ret None, s, e)
  end.

(** src/fs.c:100-102 [write_attr]: fails on a missing file. *)
Definition write_attr {S} (p : path) (a : Z) (v : bytes) : M S bool := fun s e =>
  let '(x, e) := pop_fault e in
  match x with
  | FNone => match e_fs e p with
             | None => (Ret false, s, e)
             | Some f => (Ret true, s, commit (fset (e_fs e) p (Some (mkF (f_data f) (aset (f_attr f) a v)))) e)
             end
  | _ => (Ret false, s, e)
  end.

(** src/fs.c:104-119 [get_file_size]: [None] = negative. *)
Definition get_file_size {S} (p : path) : M S (option Z) := fun s e =>
  let '(x, e) := pop_fault e in
  match x with
  | FNone => match e_fs e p with
             | None => (Ret None, s, e)
             | Some f => (Ret (Some (zlen (f_data f))), s, e)
             end
  | _ => (Ret None, s, e)
  end.

(** src/fs.c:129 [fs_rename]: atomically replaces the target, attributes move with the file. *)
Definition fs_rename {S} (old new : path) : M S bool := fun s e =>
  let '(x, e) := pop_fault e in
  match x with
  | FNone => match e_fs e old with
             | None => (Ret false, s, e)
             | Some f => if String.eqb old new then (Ret true, s, e)
                         else (Ret true, s, commit (fset (fset (e_fs e) old None) new (Some f)) e)
             end
  | _ => (Ret false, s, e)
  end.

(** canokey-crypto [random_buffer]: the next [n] bytes of the random stream (zeros when the finite
    stream of the model is exhausted; theorems quantify over all streams). *)
Definition random_buffer {S} (n : Z) : M S bytes := fun s e =>
  let r := firstn (Z.to_nat n) (e_rnd e ++ zeros n) in
  (Ret r, s, mkE (e_fs e) (e_log e) (e_flt e) (skipn (Z.to_nat n) (e_rnd e)) (e_tch e) (e_out e)).

(** Result of [wait_for_user_presence] (src/device.c:48-99), whose own behaviour is modelled in
    Device.v: the next element of the oracle; a wait that never gets touched times out. *)
Definition USER_PRESENCE_OK := 0.
Definition USER_PRESENCE_CANCEL := 1.
Definition USER_PRESENCE_TIMEOUT := 2.
Definition wait_touch {S} : M S Z := fun s e =>
  match e_tch e with
  | [] => (Ret USER_PRESENCE_TIMEOUT, s, e)
  | t :: r => (Ret t, s, mkE (e_fs e) (e_log e) (e_flt e) (e_rnd e) r (e_out e))
  end.

(** Starting environment of a command on storage [f]. *)
Definition start (f : fs) (flt : list fault) (rnd : bytes) (tch : list Z) : env := mkE f [f] flt rnd tch [].

(** Power may be lost during a run: the storage found at the next boot is one of the images committed
    since the start (the initial one included). *)
Definition crash_images {S A} (r : out A * S * env) : list fs := e_log (snd r).

(** ** Lemmas *)
Lemma bind_ret {S A B} (a : A) (k : A -> M S B) s e : bind (ret a) k s e = k a s e.
Proof. reflexivity. Qed.

Lemma fset_same f p x : fset f p x p = x.
Proof. unfold fset; rewrite String.eqb_refl; reflexivity. Qed.
Lemma fset_other f p q x : q <> p -> fset f p x q = f q.
Proof. unfold fset; intros H; destruct (String.eqb_spec q p); [congruence|reflexivity]. Qed.
Lemma aset_same a n v : aset a n v n = Some v.
Proof. unfold aset; rewrite Z.eqb_refl; reflexivity. Qed.
Lemma aset_other a n m v : m <> n -> aset a n v m = a m.
Proof. unfold aset; intros H; destruct (Z.eqb_spec m n); [congruence|reflexivity]. Qed.

(** Weakest precondition of a run. *)
Definition wp {S A} (m : M S A) (Q : out A -> S -> env -> Prop) (s : S) (e : env) : Prop :=
  let '(o, s', e') := m s e in Q o s' e'.

Lemma wp_bind {S A B} (m : M S A) (k : A -> M S B) Q s e :
  wp m (fun o s' e' => match o with
                       | Ret a => wp (k a) Q s' e'
                       | Exc w => Q (Exc w) s' e'
                       | Fail => Q Fail s' e'
                       | UB => Q UB s' e'
                       end) s e ->
  wp (bind m k) Q s e.
Proof. unfold wp, bind. destruct (m s e) as [[[a|w| |] s'] e']; auto. Qed.

Lemma wp_ret {S A} (a : A) (Q : out A -> S -> env -> Prop) s e : Q (Ret a) s e -> wp (ret a) Q s e.
Proof. auto. Qed.

Lemma wp_mono {S A} (m : M S A) (Q Q' : out A -> S -> env -> Prop) s e :
  wp m Q s e -> (forall o s' e', Q o s' e' -> Q' o s' e') -> wp m Q' s e.
Proof. unfold wp. destruct (m s e) as [[o s'] e']. auto. Qed.

Lemma pop_fault_fs e : e_fs (snd (pop_fault e)) = e_fs e /\ e_log (snd (pop_fault e)) = e_log e.
Proof. unfold pop_fault; destruct (e_flt e); auto. Qed.

Lemma write_at_0 c d : write_at c 0 d = d ++ skipn (length d) c.
Proof.
  unfold write_at, zeros. pose proof (zlen_nonneg c).
  replace (Z.to_nat (0 - zlen c)) with 0%nat by lia. cbn [repeat]. rewrite app_nil_r. reflexivity.
Qed.
Lemma write_at_nil d : write_at [] 0 d = d.
Proof. rewrite write_at_0. destruct (length d); cbn; apply app_nil_r. Qed.

(** *** Rules for the storage primitives, for every fault pattern.  The environment is kept in
    constructor form. *)
Definition fread (F : fs) (p : path) (off len : Z) : option bytes :=
  match F p with None => None | Some f => if off <? 0 then None else Some (slice off len (f_data f)) end.
Definition fattr (F : fs) (p : path) (a : Z) : option bytes :=
  match F p with None => None | Some f => f_attr f a end.
Definition fsize (F : fs) (p : path) : option Z :=
  match F p with None => None | Some f => Some (zlen (f_data f)) end.
Definition fdata (F : fs) (p : path) : option bytes :=
  match F p with None => None | Some f => Some (f_data f) end.
Definition fcreate (F : fs) (p : path) : fs :=
  match F p with None => fset F p (Some (mkF [] no_attr)) | Some _ => F end.
Definition lcreate (F : fs) (L : list fs) (p : path) : list fs :=
  match F p with None => fcreate F p :: L | Some _ => L end.
(** Storage after a successful [write_file] / [write_attr]. *)
Definition fwrite (F : fs) (p : path) (d : bytes) (off : Z) (trunc : bool) : fs :=
  match fcreate F p p with
  | None => F
  | Some f => fset (fcreate F p) p
                (Some (mkF (let c := if trunc then [] else f_data f in
                            if (length d =? 0)%nat then c else write_at c off d) (f_attr f)))
  end.
Definition fsetattr (F : fs) (p : path) (a : Z) (v : bytes) : fs :=
  match F p with None => F | Some f => fset F p (Some (mkF (f_data f) (aset (f_attr f) a v))) end.

Lemma wp_read_file {S} p off len (Q : out (option bytes) -> S -> env -> Prop) (s : S) F L X R T O :
  (forall X' r, (X = [] -> X' = [] /\ r = fread F p off len) -> (r = None \/ r = fread F p off len) ->
                Q (Ret r) s (mkE F L X' R T O)) ->
  wp (read_file p off len) Q s (mkE F L X R T O).
Proof.
  intros H. unfold wp, read_file, pop_fault, fread in *. cbn.
  destruct X as [|[] X]; cbn; destruct (F p); cbn; apply H; auto; try discriminate; tauto.
Qed.
Lemma wp_read_attr {S} p a (Q : out (option bytes) -> S -> env -> Prop) (s : S) F L X R T O :
  (forall X' r, (X = [] -> X' = [] /\ r = fattr F p a) -> (r = None \/ r = fattr F p a) ->
                Q (Ret r) s (mkE F L X' R T O)) ->
  wp (read_attr p a) Q s (mkE F L X R T O).
Proof.
  intros H. unfold wp, read_attr, pop_fault, fattr in *. cbn.
  destruct X as [|[] X]; cbn; destruct (F p); cbn; apply H; auto; try discriminate; tauto.
Qed.
Lemma wp_get_file_size {S} p (Q : out (option Z) -> S -> env -> Prop) (s : S) F L X R T O :
  (forall X' r, (X = [] -> X' = [] /\ r = fsize F p) -> (r = None \/ r = fsize F p) ->
                Q (Ret r) s (mkE F L X' R T O)) ->
  wp (get_file_size p) Q s (mkE F L X R T O).
Proof.
  intros H. unfold wp, get_file_size, pop_fault, fsize in *. cbn.
  destruct X as [|[] X]; cbn; destruct (F p); cbn; apply H; auto; try discriminate; tauto.
Qed.
Lemma wp_write_attr {S} p a v (Q : out bool -> S -> env -> Prop) (s : S) F L X R T O :
  (F p <> None -> forall X', (X = [] -> X' = []) ->
     Q (Ret true) s (mkE (fsetattr F p a v) (fsetattr F p a v :: L) X' R T O)) ->
  (X <> [] \/ F p = None -> forall X', (X = [] -> X' = []) -> Q (Ret false) s (mkE F L X' R T O)) ->
  wp (write_attr p a v) Q s (mkE F L X R T O).
Proof.
  intros H1 H2. unfold wp, write_attr, pop_fault, fsetattr, commit in *. cbn.
  destruct X as [|[] X]; cbn; destruct (F p); cbn.
  all: try (apply H1; [discriminate|auto; discriminate]).
  all: apply H2; auto; try discriminate; left; discriminate.
Qed.
Lemma wp_write_file {S} p d off tr (Q : out bool -> S -> env -> Prop) (s : S) F L X R T O :
  (forall X', (X = [] -> X' = []) ->
     Q (Ret true) s (mkE (fwrite F p d off tr) (fwrite F p d off tr :: lcreate F L p) X' R T O)) ->
  (X <> [] -> forall X', Q (Ret false) s (mkE F L X' R T O)) ->
  (X <> [] -> forall X', Q (Ret false) s (mkE (fcreate F p) (lcreate F L p) X' R T O)) ->
  wp (write_file p d off tr) Q s (mkE F L X R T O).
Proof.
  intros H1 H2 H3. unfold wp, write_file, pop_fault, fwrite, lcreate, fcreate, commit in *. cbn.
  destruct X as [|[] X]; cbn; destruct (F p) eqn:E; cbn; rewrite ?fset_same, ?E in *; cbn.
  all: try (apply H1; auto; discriminate).
  all: try (apply H2; discriminate).
  all: apply H3; discriminate.
Qed.
Lemma wp_wait_touch {S} (Q : out Z -> S -> env -> Prop) (s : S) F L X R T O :
  Q (Ret (hd USER_PRESENCE_TIMEOUT T)) s (mkE F L X R (tl T) O) ->
  wp wait_touch Q s (mkE F L X R T O).
Proof. unfold wp, wait_touch; destruct T; cbn; auto. Qed.
Lemma wp_random {S} n (Q : out bytes -> S -> env -> Prop) (s : S) F L X R T O :
  (forall r R', Q (Ret r) s (mkE F L X R' T O)) ->
  wp (random_buffer n) Q s (mkE F L X R T O).
Proof. unfold wp, random_buffer; cbn; auto. Qed.

Lemma fattr_fsetattr F p a v b : F p <> None ->
  fattr (fsetattr F p a v) p b = if b =? a then Some v else fattr F p b.
Proof.
  intros H; unfold fattr, fsetattr. destruct (F p) as [f|] eqn:E; [|congruence].
  rewrite fset_same; cbn. unfold aset; reflexivity.
Qed.
Lemma fattr_fsetattr_other F p q a v b : q <> p -> fattr (fsetattr F p a v) q b = fattr F q b.
Proof. intros H; unfold fattr, fsetattr. destruct (F p); [|reflexivity]. rewrite fset_other by assumption. reflexivity. Qed.
Lemma fdata_fsetattr F p q a v : fdata (fsetattr F p a v) q = fdata F q.
Proof.
  unfold fdata, fsetattr. destruct (F p) as [f|] eqn:E; [|reflexivity]. unfold fset.
  destruct (String.eqb_spec q p) as [->|]; [rewrite E|]; reflexivity.
Qed.
Lemma fsetattr_other F p q a v : q <> p -> fsetattr F p a v q = F q.
Proof. intros H; unfold fsetattr. destruct (F p); [apply fset_other, H|reflexivity]. Qed.
Lemma fsetattr_some F p q a v : fsetattr F p a v q <> None <-> F q <> None.
Proof.
  unfold fsetattr. destruct (F p) as [f|] eqn:E; [|tauto]. unfold fset.
  destruct (String.eqb_spec q p) as [->|]; [rewrite E; split; discriminate|tauto].
Qed.
Lemma fcreate_some F p : fcreate F p p <> None.
Proof. unfold fcreate. destruct (F p) eqn:E; [congruence|rewrite fset_same; discriminate]. Qed.
Lemma fcreate_other F p q : q <> p -> fcreate F p q = F q.
Proof. intros H; unfold fcreate. destruct (F p); [reflexivity|apply fset_other, H]. Qed.
Lemma fwrite_other F p q d off tr : q <> p -> fwrite F p d off tr q = F q.
Proof.
  intros H; unfold fwrite. destruct (fcreate F p p); [|reflexivity].
  rewrite fset_other by assumption. apply fcreate_other, H.
Qed.
Lemma fwrite_some F p d off tr : fwrite F p d off tr p <> None.
Proof.
  unfold fwrite. pose proof (fcreate_some F p) as H. destruct (fcreate F p p) eqn:E; [|congruence].
  rewrite fset_same; discriminate.
Qed.
Lemma fdata_fwrite_trunc F p d : fdata (fwrite F p d 0 true) p = Some d.
Proof.
  unfold fwrite, fdata. pose proof (fcreate_some F p) as H. destruct (fcreate F p p) eqn:E; [|congruence].
  rewrite fset_same; cbn [f_data]. rewrite write_at_nil. destruct d; reflexivity.
Qed.
Lemma fattr_fwrite F p d off tr a : F p <> None -> fattr (fwrite F p d off tr) p a = fattr F p a.
Proof.
  intros H. unfold fwrite, fattr, fcreate. destruct (F p) eqn:E; [|congruence]. rewrite E, fset_same. reflexivity.
Qed.

#[global] Arguments zeros : simpl never.
#[global] Arguments slice : simpl never.
#[global] Arguments sub : simpl never.
#[global] Arguments zlen : simpl never.
#[global] Arguments splice : simpl never.
#[global] Arguments write_at : simpl never.
#[global] Arguments fset : simpl never.
#[global] Arguments aset : simpl never.
#[global] Arguments u8 : simpl never.
#[global] Arguments u16 : simpl never.
#[global] Arguments u32 : simpl never.
#[global] Arguments u64 : simpl never.
#[global] Arguments be : simpl never.
#[global] Arguments to_be : simpl never.
#[global] Arguments rd : simpl never.

(** *** Exact behaviour of the primitives without faults *)
Lemma bind_eq {S A B} (m : M S A) (k : A -> M S B) s e a s' e' :
  m s e = (Ret a, s', e') -> bind m k s e = k a s' e'.
Proof. unfold bind; intros ->; reflexivity. Qed.
Lemma run_read_file {S} p off len (s : S) F L R T O :
  read_file p off len s (mkE F L [] R T O) = (Ret (fread F p off len), s, mkE F L [] R T O).
Proof. unfold read_file, fread; cbn; destruct (F p); reflexivity. Qed.
Lemma run_read_attr {S} p a (s : S) F L R T O :
  read_attr p a s (mkE F L [] R T O) = (Ret (fattr F p a), s, mkE F L [] R T O).
Proof. unfold read_attr, fattr; cbn; destruct (F p); reflexivity. Qed.
Lemma run_get_file_size {S} p (s : S) F L R T O :
  get_file_size p s (mkE F L [] R T O) = (Ret (fsize F p), s, mkE F L [] R T O).
Proof. unfold get_file_size, fsize; cbn; destruct (F p); reflexivity. Qed.
Lemma run_write_attr {S} p a v (s : S) F L R T O : F p <> None ->
  write_attr p a v s (mkE F L [] R T O)
  = (Ret true, s, mkE (fsetattr F p a v) (fsetattr F p a v :: L) [] R T O).
Proof. unfold write_attr, fsetattr; cbn; destruct (F p); congruence || reflexivity. Qed.
Lemma run_write_file {S} p d off tr (s : S) F L R T O :
  write_file p d off tr s (mkE F L [] R T O)
  = (Ret true, s, mkE (fwrite F p d off tr) (fwrite F p d off tr :: lcreate F L p) [] R T O).
Proof.
  unfold write_file, fwrite, lcreate, fcreate, commit; cbn.
  destruct (F p) eqn:E; cbn; rewrite ?fset_same, ?E; reflexivity.
Qed.
Lemma run_truncate_file {S} p n f (s : S) F L R T O : F p = Some f ->
  truncate_file p n s (mkE F L [] R T O)
  = let F' := fset F p (Some (mkF (firstn (Z.to_nat n) (f_data f) ++ zeros (n - zlen (f_data f))) (f_attr f))) in
    (Ret true, s, mkE F' (F' :: L) [] R T O).
Proof. intros H. unfold truncate_file, commit; cbn. rewrite !H; cbn. rewrite H. reflexivity. Qed.
