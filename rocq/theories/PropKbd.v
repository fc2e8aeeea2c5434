(** C21, C71: what the emulated keyboard types. *)
From Coq Require Import String Ascii.
From Verif Require Import Kbd.
Open Scope list_scope. Open Scope Z_scope.

(** ** Specification: a host with a US keyboard layout (USB HID usage tables, keyboard page) *)
Definition chars (s : string) : bytes := map (fun c => Z.of_nat (nat_of_ascii c)) (list_ascii_of_string s).
Definition plain : bytes := chars "abcdefghijklmnopqrstuvwxyz1234567890".
Definition shifted : bytes := chars "ABCDEFGHIJKLMNOPQRSTUVWXYZ!@#$%^&*()".
Definition plain2 : bytes := chars " -=[]\#;'`,./".
Definition shifted2 : bytes := chars " _+{}|~:""~<>?".
(** Keys 4..39 are the letters and digits, 0x28 Enter, 0x2C.. space and the symbol keys *)
Definition us (shift : bool) (key : Z) : option Z :=
  if (4 <=? key) && (key <=? 39) then rd (if shift then shifted else plain) (key - 4)
  else if key =? 0x28 then Some 13
  else if (0x2C <=? key) && (key <=? 0x38) then rd (if shift then shifted2 else plain2) (key - 0x2C)
  else None.
(** What the host reads: every key press is one character, and is released before the next press. *)
Fixpoint host_from (held : bool) (l : list report) : option bytes :=
  match held, l with
  | _, [] => Some []
  | false, Keys m k :: l => match us (m =? 2) k, host_from true l with Some c, Some t => Some (c :: t) | _, _ => None end
  | true, Keys 0 0 :: l => host_from false l
  | _, _ => None
  end.
Definition host (l : list report) : option bytes := host_from false l.
(** Printable ASCII, and Enter *)
Definition typable (c : Z) : Prop := 32 <= c <= 126 \/ c = 13.
Definition text_ok (t : bytes) : Prop := Forall typable t /\ zlen t <= 33.
Definition look_ok (l : look) : Prop := forall t, l_touch l = Some (Some t) -> text_ok t.
Definition is_prefix (a b : bytes) : Prop := exists c, b = a ++ c.
Definition powered (k : kbd) : Prop := k_st k = KBDHID_Idle /\ zlen (k_seq k) = 34.

(** ** Proof *)
Lemma keycode_us c : typable c -> let kc := ascii2keycode c in
  c <> 0 /\ c <> EJECT_KEY /\ us ((if negb (Z.land kc 0x80 =? 0) then 2 else 0) =? 2) (if negb (Z.land kc 0x80 =? 0) then Z.land kc 0x7F else kc) = Some c.
Proof.
  intros H. unfold EJECT_KEY.
  assert (forallb (fun c => let kc := ascii2keycode c in match us ((if negb (Z.land kc 0x80 =? 0) then 2 else 0) =? 2) (if negb (Z.land kc 0x80 =? 0) then Z.land kc 0x7F else kc) with Some d => c =? d | None => false end)
    (13 :: map Z.of_nat (seq 32 95)) = true) as Hall by (vm_compute; reflexivity).
  rewrite forallb_forall in Hall.
  assert (In c (13 :: map Z.of_nat (seq 32 95))) as Hin.
  { destruct H as [H| ->]; [right|left; reflexivity]. apply in_map_iff. exists (Z.to_nat c). split; [lia|]. apply in_seq. lia. }
  specialize (Hall c Hin). cbv zeta in *. split; [unfold typable in H; lia|]. split; [unfold typable in H; lia|].
  destruct (us _ _) as [d|]; [|discriminate]. f_equal. lia.
Qed.

(** The keyboard is in the middle of [t]: [p] bytes are typed and released *)
Inductive at_text (k : kbd) (t : bytes) (down : bool) : nat -> Prop :=
| at_ p : zlen (k_seq k) = 34 -> text_ok t -> (p <= length t)%nat -> k_pos k = Z.of_nat p ->
    firstn (length t + 1) (k_seq k) = t ++ [0] -> 
    (if down then k_st k = KBDHID_KeyDown /\ (p < length t)%nat else k_st k = KBDHID_Typing \/ k_st k = KBDHID_KeyUp) ->
    at_text k t down p.

Lemma at_rd k t p : zlen (k_seq k) = 34 -> firstn (length t + 1) (k_seq k) = t ++ [0] -> (p <= length t)%nat ->
  rd (k_seq k) (Z.of_nat p) = Some (nth p (t ++ [0]) 0).
Proof.
  intros Hz Hf Hp. unfold rd. destruct (Z.ltb_spec (Z.of_nat p) 0); [lia|]. rewrite Nat2Z.id.
  rewrite (nth_error_nth' _ 0).
  - f_equal. rewrite <- Hf. rewrite <- (firstn_skipn (length t + 1) (k_seq k)) at 1. rewrite app_nth1; [reflexivity|].
    assert (length (firstn (length t + 1) (k_seq k)) = length (t ++ [0])) as -> by (f_equal; exact Hf). rewrite app_length. cbn [length]. lia.
  - apply (f_equal (@length Z)) in Hf. rewrite firstn_length, app_length in Hf. cbn [length] in Hf. lia.
Qed.

Lemma loop_idle l k : zlen (k_seq k) = 34 -> look_ok l -> k_st k = KBDHID_Idle ->
  exists k' t, KBDHID_Loop l k = Some (k', [], t) /\ zlen (k_seq k') = 34 /\
    match t with None => k_st k' = KBDHID_Idle | Some x => x <> [] /\ l_touch l = Some (Some x) /\ at_text k' x false 0 end.
Proof.
  intros Hz Hl Hs. unfold KBDHID_Loop. rewrite Hs. destruct (l_touch l) as [[text|]|] eqn:Et.
  - destruct text as [|c r]; [exists k, None; auto|]. destruct (Hl _ Et) as [Hty Hzt].
    destruct (Z.leb_spec KEYSEQ_SIZE (zlen (c :: r))) as [H|_]; [unfold KEYSEQ_SIZE in H; lia|].
    set (t := c :: r) in *. assert (t <> []) as Hne by discriminate. clearbody t. assert (zlen (splice (k_seq k) 0 (t ++ [0])) = 34) as Hz'.
    { unfold splice, zlen in *. change (Z.to_nat 0) with 0%nat. cbn [firstn app]. rewrite ?app_length, skipn_length, ?app_length. cbn [length Nat.add] in *. lia. }
    eexists _, (Some t). split; [reflexivity|]. split; [exact Hz'|]. split; [exact Hne|]. split; [reflexivity|].
    constructor; cbn [k_seq k_pos k_st]; [exact Hz'|split; assumption|lia|reflexivity| |left; reflexivity].
    unfold splice. change (Z.to_nat 0) with 0%nat. cbn [firstn app]. rewrite firstn_app, !app_length. cbn [length].
    replace (length t + 1 - (length t + 1))%nat with 0%nat by lia. cbn [firstn]. rewrite app_nil_r. apply firstn_all2. rewrite app_length. cbn [length]. lia.
  - exists k, None. auto.
  - unfold KBDHID_TypeKeySeq. rewrite Hs. exists k, None. auto.
Qed.

Lemma loop_down l k t p : at_text k t true p ->
  exists k', KBDHID_Loop l k = Some (k', if l_idle l then [Keys 0 0] else [], None) /\
    (if l_idle l then at_text k' t false (S p) else k' = k).
Proof.
  intros H. destruct H as [p Hz Ht Hp Hpos Hf [Hst Hlt]]. unfold KBDHID_Loop, KBDHID_TypeKeySeq. rewrite Hst.
  destruct (l_idle l); [|exists k; auto]. rewrite Hpos, (at_rd k t p Hz Hf Hp).
  rewrite app_nth1 by assumption. assert (typable (nth p t 0)) as Hty by (destruct Ht as [H _]; rewrite Forall_forall in H; apply H, nth_In; assumption).
  destruct (keycode_us _ Hty) as (_ & H3 & _). destruct (Z.eqb_spec (nth p t 0) EJECT_KEY); [contradiction|].
  eexists. split; [reflexivity|]. constructor; cbn [k_seq k_pos k_st]; try assumption.
  - unfold u8. rewrite Z.mod_small; [lia|]. destruct Ht as [_ Ht]. unfold zlen in Ht. lia.
  - right; reflexivity.
Qed.
Lemma loop_up l k t p : at_text k t false p ->
  exists k' r, KBDHID_Loop l k = Some (k', r, None) /\ zlen (k_seq k') = 34 /\
    ((p = length t /\ r = [] /\ k_st k' = KBDHID_Idle) \/
     ((p < length t)%nat /\ l_idle l = true /\ at_text k' t true p /\ exists m q, r = [Keys m q] /\ us (m =? 2) q = Some (nth p t 0)) \/
     ((p < length t)%nat /\ l_idle l = false /\ r = [] /\ k' = k)).
Proof.
  intros H. destruct H as [p Hz Ht Hp Hpos Hf Hst]. unfold KBDHID_Loop, KBDHID_TypeKeySeq.
  assert (forall (A : Type) (a b : A), match k_st k with KBDHID_Typing | KBDHID_KeyUp => a | _ => b end = a) as Hm.
  { intros A a b. destruct Hst as [-> | ->]; reflexivity. }
  assert (match k_st k, l_touch l with KBDHID_Idle, Some t0 => False | _, _ => True end) by (destruct Hst as [-> | ->]; exact I).
  rewrite Hpos, (at_rd k t p Hz Hf Hp).
  destruct (Nat.eq_dec p (length t)) as [->|Hne].
  - rewrite app_nth2, Nat.sub_diag by lia. cbn [nth]. rewrite Z.eqb_refl.
    destruct Hst as [Hst|Hst]; rewrite Hst; eexists _, _; (split; [reflexivity|]); (split; [exact Hz|]); left; auto.
  - assert (p < length t)%nat as Hlt by lia. rewrite app_nth1 by assumption.
    assert (typable (nth p t 0)) as Hty by (destruct Ht as [Ht' _]; rewrite Forall_forall in Ht'; apply Ht', nth_In; assumption).
    destruct (keycode_us _ Hty) as (H0 & H3 & Hu). destruct (Z.eqb_spec (nth p t 0) 0); [contradiction|]. destruct (Z.eqb_spec (nth p t 0) EJECT_KEY); [contradiction|].
    destruct (l_idle l).
    + destruct Hst as [Hst|Hst]; rewrite Hst; eexists _, _; (split; [reflexivity|]); (split; [exact Hz|]); right; left;
        (split; [exact Hlt|]); (split; [reflexivity|]); (split; [constructor; cbn [k_seq k_pos k_st]; auto|eexists _, _; split; [reflexivity|exact Hu]]).
    + destruct Hst as [Hst|Hst]; rewrite Hst; exists k, []; (split; [reflexivity|]); (split; [exact Hz|]); right; right; auto.
Qed.

(** What is left to type *)
Inductive left_to_type (k : kbd) : bytes -> bool -> Prop :=
| lt_idle : k_st k = KBDHID_Idle -> zlen (k_seq k) = 34 -> left_to_type k [] false
| lt_up t p : at_text k t false p -> left_to_type k (skipn p t) false
| lt_down t p : at_text k t true p -> left_to_type k (skipn (S p) t) true.

Lemma skipn_nth (t : bytes) p : (p < length t)%nat -> skipn p t = nth p t 0 :: skipn (S p) t.
Proof. revert p; induction t as [|x t IH]; intros [|p] H; cbn [length] in H; try lia; cbn [skipn nth]; [reflexivity|]. apply IH. lia. Qed.

(** One call *)
Lemma loop_spec l k rest down : left_to_type k rest down -> look_ok l ->
  exists k' r t rest' down' typed, KBDHID_Loop l k = Some (k', r, t) /\ left_to_type k' rest' down' /\
    (forall x, t = Some x -> l_touch l = Some (Some x) /\ rest = [] /\ typed = [] /\ down = false) /\
    (forall r2, host_from down (r ++ r2) = option_map (app typed) (host_from down' r2)) /\
    rest ++ match t with Some x => x | None => [] end = typed ++ rest' /\
    (t = None -> (2 * length rest' + (if down' then 1 else 0) + (if l_idle l then 1 else 0) <= 2 * length rest + (if down then 1 else 0) \/ rest' = [] /\ down' = false)%nat).
Proof.
  intros H Hl. destruct H as [Hs Hz|t p H|t p H].
  - destruct (loop_idle l k Hz Hl Hs) as (k' & t & E & Hz' & Ht). destruct t as [x|].
    + destruct Ht as (Hx & El & Ha). exists k', [], (Some x), x, false, []. split; [exact E|]. split; [apply (lt_up k' x 0 Ha)|].
      split; [intros y Hy; injection Hy as <-; auto|]. split; [intros r2; cbn [app]; destruct (host_from false r2); reflexivity|]. split; [reflexivity|discriminate].
    + exists k', [], None, [], false, []. split; [exact E|]. split; [apply lt_idle; assumption|]. split; [discriminate|].
      split; [intros r2; cbn [app]; destruct (host_from false r2); reflexivity|]. split; [reflexivity|]. intros _. right; auto.
  - destruct (loop_up l k t p H) as (k' & r & E & Hz' & [(-> & -> & Hs)|[(Hlt & Hi & Ha & m & q & -> & Hu)|(Hlt & Hi & -> & ->)]]).
    + exists k', [], None, [], false, []. split; [exact E|]. split; [apply lt_idle; assumption|]. split; [discriminate|].
      split; [intros r2; cbn [app]; destruct (host_from false r2); reflexivity|]. split; [rewrite skipn_all; reflexivity|]. intros _. right; auto.
    + exists k', [Keys m q], None, (skipn (S p) t), true, [nth p t 0]. split; [exact E|]. split; [apply lt_down; assumption|]. split; [discriminate|].
      split; [intros r2; cbn [app host_from]; rewrite Hu; destruct (host_from true r2); reflexivity|].
      split; [rewrite app_nil_r; apply skipn_nth, Hlt|]. intros _. left. rewrite Hi, (skipn_nth t p Hlt). cbn [length]. lia.
    + exists k, [], None, (skipn p t), false, []. split; [exact E|]. split; [apply lt_up; assumption|]. split; [discriminate|].
      split; [intros r2; cbn [app]; destruct (host_from false r2); reflexivity|]. split; [apply app_nil_r|]. intros _. left. rewrite ?Hi. lia.
  - destruct (loop_down l k t p H) as (k' & E & Hk). destruct (l_idle l) eqn:Hi.
    + exists k', [Keys 0 0], None, (skipn (S p) t), false, []. split; [exact E|]. split; [apply lt_up; assumption|]. split; [discriminate|].
      split; [intros r2; cbn [app host_from]; destruct (host_from false r2); reflexivity|]. split; [apply app_nil_r|]. intros _. left. lia.
    + subst k'. exists k, [], None, (skipn (S p) t), true, []. split; [exact E|]. split; [apply lt_down; assumption|]. split; [discriminate|].
      split; [intros r2; cbn [app]; destruct (host_from true r2); reflexivity|]. split; [apply app_nil_r|]. intros _. left. rewrite ?Hi. lia.
Qed.

Lemma run_spec ls : forall k rest down, left_to_type k rest down -> Forall look_ok ls ->
  exists k' rs ts rest' down' typed, run k ls = Some (k', rs, ts) /\ left_to_type k' rest' down' /\
    host_from down rs = Some typed /\ rest ++ concat ts = typed ++ rest' /\
    Forall (fun x => exists l, In l ls /\ l_touch l = Some (Some x)) ts.
Proof.
  induction ls as [|l ls IH]; intros k rest down H Hl.
  - exists k, [], [], rest, down, []. split; [reflexivity|]. split; [exact H|]. split; [destruct down; reflexivity|]. split; [apply app_nil_r|constructor].
  - apply Forall_cons_iff in Hl as [Hl1 Hl]. destruct (loop_spec l k rest down H Hl1) as (k1 & r & t & rest1 & down1 & ty1 & E1 & H1 & Ht & Hh & Hr & _).
    destruct (IH k1 rest1 down1 H1 Hl) as (k' & rs & ts & rest' & down' & ty & E2 & H2 & Hh2 & Hr2 & Hin).
    exists k', (r ++ rs), (match t with Some x => x :: ts | None => ts end), rest', down', (ty1 ++ ty).
    split; [cbn [run]; rewrite E1, E2; reflexivity|]. split; [exact H2|]. split; [rewrite Hh, Hh2; reflexivity|].
    assert (Hin' : Forall (fun x => exists l0, In l0 (l :: ls) /\ l_touch l0 = Some (Some x)) ts).
    { eapply Forall_impl; [|exact Hin]. intros x (l0 & ? & ?). exists l0. split; [right|]; assumption. }
    destruct t as [x|].
    + destruct (Ht x eq_refl) as (El & -> & -> & _). cbn [app] in Hr |- *. subst rest1. split; [cbn [concat]; exact Hr2|].
      constructor; [|exact Hin']. exists l. split; [left; reflexivity|exact El].
    + rewrite app_nil_r in Hr. split; [|exact Hin']. rewrite Hr, <- !app_assoc, Hr2. reflexivity.
Qed.

(** C21.  Over any history of loop calls, touches and host polls from power-on: nothing goes out of bounds, what the
    host reads is a prefix of the texts of the touches taken, in order, each key being pressed and released; and
    it is all of it whenever the keyboard is idle. *)
Theorem C21_types_the_text_in_order : forall k ls, powered k -> Forall look_ok ls ->
  exists k' rs ts typed, run k ls = Some (k', rs, ts) /\
    Forall (fun x => exists l, In l ls /\ l_touch l = Some (Some x)) ts /\
    host rs = Some typed /\ is_prefix typed (concat ts) /\ (k_st k' = KBDHID_Idle -> typed = concat ts).
Proof.
  intros k ls [Hs Hz] Hl. destruct (run_spec ls k [] false (lt_idle k Hs Hz) Hl) as (k' & rs & ts & rest' & down' & ty & E & H & Hh & Hr & Hin).
  exists k', rs, ts, ty. split; [exact E|]. split; [exact Hin|]. split; [exact Hh|]. cbn [app] in Hr. split; [exists rest'; exact Hr|].
  intros Hi. destruct H as [_ _|t p H|t p H]; [rewrite Hr; symmetry; apply app_nil_r| |]; destruct H; [destruct H4; congruence|destruct H4; congruence].
Qed.

(** Number of calls at which the host has fetched the previous report *)
Definition polls (ls : list look) : nat := length (filter l_idle ls).
Lemma run_ends ls : forall k rest down, left_to_type k rest down -> Forall look_ok ls ->
  (2 * length rest + (if down then 1 else 0) <= polls ls)%nat ->
  exists ls1 ls2 k1 rs1, ls = ls1 ++ ls2 /\ run k ls1 = Some (k1, rs1, []) /\ host_from down rs1 = Some rest /\ left_to_type k1 [] false.
Proof.
  induction ls as [|l ls IH]; intros k rest down H Hl Hp.
  - assert (rest = []) as -> by (destruct rest; [reflexivity|cbn in Hp; lia]). destruct down; [cbn in Hp; lia|].
    exists [], [], k, []. split; [reflexivity|]. split; [reflexivity|]. split; [reflexivity|exact H].
  - destruct (list_eq_dec Z.eq_dec rest []) as [E|Hne]; [destruct down eqn:Ed|].
    2: { subst rest. exists [], (l :: ls), k, []. split; [reflexivity|]. split; [reflexivity|]. split; [reflexivity|exact H]. }
    1: assert (down = true) as Hd by assumption.
    all: apply Forall_cons_iff in Hl as [Hl1 Hl]; destruct (loop_spec l k _ _ H Hl1) as (k1 & r & t & rest1 & down1 & ty1 & E1 & H1 & Ht & Hh & Hr & Hm);
      (destruct t as [x|]; [destruct (Ht x eq_refl) as (_ & ? & _ & ?); congruence|]); specialize (Hm eq_refl).
    all: assert (2 * length rest1 + (if down1 then 1 else 0) <= polls ls)%nat as Hp1
      by (unfold polls in *; cbn [filter] in Hp; destruct Hm as [Hm|[-> ->]]; [destruct (l_idle l); cbn [length] in Hp; lia|cbn; lia]).
    all: destruct (IH k1 rest1 down1 H1 Hl Hp1) as (ls1 & ls2 & k2 & rs & -> & E2 & Hh2 & H2);
      exists (l :: ls1), ls2, k2, (r ++ rs); split; [reflexivity|]; split; [cbn [run]; rewrite E1, E2; reflexivity|]; split; [|exact H2];
      rewrite Hh, Hh2; rewrite app_nil_r in Hr; cbn [option_map]; rewrite Hr; reflexivity.
Qed.

(** C21.  Once a touch is taken, two fetches of the host per character are enough for it to have read the whole text,
    whatever touches happen meanwhile and however the calls interleave; with all keys released. *)
Theorem C21_text_is_completed : forall k l ls text, powered k -> l_touch l = Some (Some text) -> text <> [] ->
  Forall look_ok (l :: ls) -> (2 * length text <= polls ls)%nat ->
  exists ls1 ls2 k' rs, ls = ls1 ++ ls2 /\ run k (l :: ls1) = Some (k', rs, [text]) /\ host rs = Some text /\ k_st k' <> KBDHID_KeyDown.
Proof.
  intros k l ls text [Hs Hz] Ht Hne Hl Hp. apply Forall_cons_iff in Hl as [Hl1 Hl].
  assert (exists k1, KBDHID_Loop l k = Some (k1, [], Some text) /\ left_to_type k1 text false) as (k1 & E1 & H1).
  { destruct (loop_idle l k Hz Hl1 Hs) as (k1 & t & E & _ & Hk). unfold KBDHID_Loop in E |- *. rewrite Hs, Ht in E |- *. destruct text as [|c r]; [contradiction|].
    destruct (KEYSEQ_SIZE <=? zlen (c :: r)); [discriminate|]. injection E as <- <-. eexists. split; [reflexivity|]. apply (lt_up _ (c :: r) 0), Hk. }
  destruct (run_ends ls k1 text false H1 Hl ltac:(cbv iota; rewrite Nat.add_0_r; exact Hp)) as (ls1 & ls2 & k2 & rs & -> & E2 & Hh & H2).
  exists ls1, ls2, k2, rs. split; [reflexivity|]. split; [cbn [run]; rewrite E1, E2; reflexivity|]. split; [exact Hh|].
  inversion H2 as [Hi|t p Ha|]; [congruence|]. inversion Ha as [? ? ? ? ? ? Hst]. destruct Hst; congruence.
Qed.

(** ** C71: with the eject command in between *)
(** src/apdu.c:149-156: the special APDU FF EE FF EE, possible at any time over CCID, calls KBDHID_Eject. *)
Inductive act := Loop (l : look) | Eject.
Fixpoint run_acts (k : kbd) (ls : list act) : option (kbd * list report) :=
  match ls with
  | [] => Some (k, [])
  | Eject :: ls => run_acts (KBDHID_Eject k) ls
  | Loop l :: ls =>
    match KBDHID_Loop l k with
    | None => None
    | Some (k, r, _) => match run_acts k ls with None => None | Some (k, r2) => Some (k, r ++ r2) end
    end
  end.
(** The key the host sees held on the keyboard collection (report id 1) after these reports *)
Definition held (rs : list report) : Z := fold_left (fun h r => match r with Keys _ k => k | Consumer _ => h end) rs 0.
Definition poll := mkL None true.
Definition kbd0 := mkK KBDHID_Idle (zeros 34) 0 0 0.
(** The full property, "when the keyboard is idle no key is held", is false: an eject command while a key is down
    leaves that key down. *)
Theorem C71_keys_released_refuted :
  ~ (forall ls k rs, (forall l, In (Loop l) ls -> look_ok l) -> run_acts kbd0 ls = Some (k, rs) -> k_st k = KBDHID_Idle -> held rs = 0).
Proof.
  intros H.
  set (ls := [Loop (mkL (Some (Some [97; 98])) true); Loop poll; Eject; Loop poll; Loop poll; Loop poll]).
  destruct (run_acts kbd0 ls) as [[k rs]|] eqn:E; [|discriminate E].
  assert (held rs = 0) as Hh.
  { apply (H ls k rs); [|exact E|vm_compute in E; injection E as <- <-; reflexivity].
    intros l Hin t Ht. repeat (destruct Hin as [Hin|Hin]; [try discriminate Hin; injection Hin as <-; try discriminate Ht; injection Ht as <-|]); [|contradiction].
    split; [repeat (constructor; [left; lia|]); constructor|cbn; lia]. }
  vm_compute in E. injection E as <- <-. discriminate Hh.
Qed.
(** Without eject commands it holds, for every history. *)
Theorem C71_keys_released_partial : forall ls k rs ts, Forall look_ok ls -> run kbd0 ls = Some (k, rs, ts) -> k_st k = KBDHID_Idle -> held rs = 0.
Proof.
  assert (Hl : forall l k rest down, left_to_type k rest down -> look_ok l -> forall k' r t h, KBDHID_Loop l k = Some (k', r, t) ->
    (down = false -> h = 0) -> exists rest' down', left_to_type k' rest' down' /\ (down' = false -> fold_left (fun h r => match r with Keys _ k => k | Consumer _ => h end) r h = 0)).
  { intros l k rest down H Hl k' r t h E Hh. destruct H as [Hs Hz|x p H|x p H].
    - destruct (loop_idle l k Hz Hl Hs) as (k1 & t1 & E1 & Hz' & Ht). rewrite E in E1. injection E1 as <- -> <-.
      destruct t as [x|]; [exists x, false; split; [apply (lt_up k' x 0), Ht|]|exists [], false; split; [apply lt_idle; assumption|]]; exact Hh.
    - destruct (loop_up l k x p H) as (k1 & r1 & E1 & Hz' & Hc). rewrite E in E1. injection E1 as <- <- ->.
      destruct Hc as [(-> & -> & Hs)|[(Hlt & Hi & Ha & m & q & -> & Hu)|(Hlt & Hi & -> & ->)]].
      + exists [], false. split; [apply lt_idle; assumption|exact Hh].
      + exists (skipn (S p) x), true. split; [apply lt_down; assumption|discriminate].
      + exists (skipn p x), false. split; [apply lt_up; assumption|exact Hh].
    - destruct (loop_down l k x p H) as (k1 & E1 & Hc). rewrite E in E1. injection E1 as <- -> ->. destruct (l_idle l).
      + exists (skipn (S p) x), false. split; [apply lt_up; assumption|reflexivity].
      + subst k'. exists (skipn (S p) x), true. split; [apply lt_down; assumption|discriminate]. }
  assert (Hr : forall ls k rest down h, left_to_type k rest down -> Forall look_ok ls -> (down = false -> h = 0) -> forall k' rs ts, run k ls = Some (k', rs, ts) -> k_st k' = KBDHID_Idle ->
    fold_left (fun h r => match r with Keys _ k => k | Consumer _ => h end) rs h = 0).
  { induction ls as [|l ls IH]; intros k rest down h H Ho Hh k' rs ts E Hs.
    - injection E as <- <- <-. apply Hh. destruct H as [_ _|x p H|x p H]; [reflexivity..|]. destruct H as [? ? ? ? ? ? [Hst _]]. congruence.
    - apply Forall_cons_iff in Ho as [Ho1 Ho]. cbn [run] in E. destruct (KBDHID_Loop l k) as [[[k1 r] t]|] eqn:E1; [|discriminate].
      destruct (Hl l k rest down H Ho1 k1 r t h E1 Hh) as (rest' & down' & H1 & Hh1).
      destruct (run k1 ls) as [[[k2 r2] t2]|] eqn:E2; [|discriminate]. injection E as <- <- _. rewrite fold_left_app. eapply IH; eassumption. }
  intros ls k rs ts Ho E Hs. unfold held. eapply (Hr ls kbd0); [apply lt_idle; reflexivity|exact Ho|reflexivity|exact E|exact Hs].
Qed.

(** ** Examples *)
Definition hello : bytes := chars "Aa1~" ++ [13].
Lemma hello_ok : text_ok hello.
Proof. split; [repeat (constructor; [unfold typable; cbn; lia|]); constructor|cbn; lia]. Qed.
Definition wait := mkL None false.
Definition again := mkL (Some (Some (chars "zz"))) true.
Lemma again_ok : look_ok again.
Proof. intros t H. injection H as <-. split; [repeat (constructor; [unfold typable; cbn; lia|]); constructor|cbn; lia]. Qed.
(** A touch, then polls, refused polls and further touches while typing *)
Example C21_ex : let ls := [mkL (Some (Some hello)) true; poll; wait; again; poll; wait; poll; again; poll; poll; poll; poll; poll; poll; poll] in
  powered kbd0 /\ Forall look_ok ls /\
  match run kbd0 ls with Some (_, rs, ts) => host rs = Some hello /\ ts = [hello] | None => False end.
Proof.
  split; [split; reflexivity|]. split; [|vm_compute; split; reflexivity].
  repeat (constructor; [first [exact again_ok|intros t H; first [discriminate H|injection H as <-; exact hello_ok]]|]). constructor.
Qed.
(** Why only printable characters: byte 3 in a static password is the eject key, byte 0 ends the text *)
Example C21_not_typable : match run kbd0 [mkL (Some (Some [97; 3; 0; 98])) true; poll; poll; poll; poll; poll; poll] with
  | Some (_, rs, _) => rs = [Keys 0 4; Keys 0 0; Consumer 0xB8; Consumer 0] | None => False end.
Proof. vm_compute. reflexivity. Qed.

Print Assumptions C21_types_the_text_in_order.
Print Assumptions C21_text_is_completed.
Print Assumptions C71_keys_released_refuted.
Print Assumptions C71_keys_released_partial.
