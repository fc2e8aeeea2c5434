(** C93: a static touch password is typed on the touch that it is set for and shown in no other way. *)
From Verif Require Import Sys Apdu Applet Pass Oath OathProofs OathSpec OathEx.
Open Scope string_scope. Open Scope list_scope. Open Scope Z_scope.

(** ** What may differ *)
(** The two touch slots are kept in the file "pass" of 2 * 71 bytes; a slot is its type (0 off, 1 OATH, 2 static), 69 bytes whose meaning depends on the type, and the flag for the
    enter key (pass.c:12-28).  In a static slot these bytes are the length of the password and the password (up to 32 bytes); in an OATH slot the place of the credential, the length
    of its name and the name; otherwise, and behind these, they are what is left of former settings. *)
Definition same_slot (a b : slot) : Prop :=
  (length (sl_u a) = 69%nat /\ length (sl_u b) = 69%nat) /\
  (a = b \/
   sl_type a = sl_type b /\ sl_enter a = sl_enter b /\
   (sl_type a = 1 -> firstn 5 (sl_u a) = firstn 5 (sl_u b) /\ slice 5 (nth 4 (sl_u a) 0) (sl_u a) = slice 5 (nth 4 (sl_u a) 0) (sl_u b)) /\
   (sl_type a = 2 -> 0 <= nth 0 (sl_u a) 0 <= 32 /\ 0 <= nth 0 (sl_u b) 0 <= 32)).
Definition same_slots (x y : slots) : Prop := same_slot (fst x) (fst y) /\ same_slot (snd x) (snd y).
(** Two storages with the same contents except for the passwords (and leftovers) in the slots. *)
Definition same_pass (x y : bytes) : Prop := x = y \/ (length x = 142%nat /\ length y = 142%nat /\ same_slots (slots_of x) (slots_of y)).
Definition same_file (q : path) (x y : option file) : Prop :=
  match x, y with
  | None, None => True
  | Some f, Some g => if string_dec q "pass" then (forall a, f_attr f a = f_attr g a) /\ same_pass (f_data f) (f_data g) else f = g
  | _, _ => False
  end.
Definition other_passwords (F G : fs) : Prop := forall q, same_file q (F q) (G q).
(** Two devices that differ only in this: the applet keeps the slots in memory, too. *)
Definition same_ram (s s' : oath) : Prop :=
  o_rem s = o_rem s' /\ o_chal s = o_chal s' /\ o_idx s = o_idx s' /\ o_valid s = o_valid s' /\ o_clen s = o_clen s' /\ o_cbuf s = o_cbuf s' /\ same_slots (o_slots s) (o_slots s').
Definition same_dev (d d' : dev) : Prop := same_ram (d_ram d) (d_ram d') /\ other_passwords (d_fs d) (d_fs d').

(** Two commands that set a slot to static passwords, perhaps different ones. *)
Definition same_conf (c c' : capdu) : Prop := c = c' \/
  exists pw pw' enter, zlen pw <= 32 /\ zlen pw' <= 32 /\ c_data c = [2; zlen pw] ++ pw ++ [enter] /\ c' = mkC (c_cla c) (c_ins c) (c_p1 c) (c_p2 c) ([2; zlen pw'] ++ pw' ++ [enter]) (c_le c).
Inductive same_event : event -> event -> Prop :=
| same_ev ev : same_event ev ev
| same_set c c' flt : same_conf c c' -> same_event (Conf c flt) (Conf c' flt)
| same_cut c c' flt n : same_conf c c' -> same_event (CutConf c flt n) (CutConf c' flt n).
(** The touch for which a password is set. *)
Definition types_password (s : oath) (ev : event) : bool :=
  match ev with
  | Touch kind _ => ((kind =? 1) && (sl_type (fst (o_slots s)) =? 2)) || ((kind =? 2) && (sl_type (snd (o_slots s)) =? 2))
  | _ => false
  end.
(** What the command that reads the configuration answers (pass.c:80-88). *)
Definition shown (d : dev) : option rapdu := fst (fst (run_apdu (pass_read_config o_slots) (d_ram d) (start (d_fs d) [] [] []))).

(** ** Slots *)
Lemma ss_refl a : length (sl_u a) = 69%nat -> same_slot a a. Proof. intros H. split; [auto|left; reflexivity]. Qed.
Lemma ss_type a b : same_slot a b -> sl_type a = sl_type b. Proof. intros (_ & [->|(H & _)]); auto. Qed.
Lemma ss_enter a b : same_slot a b -> sl_enter a = sl_enter b. Proof. intros (_ & [->|(_ & H & _)]); auto. Qed.
Lemma nth_first (l : bytes) n i : (i < n)%nat -> nth i (firstn n l) 0 = nth i l 0.
Proof. revert l i; induction n; intros [|x l] [|i] H; cbn; try lia; auto. apply IHn; lia. Qed.
Lemma ss_offset a b : same_slot a b -> sl_type a = 1 -> sl_oath_offset a = sl_oath_offset b.
Proof.
  intros (_ & [->|(_ & _ & H & _)]) T; [reflexivity|]. destruct (H T) as (H1 & _). unfold sl_oath_offset, le4.
  rewrite <- !(nth_first (sl_u a) 5), <- !(nth_first (sl_u b) 5), H1 by lia. reflexivity.
Qed.
Lemma ss_dump a b : same_slot a b -> dump_slot a = dump_slot b.
Proof.
  intros H. pose proof (ss_type _ _ H) as T. pose proof (ss_enter _ _ H) as E. unfold dump_slot. rewrite <- T, <- E. destruct (sl_type a =? PASS_SLOT_OFF); [reflexivity|]. destruct (sl_type a =? PASS_SLOT_STATIC); [reflexivity|].
  destruct (sl_type a =? PASS_SLOT_OATH) eqn:O; [|reflexivity]. apply Z.eqb_eq in O. destruct H as (_ & [->|(_ & _ & H & _)]); [reflexivity|]. destruct (H O) as (H1 & H2). unfold sl_name_len.
  assert (nth 4 (sl_u a) 0 = nth 4 (sl_u b) 0) as N by (rewrite <- (nth_first (sl_u a) 5), <- (nth_first (sl_u b) 5), H1 by lia; reflexivity). rewrite <- N, H2. reflexivity.
Qed.
Lemma len_splice0 (l d : bytes) : length l = 69%nat -> (length d <= 69)%nat -> length (splice l 0 d) = 69%nat.
Proof. intros H1 H2. unfold splice. cbn [Z.to_nat firstn Nat.add]. rewrite !app_length, skipn_length. cbn [length]. lia. Qed.
Lemma ss_oath a b off name en : same_slot a b -> zlen name <= 64 ->
  same_slot (mkSlot 1 (splice (sl_u a) 0 (to_le4 off ++ [zlen name] ++ name)) en) (mkSlot 1 (splice (sl_u b) 0 (to_le4 off ++ [zlen name] ++ name)) en).
Proof.
  intros ((L1 & L2) & _) Hn. split.
  { cbn [sl_u]. split; apply len_splice0; auto; rewrite !app_length; cbn [length to_le4]; unfold zlen in Hn; lia. }
  right. split; [reflexivity|]. split; [reflexivity|]. split; [|discriminate]. intros _. cbn [sl_u]. unfold splice, to_le4. cbn [Z.to_nat firstn app skipn Nat.add nth]. split; [reflexivity|].
  unfold slice. change (Z.to_nat 5) with 5%nat. cbn [skipn]. rewrite !firstn_app. unfold zlen. rewrite Nat2Z.id, Nat.sub_diag. reflexivity.
Qed.
Lemma ss_off a b : same_slot a b -> same_slot (mkSlot 0 (sl_u a) (sl_enter a)) (mkSlot 0 (sl_u b) (sl_enter b)).
Proof. intros H. pose proof (ss_enter _ _ H) as E. destruct H as (L & _). split; [exact L|]. right. cbn. split; [reflexivity|]. split; [exact E|]. split; discriminate. Qed.
Lemma ss_static a b pw pw' en : same_slot a b -> zlen pw <= 32 -> zlen pw' <= 32 ->
  same_slot (mkSlot 2 (splice (sl_u a) 0 (zlen pw :: pw)) en) (mkSlot 2 (splice (sl_u b) 0 (zlen pw' :: pw')) en).
Proof.
  intros ((L1 & L2) & _) Hp Hp'. split; [cbn [sl_u]; split; apply len_splice0; auto; cbn [length]; unfold zlen in *; lia|].
  right. split; [reflexivity|]. split; [reflexivity|]. split; [discriminate|]. intros _. cbn [sl_u]. change (nth 0 (splice (sl_u a) 0 (zlen pw :: pw)) 0) with (zlen pw). change (nth 0 (splice (sl_u b) 0 (zlen pw' :: pw')) 0) with (zlen pw').
  pose proof (zlen_nonneg pw). pose proof (zlen_nonneg pw'). lia.
Qed.
Lemma slots_len x : length x = 142%nat -> length (sl_u (fst (slots_of x))) = 69%nat /\ length (sl_u (snd (slots_of x))) = 69%nat.
Proof. intros H. unfold slots_of, slot_of, slice. cbn [fst snd sl_u]. rewrite !firstn_length, !skipn_length, !firstn_length, !skipn_length. rewrite H. cbn. auto. Qed.
Lemma sss_refl x : length x = 142%nat -> same_slots (slots_of x) (slots_of x).
Proof. intros H. destruct (slots_len x H). split; apply ss_refl; assumption. Qed.
Lemma bytes_len sl : length (sl_u (fst sl)) = 69%nat -> length (sl_u (snd sl)) = 69%nat -> length (slots_bytes sl) = 142%nat.
Proof. intros H1 H2. unfold slots_bytes, slot_bytes. rewrite !app_length. cbn [length]. lia. Qed.
Lemma slot_back a : length (sl_u a) = 69%nat -> slot_of (slot_bytes a) = a.
Proof.
  intros H. destruct a as [t u e]. cbn [sl_u] in H. unfold slot_of, slot_bytes, slice. cbn [sl_type sl_u sl_enter app nth]. change (Z.to_nat 69) with 69%nat. change (Z.to_nat 1) with 1%nat. cbn [skipn]. f_equal.
  - rewrite firstn_app, H, Nat.sub_diag, firstn_O, app_nil_r, firstn_all2; [reflexivity|lia].
  - rewrite app_nth2; [|lia]. rewrite H. reflexivity.
Qed.
Lemma slots_back sl : length (sl_u (fst sl)) = 69%nat -> length (sl_u (snd sl)) = 69%nat -> slots_of (slots_bytes sl) = sl.
Proof.
  intros H1 H2. destruct sl as [a b]. cbn [fst snd] in *. assert (length (slot_bytes a) = 71%nat) as La by (unfold slot_bytes; rewrite !app_length; cbn [length]; lia). assert (length (slot_bytes b) = 71%nat) as Lb by (unfold slot_bytes; rewrite !app_length; cbn [length]; lia).
  unfold slots_of, slots_bytes, slice. cbn [fst snd]. change (Z.to_nat 71) with 71%nat. change (Z.to_nat 0) with 0%nat. rewrite !skipn_O.
  rewrite firstn_app, La, Nat.sub_diag, firstn_O, app_nil_r, (firstn_all2 (slot_bytes a)) by lia. rewrite skipn_app, La, Nat.sub_diag, (skipn_all2 (slot_bytes a)) by lia. cbn [app]. rewrite skipn_O, (firstn_all2 (slot_bytes b)) by lia.
  rewrite !slot_back by assumption. reflexivity.
Qed.
Lemma slots_app x y : length x = 142%nat -> slots_of (x ++ y) = slots_of x.
Proof.
  intros H. unfold slots_of, slice. change (Z.to_nat 71) with 71%nat. change (Z.to_nat 0) with 0%nat. rewrite !skipn_O. rewrite firstn_app, skipn_app, !firstn_app, skipn_length, H. change (71 - 142)%nat with 0%nat. change (71 - (142 - 71))%nat with 0%nat. rewrite !firstn_O, !app_nil_r. reflexivity.
Qed.
Lemma sp_slots x y : same_slots x y -> same_pass (slots_bytes x) (slots_bytes y).
Proof.
  intros H. right. destruct H as (A & B). pose proof A as ((A1 & A2) & _). pose proof B as ((B1 & B2) & _). split; [apply bytes_len; assumption|]. split; [apply bytes_len; assumption|]. rewrite !slots_back by assumption. split; assumption.
Qed.
Lemma sp_len x y : same_pass x y -> length x = length y. Proof. intros [->|(-> & -> & _)]; reflexivity. Qed.

(** ** Two runs *)
Definition other := other_passwords.
Definition env0 (e f : env) : Prop :=
  other (e_fs e) (e_fs f) /\ Forall2 other (e_log e) (e_log f) /\ e_flt e = e_flt f /\ e_rnd e = e_rnd f /\ e_tch e = e_tch f.
Definition env1 (e f : env) : Prop := env0 e f /\ e_out e = e_out f.
Definition orel {A} (R : A -> A -> Prop) (x y : out A) : Prop :=
  match x, y with Ret a, Ret b => R a b | Exc a, Exc b => a = b | Fail, Fail => True | UB, UB => True | _, _ => False end.
Definition two {A} (R : A -> A -> Prop) (m m' : Mo A) : Prop := forall s s' e f, same_ram s s' -> env1 e f ->
  let '(o1, s1, e1) := m s e in let '(o2, s2, e2) := m' s' f in orel R o1 o2 /\ same_ram s1 s2 /\ env1 e1 e2.
Notation ni m := (two eq m m).
Lemma two_bind {A B} (R : A -> A -> Prop) (Q : B -> B -> Prop) m m' k k' :
  two R m m' -> (forall a b, R a b -> two Q (k a) (k' b)) -> two Q (bind m k) (bind m' k').
Proof.
  intros Hm Hk s s' e f Hs E. specialize (Hm s s' e f Hs E). unfold bind. destruct (m s e) as [[o1 s1] e1], (m' s' f) as [[o2 s2] e2].
  destruct Hm as (H1 & H2 & E'). destruct o1, o2; cbn in H1; try contradiction; subst; cbn; auto. exact (Hk _ _ H1 _ _ _ _ H2 E').
Qed.
Lemma ram_eq s s' : same_ram s s' -> s' = oset_slots (o_slots s') s.
Proof. destruct s, s'. intros (H1 & H2 & H3 & H4 & H5 & H6 & _). cbn in H1, H2, H3, H4, H5, H6. subst. reflexivity. Qed.
Lemma ram_slots s s' : same_ram s s' -> same_slots (o_slots s) (o_slots s'). Proof. intros H; apply H. Qed.
Lemma ram_set s sl : same_slots (o_slots s) sl -> same_ram s (oset_slots sl s). Proof. intros H. unfold same_ram. cbn. auto 10. Qed.
Lemma two_get {A} (R : A -> A -> Prop) (k k' : oath -> Mo A) : (forall s sl, same_slots (o_slots s) sl -> two R (k s) (k' (oset_slots sl s))) -> two R (bind get k) (bind get k').
Proof. intros Hk s s' e f Hs E. pose proof (ram_eq _ _ Hs) as Q. pose proof (Hk s (o_slots s') (ram_slots _ _ Hs) s s' e f Hs E) as H. rewrite <- Q in H. exact H. Qed.
Lemma two_modify g g' : (forall s sl, same_slots (o_slots s) sl -> same_ram (g s) (g' (oset_slots sl s))) -> two eq (@modify oath g) (modify g').
Proof. intros H s s' e f Hs E. cbn. split; [reflexivity|]. split; [|exact E]. rewrite (ram_eq _ _ Hs). apply H, ram_slots, Hs. Qed.
Lemma two_ret {A} (R : A -> A -> Prop) a b : R a b -> two R (ret a) (ret b). Proof. intros H s s' e f Hs E; cbn; auto. Qed.
Lemma two_fail {A} (R : A -> A -> Prop) : two R (@fail oath A) fail. Proof. intros s s' e f Hs E; cbn; auto. Qed.
Lemma two_ub {A} (R : A -> A -> Prop) : two R (@ub oath A) ub. Proof. intros s s' e f Hs E; cbn; auto. Qed.
Lemma two_except {A} (R : A -> A -> Prop) w : two R (@except oath A w) (except w). Proof. intros s s' e f Hs E; cbn; auto. Qed.
Lemma two_lift {A} (x : out A) : ni (@lift oath A x). Proof. intros s s' e f Hs E. unfold lift. destruct x; cbn; auto. Qed.
Lemma two_guard b w : ni (@guard oath b w). Proof. destruct b; [apply two_ret; reflexivity|apply two_except]. Qed.
Lemma two_need {A} (x : option A) : ni (@need oath A x). Proof. destruct x; [apply two_ret; reflexivity|apply two_ub]. Qed.
Lemma two_need_if {A} (x : option A) : two (fun a b => a = b /\ x = Some a) (@need oath A x) (need x). Proof. destruct x; [apply two_ret; auto|apply two_ub]. Qed.
Lemma two_set_out d : ni (@set_out oath d). Proof. intros s s' e f Hs ((E1 & E2 & E3 & E4 & E5) & E6); cbn; unfold env1, env0; cbn; auto 10. Qed.
Lemma two_wait : ni (@wait_touch oath).
Proof.
  intros s s' e f Hs ((E1 & E2 & E3 & E4 & E5) & E6). unfold wait_touch. rewrite <- E5.
  destruct (e_tch e) eqn:T; (split; [reflexivity|]; split; [exact Hs|]); unfold env1, env0; cbn; (split; [repeat (split; [assumption|]); congruence|assumption]).
Qed.
Lemma two_random n : ni (@random_buffer oath n).
Proof.
  intros s s' e f Hs ((E1 & E2 & E3 & E4 & E5) & E6). unfold random_buffer. rewrite <- E4.
  split; [reflexivity|]. split; [exact Hs|]. unfold env1, env0; cbn; auto 10.
Qed.
Lemma pop_two e f : env1 e f -> fst (pop_fault e) = fst (pop_fault f) /\ env1 (snd (pop_fault e)) (snd (pop_fault f)).
Proof.
  intros ((E1 & E2 & E3 & E4 & E5) & E6). unfold pop_fault. rewrite <- E3.
  destruct (e_flt e) as [|x r] eqn:Q; cbn; (split; [reflexivity|]); unfold env1, env0; cbn; rewrite ?Q; auto 10.
Qed.
Ltac pops := intros s s' e f Hs E; destruct (pop_two e f E) as [Ex E']; clear E;
  destruct (pop_fault e) as [x e0] eqn:P, (pop_fault f) as [x' f0] eqn:Q; cbn [fst snd] in Ex, E'; subst x'.
Lemma same_file_refl q x : same_file q x x.
Proof. unfold same_file. destruct x; [|exact I]. destruct (string_dec q "pass"); [split; [reflexivity|left; reflexivity]|reflexivity]. Qed.
(** what is known of the two versions of a file *)
Definition oprel {A} (R : A -> A -> Prop) (x y : option A) : Prop := match x, y with Some a, Some b => R a b | None, None => True | _, _ => False end.
Definition files (p : path) (x y : option file) : Prop :=
  oprel (fun f g => (forall a, f_attr f a = f_attr g a) /\ same_pass (f_data f) (f_data g) /\ (p <> "pass" -> f = g)) x y.
Lemma other_files p F G : other F G -> files p (F p) (G p).
Proof.
  intros H. specialize (H p). unfold same_file in H. unfold files, oprel. destruct (F p), (G p); try contradiction; try exact I.
  destruct (string_dec p "pass"); [split; [apply H|]; split; [apply H|contradiction]|subst; split; [reflexivity|]; split; [left; reflexivity|reflexivity]].
Qed.
Lemma two_read_attr p a : ni (@read_attr oath p a).
Proof.
  pops. unfold read_attr. rewrite P, Q. destruct x; cbn; auto. pose proof (other_files p _ _ (proj1 (proj1 E'))) as W. unfold files, oprel in W.
  destruct (e_fs e0 p), (e_fs f0 p); try contradiction; cbn; auto. destruct W as [W _]. rewrite W. auto.
Qed.
Lemma two_size p : ni (@get_file_size oath p).
Proof.
  pops. unfold get_file_size. rewrite P, Q. destruct x; cbn; auto. pose proof (other_files p _ _ (proj1 (proj1 E'))) as W. unfold files, oprel in W.
  destruct (e_fs e0 p), (e_fs f0 p); try contradiction; cbn; auto. destruct W as (_ & W & _). unfold zlen. rewrite (sp_len _ _ W). auto.
Qed.
Lemma two_read p o n : p <> "pass" -> ni (@read_file oath p o n).
Proof.
  intros Hp. pops. unfold read_file. rewrite P, Q. destruct x; cbn; auto. pose proof (other_files p _ _ (proj1 (proj1 E'))) as W. unfold files, oprel in W.
  destruct (e_fs e0 p), (e_fs f0 p); try contradiction; cbn; auto. destruct W as (_ & _ & W). rewrite (W Hp). auto.
Qed.
Lemma two_read_pass : two (oprel (fun x y => same_pass x y /\ length x = length y)) (@read_file oath PASS_FILE 0 SLOTS_SIZE) (read_file PASS_FILE 0 SLOTS_SIZE).
Proof.
  pops. unfold read_file. rewrite P, Q. destruct x; cbn; auto. pose proof (other_files PASS_FILE _ _ (proj1 (proj1 E'))) as W. unfold files, oprel in W.
  destruct (e_fs e0 PASS_FILE) as [g|], (e_fs f0 PASS_FILE) as [g'|]; try contradiction; cbn; auto. destruct W as (_ & W & _).
  split; [|auto]. change (Z.to_nat 0) with 0%nat. assert (same_pass (slice 0 SLOTS_SIZE (f_data g)) (slice 0 SLOTS_SIZE (f_data g'))) as H; [|split; [exact H|apply sp_len, H]].
  unfold slice, SLOTS_SIZE. change (Z.to_nat 0) with 0%nat. cbn [skipn]. change (Z.to_nat 142) with 142%nat.
  destruct W as [->|(L & L' & S)]; [left; reflexivity|]. rewrite !firstn_all2 by lia. right. auto.
Qed.
Lemma other_fset F G p x y : other F G -> same_file p x y -> other (fset F p x) (fset G p y).
Proof. intros H Hx q. destruct (string_dec q p) as [->|N]; [rewrite !fset_same; exact Hx|rewrite !fset_other by assumption; apply H]. Qed.
Lemma env1_commit e f p x y : env1 e f -> same_file p x y -> env1 (commit (fset (e_fs e) p x) e) (commit (fset (e_fs f) p y) f).
Proof.
  intros ((E1 & E2 & E3 & E4 & E5) & E6) Hx. unfold env1, env0, commit. cbn. pose proof (other_fset _ _ p x y E1 Hx).
  split; [|exact E6]. split; [assumption|]. split; [constructor; assumption|auto].
Qed.
Definition created (p : path) (e : env) : env := match e_fs e p with None => commit (fset (e_fs e) p (Some (mkF [] no_attr))) e | Some _ => e end.
Lemma created_some p e : exists g, e_fs (created p e) p = Some g.
Proof. unfold created. destruct (e_fs e p) eqn:W; [eauto|]. cbn. rewrite fset_same. eauto. Qed.
Lemma env1_created p e f : env1 e f -> env1 (created p e) (created p f).
Proof.
  intros E. unfold created. pose proof (other_files p _ _ (proj1 (proj1 E))) as W. unfold files, oprel in W. destruct (e_fs e p), (e_fs f p); try contradiction; auto.
  apply env1_commit; [assumption|apply same_file_refl].
Qed.
Lemma two_write p d o t : p <> "pass" -> ni (@write_file oath p d o t).
Proof.
  intros Hp. pops. unfold write_file. rewrite P, Q. destruct x; cbn; auto.
  all: fold (created p e0) (created p f0); pose proof (env1_created p e0 f0 E') as C; auto.
  destruct (created_some p e0) as [g Hg], (created_some p f0) as [g' Hg']. rewrite Hg, Hg'. split; [reflexivity|]. split; [exact Hs|].
  apply env1_commit; [assumption|]. pose proof (other_files p _ _ (proj1 (proj1 C))) as W. rewrite Hg, Hg' in W. cbn in W. destruct W as (W1 & W2 & W3). rewrite (W3 Hp). apply same_file_refl.
Qed.
Lemma write_all (d : bytes) : write_at [] 0 d = d.
Proof. unfold write_at. cbn [zlen length]. change (zeros (0 - zlen [])) with (@nil Z). cbn [app Z.to_nat firstn Nat.add]. rewrite skipn_nil, app_nil_r. reflexivity. Qed.
Lemma two_write_pass d d' : same_slots d d' -> two eq (@write_file oath PASS_FILE (slots_bytes d) 0 true) (write_file PASS_FILE (slots_bytes d') 0 true).
Proof.
  intros Hd. apply sp_slots in Hd. pops. unfold write_file. rewrite P, Q. destruct x; cbn -[slots_bytes]; auto.
  all: fold (created PASS_FILE e0) (created PASS_FILE f0); pose proof (env1_created PASS_FILE e0 f0 E') as C; auto.
  destruct (created_some PASS_FILE e0) as [g Hg], (created_some PASS_FILE f0) as [g' Hg']. rewrite Hg, Hg'. split; [reflexivity|]. split; [exact Hs|].
  apply env1_commit; [assumption|]. pose proof (other_files PASS_FILE _ _ (proj1 (proj1 C))) as W. rewrite Hg, Hg' in W. cbn in W. destruct W as (W1 & W2 & W3).
  unfold same_file. destruct (string_dec PASS_FILE "pass") as [_|N]; [|contradiction (N eq_refl)]. cbn [f_attr f_data]. split; [exact W1|]. rewrite <- (sp_len _ _ Hd). destruct (length (slots_bytes d) =? 0)%nat; [left; reflexivity|]. rewrite !write_all. exact Hd.
Qed.
Lemma two_write_attr p a v : ni (@write_attr oath p a v).
Proof.
  pops. unfold write_attr. rewrite P, Q. destruct x; cbn; auto. pose proof (other_files p _ _ (proj1 (proj1 E'))) as W. unfold files, oprel in W.
  destruct (e_fs e0 p) as [g|], (e_fs f0 p) as [g'|]; try contradiction; cbn; auto. split; [reflexivity|]. split; [exact Hs|]. apply env1_commit; [assumption|].
  destruct W as (W1 & W2 & W3). unfold same_file. cbn. destruct (string_dec p "pass"); [|rewrite W3 by assumption; reflexivity]. split; [|exact W2].
  intros b. unfold aset. destruct (b =? a); auto.
Qed.

(** ** The applet *)
Section Applet.
Variables hmac_sha1 hmac_sha256 hmac_sha512 : bytes -> bytes -> bytes.
Variable junk : bytes.
Notation step := (step hmac_sha1 hmac_sha256 hmac_sha512 junk).
Notation body := (oath_body hmac_sha1 hmac_sha256 hmac_sha512 junk).

Ltac nn := repeat (match goal with
  | |- two _ (bind get _) _ => apply two_get; intros ? ? ?; cbn [o_rem o_chal o_idx o_valid o_clen o_cbuf oset_slots]
  | |- two _ (bind _ _) (bind _ _) => eapply (two_bind eq); [|intros ? ? <-]
  | |- two _ (ret _) (ret _) => apply two_ret; reflexivity
  | |- two _ (lift _) _ => apply two_lift
  | |- two _ (need _) _ => apply two_need
  | |- two _ (guard _ _) _ => apply two_guard
  | |- two _ fail _ => apply two_fail
  | |- two _ ub _ => apply two_ub
  | |- two _ (except _) _ => apply two_except
  | |- two _ (set_out _) _ => apply two_set_out
  | |- two _ (modify _) _ => apply two_modify; intros ? ? ?; first [apply ram_set; assumption|unfold same_ram; cbn; auto 10]
  | |- two _ wait_touch _ => apply two_wait
  | |- two _ (random_buffer _) _ => apply two_random
  | |- two _ (read_attr _ _) _ => apply two_read_attr
  | |- two _ (write_attr _ _ _) _ => apply two_write_attr
  | |- two _ (get_file_size _) _ => apply two_size
  | |- two _ (read_file _ _ _) _ => apply two_read; discriminate
  | |- two _ (write_file _ _ _ _) _ => apply two_write; discriminate
  | |- two _ (if ?b then _ else _) _ => destruct b
  | |- two _ (match ?x with _ => _ end) _ => destruct x
  | |- two _ (let _ := _ in _) _ => cbv zeta
  | H : forall _, _ |- two _ _ _ => apply H
  | H : two _ _ _ |- two _ _ _ => apply H
  end).
Lemma n_rd off rec : ni (rd_rec off rec). Proof. unfold rd_rec. nn. Qed.
Lemma n_n : ni n_records. Proof. unfold n_records. nn. Qed.
Lemma n_put_loop k : forall i n rec u name, ni (put_loop k i n rec u name).
Proof. pose proof n_rd. induction k; intros; cbn [put_loop]; nn. Qed.
Lemma n_find k : forall i rec name, ni (find_loop k i rec name).
Proof. pose proof n_rd. induction k; intros; cbn [find_loop]; nn. Qed.
Lemma n_rename k : forall i n rec idx old new, ni (rename_loop k i n rec idx old new).
Proof. pose proof n_rd. induction k; intros; cbn [rename_loop]; nn. Qed.
Lemma n_list k : forall rec acc le, ni (list_loop k rec acc le).
Proof. pose proof n_rd. induction k; intros; cbn [list_loop]; nn. Qed.
Lemma n_enforce rec fo chal : ni (oath_enforce_increasing rec fo chal).
Proof. unfold oath_enforce_increasing, oath_update_challenge_field. nn. Qed.
Lemma n_calc k : forall rec acc le, ni (calc_loop hmac_sha1 hmac_sha256 hmac_sha512 k rec acc le).
Proof. pose proof n_rd. pose proof n_enforce. induction k; intros; cbn [calc_loop]; nn. Qed.
Lemma n_save sl sl' : same_slots sl sl' -> two eq (write_file PASS_FILE (slots_bytes sl) 0 true) (write_file PASS_FILE (slots_bytes sl') 0 true).
Proof. apply two_write_pass. Qed.
Lemma n_saves : ni (save_slots o_slots). Proof. unfold save_slots. apply two_get. intros s sl H. cbn [o_slots oset_slots]. apply two_write_pass, H. Qed.
Lemma upd_same i f f' x y : (forall a b, same_slot a b -> same_slot (f a) (f' b)) -> same_slots x y -> same_slots (upd_slot i f x) (upd_slot i f' y).
Proof. intros H (A & B). unfold upd_slot. destruct (i =? 0); split; cbn [fst snd]; auto. Qed.
Lemma n_update i off name en : zlen name <= 64 -> ni (pass_update_oath o_slots oset_slots i off name en).
Proof.
  intros Hn. unfold pass_update_oath. eapply (two_bind eq); [|intros ? ? _; apply n_saves]. apply two_modify. intros s sl H. unfold same_ram. cbn -[upd_slot]. repeat (split; [reflexivity|]).
  apply upd_same; [|exact H]. intros a b Hab. apply ss_oath; assumption.
Qed.
Lemma n_delete_oath off : ni (pass_delete_oath o_slots oset_slots off).
Proof.
  unfold pass_delete_oath. apply two_get. intros s sl H. cbn [o_slots oset_slots]. destruct (o_slots s) as [a b] eqn:E, sl as [a' b']. destruct H as (A & B). cbn [fst snd] in A, B.
  assert (forall x y, same_slot x y -> (sl_type x =? PASS_SLOT_OATH) && (sl_oath_offset x =? off) = (sl_type y =? PASS_SLOT_OATH) && (sl_oath_offset y =? off)) as Q.
  { intros x y Hxy. rewrite <- (ss_type _ _ Hxy). destruct (sl_type x =? PASS_SLOT_OATH) eqn:T; [|reflexivity]. apply Z.eqb_eq in T. rewrite (ss_offset _ _ Hxy T). reflexivity. }
  rewrite (Q _ _ A), (Q _ _ B). destruct ((sl_type a' =? PASS_SLOT_OATH) && (sl_oath_offset a' =? off)); [|destruct ((sl_type b' =? PASS_SLOT_OATH) && (sl_oath_offset b' =? off)); [|apply two_ret; reflexivity]];
    (eapply (two_bind eq); [|intros ? ? _; apply n_saves]); apply two_modify; intros t tl Ht; unfold same_ram; cbn; repeat (split; [reflexivity|]); split; cbn [fst snd]; try assumption; apply ss_off; assumption.
Qed.
Lemma name_len rec nm : r_name rec = Some nm -> zlen nm <= 64.
Proof.
  unfold r_name, r_name_buf. assert (zlen (slice 1 64 rec) <= 64) as L by (unfold slice, zlen; rewrite firstn_length; lia). revert L. generalize (slice 1 64 rec). intros l L. unfold sub. destruct (_ || _ || _) eqn:E; [discriminate|]. intros [= <-].
  unfold zlen in *. rewrite firstn_length. lia.
Qed.
Lemma n_default c : ni (oath_set_default junk c).
Proof.
  pose proof n_find. pose proof n_n. unfold oath_set_default.
  do 5 (eapply (two_bind eq); [nn|intros ? ? <-]). destruct a3 as [i rec]. do 2 (eapply (two_bind eq); [nn|intros ? ? <-]). eapply two_bind; [apply two_need_if|]. intros nm ? (<- & Hn). cbv beta in Hn.
  eapply (two_bind eq); [apply n_update, (name_len rec), Hn|intros ok ? <-]. nn.
Qed.
Lemma n_all c : ni (oath_calculate_all hmac_sha1 hmac_sha256 hmac_sha512 junk c).
Proof. pose proof n_calc. unfold oath_calculate_all. nn. Qed.
Lemma n_oath_list c : ni (oath_list junk c). Proof. pose proof n_list. pose proof n_n. unfold oath_list. nn. Qed.
Lemma n_body nfc c : ni (body nfc c).
Proof.
  pose proof n_rd. pose proof n_n. pose proof n_put_loop. pose proof n_find. pose proof n_rename. pose proof n_enforce. pose proof n_delete_oath. pose proof n_default. pose proof n_all. pose proof n_oath_list.
  unfold oath_body, oath_put, oath_delete, oath_set_code, oath_rename, oath_calculate, oath_validate, oath_select, oath_send_remaining, oath_update_challenge_field. nn.
Qed.
Lemma n_offset off : ni (oath_calculate_by_offset hmac_sha1 hmac_sha256 hmac_sha512 junk off).
Proof. unfold oath_calculate_by_offset, oath_update_challenge_field. nn. Qed.
Lemma n_install b : ni (oath_install b).
Proof. unfold oath_install. nn. Qed.
Lemma n_pass_install : ni (pass_install o_slots oset_slots false).
Proof.
  intros s s' e f Hs E. unfold pass_install. cbn [orb].
  pose proof (two_size PASS_FILE s s' e f Hs E) as H1.
  assert (wp (@get_file_size oath PASS_FILE) (fun o s1 e1 => s1 = s /\ forall n, o = Ret (Some n) -> exists g, e_fs e1 PASS_FILE = Some g /\ zlen (f_data g) = n) s e) as W1.
  { unfold wp, get_file_size. destruct (pop_fault e) as [[| |] e1]; try (split; [reflexivity|discriminate]). destruct (e_fs e1 PASS_FILE) as [g|] eqn:G; (split; [reflexivity|]); intros n [= <-]. exists g. auto. }
  unfold wp in W1. unfold bind. destruct (get_file_size PASS_FILE s e) as [[o1 s1] e1], (get_file_size PASS_FILE s' f) as [[o2 s2] e2]. destruct H1 as (H1 & R1 & E1), W1 as (-> & W1).
  destruct o1 as [sz|w| |], o2 as [sz'|w'| |]; cbn [orel] in H1; try contradiction; subst; try (cbn; auto; fail). specialize (W1 (match sz' with Some n => n | None => 0 end)).
  destruct (negb _) eqn:B.
  - assert (ni (modify (oset_slots (slot_zero, slot_zero)) ;;; save_slots o_slots)) as T; [|exact (T _ _ _ _ R1 E1)]. eapply (two_bind eq); [|intros ? ? _; apply n_saves]. apply two_modify. intros t sl H. unfold same_ram. cbn. repeat (split; [reflexivity|]). split; apply ss_refl; reflexivity.
  - destruct sz' as [n|]; [|discriminate]. destruct (W1 eq_refl) as (g & G & L). clear W1. assert (n = SLOTS_SIZE) as -> by lia.
    pose proof (two_read_pass s s2 e1 e2 R1 E1) as H2.
    assert (wp (@read_file oath PASS_FILE 0 SLOTS_SIZE) (fun o s3 e3 => forall x, o = Ret (Some x) -> length x = 142%nat) s e1) as W2.
    { unfold wp, read_file. assert (e_fs (snd (pop_fault e1)) PASS_FILE = Some g) as G' by (unfold pop_fault; destruct (e_flt e1); exact G). destruct (pop_fault e1) as [[| |] e3]; try discriminate. cbn [snd] in G'. rewrite G'.
      intros x [= <-]. unfold slice, zlen, SLOTS_SIZE in *. rewrite firstn_length. change (Z.to_nat 0) with 0%nat. rewrite skipn_O. lia. }
    unfold wp in W2. destruct (read_file PASS_FILE 0 SLOTS_SIZE s e1) as [[o3 s3] e3], (read_file PASS_FILE 0 SLOTS_SIZE s2 e2) as [[o4 s4] e4]. destruct H2 as (H2 & R2 & E2).
    destruct o3 as [x|w| |], o4 as [y|w'| |]; cbn [orel] in H2; try contradiction; subst; try (cbn; auto; fail). destruct x as [x|], y as [y|]; cbn in H2; try contradiction; [|cbn; auto]. specialize (W2 x eq_refl). destruct H2 as (H2 & H3).
    cbn. split; [reflexivity|]. split; [|exact E2]. rewrite (ram_eq _ _ R2). unfold same_ram. cbn. repeat (split; [reflexivity|]). unfold overlay. rewrite !slots_app by lia.
    destruct H2 as [->|(_ & _ & H2)]; [apply sss_refl; lia|exact H2].
Qed.
(** the configuration: what is done to the slot *)
Definition plan (c : capdu) : out (slot -> slot) :=
  let d := c_data c in
  _ <~ oguard ((c_p1 c =? 1) || (c_p1 c =? 2)) SW_WRONG_P1P2 ;;
  _ <~ oguard (negb (c_lc c <? 1)) SW_WRONG_LENGTH ;;
  t <~ oneed (rd d 0) ;;
  if t =? PASS_SLOT_OFF then _ <~ oguard (c_lc c =? 1) SW_WRONG_LENGTH ;; Ret (fun sl => mkSlot t (sl_u sl) (sl_enter sl))
  else if t =? PASS_SLOT_STATIC then
    _ <~ oguard (negb (c_lc c <? 3)) SW_WRONG_LENGTH ;;
    n <~ oneed (rd d 1) ;;
    _ <~ oguard (negb (PASS_MAX_PASSWORD_LENGTH <? n)) SW_WRONG_LENGTH ;;
    _ <~ oguard (c_lc c =? 3 + n) SW_WRONG_LENGTH ;;
    pw <~ oneed (sub d 2 n) ;;
    en <~ oneed (rd d (2 + n)) ;;
    Ret (fun sl => mkSlot t (splice (sl_u sl) 0 (n :: pw)) en)
  else Exc SW_WRONG_DATA.
Definition conf_tail (c : capdu) (g : slot -> slot) : Mo Z :=
  modify (fun s => oset_slots (upd_slot (c_p1 c - 1) g (o_slots s)) s) ;;; ok <- save_slots o_slots ;; if ok then ret SW_NO_ERROR else fail.
Lemma upd2 i f g sl : upd_slot i g (upd_slot i f sl) = upd_slot i (fun a => g (f a)) sl.
Proof. unfold upd_slot. destruct (i =? 0); reflexivity. Qed.
Lemma conf_plan c s e : pass_write_config o_slots oset_slots c s e = match plan c with Ret g => conf_tail c g s e | Exc w => (Exc w, s, e) | Fail => (Fail, s, e) | UB => (UB, s, e) end.
Proof.
  unfold pass_write_config, plan, bind, need, guard, except, lift, oguard, obind, oneed, ret. cbv beta iota zeta.
  destruct ((c_p1 c =? 1) || (c_p1 c =? 2)); [|reflexivity]. destruct (negb (c_lc c <? 1)); [|reflexivity]. destruct (rd (c_data c) 0) as [t|]; [|reflexivity]. destruct (t =? PASS_SLOT_OFF).
  - destruct (c_lc c =? 1); reflexivity.
  - destruct (t =? PASS_SLOT_STATIC); [|reflexivity]. destruct (negb (c_lc c <? 3)); [|reflexivity]. destruct (rd (c_data c) 1) as [n|]; [|reflexivity]. cbv beta iota. destruct (negb (PASS_MAX_PASSWORD_LENGTH <? n)); [|reflexivity].
    destruct (c_lc c =? 3 + n); [|reflexivity]. destruct (sub (c_data c) 2 n) as [pw|]; [|reflexivity]. cbv beta iota. destruct (rd (c_data c) (2 + n)) as [en|]; [|reflexivity].
    unfold conf_tail, bind, modify. cbn [o_slots oset_slots o_rem o_chal o_idx o_valid o_clen o_cbuf]. rewrite upd2. reflexivity.
Qed.
Definition prel (g g' : slot -> slot) : Prop := forall a b, same_slot a b -> same_slot (g a) (g' b).
Lemma plan_self c : orel prel (plan c) (plan c).
Proof.
  unfold plan. cbv zeta. unfold oguard. destruct ((c_p1 c =? 1) || (c_p1 c =? 2)); [|reflexivity]. destruct (negb (c_lc c <? 1)); [|reflexivity]. cbn [obind].
  destruct (rd (c_data c) 0) as [t|]; [|exact I]. cbn [oneed obind]. destruct (t =? PASS_SLOT_OFF) eqn:T0.
  - destruct (c_lc c =? 1); [|reflexivity]. cbn. apply Z.eqb_eq in T0. subst t. intros a b H. apply ss_off, H.
  - destruct (t =? PASS_SLOT_STATIC) eqn:T2; [|reflexivity]. apply Z.eqb_eq in T2. subst t. destruct (negb (c_lc c <? 3)); [|reflexivity]. destruct (rd (c_data c) 1) as [n|]; [|exact I]. cbn [oneed obind]. destruct (negb (PASS_MAX_PASSWORD_LENGTH <? n)) eqn:Hn; [|reflexivity].
    destruct (c_lc c =? 3 + n); [|reflexivity]. destruct (sub (c_data c) 2 n) as [pw|] eqn:P; [|exact I]. destruct (rd (c_data c) (2 + n)) as [en|]; [|exact I]. cbn. intros a b H.
    assert (zlen pw = n) as <-. { unfold sub in P. destruct (_ || _ || _) eqn:Q; [discriminate|]. assert (firstn (Z.to_nat n) (skipn (Z.to_nat 2) (c_data c)) = pw) as <- by congruence. unfold zlen in *. rewrite firstn_length, skipn_length. change (Z.to_nat 2) with 2%nat. lia. }
    unfold PASS_MAX_PASSWORD_LENGTH in Hn. apply ss_static; [exact H|lia|lia].
Qed.
Lemma plan_static c pw en : (c_p1 c =? 1) || (c_p1 c =? 2) = true -> zlen pw <= 32 -> c_data c = [2; zlen pw] ++ pw ++ [en] -> plan c = Ret (fun sl => mkSlot 2 (splice (sl_u sl) 0 (zlen pw :: pw)) en).
Proof.
  intros P1 L D. pose proof (zlen_nonneg pw) as N. unfold plan. cbv zeta. rewrite P1. assert (c_lc c = 3 + zlen pw) as Lc by (unfold c_lc; rewrite D, !zlen_app; change (zlen [2; zlen pw]) with 2; change (zlen [en]) with 1; lia). rewrite Lc, D. cbn [oguard obind].
  assert (oguard (negb (3 + zlen pw <? 1)) SW_WRONG_LENGTH = Ret tt) as -> by (unfold oguard; destruct (3 + zlen pw <? 1) eqn:E; [lia|reflexivity]). cbn [obind]. change (rd ([2; zlen pw] ++ pw ++ [en]) 0) with (Some 2). cbn [oneed obind]. change (2 =? PASS_SLOT_OFF) with false. change (2 =? PASS_SLOT_STATIC) with true. cbv iota.
  assert (oguard (negb (3 + zlen pw <? 3)) SW_WRONG_LENGTH = Ret tt) as -> by (unfold oguard; destruct (3 + zlen pw <? 3) eqn:E; [lia|reflexivity]). cbn [obind]. change (rd ([2; zlen pw] ++ pw ++ [en]) 1) with (Some (zlen pw)). cbn [oneed obind].
  assert (oguard (negb (PASS_MAX_PASSWORD_LENGTH <? zlen pw)) SW_WRONG_LENGTH = Ret tt) as -> by (unfold oguard, PASS_MAX_PASSWORD_LENGTH; destruct (32 <? zlen pw) eqn:E; [lia|reflexivity]). cbn [obind]. rewrite Z.eqb_refl. cbn [oguard obind].
  assert (sub ([2; zlen pw] ++ pw ++ [en]) 2 (zlen pw) = Some pw) as ->.
  { unfold sub. rewrite !zlen_app. change (zlen [2; zlen pw]) with 2. change (zlen [en]) with 1. destruct (_ || _ || _) eqn:E; [lia|]. change (Z.to_nat 2) with 2%nat. cbn [app skipn]. unfold zlen. rewrite Nat2Z.id, firstn_app, Nat.sub_diag, firstn_all, firstn_O, app_nil_r. reflexivity. }
  assert (rd ([2; zlen pw] ++ pw ++ [en]) (2 + zlen pw) = Some en) as ->.
  { unfold rd. destruct (2 + zlen pw <? 0) eqn:E; [lia|]. replace (Z.to_nat (2 + zlen pw)) with (2 + length pw)%nat by (unfold zlen; lia). cbn [app Nat.add nth_error]. rewrite nth_error_app2, Nat.sub_diag by lia. reflexivity. }
  reflexivity.
Qed.
Lemma plan_two c c' : same_conf c c' -> orel prel (plan c) (plan c') /\ c_p1 c' = c_p1 c.
Proof.
  intros [->|(pw & pw' & en & L & L' & D & ->)]; [split; [apply plan_self|reflexivity]|]. split; [|reflexivity]. destruct ((c_p1 c =? 1) || (c_p1 c =? 2)) eqn:P1.
  - rewrite (plan_static c pw en P1 L D). rewrite (plan_static (mkC (c_cla c) (c_ins c) (c_p1 c) (c_p2 c) ([2; zlen pw'] ++ pw' ++ [en]) (c_le c)) pw' en P1 L' eq_refl). cbn. intros a b H. apply ss_static; assumption.
  - unfold plan. cbv zeta. cbn [c_p1]. rewrite P1. reflexivity.
Qed.
Lemma conf_two c c' : same_conf c c' -> two eq (pass_write_config o_slots oset_slots c) (pass_write_config o_slots oset_slots c').
Proof.
  intros H s s' e f Hs E. rewrite !conf_plan. destruct (plan_two c c' H) as (P & P1). destruct (plan c) as [g|w| |], (plan c') as [g'|w'| |]; cbn [orel] in P; try contradiction; subst; try (cbn; auto; fail).
  assert (two eq (conf_tail c g) (conf_tail c' g')) as T; [|exact (T s s' e f Hs E)]. unfold conf_tail. rewrite P1. eapply (two_bind eq).
  - apply two_modify. intros t sl Ht. unfold same_ram. cbn -[upd_slot]. repeat (split; [reflexivity|]). apply upd_same; [exact P|exact Ht].
  - intros ? ? _. eapply (two_bind eq); [apply n_saves|intros ok ? <-]. nn.
Qed.
(** a touch *)
Definition touch_slot (kind : Z) (sl : slot) : Mo (option bytes) :=
  if negb ((kind =? 1) || (kind =? 2)) then ret None else
  let fin (t : bytes) : Mo (option bytes) := ret (Some (t ++ (if negb (sl_enter sl =? 0) then [13] else []))) in
  if sl_type sl =? PASS_SLOT_OFF then ret (Some [])
  else if sl_type sl =? PASS_SLOT_OATH then
    r <- oath_calculate_by_offset hmac_sha1 hmac_sha256 hmac_sha512 junk (sl_oath_offset sl) ;;
    match r with
    | inl _ => ret None
    | inr (code, n) => if 33 <? n then ub else fin (digits_of (Z.to_nat n) (be code))
    end
  else if sl_type sl =? PASS_SLOT_STATIC then
    pw <- need (sub (sl_password sl) 0 (sl_password_len sl)) ;; fin pw
  else ret None.
Lemma touch_is kind s e : pass_handle_touch hmac_sha1 hmac_sha256 hmac_sha512 junk kind s e = touch_slot kind (if kind =? 1 then fst (o_slots s) else snd (o_slots s)) s e.
Proof. reflexivity. Qed.
Definition trel (b : bool) (x y : option bytes) : Prop := if b then True else x = y.
Definition of_password (kind : Z) (sl : slot) : bool := ((kind =? 1) || (kind =? 2)) && (sl_type sl =? 2).
Lemma slot_two kind a b : same_slot a b -> two (trel (of_password kind a)) (touch_slot kind a) (touch_slot kind b).
Proof.
  intros H. pose proof (ss_type _ _ H) as T. pose proof (ss_enter _ _ H) as N. unfold touch_slot, of_password. rewrite <- T, <- N. destruct ((kind =? 1) || (kind =? 2)); cbn [negb andb]; [|apply two_ret; reflexivity]. cbv zeta.
  destruct (sl_type a =? PASS_SLOT_OFF) eqn:T0; [apply two_ret; unfold trel; destruct (sl_type a =? 2); [exact I|reflexivity]|]. destruct (sl_type a =? PASS_SLOT_OATH) eqn:T1.
  - apply Z.eqb_eq in T1. rewrite <- (ss_offset _ _ H T1). rewrite T1. change (PASS_SLOT_OATH =? 2) with false. eapply (two_bind eq); [apply n_offset|]. intros r ? <-. change (trel false) with (@eq (option bytes)). nn.
  - destruct (sl_type a =? PASS_SLOT_STATIC) eqn:T2; [|change PASS_SLOT_STATIC with 2 in T2; rewrite T2; apply two_ret; reflexivity].
    pose proof T2 as T3. change PASS_SLOT_STATIC with 2 in T3. rewrite T3. apply Z.eqb_eq in T3. destruct H as ((L1 & L2) & [->|(_ & _ & _ & H)]).
    + eapply (two_bind eq); [apply two_need|]. intros pw ? <-. apply two_ret. exact I.
    + destruct (H T3) as (Ha & Hb). assert (forall x, length (sl_u x) = 69%nat -> 0 <= nth 0 (sl_u x) 0 <= 32 -> exists pw, sub (sl_password x) 0 (sl_password_len x) = Some pw) as P.
      { intros x L Hx. unfold sl_password_len. unfold sub. assert (zlen (sl_password x) = 32) as -> by (unfold sl_password, slice, zlen; rewrite firstn_length, skipn_length, L; reflexivity). destruct (_ || _ || _) eqn:Q; [lia|]. eauto. }
      destruct (P a L1 Ha) as (pa & ->), (P b L2 Hb) as (pb & ->). cbn [need]. eapply (two_bind (fun _ _ => True)); [apply two_ret; exact I|]. intros ? ? _. apply two_ret. exact I.
Qed.
Lemma types_is s kind flt : of_password kind (if kind =? 1 then fst (o_slots s) else snd (o_slots s)) = types_password s (Touch kind flt).
Proof. unfold of_password, types_password. destruct (kind =? 1) eqn:K1; cbn [orb andb]; [|reflexivity]. assert (kind =? 2 = false) as -> by lia. rewrite orb_false_r. reflexivity. Qed.

(** ** The device *)
Lemma start1 F G flt rnd tch : other F G -> env1 (start F flt rnd tch) (start G flt rnd tch).
Proof. intros H. unfold env1, env0, start. cbn. auto 10. Qed.
Lemma start0 F flt rnd tch : mkE (e_fs (start F flt rnd tch)) (e_log (start F flt rnd tch)) (e_flt (start F flt rnd tch)) (e_rnd (start F flt rnd tch)) (e_tch (start F flt rnd tch)) [] = start F flt rnd tch.
Proof. reflexivity. Qed.
Lemma boot_two F G rnd : other F G -> same_dev (oboot F rnd) (oboot G rnd).
Proof.
  intros H. unfold oboot.
  assert (ni (oath_install false ;;; pass_install o_slots oset_slots false)) as W by (eapply (two_bind eq); [apply n_install|intros ? ? _; apply n_pass_install]).
  assert (same_ram oath_boot oath_boot) as B by (unfold same_ram; repeat (split; [reflexivity|]); split; apply ss_refl; reflexivity).
  specialize (W oath_boot oath_boot _ _ B (start1 F G [] rnd [] H)).
  destruct ((oath_install false ;;; pass_install o_slots oset_slots false) oath_boot (start F [] rnd [])) as [[o1 s1] e1],
    ((oath_install false ;;; pass_install o_slots oset_slots false) oath_boot (start G [] rnd [])) as [[o2 s2] e2].
  destruct W as (_ & W & E & _). split; [exact W|apply E].
Qed.
Lemma cut_two e f n : env0 e f -> same_dev (after_cut e n) (after_cut f n).
Proof.
  intros (E1 & E2 & _). unfold after_cut. apply boot_two. revert n. induction E2; intros [|n]; cbn; auto.
Qed.
Lemma run_two (m m' : Mo Z) s s' e f : two eq m m' -> same_ram s s' -> env1 e f ->
  let '(r1, s1, e1) := run_apdu m s e in let '(r2, s2, e2) := run_apdu m' s' f in r1 = r2 /\ same_ram s1 s2 /\ env0 e1 e2.
Proof.
  intros T Hs ((E1 & E2 & E3 & E4 & E5) & E6). unfold run_apdu. assert (env1 (mkE (e_fs e) (e_log e) (e_flt e) (e_rnd e) (e_tch e) []) (mkE (e_fs f) (e_log f) (e_flt f) (e_rnd f) (e_tch f) [])) as E by (unfold env1, env0; cbn; auto 10).
  specialize (T s s' _ _ Hs E). destruct (m s _) as [[o1 s1] e1], (m' s' _) as [[o2 s2] e2]. destruct T as (T1 & T2 & T3 & T4). destruct o1, o2; cbn in T1; try contradiction; subst; rewrite ?T4; auto.
Qed.
Lemma step_two d d' ev ev' : same_dev d d' -> same_event ev ev' ->
  match step d ev, step d' ev' with
  | Some (o, d1), Some (o', d1') => same_dev d1 d1' /\ (types_password (d_ram d) ev = false -> o = o') /\ (types_password (d_ram d) ev = true -> exists t t', o = Typed t /\ o' = Typed t')
  | None, None => True
  | _, _ => False
  end.
Proof.
  intros [R F] S.
  assert (forall nfc c flt rnd tch, let '(r1, s1, e1) := cmd_run hmac_sha1 hmac_sha256 hmac_sha512 junk nfc c flt rnd tch d in
    let '(r2, s2, e2) := cmd_run hmac_sha1 hmac_sha256 hmac_sha512 junk nfc c flt rnd tch d' in r1 = r2 /\ same_ram s1 s2 /\ env0 e1 e2) as C.
  { intros. unfold cmd_run, oath_process_apdu. apply run_two; [apply n_body|exact R|apply start1, F]. }
  assert (forall c c' flt, same_conf c c' -> let '(r1, s1, e1) := conf_run c flt d in let '(r2, s2, e2) := conf_run c' flt d' in r1 = r2 /\ same_ram s1 s2 /\ env0 e1 e2) as N.
  { intros c c' flt Hc. unfold conf_run. apply run_two; [apply conf_two, Hc|exact R|apply start1, F]. }
  assert (forall kind flt, let '(r1, s1, e1) := touch_run hmac_sha1 hmac_sha256 hmac_sha512 junk kind flt d in let '(r2, s2, e2) := touch_run hmac_sha1 hmac_sha256 hmac_sha512 junk kind flt d' in
    orel (trel (types_password (d_ram d) (Touch kind flt))) r1 r2 /\ same_ram s1 s2 /\ env1 e1 e2) as T.
  { intros kind flt. unfold touch_run. rewrite !touch_is, <- types_is. apply slot_two; [|exact R|apply start1, F]. destruct (ram_slots _ _ R) as (A & B). destruct (kind =? 1); assumption. }
  assert (forall c c' flt, same_conf c c' -> match step d (Conf c flt), step d' (Conf c' flt) with
    | Some (o, d1), Some (o', d1') => same_dev d1 d1' /\ o = o' | None, None => True | _, _ => False end) as N1.
  { intros c c' flt Hc. specialize (N c c' flt Hc). unfold OathSpec.step. destruct (conf_run c flt d) as [[r1 s1] e1], (conf_run c' flt d') as [[r2 s2] e2]. destruct N as (<- & N & N' & _). destruct r1; [|exact I]. split; [split; assumption|reflexivity]. }
  assert (forall c c' flt n, same_conf c c' -> match step d (CutConf c flt n), step d' (CutConf c' flt n) with
    | Some (o, d1), Some (o', d1') => same_dev d1 d1' /\ o = o' | None, None => True | _, _ => False end) as N2.
  { intros c c' flt n Hc. specialize (N c c' flt Hc). unfold OathSpec.step. destruct (conf_run c flt d) as [[r1 s1] e1], (conf_run c' flt d') as [[r2 s2] e2]. destruct N as (_ & _ & N). split; [apply cut_two, N|reflexivity]. }
  destruct S as [ev|c c' flt Hc|c c' flt n Hc].
  - destruct ev as [nfc c flt rnd tch|kind flt|c flt| |nfc c flt rnd tch n|kind flt n|c flt n]; cbn [types_password].
    + specialize (C nfc c flt rnd tch). unfold OathSpec.step. destruct (cmd_run _ _ _ _ nfc c flt rnd tch d) as [[r1 s1] e1], (cmd_run _ _ _ _ nfc c flt rnd tch d') as [[r2 s2] e2]. destruct C as (<- & C1 & C2 & _).
      destruct r1; [|exact I]. split; [split; assumption|]. split; [reflexivity|discriminate].
    + specialize (T kind flt). change (types_password (d_ram d) (Touch kind flt)) with (types_password (d_ram d) (Touch kind [])) in T. unfold OathSpec.step. destruct (touch_run _ _ _ _ kind flt d) as [[r1 s1] e1], (touch_run _ _ _ _ kind flt d') as [[r2 s2] e2].
      destruct T as (T1 & T2 & [T3 _] & _). destruct r1 as [x| | |], r2 as [y| | |]; cbn [orel] in T1; try contradiction; try exact I. split; [split; assumption|].
      cbn [types_password] in T1. split; [intros B; rewrite B in T1; cbn [trel] in T1; rewrite T1; reflexivity|intros _; eauto].
    + specialize (N1 c c flt (or_introl eq_refl)). destruct (step d _) as [[o d1]|], (step d' _) as [[o' d1']|]; try contradiction; try exact I. destruct N1 as (D & ->). split; [exact D|]. split; [reflexivity|discriminate].
    + cbn. split; [|split; [reflexivity|discriminate]]. split; [|exact F]. rewrite (ram_eq _ _ R). pose proof (ram_slots _ _ R) as Q. unfold same_ram, oath_poweroff. cbn. auto 10.
    + specialize (C nfc c flt rnd tch). unfold OathSpec.step. destruct (cmd_run _ _ _ _ nfc c flt rnd tch d) as [[r1 s1] e1], (cmd_run _ _ _ _ nfc c flt rnd tch d') as [[r2 s2] e2]. destruct C as (_ & _ & C). split; [apply cut_two, C|]. split; [reflexivity|discriminate].
    + specialize (T kind flt). unfold OathSpec.step. destruct (touch_run _ _ _ _ kind flt d) as [[r1 s1] e1], (touch_run _ _ _ _ kind flt d') as [[r2 s2] e2]. destruct T as (_ & _ & [T _]). split; [apply cut_two, T|]. split; [reflexivity|discriminate].
    + specialize (N2 c c flt n (or_introl eq_refl)). destruct (step d _) as [[o d1]|], (step d' _) as [[o' d1']|]; try contradiction; try exact I. destruct N2 as (D & ->). split; [exact D|]. split; [reflexivity|discriminate].
  - specialize (N1 c c' flt Hc). destruct (step d _) as [[o d1]|], (step d' _) as [[o' d1']|]; try contradiction; try exact I. destruct N1 as (D & ->). split; [exact D|]. split; [reflexivity|discriminate].
  - specialize (N2 c c' flt n Hc). destruct (step d _) as [[o d1]|], (step d' _) as [[o' d1']|]; try contradiction; try exact I. destruct N2 as (D & ->). split; [exact D|]. split; [reflexivity|discriminate].
Qed.
Lemma shown_two d d' : same_dev d d' -> shown d = shown d'.
Proof.
  intros [R F]. unfold shown. assert (ni (pass_read_config o_slots)) as T.
  { unfold pass_read_config. apply two_get. intros s sl (A & B). cbn [o_slots oset_slots]. rewrite (ss_dump _ _ A), (ss_dump _ _ B). nn. }
  pose proof (run_two _ _ _ _ _ _ T R (start1 _ _ [] [] [] F)) as W. destruct (run_apdu _ (d_ram d) _) as [[r1 s1] e1], (run_apdu _ (d_ram d') _) as [[r2 s2] e2]. destruct W as (W & _). exact W.
Qed.

(** ** The property *)
(** The events with what is observed: whether a password is typed, the answer, and what reading the configuration would show before it. *)
Inductive watch : dev -> list event -> list (bool * obs * option rapdu) -> dev -> Prop :=
| watch_nil d : watch d [] [] d
| watch_cons d ev o d1 evs os d2 : step d ev = Some (o, d1) -> watch d1 evs os d2 -> watch d (ev :: evs) ((types_password (d_ram d) ev, o, shown d) :: os) d2.
Definition alike (x y : bool * obs * option rapdu) : Prop :=
  let '(b, o, r) := x in let '(b', o', r') := y in b = b' /\ r = r' /\ if b then exists t t', o = Typed t /\ o' = Typed t' else o = o'.

(** Whatever passwords (of any length) the slots hold or are given, everything but what the touches for them type is the same, through storage errors and power losses. *)
Theorem C93_passwords evs evs' d d' os d1 : same_dev d d' -> Forall2 same_event evs evs' -> watch d evs os d1 ->
  exists os' d1', watch d' evs' os' d1' /\ Forall2 alike os os' /\ shown d1 = shown d1' /\ same_dev d1 d1'.
Proof.
  intros D S H. revert evs' d' D S. induction H as [d|d ev o d1 evs os d2 St H IH]; intros evs' d' D S.
  - inversion S; subst. exists [], d'. split; [constructor|]. split; [constructor|]. split; [apply shown_two, D|exact D].
  - inversion S as [|? ev' ? evs0 S1 S2]; subst. pose proof (step_two d d' ev ev' D S1) as T. rewrite St in T.
    destruct (step d' ev') as [[o' d1']|] eqn:St'; [|contradiction]. destruct T as (D1 & Eq & Ty).
    destruct (IH evs0 d1' D1 S2) as (os' & d2' & W & A & Sh & D2). exists ((types_password (d_ram d') ev', o', shown d') :: os'), d2'.
    split; [econstructor; eassumption|]. split; [|split; [exact Sh|exact D2]]. constructor; [|exact A].
    assert (types_password (d_ram d') ev' = types_password (d_ram d) ev) as G.
    { destruct (ram_slots _ _ (proj1 D)) as (A1 & A2). destruct S1 as [ev| |]; [|reflexivity|reflexivity]. destruct ev; try reflexivity. cbn [types_password]. rewrite (ss_type _ _ A1), (ss_type _ _ A2). reflexivity. }
    unfold alike. rewrite G. split; [reflexivity|]. split; [apply shown_two, D|]. destruct (types_password (d_ram d) ev); [apply Ty; reflexivity|apply Eq; reflexivity].
Qed.
End Applet.
Print Assumptions C93_passwords.

(** ** Example: the same history with the passwords "abc" and "wxyz1": it is set for a short touch and typed; the power fails while it is set for a long touch, too; a credential takes
    the place of the first and is typed, and then the configuration is read. *)
Definition set_pw (p1 : Z) (pw : bytes) : capdu := mkC 0 0x44 p1 0 ([2; zlen pw] ++ pw ++ [1]) 0.
Definition pw1 : bytes := [97; 98; 99].
Definition pw2 : bytes := [119; 120; 121; 122; 49].
Definition watched (pw : bytes) : list event :=
  [cmd c_select; Conf (set_pw 1 pw) []; Touch 1 []; CutConf (set_pw 2 pw) [] 0; Touch 2 []; cmd c_select; cmd (c_put nA kH [0x7A; 4; 0; 0; 0; 5]); cmd (mkC 0 0x55 1 0 ([0x71; 2] ++ nA) 0); Touch 1 []; cmd c_list].
Fixpoint watchf (d : dev) (evs : list event) : option (list (bool * obs * option rapdu) * dev) :=
  match evs with
  | [] => Some ([], d)
  | ev :: evs => match step h1 h2 h5 junk0 d ev with
                 | None => None
                 | Some (o, d1) => match watchf d1 evs with Some (os, d2) => Some ((types_password (d_ram d) ev, o, shown d) :: os, d2) | None => None end
                 end
  end.
Lemma watchf_ok evs : forall d os d1, watchf d evs = Some (os, d1) -> watch h1 h2 h5 junk0 d evs os d1.
Proof.
  induction evs as [|ev evs IH]; intros d os d1; cbn [watchf]; [intros [= <- <-]; constructor|].
  destruct (step h1 h2 h5 junk0 d ev) as [[o d2]|] eqn:St; [|discriminate]. destruct (watchf d2 evs) as [[os' d3]|] eqn:W; [|discriminate].
  intros [= <- <-]. econstructor; [exact St|apply IH, W].
Qed.
Example C93_case : same_dev boot0 boot0 /\ Forall2 same_event (watched pw1) (watched pw2) /\
  (exists os d1, watch h1 h2 h5 junk0 boot0 (watched pw1) os d1 /\ map (fun x => fst (fst x)) os = [false; false; true; false; true; false; false; false; false; false] /\
     nth 2 (map (fun x => snd (fst x)) os) Nothing = Typed (Some (pw1 ++ [13])) /\ shown d1 = Some (mkR [1; 2; 97; 108; 0; 2; 1] 0x9000)) /\
  nth 2 (map snd (tr_of boot0 (watched pw2))) Nothing = Typed (Some (pw2 ++ [13])).
Proof.
  assert (forall p1, same_conf (set_pw p1 pw1) (set_pw p1 pw2)) as P by (intros p1; right; exists pw1, pw2, 1; repeat split; vm_compute; discriminate).
  split; [|split; [|split]].
  - split; [unfold same_ram; repeat (split; [reflexivity|]); split; apply ss_refl; vm_compute; reflexivity|intros q; apply same_file_refl].
  - unfold watched. constructor; [apply same_ev|]. constructor; [apply same_set, P|]. constructor; [apply same_ev|]. constructor; [apply same_cut, P|]. repeat (constructor; [apply same_ev|]). constructor.
  - destruct (watchf boot0 (watched pw1)) as [[os d1]|] eqn:W; [|vm_compute in W; discriminate W].
    clear P. assert (option_map (fun x => (fst x, shown (snd x))) (watchf boot0 (watched pw1)) = Some (os, shown d1)) as W' by (rewrite W; reflexivity). remember (shown d1) as r eqn:Hr. vm_compute in W'. injection W' as <- <-.
    eexists; exists d1. rewrite <- ?Hr. split; [apply watchf_ok, W|]. split; [reflexivity|]. split; reflexivity.
  - vm_compute. reflexivity.
Qed.
