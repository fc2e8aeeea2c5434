(** The resident credentials in the storage, and what each step of an operation on them does. *)
From Verif Require Import CtapSpec CtapFrame CtapRel CtapCred.
Open Scope string_scope. Open Scope list_scope. Open Scope Z_scope.

(** ** Specification *)
(** The record in slot [j] (300 bytes each) *)
Definition cell (F : fs) (j : Z) : option bytes :=
  match fdata F "ctap_dc" with
  | Some l => if (0 <=? j) && ((j + 1) * 300 <=? zlen l) then Some (slice (j * 300) 300 l) else None
  | None => None
  end.
(** The credential in slot [j]: byte 265 of a record says that it was deleted. *)
Definition credential (F : fs) (j : Z) : option bytes := match cell F j with Some d => if nth 265 d 0 =? 0 then Some d else None | None => None end.
(** The slot of an operation that was begun and not finished (attribute 0: the number of credentials, a slot, and two flags) *)
Definition unfinished (F : fs) : option Z :=
  match fattr F "ctap_dc" 0 with Some a => if Z.land (nth 2 a 0) 3 =? 0 then None else Some (nth 1 a 0) | None => None end.
(** What the device shows in slot [j]: the slot of an unfinished operation is emptied before the next command that uses credentials. *)
Definition shown_at (F : fs) (j : Z) : option bytes :=
  match unfinished F with Some i => if i =? j then None else credential F j | None => credential F j end.
Definition same_shown (F F' : fs) : Prop := forall j, shown_at F' j = shown_at F j.
(** Only slot [k] differs, and shows [v]. *)
Definition only_at (F F' : fs) (k : Z) (v : option bytes) : Prop := shown_at F' k = v /\ forall j, j <> k -> shown_at F' j = shown_at F j.

(** ** Records *)
Lemma same_refl F : same_shown F F. Proof. intros j. reflexivity. Qed.
Lemma same_trans F1 F2 F3 : same_shown F1 F2 -> same_shown F2 F3 -> same_shown F1 F3.
Proof. intros H1 H2 j. rewrite H2. apply H1. Qed.
Lemma same_dc F F' : F' DC_FILE = F DC_FILE -> same_shown F F'.
Proof. intros H j. unfold shown_at, unfinished, credential, cell, fdata, fattr. change "ctap_dc" with DC_FILE. rewrite H. reflexivity. Qed.
Lemma cell_dc F F' j : F' DC_FILE = F DC_FILE -> cell F' j = cell F j.
Proof. intros H. unfold cell, fdata. change "ctap_dc" with DC_FILE. rewrite H. reflexivity. Qed.
Lemma unfinished_dc F F' : F' DC_FILE = F DC_FILE -> unfinished F' = unfinished F.
Proof. intros H. unfold unfinished, fattr. change "ctap_dc" with DC_FILE. rewrite H. reflexivity. Qed.
Lemma cell_read F j d : fread F "ctap_dc" (j * 300) 300 = Some d -> zlen d = 300 -> cell F j = Some d /\ 0 <= j.
Proof.
  unfold fread, cell, fdata. destruct (F "ctap_dc") as [f|]; [|discriminate]. destruct (j * 300 <? 0) eqn:E; [discriminate|]. intros H Hz. injection H as <-. rewrite zlen_slice in Hz by lia.
  destruct (0 <=? j) eqn:E1; [|lia]. destruct ((j + 1) * 300 <=? zlen (f_data f)) eqn:E2; [split; [reflexivity|lia]|lia].
Qed.
Lemma cell_len F j d : cell F j = Some d -> zlen d = 300 /\ 0 <= j.
Proof.
  unfold cell. destruct (fdata F "ctap_dc") as [l|]; [|discriminate]. destruct (0 <=? j) eqn:E1; [|discriminate]. cbn [andb]. destruct ((j + 1) * 300 <=? zlen l) eqn:E2; [|discriminate]. intros H. injection H as <-. split; [rewrite zlen_slice; lia|lia].
Qed.
Lemma slice_at (l r : bytes) k j : 0 <= k -> 0 <= j -> k * 300 <= zlen l -> zlen r = 300 -> j <> k -> (j + 1) * 300 <= zlen l -> slice (j * 300) 300 (write_at l (k * 300) r) = slice (j * 300) 300 l.
Proof.
  intros Hk Hj Hl Hr Hn Hs. unfold write_at. replace (zeros (k * 300 - zlen l)) with (@nil Z) by (unfold zeros; replace (Z.to_nat (k * 300 - zlen l)) with O by lia; reflexivity). rewrite app_nil_r.
  assert (Hr' : length r = 300%nat) by (unfold zlen in Hr; lia). destruct (Z_lt_dec j k) as [H|H].
  - unfold slice. set (a := Z.to_nat (j * 300)). set (n := Z.to_nat 300). assert (Hf : length (firstn (Z.to_nat (k * 300)) l) = Z.to_nat (k * 300)) by (rewrite firstn_length; unfold zlen in Hl; lia).
    rewrite skipn_app, firstn_app. replace (n - length (skipn a (firstn (Z.to_nat (k * 300)) l)))%nat with O by (rewrite skipn_length, Hf; unfold a, n; lia). rewrite firstn_O, app_nil_r.
    rewrite skipn_firstn_comm, firstn_firstn. f_equal. unfold a, n. lia.
  - rewrite app_assoc. assert (Hf : zlen (firstn (Z.to_nat (k * 300)) l ++ r) = (k + 1) * 300) by (rewrite zlen_app, zlen_firstn; lia). rewrite slice_app_r by lia. rewrite Hf, Hr'.
    unfold slice. rewrite skipn_skipn. f_equal. f_equal. lia.
Qed.
Lemma slice_same (l r : bytes) k : 0 <= k -> k * 300 <= zlen l -> zlen r = 300 -> slice (k * 300) 300 (write_at l (k * 300) r) = r.
Proof.
  intros Hk Hl Hr. unfold write_at. replace (zeros (k * 300 - zlen l)) with (@nil Z) by (unfold zeros; replace (Z.to_nat (k * 300 - zlen l)) with O by lia; reflexivity). rewrite app_nil_r.
  pose proof (slice_mid (firstn (Z.to_nat (k * 300)) l) r (skipn (Z.to_nat (k * 300) + length r) l)) as H. rewrite Hr, zlen_firstn in H. replace (Z.min (Z.of_nat (Z.to_nat (k * 300))) (zlen l)) with (k * 300) in H by lia. exact H.
Qed.
Lemma zlen_write (l r : bytes) k : 0 <= k -> k * 300 <= zlen l -> zlen r = 300 -> zlen (write_at l (k * 300) r) = Z.max (zlen l) ((k + 1) * 300).
Proof.
  intros Hk Hl Hr. unfold write_at. replace (zeros (k * 300 - zlen l)) with (@nil Z) by (unfold zeros; replace (Z.to_nat (k * 300 - zlen l)) with O by lia; reflexivity). rewrite app_nil_r.
  rewrite !zlen_app, zlen_firstn, zlen_skipn. assert (Z.of_nat (length r) = 300) by exact Hr. lia.
Qed.
(** The file can take a record in slot [k]. *)
Definition has_room (F : fs) (k : Z) : Prop := 0 <= k /\ match fdata F "ctap_dc" with Some l => k * 300 <= zlen l | None => False end.
Lemma fwrite_dc F k r f : F DC_FILE = Some f -> r <> [] -> fwrite F DC_FILE r (k * 300) false DC_FILE = Some (mkF (write_at (f_data f) (k * 300) r) (f_attr f)).
Proof. intros Hf Hr. unfold fwrite, fcreate. rewrite Hf. rewrite Hf, fset_same. destruct r as [|x r]; [congruence|]. reflexivity. Qed.
Lemma room_file F k : has_room F k -> exists f, F DC_FILE = Some f /\ k * 300 <= zlen (f_data f) /\ 0 <= k.
Proof. intros (H1 & H2). unfold fdata in H2. change "ctap_dc" with DC_FILE in H2. destruct (F DC_FILE) as [f|]; [|destruct H2]. exists f. auto. Qed.
Lemma cell_write F k r j : has_room F k -> zlen r = 300 -> cell (fwrite F DC_FILE r (k * 300) false) j = if j =? k then Some r else cell F j.
Proof.
  intros HR Hr. destruct (room_file F k HR) as (f & Hf & Hl & Hk). assert (Hn : r <> []) by (intros ->; discriminate Hr). unfold cell, fdata. change "ctap_dc" with DC_FILE. rewrite (fwrite_dc F k r f Hf Hn), Hf. cbn [f_data]. rewrite zlen_write by assumption.
  destruct (j =? k) eqn:E.
  - apply Z.eqb_eq in E. subst j. destruct (0 <=? k) eqn:E1; [|lia]. cbn [andb]. destruct ((k + 1) * 300 <=? Z.max (zlen (f_data f)) ((k + 1) * 300)) eqn:E2; [|lia]. f_equal. apply slice_same; assumption.
  - destruct (0 <=? j) eqn:E1; [|reflexivity]. cbn [andb]. destruct ((j + 1) * 300 <=? zlen (f_data f)) eqn:E2.
    + destruct ((j + 1) * 300 <=? Z.max (zlen (f_data f)) ((k + 1) * 300)) eqn:E3; [|lia]. f_equal. apply slice_at; lia.
    + destruct ((j + 1) * 300 <=? Z.max (zlen (f_data f)) ((k + 1) * 300)) eqn:E3; [lia|reflexivity].
Qed.
Lemma unfinished_write F k r : has_room F k -> zlen r = 300 -> unfinished (fwrite F DC_FILE r (k * 300) false) = unfinished F.
Proof.
  intros HR Hr. destruct (room_file F k HR) as (f & Hf & Hl & Hk). assert (Hn : r <> []) by (intros ->; discriminate Hr). unfold unfinished, fattr. change "ctap_dc" with DC_FILE. rewrite (fwrite_dc F k r f Hf Hn), Hf. reflexivity.
Qed.
Lemma cell_attr F v j : cell (fsetattr F DC_FILE DC_GENERAL_ATTR v) j = cell F j.
Proof. unfold cell, fdata, fsetattr. change "ctap_dc" with DC_FILE. destruct (F DC_FILE) as [f|] eqn:E; [rewrite fset_same|rewrite E]; reflexivity. Qed.
Lemma unfinished_attr F n i fl : F DC_FILE <> None -> unfinished (fsetattr F DC_FILE DC_GENERAL_ATTR [n; i; fl]) = if Z.land fl 3 =? 0 then None else Some i.
Proof. intros H. unfold unfinished, fattr, fsetattr. change "ctap_dc" with DC_FILE. destruct (F DC_FILE) as [f|] eqn:E; [|congruence]. rewrite fset_same. cbn [f_attr]. change DC_GENERAL_ATTR with 0. rewrite aset_same. reflexivity. Qed.
Lemma room_attr F v k : has_room F k -> has_room (fsetattr F DC_FILE DC_GENERAL_ATTR v) k.
Proof. intros (H1 & H2). split; [exact H1|]. unfold fdata, fsetattr in *. change "ctap_dc" with DC_FILE in *. destruct (F DC_FILE) as [f|] eqn:E; [rewrite fset_same; exact H2|destruct H2]. Qed.
Lemma room_cell F k d : cell F k = Some d -> has_room F k.
Proof. unfold cell, has_room. destruct (fdata F "ctap_dc") as [l|]; [|discriminate]. destruct (0 <=? k) eqn:E; [|discriminate]. cbn [andb]. destruct ((k + 1) * 300 <=? zlen l) eqn:E2; [|discriminate]. intros _. lia. Qed.
Lemma attr_flags a : nth 2 (attr_buf 3 a) 0 = nth 2 a 0 /\ nth 1 (attr_buf 3 a) 0 = nth 1 a 0 /\ nth 0 (attr_buf 3 a) 0 = nth 0 a 0.
Proof. unfold attr_buf. destruct a as [|x [|y [|z a]]]; repeat split; reflexivity. Qed.
Lemma cred_cell F j d : cell F j = Some d -> credential F j = if dc_deleted d then None else Some d.
Proof. intros H. unfold credential, dc_deleted. rewrite H. destruct (nth 265 d 0 =? 0); reflexivity. Qed.
Lemma deleted_delete d : zlen d = 300 -> dc_deleted (dc_delete d) = true /\ zlen (dc_delete d) = 300.
Proof.
  intros H. unfold dc_delete. split; [|rewrite zlen_splice; [exact H|lia|change (zlen [1]) with 1; lia]]. unfold dc_deleted. rewrite nth_splice by (try change (zlen [1]) with 1; lia). reflexivity.
Qed.
(** What is shown after each step *)
Lemma shown_none F j : unfinished F = None -> shown_at F j = credential F j. Proof. intros H. unfold shown_at. rewrite H. reflexivity. Qed.
Lemma shown_some F i j : unfinished F = Some i -> shown_at F j = if i =? j then None else credential F j. Proof. intros H. unfold shown_at. rewrite H. reflexivity. Qed.
Lemma cred_attr F v j : credential (fsetattr F DC_FILE DC_GENERAL_ATTR v) j = credential F j. Proof. unfold credential. rewrite cell_attr. reflexivity. Qed.
Lemma cred_write F k r j : has_room F k -> zlen r = 300 -> credential (fwrite F DC_FILE r (k * 300) false) j = if j =? k then (if dc_deleted r then None else Some r) else credential F j.
Proof. intros H1 H2. unfold credential. rewrite cell_write by assumption. destruct (j =? k); [|reflexivity]. unfold dc_deleted. destruct (nth 265 r 0 =? 0); reflexivity. Qed.
