(** C53: power loss during the operations on resident credentials. *)
From Verif Require Import CtapSpec CtapFrame CtapExec CtapRel CtapCred CtapToy CtapStore PropCtapPin PropCtapToken PropCtapCred PropCtapReset PropCtapBlob.
Open Scope string_scope. Open Scope list_scope. Open Scope Z_scope.

(** ** Specification *)
(** The credential [d] is for the account of the request: the same RP and the same user id *)
Definition account (q : mcreq) (d : bytes) : Prop :=
  id_rp (dc_id d) = mc_rphash q /\ u_size (dc_user d) = u_size (mc_user q) /\ slice 0 (u_size (mc_user q)) (u_id (dc_user d)) = slice 0 (u_size (mc_user q)) (u_id (mc_user q)).
Definition no_account (q : mcreq) (F : fs) : Prop := forall j d, shown_at F j = Some d -> ~ account q d.
(** A credential with the id [id] for the request was stored: in a slot that showed none, if there was none for this account, and otherwise
    in place of the old one. *)
Definition created (q : mcreq) (id : bytes) (F F' : fs) : Prop :=
  exists k r, only_at F F' k (Some r) /\ dc_id r = id /\ dc_user r = mc_user q /\ id_rp id = mc_rphash q /\
    (shown_at F k = None /\ no_account q F \/ exists old, shown_at F k = Some old /\ account q old).
(** The old credential of the account is gone, and there is no new one. *)
Definition lost (q : mcreq) (F F' : fs) : Prop := exists k old, shown_at F k = Some old /\ account q old /\ only_at F F' k None.
Definition deleted (q : cmreq) (F F' : fs) : Prop := exists k d, shown_at F k = Some d /\ dc_id d = cm_id q /\ only_at F F' k None.
(** The user entity (bytes 70 to 264) is replaced, the rest is kept; the user id stays. *)
Definition updated (q : cmreq) (F F' : fs) : Prop :=
  exists k d, shown_at F k = Some d /\ dc_id d = cm_id q /\ only_at F F' k (Some (splice d 70 (cm_user q))) /\
    u_size (dc_user d) = u_size (cm_user q) /\ slice 0 (u_size (cm_user q)) (u_id (dc_user d)) = slice 0 (u_size (cm_user q)) (u_id (cm_user q)).
(** What a command may do to the credentials *)
Definition allowed (x : cmd) (F F' : fs) : Prop :=
  same_shown F F' \/
  match x_op x with
  | OCbor (RMake (inr q)) => mc_rk q = 1 /\ ((exists id, created q id F F') \/ lost q F F')
  | OCbor (RCm (inr q)) => cm_sub q = 6 /\ deleted q F F' \/ cm_sub q = 7 /\ updated q F F'
  | _ => False
  end.
(** What it has done when it is answered with success *)
Definition performed (x : cmd) (v : option cbor) (F F' : fs) : Prop :=
  match x_op x with
  | OCbor (RMake (inr q)) => if mc_rk q =? 1 then match v with Some v => created q (new_id v) F F' | None => True end else same_shown F F'
  | OCbor (RCm (inr q)) => if cm_sub q =? 6 then deleted q F F' else if cm_sub q =? 7 then updated q F F' else same_shown F F'
  | _ => same_shown F F'
  end.

(** ** Proof *)
Lemma created_from q id F0 F F' : same_shown F0 F -> created q id F F' -> created q id F0 F'.
Proof.
  intros H (k & r & (H1 & H2) & H3 & H4 & H5 & H6). exists k, r. split; [split; [exact H1|intros j Hj; rewrite H2 by exact Hj; apply H]|]. split; [exact H3|]. split; [exact H4|]. split; [exact H5|].
  rewrite <- (H k). destruct H6 as [(H6 & H7)|H6]; [left|right; exact H6]. split; [exact H6|]. intros j d Hd. apply (H7 j). rewrite H. exact Hd.
Qed.
Lemma lost_from q F0 F F' : same_shown F0 F -> lost q F F' -> lost q F0 F'.
Proof. intros H (k & old & H1 & H2 & H3 & H4). exists k, old. rewrite <- (H k). split; [exact H1|]. split; [exact H2|]. split; [exact H3|]. intros j Hj. rewrite H4 by exact Hj. apply H. Qed.
Lemma deleted_from q F0 F F' : same_shown F0 F -> deleted q F F' -> deleted q F0 F'.
Proof. intros H (k & old & H1 & H2 & H3 & H4). exists k, old. rewrite <- (H k). split; [exact H1|]. split; [exact H2|]. split; [exact H3|]. intros j Hj. rewrite H4 by exact Hj. apply H. Qed.
Lemma updated_from q F0 F F' : same_shown F0 F -> updated q F F' -> updated q F0 F'.
Proof. intros H (k & old & H1 & H2 & (H3 & H4) & H5). exists k, old. rewrite <- (H k). split; [exact H1|]. split; [exact H2|]. split; [split; [exact H3|]|exact H5]. intros j Hj. rewrite H4 by exact Hj. apply H. Qed.
Lemma lor_flags fl b m : (b = 1 /\ m = 254 \/ b = 2 /\ m = 253) -> Z.land fl 3 = 0 -> Z.land (Z.lor fl b) 3 <> 0 /\ Z.land (Z.land (Z.lor fl b) m) 3 = 0.
Proof.
  intros Hb H. assert (G : forall c, Z.land fl (Z.land 3 c) = 0) by (intros c; rewrite Z.land_assoc, H; apply Z.land_0_l).
  destruct Hb as [(-> & ->)|(-> & ->)]; (split; [rewrite Z.land_lor_distr_l, H; discriminate|]); rewrite <- Z.land_assoc, Z.land_lor_distr_l.
  - change (Z.land 254 3) with (Z.land 3 2). rewrite G. reflexivity.
  - change (Z.land 253 3) with (Z.land 3 1). rewrite G. reflexivity.
Qed.

Section S.
Variable K : fcrypto.
Definition anyc (_ : ctap) : Prop := True.
Definition dc_as (F G : fs) : Prop := G DC_FILE = F DC_FILE.
Lemma dc_indep F p : p <> DC_FILE -> indep (dc_as F) p.
Proof. intros H G x HG. unfold dc_as. rewrite fset_other by congruence. exact HG. Qed.

(** *** The check at the start of a command *)
Lemma check_wp (Q : fs -> Prop) F s L X R T O : (unfinished F = None \/ X = []) -> (forall G, same_shown F G -> Q G) -> Forall Q L ->
  wp consistency_check (fun o _ e' => Forall Q (e_log e') /\ same_shown F (e_fs e') /\ match o with Ret _ => unfinished (e_fs e') = None | _ => True end) s (mkE F L X R T O).
Proof.
  intros HX HQ HL. unfold consistency_check, read_general, got. apply wp_bind, wp_bind, wp_bind. apply wp_read_attr. intros X1 r HX1 Hr. destruct r as [a|]; [|cbn; split; [exact HL|]; split; [apply same_refl|exact Logic.I]].
  assert (Ha : fattr F DC_FILE DC_GENERAL_ATTR = Some a) by (destruct Hr; [discriminate|symmetry; assumption]). apply wp_ret, wp_ret. destruct (attr_flags a) as (A2 & A1 & A0). unfold ga_flags, ga_index, ga_numbers. rewrite A2, A1, A0.
  assert (Hu : unfinished F = if Z.land (nth 2 a 0) 3 =? 0 then None else Some (nth 1 a 0)) by (unfold unfinished; change (fattr F "ctap_dc" 0) with (fattr F DC_FILE DC_GENERAL_ATTR); rewrite Ha; reflexivity).
  destruct (Z.land (nth 2 a 0) 3 =? 0) eqn:Ef; [apply wp_ret; cbn [e_log e_fs]; split; [exact HL|]; split; [apply same_refl|exact Hu]|].
  destruct HX as [HX|HX]; [rewrite Hu in HX; discriminate|]. destruct (HX1 HX) as (-> & _). set (idx := nth 1 a 0) in *. cbv zeta.
  assert (Hne : exists f, F DC_FILE = Some f) by (unfold fattr in Ha; destruct (F DC_FILE) as [f|]; [eauto|discriminate]). destruct Hne as (f & Hf).
  apply wp_bind. apply wp_get_file_size. intros X2 r HX2 _. destruct (HX2 eq_refl) as (-> & ->). unfold fsize. rewrite Hf.
  assert (W : forall s1 F1 L1 X1 R1 T1 O1, Forall Q L1 -> unfinished F1 = Some idx -> credential F1 idx = None -> (forall j, j <> idx -> credential F1 j = credential F j) -> F1 DC_FILE <> None ->
     wp (n <- count_recs DC_META_FILE META_SIZE ;; drop_slot (Z.to_nat n) 0 idx ;;; must (write_attr DC_FILE DC_GENERAL_ATTR [if Z.testbit (nth 2 a 0) 1 then u8 (nth 0 a 0 - 1) else nth 0 a 0; idx; Z.land (nth 2 a 0) 252]))
       (fun o _ e' => Forall Q (e_log e') /\ same_shown F (e_fs e') /\ match o with Ret _ => unfinished (e_fs e') = None | _ => True end) s1 (mkE F1 L1 X1 R1 T1 O1)).
  { clear s L HL X HX HX1 HX2 R T O. intros s F1 L X R T O HL Hu1 Hc Hj Hn1.
    assert (S1 : same_shown F F1). { intros j. rewrite (shown_some F1 idx j Hu1), (shown_some F idx j) by exact Hu. destruct (idx =? j) eqn:E; [reflexivity|]. apply Hj. lia. }
    assert (HQ1 : forall G, dc_as F1 G -> Q G) by (intros G HG; apply HQ; eapply same_trans; [exact S1|apply same_dc; exact HG]).
    apply wp_bind. eapply wp_mono. { apply (kp_bind anyc (dc_as F1) Q (got (get_file_size DC_META_FILE)) (fun z => ret (z / META_SIZE))); [apply kp_got, kp_size|intros z; apply kp_ret|]. split; [exact Logic.I|]. split; [reflexivity|exact HL]. }
    intros [n|w| |] s1 e1 (_ & H1 & H2); try (split; [exact H2|]; split; [eapply same_trans; [exact S1|apply same_dc; exact H1]|exact Logic.I]).
    apply wp_bind. eapply wp_mono. { apply (kp_drop_slot anyc (dc_as F1) Q HQ1); [apply dc_indep; discriminate|]. split; [exact Logic.I|]. split; assumption. }
    clear s1 e1 H1 H2. intros [u|w| |] s1 e1 (_ & H1 & H2); try (split; [exact H2|]; split; [eapply same_trans; [exact S1|apply same_dc; exact H1]|exact Logic.I]).
    destruct e1 as [F2 L2 X2 R2 T2 O2]. cbn [e_fs e_log] in *. unfold must. apply wp_bind. apply wp_write_attr; intros Hn2 X3 _; [|apply wp_guard; intros Eg; [discriminate|]; cbn; split; [exact H2|]; split; [eapply same_trans; [exact S1|apply same_dc; exact H1]|exact Logic.I]].
    assert (Hu3 : unfinished (fsetattr F2 DC_FILE DC_GENERAL_ATTR [if Z.testbit (nth 2 a 0) 1 then u8 (nth 0 a 0 - 1) else nth 0 a 0; idx; Z.land (nth 2 a 0) 252]) = None).
    { rewrite unfinished_attr by exact Hn2. rewrite <- Z.land_assoc. change (Z.land 252 3) with 0. rewrite Z.land_0_r. reflexivity. }
    set (F3 := fsetattr F2 _ _ _) in *. assert (S3 : same_shown F F3).
    { intros j. rewrite (shown_none F3 j Hu3), (shown_some F idx j) by exact Hu. unfold F3. rewrite cred_attr. unfold credential at 1. rewrite (cell_dc F1 F2 j H1). fold (credential F1 j). destruct (idx =? j) eqn:E; [assert (idx = j) as <- by lia; exact Hc|]. apply Hj. lia. }
    apply wp_guard; intros Eg; [|discriminate]. cbn [e_log e_fs]. split; [constructor; [apply HQ; exact S3|exact H2]|]. split; [exact S3|exact Hu3]. }
  apply wp_bind. destruct ((idx + 1) * DC_SIZE <=? zlen (f_data f)) eqn:Ez.
  2: { apply wp_ret. apply W; [exact HL|exact Hu| |reflexivity|congruence]. unfold credential, cell, fdata. change "ctap_dc" with DC_FILE. rewrite Hf. change DC_SIZE with 300 in Ez. rewrite Ez, andb_false_r. reflexivity. }
  apply wp_bind. unfold read_rec, got. apply wp_bind, wp_bind. apply wp_read_file. intros X3 r HX3 Hr3. destruct r as [d|]; [|cbn; split; [exact HL|]; split; [apply same_refl|exact Logic.I]]. apply wp_ret.
  destruct (zlen d =? DC_SIZE) eqn:Ed; [|cbn; split; [exact HL|]; split; [apply same_refl|exact Logic.I]]. apply Z.eqb_eq in Ed. change DC_SIZE with 300 in *. destruct Hr3 as [Hr3|Hr3]; [discriminate|]. symmetry in Hr3. destruct (cell_read F idx d Hr3 Ed) as (Hc & Hi). apply wp_ret.
  destruct (dc_deleted d) eqn:Edd; [apply wp_ret; apply W; [exact HL|exact Hu|rewrite (cred_cell F idx d Hc), Edd; reflexivity|reflexivity|congruence]|].
  destruct (HX3 eq_refl) as (-> & _). destruct (deleted_delete d Ed) as (D1 & D2). pose proof (room_cell F idx d Hc) as Hroom.
  assert (L0 : lcreate F L DC_FILE = L) by (unfold lcreate; rewrite Hf; reflexivity).
  unfold must. apply wp_bind. apply wp_write_file; [intros X4 _|intros Hx; congruence|intros Hx; congruence]. rewrite L0. apply wp_guard; intros Eg; [|discriminate].
  assert (Hu1 : unfinished (fwrite F DC_FILE (dc_delete d) (idx * 300) false) = Some idx) by (rewrite unfinished_write by assumption; exact Hu).
  apply W; [| |rewrite cred_write by assumption; rewrite Z.eqb_refl, D1; reflexivity|intros j Hj; rewrite cred_write by assumption; destruct (j =? idx) eqn:E; [lia|reflexivity]|].
  - constructor; [|exact HL]. apply HQ. intros j. rewrite (shown_some _ idx j Hu1), (shown_some F idx j) by exact Hu. destruct (idx =? j) eqn:E; [reflexivity|]. rewrite cred_write by assumption. destruct (j =? idx) eqn:E2; [lia|reflexivity].
  - exact Hu1.
  - rewrite (fwrite_dc F idx _ f Hf) by (intros E; rewrite E in D2; discriminate). discriminate.
Qed.
(** *** makeCredential *)
Definition img_mc (q : mcreq) (F F' : fs) : Prop := same_shown F F' \/ mc_rk q = 1 /\ ((exists id, created q id F F') \/ lost q F F').
Lemma account_dec q d : account q d <-> beqb (mc_rphash q) (id_rp (dc_id d)) && (u_size (mc_user q) =? u_size (dc_user d)) &&
              beqb (slice 0 (u_size (mc_user q)) (u_id (mc_user q))) (slice 0 (u_size (mc_user q)) (u_id (dc_user d))) = true.
Proof.
  unfold account. rewrite !andb_true_iff. split.
  - intros (H1 & H2 & H3). rewrite H1, H2, H3, !beqb_refl. split; [split; [reflexivity|lia]|reflexivity].
  - intros ((H1 & H2) & H3). apply beqb_eq in H1, H3. split; [congruence|]. split; [lia|congruence].
Qed.
Definition found (q : mcreq) (F : fs) (n : Z) (r : Z * Z * bytes) : Prop :=
  let '(pos, fd, old) := r in zlen old = 300 /\ 0 <= pos /\
    (pos < n /\ (exists d, credential F pos = Some d /\ account q d) \/ pos = n /\ forall j d, 0 <= j < n -> credential F j = Some d -> ~ account q d) /\
    (fd = 64 \/ 0 <= fd < n /\ cell F fd <> None /\ credential F fd = None).
Lemma find_slot_spec q F n pos fd buf s e : e_fs e = F -> zlen buf = 300 -> 0 <= pos -> (forall j d, 0 <= j < pos -> credential F j = Some d -> ~ account q d) -> (fd = 64 \/ 0 <= fd < pos /\ cell F fd <> None /\ credential F fd = None) ->
  wp (find_slot n pos fd (mc_rphash q) (mc_user q) buf) (reads F s (found q F (pos + Z.of_nat n))) s e.
Proof.
  revert pos fd buf e. induction n as [|n IH]; intros pos fd buf e He Hb Hp Hj Hfd; cbn [find_slot].
  - apply rd_ret; [exact He|]. cbn [found]. split; [exact Hb|]. split; [exact Hp|]. replace (pos + Z.of_nat 0) with pos by lia. split; [right; split; [reflexivity|exact Hj]|exact Hfd].
  - eapply rd_bind; [apply rd_rec; exact He|]. intros d e1 He1 (Hd & Hl). change DC_SIZE with 300 in *. destruct (cell_read F pos d Hd Hl) as (Hc & _). pose proof (cred_cell F pos d Hc) as Hcr. replace (pos + Z.of_nat (S n)) with ((pos + 1) + Z.of_nat n) by lia.
    destruct (dc_deleted d) eqn:Ed.
    + apply IH; [exact He1|exact Hl|lia| |].
      * intros j dj Hr. destruct (Z.eq_dec j pos) as [->|]; [rewrite Hcr; discriminate|]. apply Hj. lia.
      * change MAX_DC_NUM with 64. destruct (fd =? 64) eqn:E; [right; split; [lia|]; split; [congruence|exact Hcr]|]. destruct Hfd as [->|(H1 & H2)]; [discriminate|]. right. split; [lia|exact H2].
    + destruct (beqb _ _ && _ && _) eqn:Ea.
      * apply rd_ret; [exact He1|]. cbn [found]. split; [exact Hl|]. split; [exact Hp|]. split; [left; split; [lia|]; exists d; split; [exact Hcr|apply account_dec; exact Ea]|]. destruct Hfd as [->|(H1 & H2)]; [left; reflexivity|right; split; [lia|exact H2]].
      * apply IH; [exact He1|exact Hl|lia| |].
        -- intros j dj Hr Hdj. destruct (Z.eq_dec j pos) as [->|]; [|apply (Hj j); [lia|exact Hdj]]. rewrite Hcr in Hdj. injection Hdj as <-. intros Hac. apply account_dec in Hac. congruence.
        -- destruct Hfd as [->|(H1 & H2)]; [left; reflexivity|right; split; [lia|exact H2]].
Qed.
Lemma dc_make_parts id user lbk bl blob : zlen id = 70 -> zlen user = 195 -> zlen blob = 32 ->
  let d := dc_make id user false lbk bl blob in zlen d = 300 /\ dc_deleted d = false /\ dc_id d = id /\ dc_user d = user.
Proof.
  intros H1 H2 H3 d. unfold d, dc_make. split; [rewrite !zlen_app, H1, H2, H3; reflexivity|]. split; [|split].
  - unfold dc_deleted. rewrite app_assoc, app_nth2 by (rewrite app_length; unfold zlen in *; lia). replace (265 - length (id ++ user))%nat with O by (rewrite app_length; unfold zlen in *; lia). reflexivity.
  - exact (mid [] id _ 0 70 eq_refl H1).
  - unfold dc_user. apply mid; assumption.
Qed.
Lemma zlen_over blob d : zlen d = 300 -> zlen blob <= 32 -> zlen (overlay blob (dc_blob d)) = 32.
Proof. intros H1 H2. unfold overlay, dc_blob. rewrite zlen_app, zlen_skipn, zlen_slice by lia. unfold zlen in *. lia. Qed.
Lemma kgo (Q : fs -> Prop) (F : fs) s e : e_fs e DC_FILE = F DC_FILE -> Forall Q (e_log e) -> kgood anyc (dc_as F) Q s e.
Proof. intros H1 H2. split; [exact Logic.I|]. split; assumption. Qed.
Lemma store_mc q id F s L X R T O : mc_rk q = 1 -> unfinished F = None -> zlen id = 70 -> id_rp id = mc_rphash q -> zlen (mc_user q) = 195 -> Forall (img_mc q F) L ->
  wp (mc_store q id) (fun o _ e' => Forall (img_mc q F) (e_log e') /\ img_mc q F (e_fs e') /\ match o with Ret _ => created q id F (e_fs e') | _ => True end) s (mkE F L X R T O).
Proof.
  intros Hrk Hu Hid Hrp Hus HL. assert (I0 : img_mc q F F) by (left; apply same_refl).
  assert (KQ : forall {A} (m : Mc A) s e, keep anyc (fun G => G = F) (img_mc q F) m -> e_fs e = F -> Forall (img_mc q F) (e_log e) -> wp m (fun _ _ e' => e_fs e' = F /\ Forall (img_mc q F) (e_log e')) s e).
  { intros A m s1 e1 Hm H1 H2. eapply wp_mono; [apply Hm; split; [exact Logic.I|]; split; assumption|]. intros o s2 e2 (_ & H). exact H. }
  unfold mc_store. apply wp_bind. eapply wp_mono.
  { apply wp_and; [apply (rd_count DC_FILE DC_SIZE F); reflexivity|]. apply KQ; [|reflexivity|exact HL]. unfold count_recs. apply kp_bind; [apply kp_got, kp_size|intros; apply kp_ret]. }
  clear L HL X R T O. intros [n|w| |] s1 e1 (Hr & He & HL); try (split; [exact HL|]; rewrite He; split; [exact I0|exact Logic.I]). destruct Hr as ((z & Hz & ->) & -> & _). change DC_SIZE with 300. change (Z.of_nat 64) with 64.
  assert (Hfl : exists f, F DC_FILE = Some f /\ z = zlen (f_data f)) by (unfold fsize in Hz; destruct (F DC_FILE) as [f|]; [injection Hz as <-; eauto|discriminate]). destruct Hfl as (f & Hf & Hzf). pose proof (zlen_nonneg (f_data f)) as Hz0.
  set (n := z / 300). assert (Hn : 0 <= n /\ n * 300 <= z < (n + 1) * 300) by (unfold n; pose proof (Z.div_mod z 300); pose proof (Z.mod_pos_bound z 300); lia).
  apply wp_bind. eapply wp_mono.
  { apply wp_and; [apply (find_slot_spec q F (Z.to_nat n) 0 MAX_DC_NUM (zeros 300)); [exact He|reflexivity|lia|intros; lia|left; reflexivity]|]. apply KQ; [apply kp_find_slot|exact He|exact HL]. }
  clear e1 He HL. intros [[[pos fd] old]|w| |] s1 e1 (Hr & He & HL); try (split; [exact HL|]; rewrite He; split; [exact I0|exact Logic.I]). destruct Hr as (Hr & -> & _). rewrite Z.add_0_l, Z2Nat.id in Hr by lia. cbn [found] in Hr.
  destruct Hr as (Hold & Hp0 & Hpos & Hfd). cbv zeta. change MAX_DC_NUM with 64. set (k := if (pos =? n) && negb (fd =? 64) then fd else pos).
  apply wp_bind. apply wp_guard; intros Ek; [|cbn; rewrite He; split; [exact HL|]; split; [exact I0|exact Logic.I]].
  set (bl := match mc_blob q with Some b => if zlen b <=? 32 then b else [] | None => [] end). assert (Hbl : zlen bl <= 32) by (unfold bl; destruct (mc_blob q) as [b|]; [|discriminate]; destruct (zlen b <=? 32) eqn:E; [lia|discriminate]). clearbody bl.
  destruct (dc_make_parts id (mc_user q) (if mc_lbk q then 1 else 0) (zlen bl) (overlay bl (dc_blob old)) Hid Hus (zlen_over bl old Hold Hbl)) as (R1 & R2 & R3 & R4).
  set (r := dc_make _ _ _ _ _ _) in *. clearbody r.
  (* the slot *)
  assert (Hall : forall j d, n <= j -> credential F j <> Some d). { intros j d Hj. unfold credential, cell, fdata. change "ctap_dc" with DC_FILE. rewrite Hf, <- Hzf. destruct ((j + 1) * 300 <=? z) eqn:E; [lia|]. rewrite andb_false_r. discriminate. }
  assert (Hslot : has_room F k /\ (credential F k = None /\ no_account q F \/ exists old, credential F k = Some old /\ account q old)).
  { assert (Hno : pos = n -> (forall j d, 0 <= j < n -> credential F j = Some d -> ~ account q d) -> no_account q F).
    { intros _ H j d Hd. rewrite shown_none in Hd by exact Hu. destruct (Z_lt_dec j n) as [Hlt|Hge]; [|elim (Hall j d); [lia|exact Hd]]. destruct (Z_lt_dec j 0) as [Hneg|]; [|apply (H j); [lia|exact Hd]].
      unfold credential, cell in Hd. destruct (fdata F "ctap_dc"); [|discriminate]. destruct (0 <=? j) eqn:E0; [lia|discriminate]. }
    assert (Hroom : forall k, 0 <= k <= n -> has_room F k). { intros k' Hk'. split; [lia|]. unfold fdata. change "ctap_dc" with DC_FILE. rewrite Hf. lia. }
    unfold k. destruct Hpos as [(H1 & H2)|(H1 & H2)].
    - destruct (pos =? n) eqn:E; [lia|]. cbn [andb]. split; [apply Hroom; lia|right; exact H2].
    - rewrite H1, Z.eqb_refl. cbn [andb]. destruct (fd =? 64) eqn:E; cbn [negb].
      + split; [apply Hroom; lia|left]. split; [|apply Hno; auto]. destruct (credential F n) as [d|] eqn:Ec; [|reflexivity]. elim (Hall n d); [lia|exact Ec].
      + destruct Hfd as [->|(H3 & H4 & H5)]; [discriminate|]. split; [apply Hroom; lia|left]. split; [exact H5|apply Hno; auto]. }
  clearbody k. destruct Hslot as (Hroom & Hslot).
  destruct e1 as [F1 L X R T O]. cbn [e_fs e_log] in He, HL. subst F1. apply wp_bind. unfold read_general, got. apply wp_bind, wp_bind. apply wp_read_attr. intros X1 ra _ Hra. destruct ra as [a|]; [|cbn; split; [exact HL|]; split; [exact I0|exact Logic.I]].
  assert (Ha : fattr F DC_FILE DC_GENERAL_ATTR = Some a) by (destruct Hra; [discriminate|symmetry; assumption]). apply wp_ret, wp_ret. destruct (attr_flags a) as (A2 & A1 & A0). unfold ga_flags, ga_index, ga_numbers. rewrite A2, A0.
  assert (Hfl : Z.land (nth 2 a 0) 3 = 0) by (unfold unfinished in Hu; change (fattr F "ctap_dc" 0) with (fattr F DC_FILE DC_GENERAL_ATTR) in Hu; rewrite Ha in Hu; destruct (Z.land (nth 2 a 0) 3 =? 0) eqn:E; [lia|discriminate]).
  destruct (lor_flags (nth 2 a 0) 1 254 (or_introl (conj eq_refl eq_refl)) Hfl) as (B1 & B2). set (fl := Z.lor (nth 2 a 0) 1) in *. clearbody fl.
  assert (Hne : F DC_FILE <> None) by congruence.
  (* the states in which the slot shows nothing *)
  assert (Hgap : forall G, unfinished G = Some k -> (forall j, j <> k -> credential G j = credential F j) -> img_mc q F G).
  { intros G HG1 HG2. assert (HS : only_at F G k None).
    { split; [rewrite (shown_some G k k HG1), Z.eqb_refl; reflexivity|]. intros j Hj. rewrite (shown_some G k j HG1), (shown_none F j Hu). destruct (k =? j) eqn:E; [lia|]. apply HG2. exact Hj. }
    destruct Hslot as [(H1 & _)|(od & H1 & H2)].
    - left. intros j. destruct (Z.eq_dec j k) as [->|Hj]; [rewrite (proj1 HS), (shown_none F k Hu); congruence|apply (proj2 HS); exact Hj].
    - right. split; [exact Hrk|]. right. exists k, od. rewrite (shown_none F k Hu). auto. }
  apply wp_bind. unfold must at 1. apply wp_bind. apply wp_write_attr; intros _ X2 _; [|apply wp_guard; intros Eg; [discriminate|]; cbn; split; [exact HL|]; split; [exact I0|exact Logic.I]]. apply wp_guard; intros Eg; [clear Eg|discriminate].
  set (F1 := fsetattr F _ _ _). assert (U1 : unfinished F1 = Some k) by (unfold F1; rewrite unfinished_attr by exact Hne; destruct (Z.land fl 3 =? 0) eqn:E; [lia|reflexivity]).
  assert (C1 : forall j, credential F1 j = credential F j) by (intros j; apply cred_attr). assert (Rm1 : has_room F1 k) by (apply room_attr, Hroom).
  assert (N1 : exists f1, F1 DC_FILE = Some f1) by (destruct (room_file F1 k Rm1) as (f1 & H & _); eauto). destruct N1 as (f1 & Hf1). clearbody F1.
  assert (I1 : img_mc q F F1) by (apply Hgap; [exact U1|intros; apply C1]).
  apply wp_bind. unfold must at 1. apply wp_bind. assert (LC : forall L, lcreate F1 L DC_FILE = L) by (intros L0; unfold lcreate; rewrite Hf1; reflexivity). assert (FC : fcreate F1 DC_FILE = F1) by (unfold fcreate; rewrite Hf1; reflexivity).
  apply wp_write_file; [intros X3 _|intros _ X3|intros _ X3]; rewrite ?LC, ?FC.
  2,3: apply wp_guard; intros Eg; [discriminate|]; cbn [e_log e_fs]; split; [constructor; assumption|]; split; [exact I1|exact Logic.I].
  apply wp_guard; intros Eg; [clear Eg|discriminate]. set (F2 := fwrite F1 DC_FILE r (k * 300) false).
  assert (U2 : unfinished F2 = Some k) by (unfold F2; rewrite unfinished_write by assumption; exact U1).
  assert (C2 : forall j, credential F2 j = if j =? k then Some r else credential F j). { intros j. unfold F2. rewrite cred_write by assumption. rewrite R2. destruct (j =? k); [reflexivity|apply C1]. }
  clearbody F2. assert (I2 : forall G, dc_as F2 G -> img_mc q F G).
  { intros G HG. apply Hgap; [rewrite (unfinished_dc F2 G HG); exact U2|]. intros j Hj. unfold credential at 1. rewrite (cell_dc F2 G j HG). fold (credential F2 j). rewrite C2. destruct (j =? k) eqn:E; [lia|reflexivity]. }
  assert (HL2 : Forall (img_mc q F) (F2 :: F1 :: L)) by (constructor; [apply I2; reflexivity|]; constructor; assumption).
  apply wp_bind. eapply wp_mono. { apply (kp_bind anyc (dc_as F2) (img_mc q F) (got (get_file_size DC_META_FILE)) (fun z => ret (z / META_SIZE))); [apply kp_got, kp_size|intros z0; apply kp_ret|]. apply kgo; [reflexivity|exact HL2]. }
  intros [m|w| |] s3 e3 (_ & H1 & H2); try (split; [exact H2|]; split; [apply I2; exact H1|exact Logic.I]).
  apply wp_bind. eapply wp_mono. { apply (kp_find_meta anyc (dc_as F2) (img_mc q F)). apply kgo; assumption. }
  clear s3 e3 H1 H2. intros [[[mp mf] sl]|w| |] s3 e3 (_ & H1 & H2); try (split; [exact H2|]; split; [apply I2; exact H1|exact Logic.I]).
  apply wp_bind. eapply wp_mono. { refine (kp_must anyc (dc_as F2) (img_mc q F) _ (kp_write_file anyc (dc_as F2) (img_mc q F) I2 DC_META_FILE _ _ _ (dc_indep F2 DC_META_FILE _)) _ _ (kgo _ _ _ _ H1 H2)). discriminate. }
  clear s3 e3 H1 H2. intros [u|w| |] s3 e3 (_ & H1 & H2); try (split; [exact H2|]; split; [apply I2; exact H1|exact Logic.I]).
  destruct e3 as [F3 L3 X4 R3' T3 O3]. cbn [e_fs e_log] in H1, H2. unfold must. apply wp_bind. apply wp_write_attr; intros Hn3 X5 _; [|apply wp_guard; intros Eg; [discriminate|]; cbn; split; [exact H2|]; split; [apply I2; exact H1|exact Logic.I]]. apply wp_guard; intros Eg; [clear Eg|discriminate].
  set (F4 := fsetattr F3 _ _ _). assert (U4 : unfinished F4 = None) by (unfold F4; rewrite unfinished_attr by exact Hn3; rewrite B2; reflexivity).
  assert (C4 : forall j, credential F4 j = if j =? k then Some r else credential F j). { intros j. unfold F4. rewrite cred_attr. unfold credential at 1. rewrite (cell_dc F2 F3 j H1). fold (credential F2 j). apply C2. }
  clearbody F4. assert (HC : created q id F F4).
  { exists k, r. split; [split|].
    - rewrite (shown_none F4 k U4), C4, Z.eqb_refl. reflexivity.
    - intros j Hj. rewrite (shown_none F4 j U4), C4, (shown_none F j Hu). destruct (j =? k) eqn:E; [lia|reflexivity].
    - split; [exact R3|]. split; [exact R4|]. split; [exact Hrp|]. rewrite (shown_none F k Hu). exact Hslot. }
  assert (I4 : img_mc q F F4) by (right; split; [exact Hrk|left; exists id; exact HC]). cbn [e_log e_fs]. split; [constructor; [exact I4|exact H2]|]. split; [exact I4|exact HC].
Qed.
(** *** Deleting and updating *)
Definition img_cm (q : cmreq) (F F' : fs) : Prop := same_shown F F' \/ cm_sub q = 6 /\ deleted q F F' \/ cm_sub q = 7 /\ updated q F F'.
Lemma find_id_wp (Q : fs -> Prop) F n i id s e : e_fs e = F -> Forall Q (e_log e) ->
  wp (find_id n i id) (fun o _ e' => e_fs e' = F /\ Forall Q (e_log e') /\ match o with Ret (k, d) => cell F k = Some d /\ dc_deleted d = false /\ dc_id d = id | _ => True end) s e.
Proof.
  revert i s e. induction n as [|n IH]; intros i s e He HL; cbn [find_id]; [apply wp_bind, wp_modify; cbn; auto|]. apply wp_bind. eapply wp_mono.
  { apply wp_and; [apply rd_rec; exact He|apply (kp_bind anyc (fun G => G = F) Q (got (read_file DC_FILE (i * DC_SIZE) DC_SIZE)) (fun d => if zlen d =? DC_SIZE then ret d else ub)); [apply kp_got, kp_read_file|intros d; destruct (zlen d =? DC_SIZE); [apply kp_ret|apply kp_ub]|split; [exact Logic.I|split; assumption]]]. }
  intros [d|w| |] s1 e1 (Hr & _ & H1 & H2); try (split; [exact H1|]; split; [exact H2|exact Logic.I]). destruct Hr as ((Hd & Hl) & _ & _). change DC_SIZE with 300 in *. destruct (cell_read F i d Hd Hl) as (Hc & _).
  destruct (dc_deleted d || negb (beqb (dc_id d) id)) eqn:E; [apply IH; assumption|]. apply orb_false_iff in E. destruct E as (E1 & E2). apply wp_bind, wp_modify, wp_ret. split; [exact H1|]. split; [exact H2|]. split; [exact Hc|]. split; [exact E1|]. apply beqb_eq. destruct (beqb (dc_id d) id); [reflexivity|discriminate].
Qed.
Ltac out3 := match goal with H2 : Forall _ (e_log ?e), H1 : e_fs ?e = _ |- Forall _ (e_log ?e) /\ _ => split; [exact H2|]; split; [rewrite ?H1; auto|exact Logic.I] end.
(** The steps before a credential is found *)
Lemma find_wp q n F s e (Q : fs -> Prop) {A} (k : Z * bytes -> Mc A) (R : out A -> ctap -> env -> Prop) : e_fs e = F -> Forall Q (e_log e) ->
  (forall o s' e', e_fs e' = F -> Forall Q (e_log e') -> match o with Ret _ => False | _ => True end -> R o s' e') ->
  (forall i d s' e', e_fs e' = F -> Forall Q (e_log e') -> cell F i = Some d -> dc_deleted d = false -> dc_id d = cm_id q -> wp (k (i, d)) R s' e') ->
  wp (ok <- cp_verify_rp (id_rp (cm_id q)) ;; guard ok ERR_PIN_AUTH_INVALID ;;; guard (negb (n =? 0)) ERR_NO_CREDENTIALS ;;; m <- count_recs DC_FILE DC_SIZE ;; r <- find_id (Z.to_nat (u8 m)) 0 (cm_id q) ;; k r) R s e.
Proof.
  intros He HL HR Hk. assert (KQ : forall {B} (m : Mc B) (j : B -> Mc A) s e, keep anyc (fun G => G = F) Q m -> e_fs e = F -> Forall Q (e_log e) -> (forall b s' e', e_fs e' = F -> Forall Q (e_log e') -> wp (j b) R s' e') -> wp (bind m j) R s e).
  { intros B m j s1 e1 Hm H1 H2 Hj. apply wp_bind. eapply wp_mono; [apply Hm; split; [exact Logic.I|split; assumption]|]. intros [b|w| |] s2 e2 (_ & H3 & H4); [apply Hj; assumption|..]; apply HR; try assumption; exact Logic.I. }
  apply KQ; [unfold cp_verify_rp; apply kp_bind; [apply kp_get|intros; apply kp_ret]|exact He|exact HL|]. intros ok s1 e1 H1 H2. apply KQ; [apply kp_guard|exact H1|exact H2|]. clear s1 e1 H1 H2. intros _ s1 e1 H1 H2. apply KQ; [apply kp_guard|exact H1|exact H2|]. clear s1 e1 H1 H2. intros _ s1 e1 H1 H2.
  apply KQ; [unfold count_recs; apply kp_bind; [apply kp_got, kp_size|intros; apply kp_ret]|exact H1|exact H2|]. clear s1 e1 H1 H2. intros m s1 e1 H1 H2.
  apply wp_bind. eapply wp_mono; [apply (find_id_wp Q F); assumption|]. intros [[i d]|w| |] s2 e2 (H3 & H4 & H5); try (apply HR; try assumption; exact Logic.I). destruct H5 as (H5 & H6 & H7). apply Hk; assumption.
Qed.
Lemma delete_wp q n F s e : cm_sub q = 6 -> unfinished F = None -> e_fs e = F -> Forall (img_cm q F) (e_log e) ->
  wp (cm_delete q n) (fun o _ e' => Forall (img_cm q F) (e_log e') /\ img_cm q F (e_fs e') /\ match o with Ret _ => deleted q F (e_fs e') | _ => True end) s e.
Proof.
  intros Hs Hu He HL. assert (I0 : img_cm q F F) by (left; apply same_refl). unfold cm_delete. apply (find_wp q n F s e (img_cm q F)); [exact He|exact HL| |].
  { intros o s1 e1 H1 H2 Ho. split; [exact H2|]. rewrite H1. split; [exact I0|destruct o; [destruct Ho|auto|auto|auto]]. }
  clear s e He HL. intros k d s e He HL Hc Hdd Hid. destruct (cell_len F k d Hc) as (Hl & Hk0). pose proof (room_cell F k d Hc) as Hroom. assert (Hcr : credential F k = Some d) by (rewrite (cred_cell F k d Hc), Hdd; reflexivity).
  destruct (deleted_delete d Hl) as (D1 & D2). destruct (room_file F k Hroom) as (f & Hf & _).
  destruct e as [F1 L X R T O]. cbn [e_fs e_log] in He, HL. subst F1. apply wp_bind. unfold read_general, got. apply wp_bind, wp_bind. apply wp_read_attr. intros X1 ra _ Hra. destruct ra as [a|]; [|cbn; split; [exact HL|]; split; [exact I0|exact Logic.I]].
  assert (Ha : fattr F DC_FILE DC_GENERAL_ATTR = Some a) by (destruct Hra; [discriminate|symmetry; assumption]). apply wp_ret, wp_ret. destruct (attr_flags a) as (A2 & A1 & A0). unfold ga_flags, ga_index, ga_numbers. rewrite A2, A0.
  assert (Hfl : Z.land (nth 2 a 0) 3 = 0) by (unfold unfinished in Hu; change (fattr F "ctap_dc" 0) with (fattr F DC_FILE DC_GENERAL_ATTR) in Hu; rewrite Ha in Hu; destruct (Z.land (nth 2 a 0) 3 =? 0) eqn:E; [lia|discriminate]).
  destruct (lor_flags (nth 2 a 0) 2 253 (or_intror (conj eq_refl eq_refl)) Hfl) as (B1 & B2). cbv zeta. set (fl := Z.lor (nth 2 a 0) 2) in *. clearbody fl.
  assert (Hne : F DC_FILE <> None) by congruence.
  assert (Hgap : forall G, unfinished G = Some k -> (forall j, j <> k -> credential G j = credential F j) -> deleted q F G).
  { intros G HG1 HG2. exists k, d. rewrite (shown_none F k Hu). split; [exact Hcr|]. split; [exact Hid|]. split; [rewrite (shown_some G k k HG1), Z.eqb_refl; reflexivity|]. intros j Hj. rewrite (shown_some G k j HG1), (shown_none F j Hu). destruct (k =? j) eqn:E; [lia|]. apply HG2. exact Hj. }
  assert (Himg : forall G, deleted q F G -> img_cm q F G) by (intros G HG; right; left; auto).
  apply wp_bind. unfold must at 1. apply wp_bind. apply wp_write_attr; intros _ X2 _; [|apply wp_guard; intros Eg; [discriminate|]; cbn; split; [exact HL|]; split; [exact I0|exact Logic.I]]. apply wp_guard; intros Eg; [clear Eg|discriminate].
  set (F1 := fsetattr F _ _ _). assert (U1 : unfinished F1 = Some k) by (unfold F1; rewrite unfinished_attr by exact Hne; destruct (Z.land fl 3 =? 0) eqn:E; [lia|reflexivity]).
  assert (C1 : forall j, credential F1 j = credential F j) by (intros j; apply cred_attr). assert (Rm1 : has_room F1 k) by (apply room_attr, Hroom).
  assert (N1 : exists f1, F1 DC_FILE = Some f1) by (destruct (room_file F1 k Rm1) as (f1 & H & _); eauto). destruct N1 as (f1 & Hf1). clearbody F1.
  assert (I1 : img_cm q F F1) by (apply Himg, Hgap; [exact U1|intros; apply C1]).
  apply wp_bind. unfold must at 1. apply wp_bind. assert (LC : forall L, lcreate F1 L DC_FILE = L) by (intros L0; unfold lcreate; rewrite Hf1; reflexivity). assert (FC : fcreate F1 DC_FILE = F1) by (unfold fcreate; rewrite Hf1; reflexivity).
  apply wp_write_file; [intros X3 _|intros _ X3|intros _ X3]; rewrite ?LC, ?FC.
  2,3: apply wp_guard; intros Eg; [discriminate|]; cbn [e_log e_fs]; split; [constructor; assumption|]; split; [exact I1|exact Logic.I].
  apply wp_guard; intros Eg; [clear Eg|discriminate]. change DC_SIZE with 300. set (F2 := fwrite F1 DC_FILE (dc_delete d) (k * 300) false).
  assert (U2 : unfinished F2 = Some k) by (unfold F2; rewrite unfinished_write by assumption; exact U1).
  assert (C2 : forall j, credential F2 j = if j =? k then None else credential F j). { intros j. unfold F2. rewrite cred_write by assumption. rewrite D1. destruct (j =? k); [reflexivity|apply C1]. }
  clearbody F2. assert (I2 : forall G, dc_as F2 G -> img_cm q F G).
  { intros G HG. apply Himg, Hgap; [rewrite (unfinished_dc F2 G HG); exact U2|]. intros j Hj. unfold credential at 1. rewrite (cell_dc F2 G j HG). fold (credential F2 j). rewrite C2. destruct (j =? k) eqn:E; [lia|reflexivity]. }
  assert (HL2 : Forall (img_cm q F) (F2 :: F1 :: L)) by (constructor; [apply I2; reflexivity|]; constructor; assumption).
  apply wp_bind. eapply wp_mono. { apply (kp_bind anyc (dc_as F2) (img_cm q F) (got (get_file_size DC_META_FILE)) (fun z => ret (z / META_SIZE))); [apply kp_got, kp_size|intros z0; apply kp_ret|]. apply kgo; [reflexivity|exact HL2]. }
  intros [m|w| |] s3 e3 (_ & H1 & H2); try (split; [exact H2|]; split; [apply I2; exact H1|exact Logic.I]).
  apply wp_bind. eapply wp_mono. { apply (kp_drop_from anyc (dc_as F2) (img_cm q F) I2); [apply dc_indep; discriminate|]. apply kgo; assumption. }
  clear s3 e3 H1 H2. intros [u|w| |] s3 e3 (_ & H1 & H2); try (split; [exact H2|]; split; [apply I2; exact H1|exact Logic.I]).
  destruct e3 as [F3 L3 X4 R3' T3 O3]. cbn [e_fs e_log] in H1, H2. unfold must. apply wp_bind. apply wp_write_attr; intros Hn3 X5 _; [|apply wp_guard; intros Eg; [discriminate|]; cbn; split; [exact H2|]; split; [apply I2; exact H1|exact Logic.I]]. apply wp_guard; intros Eg; [clear Eg|discriminate].
  set (F4 := fsetattr F3 _ _ _). assert (U4 : unfinished F4 = None) by (unfold F4; rewrite unfinished_attr by exact Hn3; rewrite B2; reflexivity).
  assert (C4 : forall j, credential F4 j = if j =? k then None else credential F j). { intros j. unfold F4. rewrite cred_attr. unfold credential at 1. rewrite (cell_dc F2 F3 j H1). fold (credential F2 j). apply C2. }
  clearbody F4. assert (HC : deleted q F F4).
  { exists k, d. rewrite (shown_none F k Hu). split; [exact Hcr|]. split; [exact Hid|]. split.
    - rewrite (shown_none F4 k U4), C4, Z.eqb_refl. reflexivity.
    - intros j Hj. rewrite (shown_none F4 j U4), C4, (shown_none F j Hu). destruct (j =? k) eqn:E; [lia|reflexivity]. }
  cbn [e_log e_fs]. split; [constructor; [apply Himg, HC|exact H2]|]. split; [apply Himg, HC|exact HC].
Qed.
Lemma update_wp q n F s e : cm_sub q = 7 -> cm_ok q -> unfinished F = None -> e_fs e = F -> Forall (img_cm q F) (e_log e) ->
  wp (cm_update q n) (fun o _ e' => Forall (img_cm q F) (e_log e') /\ img_cm q F (e_fs e') /\ match o with Ret _ => updated q F (e_fs e') | _ => True end) s e.
Proof.
  intros Hs (_ & _ & (Huz & _) & _) Hu He HL. assert (I0 : img_cm q F F) by (left; apply same_refl). unfold cm_update. apply (find_wp q n F s e (img_cm q F)); [exact He|exact HL| |].
  { intros o s1 e1 H1 H2 Ho. split; [exact H2|]. rewrite H1. split; [exact I0|destruct o; [destruct Ho|auto|auto|auto]]. }
  clear s e He HL. intros k d s e He HL Hc Hdd Hid. destruct (cell_len F k d Hc) as (Hl & Hk0). pose proof (room_cell F k d Hc) as Hroom. assert (Hcr : credential F k = Some d) by (rewrite (cred_cell F k d Hc), Hdd; reflexivity).
  destruct (room_file F k Hroom) as (f & Hf & _). destruct e as [F1 L X R T O]. cbn [e_fs e_log] in He, HL. subst F1. cbv zeta. apply wp_bind. apply wp_guard; intros Eg; [|cbn; split; [exact HL|]; split; [exact I0|exact Logic.I]].
  apply andb_true_iff in Eg. destruct Eg as (E1 & E2). apply Z.eqb_eq in E1. apply beqb_eq in E2. set (r := splice d 70 (cm_user q)).
  assert (R1 : zlen r = 300) by (unfold r; rewrite zlen_splice; lia). assert (R2 : dc_deleted r = false).
  { unfold dc_deleted, r. rewrite nth_splice by lia. replace (length (cm_user q)) with 195%nat by (unfold zlen in Huz; lia). exact Hdd. }
  assert (LC : lcreate F L DC_FILE = L) by (unfold lcreate; rewrite Hf; reflexivity). assert (FC : fcreate F DC_FILE = F) by (unfold fcreate; rewrite Hf; reflexivity).
  unfold must. apply wp_bind. apply wp_write_file; [intros X3 _|intros _ X3|intros _ X3]; rewrite ?LC, ?FC.
  2,3: apply wp_guard; intros Eg; [discriminate|]; cbn [e_log e_fs]; split; [exact HL|]; split; [exact I0|exact Logic.I].
  apply wp_guard; intros Eg; [clear Eg|discriminate]. change DC_SIZE with 300. set (F2 := fwrite F DC_FILE r (k * 300) false).
  assert (U2 : unfinished F2 = None) by (unfold F2; rewrite unfinished_write by assumption; exact Hu).
  assert (HC : updated q F F2).
  { exists k, d. rewrite (shown_none F k Hu). split; [exact Hcr|]. split; [exact Hid|]. split; [|split; [exact E1|rewrite <- E1; exact E2]]. split.
    - rewrite (shown_none F2 k U2). unfold F2. rewrite cred_write, Z.eqb_refl, R2 by assumption. reflexivity.
    - intros j Hj. rewrite (shown_none F2 j U2), (shown_none F j Hu). unfold F2. rewrite cred_write by assumption. destruct (j =? k) eqn:E; [lia|reflexivity]. }
  assert (I2 : img_cm q F F2) by (right; right; auto). cbn [e_log e_fs]. split; [constructor; [exact I2|exact HL]|]. split; [exact I2|exact HC].
Qed.
(** *** Whole commands *)
Definition failed {A} (o : out A) : Prop := match o with Ret _ => False | _ => True end.
Lemma kb {A B} (P Q : fs -> Prop) (m : Mc A) (k : A -> Mc B) (R : out B -> ctap -> env -> Prop) s e : keep anyc P Q m -> P (e_fs e) -> Forall Q (e_log e) ->
  (forall o s' e', P (e_fs e') -> Forall Q (e_log e') -> failed o -> R o s' e') ->
  (forall a s' e', P (e_fs e') -> Forall Q (e_log e') -> wp (k a) R s' e') -> wp (bind m k) R s e.
Proof.
  intros Hm H1 H2 HR Hk. apply wp_bind. eapply wp_mono; [apply Hm; split; [exact Logic.I|split; assumption]|]. intros [a|w| |] s' e' (_ & H3 & H4); [apply Hk; assumption|..]; apply HR; try assumption; exact Logic.I.
Qed.
Lemma same_sym F F' : same_shown F F' -> same_shown F' F. Proof. intros H j. symmetry. apply H. Qed.
Lemma img_mc_from q F F' G : same_shown F F' -> img_mc q F' G -> img_mc q F G.
Proof.
  intros H [H1|(H0 & [(id & H1)|H1])]; [left; eapply same_trans; eassumption|right; split; [exact H0|]..].
  - left. exists id. eapply created_from; eassumption.
  - right. eapply lost_from; eassumption.
Qed.
Lemma img_cm_from q F F' G : same_shown F F' -> img_cm q F' G -> img_cm q F G.
Proof.
  intros H [H1|[(H0 & H1)|(H0 & H1)]]; [left; eapply same_trans; eassumption|right; left|right; right]; (split; [exact H0|]); [eapply deleted_from|eapply updated_from]; eassumption.
Qed.
Lemma kc_count F (Q : fs -> Prop) : (forall G, dc_as F G -> Q G) -> keep anyc (dc_as F) Q increase_counter.
Proof.
  intros HQ. unfold increase_counter. apply kp_bind; [apply kp_got, kp_read_attr|intros v]. cbv zeta. apply kp_bind; [|intros _; apply kp_ret]. apply kp_must, kp_write_attr; [exact HQ|apply dc_indep; discriminate].
Qed.
Lemma auth_data_issued rp fl ext alg dc cp s e : hmac_sized K -> zlen rp = 32 -> -2147483648 <= alg < 2147483648 ->
  wp (make_auth_data K rp fl ext (Some (alg, dc, cp))) (on_ret (fun r => zlen (snd r) = 70 /\ id_rp (snd r) = rp /\ slice 55 70 (fst r) = snd r)) s e.
Proof.
  intros Hsz Hh Ha. unfold make_auth_data. apply wp_skip; [exact (fun _ _ _ => Logic.I)|exact (fun _ _ => Logic.I)|exact (fun _ _ => Logic.I)|]. intros c s9 e9. cbv zeta. apply wp_bind. eapply wp_mono; [apply (generate_genuine K (e_fs e9)); [exact Hsz|reflexivity|exact Hh|exact Ha]|]. intros [[[i p]|]|?| |] s10 e10 H10; try exact Logic.I. cbn [on_ret] in H10. specialize (H10 i p eq_refl).
  apply wp_bind, wp_get. apply wp_skip; [exact (fun _ _ _ => Logic.I)|exact (fun _ _ => Logic.I)|exact (fun _ _ => Logic.I)|]. intros key s11 e11. apply wp_skip; [exact (fun _ _ _ => Logic.I)|exact (fun _ _ => Logic.I)|exact (fun _ _ => Logic.I)|]. intros _ s12 e12. apply wp_ret. cbn [on_ret fst snd].
  destruct H10 as (pri & _ & Hr & H70 & _). split; [exact H70|]. split; [exact Hr|]. rewrite !app_assoc. match goal with |- slice _ _ (((?A ++ i) ++ key) ++ ext) = _ => rewrite <- (app_assoc _ key), <- (app_assoc A); apply mid; [|exact H70] end.
  rewrite !zlen_app, Hh. reflexivity.
Qed.
Lemma make_wp nfc t2 junk q F s L X R T O : hmac_sized K -> mc_ok q -> (unfinished F = None \/ X = []) -> Forall (img_mc q F) L ->
  wp (ctap_make_credential K nfc t2 junk (inr q)) (fun o _ e' => Forall (img_mc q F) (e_log e') /\ img_mc q F (e_fs e') /\
     match o with Ret v => if mc_rk q =? 1 then created q (new_id v) F (e_fs e') else same_shown F (e_fs e') | _ => True end) s (mkE F L X R T O).
Proof.
  intros Hsz (_ & (Hh & _) & (Huz & _) & _ & _ & _ & _ & Ha & _) HX HL. unfold ctap_make_credential. apply wp_bind. eapply wp_mono; [apply (check_wp (img_mc q F)); [exact HX|intros G HG; left; exact HG|exact HL]|].
  clear HX HL L X R T O s. intros [u|w| |] s e (HL & HS & Hu); try (split; [exact HL|]; split; [left; exact HS|exact Logic.I]). set (F1 := e_fs e) in *. assert (HP : dc_as F1 (e_fs e)) by reflexivity. clearbody F1.
  assert (HQ : forall G, dc_as F1 G -> same_shown F G) by (intros G HG; eapply same_trans; [exact HS|apply same_dc; exact HG]).
  assert (HQ' : forall G, dc_as F1 G -> img_mc q F G) by (intros G HG; left; apply HQ, HG).
  match goal with |- wp _ ?R0 _ _ => set (RR := R0) end.
  assert (HR : forall o s' e', dc_as F1 (e_fs e') -> Forall (img_mc q F) (e_log e') -> failed o -> RR o s' e') by (intros o s' e' H1 H2 H3; split; [exact H2|]; split; [apply HQ', H1|destruct o; [destruct H3|auto|auto|auto]]).
  apply (kb (dc_as F1) (img_mc q F)); [apply kp_touch_probe|exact HP|exact HL|exact HR|]. clear s e HP HL. intros _ s e HP HL.
  apply (kb (dc_as F1) (img_mc q F)); [apply kp_mc_auth; intros; exact Logic.I|exact HP|exact HL|exact HR|]. clear s e HP HL. intros uv s e HP HL.
  apply (kb (dc_as F1) (img_mc q F)); [apply kp_exclude|exact HP|exact HL|exact HR|]. clear s e HP HL. intros _ s e HP HL.
  apply (kb (dc_as F1) (img_mc q F)); [apply kp_ask|exact HP|exact HL|exact HR|]. clear s e HP HL. intros _ s e HP HL.
  apply (kb (dc_as F1) (img_mc q F)); [apply kp_modify; intros; exact Logic.I|exact HP|exact HL|exact HR|]. clear s e HP HL. intros _ s e HP HL.
  apply (kb (dc_as F1) (img_mc q F)); [apply kp_guard|exact HP|exact HL|exact HR|]. clear s e HP HL. intros _ s e HP HL. cbv zeta.
  apply wp_bind. eapply wp_mono. { apply wp_and; [apply auth_data_issued; [exact Hsz|exact Hh|exact Ha]|]. refine (kp_auth_data K anyc (dc_as F1) (img_mc q F) (kc_count F1 _ HQ') _ _ _ _ _ _ (kgo _ _ _ _ HP HL)). }
  clear s e HP HL. intros [[ad id]|w| |] s e (Hi & _ & HP & HL); try (apply HR; [exact HP|exact HL|exact Logic.I]). cbn [on_ret fst snd] in Hi. destruct Hi as (Hid & Hirp & Had).
  assert (Hrest : forall F2 s e, e_fs e = F2 -> Forall (img_mc q F) (e_log e) -> img_mc q F F2 -> (if mc_rk q =? 1 then created q id F F2 else same_shown F F2) ->
     wp (att <- mc_att K q ad ;; lbk <- (if mc_lbk q then k <- make_large_blob_key K (id_nonce id) ;; ret [(CInt 5, CBytes k)] else ret []) ;; ret (CMap ([(CInt 1, txt "packed"); (CInt 2, CBytes ad); (CInt 3, att)] ++ lbk))) RR s e).
  { clear s e HP HL. intros F2 s e HP HL HI HC. assert (HR2 : forall o s' e', e_fs e' = F2 -> Forall (img_mc q F) (e_log e') -> failed o -> RR o s' e') by (intros o s' e' H1 H2 H3; split; [exact H2|]; rewrite H1; split; [exact HI|destruct o; [destruct H3|auto|auto|auto]]).
    apply (kb (fun G => G = F2) (img_mc q F)); [apply kp_mc_att|exact HP|exact HL|exact HR2|]. clear s e HP HL. intros att s e HP HL.
    apply (kb (fun G => G = F2) (img_mc q F)); [unfold make_large_blob_key, read_key32; destruct (mc_lbk q); [|apply kp_ret]; apply kp_bind; [|intros; apply kp_ret]; apply kp_bind; [apply kp_bind; [apply kp_read_attr|intros; apply kp_ret]|intros kk; destruct kk; [apply kp_ret|apply kp_except]]|exact HP|exact HL|exact HR2|].
    clear s e HP HL. intros lbk s e HP HL. apply wp_ret. split; [exact HL|]. rewrite HP. split; [exact HI|]. unfold new_id. cbn [app]. rewrite Had. exact HC. }
  destruct (mc_rk q =? 1) eqn:Erk.
  - apply wp_bind. destruct e as [F2 L X R T O]. cbn [e_fs e_log] in HP, HL. pose proof (HQ F2 HP) as HS2. eapply wp_mono; [apply store_mc; [lia|rewrite (unfinished_dc F1 F2 HP); exact Hu|exact Hid|exact Hirp|exact Huz|]|].
    { eapply Forall_impl; [|exact HL]. intros G HG. apply (img_mc_from q F2 F G (same_sym _ _ HS2) HG). }
    intros o s1 e1 (H1 & H2 & H3). assert (H1' : Forall (img_mc q F) (e_log e1)) by (eapply Forall_impl; [|exact H1]; intros G HG; apply (img_mc_from q F F2 G HS2 HG)). pose proof (img_mc_from q F F2 _ HS2 H2) as H2'.
    destruct o as [u1|w| |]; try (split; [exact H1'|]; split; [exact H2'|exact Logic.I]). apply (Hrest (e_fs e1)); [reflexivity|exact H1'|exact H2'|]. eapply created_from; [exact HS2|exact H3].
  - apply wp_bind, wp_ret. apply (Hrest (e_fs e)); [reflexivity|exact HL|apply HQ', HP|apply HQ, HP].
Qed.
Lemma cm_wp t2 q F s L X R T O : cm_ok q -> (unfinished F = None \/ X = []) -> Forall (img_cm q F) L ->
  wp (ctap_credential_management K t2 (inr q)) (fun o _ e' => Forall (img_cm q F) (e_log e') /\ img_cm q F (e_fs e') /\
     match o with Ret v => if cm_sub q =? 6 then deleted q F (e_fs e') else if cm_sub q =? 7 then updated q F (e_fs e') else same_shown F (e_fs e') | _ => True end) s (mkE F L X R T O).
Proof.
  intros Hq HX HL. unfold ctap_credential_management. apply wp_bind. eapply wp_mono; [apply (check_wp (img_cm q F)); [exact HX|intros G HG; left; exact HG|exact HL]|].
  clear HX HL L X R T O s. intros [u|w| |] s e (HL & HS & Hu); try (split; [exact HL|]; split; [left; exact HS|exact Logic.I]). set (F1 := e_fs e) in *. assert (HP : dc_as F1 (e_fs e)) by reflexivity. clearbody F1.
  assert (HQ : forall G, dc_as F1 G -> same_shown F G) by (intros G HG; eapply same_trans; [exact HS|apply same_dc; exact HG]).
  assert (HQ' : forall G, dc_as F1 G -> img_cm q F G) by (intros G HG; left; apply HQ, HG).
  cbv zeta. match goal with |- wp _ ?R0 _ _ => set (RR := R0) end.
  assert (HR : forall o s' e', dc_as F1 (e_fs e') -> Forall (img_cm q F) (e_log e') -> failed o -> RR o s' e') by (intros o s' e' H1 H2 H3; split; [exact H2|]; split; [apply HQ', H1|destruct o; [destruct H3|auto|auto|auto]]).
  assert (HK : forall m : Mc (option cbor), cm_sub q <> 6 -> cm_sub q <> 7 -> keep anyc (dc_as F1) (img_cm q F) m -> wp m RR s e).
  { intros m H6 H7 Hm. eapply wp_mono; [apply Hm, kgo; [exact HP|exact HL]|]. intros o s1 e1 (_ & H1 & H2). destruct o as [v|w| |]; try (apply HR; [exact H1|exact H2|exact Logic.I]). split; [exact H2|]. split; [apply HQ', H1|]. destruct (cm_sub q =? 6) eqn:E6; [lia|]. destruct (cm_sub q =? 7) eqn:E7; [lia|]. apply HQ, H1. }
  assert (KA : keep anyc (dc_as F1) (img_cm q F) (cm_auth K t2 q)) by (apply kp_cm_auth; intros; exact Logic.I).
  assert (KS : forall m : Mc cbor, keep anyc (dc_as F1) (img_cm q F) m -> keep anyc (dc_as F1) (img_cm q F) (v <- m ;; ret (Some v))) by (intros m Hm; apply kp_bind; [exact Hm|intros; apply kp_ret]).
  destruct (cm_sub q =? 1) eqn:E1; [apply HK; [lia|lia|]; apply kp_bind; [exact KA|intros n; apply KS; unfold cm_metadata, cp_has_rp; apply kp_bind; [apply kp_bind; [apply kp_get|intros; apply kp_ret]|intros b; apply kp_bind; [apply kp_guard|intros; apply kp_ret]]]|].
  destruct (cm_sub q =? 2) eqn:E2; [apply HK; [lia|lia|]; apply kp_bind; [exact KA|intros n; apply KS; apply kp_cm_rps; intros; exact Logic.I]|].
  destruct (cm_sub q =? 3) eqn:E3; [apply HK; [lia|lia|]; apply KS; apply kp_cm_next_rp; intros; exact Logic.I|].
  destruct (cm_sub q =? 4) eqn:E4; [apply HK; [lia|lia|]; apply kp_bind; [exact KA|intros n; apply KS; apply kp_cm_creds; intros; exact Logic.I]|].
  destruct (cm_sub q =? 5) eqn:E5; [apply HK; [lia|lia|]; apply KS; apply kp_cm_next_cred; intros; exact Logic.I|].
  destruct (cm_sub q =? 6) eqn:E6; [|destruct (cm_sub q =? 7) eqn:E7; [|apply HK; [lia|lia|apply kp_ret]]].
  all: apply (kb (dc_as F1) (img_cm q F)); [exact KA|exact HP|exact HL|exact HR|]; clear s e HP HL HK; intros n s e HP HL; pose proof (HQ (e_fs e) HP) as HS2; apply wp_bind; eapply wp_mono.
  - apply (delete_wp q n (e_fs e)); [lia|rewrite (unfinished_dc F1 (e_fs e) HP); exact Hu|reflexivity|]. eapply Forall_impl; [|exact HL]. intros G HG. apply (img_cm_from q _ F G (same_sym _ _ HS2) HG).
  - intros o s1 e1 (H1 & H2 & H3). assert (H1' : Forall (img_cm q F) (e_log e1)) by (eapply Forall_impl; [|exact H1]; intros G HG; apply (img_cm_from q F _ G HS2 HG)). pose proof (img_cm_from q F _ _ HS2 H2) as H2'.
    destruct o as [u1|w| |]; try (split; [exact H1'|]; split; [exact H2'|exact Logic.I]). apply wp_ret. split; [exact H1'|]. split; [exact H2'|]. rewrite ?E6. eapply deleted_from; [exact HS2|exact H3].
  - apply (update_wp q n (e_fs e)); [lia|exact Hq|rewrite (unfinished_dc F1 (e_fs e) HP); exact Hu|reflexivity|]. eapply Forall_impl; [|exact HL]. intros G HG. apply (img_cm_from q _ F G (same_sym _ _ HS2) HG).
  - intros o s1 e1 (H1 & H2 & H3). assert (H1' : Forall (img_cm q F) (e_log e1)) by (eapply Forall_impl; [|exact H1]; intros G HG; apply (img_cm_from q F _ G HS2 HG)). pose proof (img_cm_from q F _ _ HS2 H2) as H2'.
    destruct o as [u1|w| |]; try (split; [exact H1'|]; split; [exact H2'|exact Logic.I]). apply wp_ret. split; [exact H1'|]. split; [exact H2'|]. rewrite ?E6, ?E7. eapply updated_from; [exact HS2|exact H3].
Qed.
Lemma exec_all d x : hmac_sized K -> ~ is_reset x -> match x_op x with OCbor q => creq_ok q | _ => True end -> (unfinished (d_fs d) = None \/ x_flt x = []) ->
  let '(o, s, e) := exec K d x in Forall (allowed x (d_fs d)) (e_log e) /\ allowed x (d_fs d) (e_fs e) /\ match o with Some (ACbor 0 v) => performed x v (d_fs d) (e_fs e) | _ => True end.
Proof.
  intros Hsz Hr Hok HX. set (F0 := d_fs d) in *.
  pose proof (exec_wp K d x (fun o s e => Forall (allowed x F0) (e_log e) /\ allowed x F0 (e_fs e) /\ match o with Some (ACbor 0 v) => performed x v F0 (e_fs e) | _ => True end)) as W. destruct (exec K d x) as [[o s] e]. apply W. clear W o s e. fold F0.
  assert (P3 : indep (dc_as F0) CTAP_CERT_FILE) by (apply dc_indep; discriminate).
  assert (PQ : forall G, dc_as F0 G -> same_shown F0 G) by (intros G HG; apply same_dc; exact HG). assert (PQ' : forall G, dc_as F0 G -> allowed x F0 G) by (intros G HG; left; apply PQ, HG).
  assert (PA : forall a v, keep anyc (dc_as F0) (allowed x F0) (write_attr CTAP_CERT_FILE a v)) by (intros a v; apply kp_write_attr; [exact PQ'|exact P3]).
  assert (G : kgood anyc (dc_as F0) (allowed x F0) (d_ram d) (start F0 (x_flt x) (x_rnd x) (x_tch x))) by (apply kgo; [reflexivity|constructor; [left; apply same_refl|constructor]]).
  assert (B : forall m : Mc Z, keep anyc (dc_as F0) (allowed x F0) m -> wp m (fun o s e => match o with Ret w | Exc w => Forall (allowed x F0) (e_log e) /\ allowed x F0 (e_fs e) /\ True | Fail => Forall (allowed x F0) (e_log e) /\ allowed x F0 (e_fs e) /\ True | UB => Forall (allowed x F0) (e_log e) /\ allowed x F0 (e_fs e) /\ True end)
      (d_ram d) (start F0 (x_flt x) (x_rnd x) (x_tch x))).
  { intros m Hm. eapply wp_mono; [apply Hm, G|]. intros [] s e (_ & H1 & H2); split; auto. }
  (* a CTAP2 command *)
  assert (C : forall q, x_op x = OCbor q -> wp (cbor_cmd K (x_nfc x) (x_t1 x) (x_t2 x) (x_junk x) q) (fun o _ e => Forall (allowed x F0) (e_log e) /\ allowed x F0 (e_fs e) /\ match o with Ret v => performed x v F0 (e_fs e) | Exc 0 => performed x None F0 (e_fs e) | _ => True end) (d_ram d) (start F0 (x_flt x) (x_rnd x) (x_tch x)) ->
     wp (cbor_body K x q) (fun o s e => match o with Ret (c, v) => Forall (allowed x F0) (e_log e) /\ allowed x F0 (e_fs e) /\ match c with 0 => performed x v F0 (e_fs e) | _ => True end | _ => Forall (allowed x F0) (e_log e) /\ allowed x F0 (e_fs e) /\ True end) (d_ram d) (start F0 (x_flt x) (x_rnd x) (x_tch x))).
  { intros q Hx V. unfold cbor_body, process_cbor. unfold wp in *. destruct (cbor_cmd K _ _ _ _ _ _ _) as [[[v|c| |] s] e]; destruct V as (V1 & V2 & V3); [destruct (_ <=? x_cap x)|..]; split; try exact V1; split; try exact V2; try exact V3; exact Logic.I. }
  (* one that does not touch the file of the credentials *)
  assert (CK : forall q, x_op x = OCbor q -> match q with RMake (inr _) | RCm (inr _) | RGet _ => False | _ => True end -> keep anyc (dc_as F0) (allowed x F0) (cbor_cmd K (x_nfc x) (x_t1 x) (x_t2 x) (x_junk x) q) ->
     wp (cbor_cmd K (x_nfc x) (x_t1 x) (x_t2 x) (x_junk x) q) (fun o _ e => Forall (allowed x F0) (e_log e) /\ allowed x F0 (e_fs e) /\ match o with Ret v => performed x v F0 (e_fs e) | Exc 0 => performed x None F0 (e_fs e) | _ => True end) (d_ram d) (start F0 (x_flt x) (x_rnd x) (x_tch x))).
  { intros q Hx Hq Hm. eapply wp_mono; [apply Hm, G|]. intros o s e (_ & H1 & H2). assert (HP : forall v, performed x v F0 (e_fs e)) by (intros v; unfold performed; rewrite Hx; destruct q as [[]|[]| | |[]| |[]| |[]|]; try destruct Hq; apply PQ, H1).
    split; [exact H2|]. split; [apply PQ', H1|]. destruct o as [v|[]| |]; auto. }
  assert (KO : forall q, keep anyc (dc_as F0) (allowed x F0) match q with RMake (inl e) => v <- ctap_make_credential K (x_nfc x) (x_t2 x) (x_junk x) (inl e) ;; ret (Some v) | RCm (inl e) => ctap_credential_management K (x_t2 x) (inl e)
     | RNext => v <- ctap_get_next_assertion K (x_nfc x) (x_t1 x) (x_t2 x) ;; ret (Some v) | RInfo => v <- ctap_get_info ;; ret (Some v) | RPin p => ctap_client_pin K (x_t2 x) p | RSelect => WAIT (x_nfc x) ERR_USER_TIMEOUT ;;; ret None | RLarge p => ctap_large_blobs K (x_t2 x) p | _ => except ERR_UNHANDLED end).
  { intros q. pose proof (kc_count F0 _ PQ') as Kc. destruct q as [[]|[]| | |p| |[]| |p|]; try apply kp_except.
    - apply kp_bind; [|intros; apply kp_ret]. eapply kp_gna with (okq := fun _ => True); auto; intros; exact Logic.I.
    - apply kp_bind; [apply kp_info|intros; apply kp_ret].
    - apply kp_pin; auto; intros; exact Logic.I.
    - apply kp_bind; [|intros; apply kp_ret]. unfold WAIT. destruct (x_nfc x); [apply kp_ret|]. apply kp_bind; [apply kp_wait|intros r]. destruct (r =? _); [apply kp_except|]. destruct (r =? _); [apply kp_except|apply kp_ret].
    - apply kp_lb; [exact PQ'|intros; exact Logic.I|intros; exact Logic.I|apply dc_indep; discriminate|]. apply kp_rename; [exact PQ'|apply dc_indep; discriminate|apply dc_indep; discriminate]. }
  destruct (x_op x) as [q|da|p1 da| |da|da|da] eqn:Ex.
  - apply C; [reflexivity|]. assert (KO' : forall q', q = q' -> match q' with RMake (inr _) | RCm (inr _) | RGet _ | RReset => False | _ => True end -> keep anyc (dc_as F0) (allowed x F0) (cbor_cmd K (x_nfc x) (x_t1 x) (x_t2 x) (x_junk x) q')).
    { intros q' -> Hq'. specialize (KO q'). unfold cbor_cmd. apply kp_bind; [unfold cp_observer; apply kp_modify; intros ? H; exact H|intros _]. destruct q' as [[]|[]| | |p| |[]| |p|]; try destruct Hq'; exact KO. }
    destruct q as [[err|q]|p| | |p| |[err|q]| |p| ]; try (apply CK; [reflexivity|exact Logic.I|apply KO'; [reflexivity|exact Logic.I]]).
    + unfold cbor_cmd, cp_observer. apply wp_bind, wp_modify, wp_bind. unfold start. eapply wp_mono; [apply make_wp; [exact Hsz|exact Hok|exact HX|constructor; [left; apply same_refl|constructor]]|].
      intros o s e (H1 & H2 & H3). assert (H1' : Forall (allowed x F0) (e_log e)) by (eapply Forall_impl; [|exact H1]; intros G0 HG0; unfold allowed; rewrite Ex; exact HG0). assert (H2' : allowed x F0 (e_fs e)) by (unfold allowed; rewrite Ex; exact H2).
      destruct o as [v|c| |]; [apply wp_ret|..]; (split; [exact H1'|]); (split; [exact H2'|]); try exact Logic.I; [unfold performed; rewrite Ex; exact H3|]. destruct c; try exact Logic.I. unfold performed. rewrite Ex. destruct (mc_rk q =? 1) eqn:Erk; [exact Logic.I|]. destruct H2 as [H2|(H2 & _)]; [exact H2|lia].
    + unfold cbor_cmd, cp_observer. apply wp_bind, wp_modify, wp_bind. unfold ctap_get_assertion. apply wp_bind, wp_modify, wp_bind. unfold start. eapply wp_mono; [apply (check_wp (allowed x F0)); [exact HX|intros G0 HG0; left; exact HG0|constructor; [left; apply same_refl|constructor]]|].
      assert (HP : forall e, same_shown F0 (e_fs e) -> forall v, performed x v F0 (e_fs e)) by (intros e He v; unfold performed; rewrite Ex; exact He).
      intros [u|c| |] s e (H1 & H2 & H3); try (split; [exact H1|]; split; [left; exact H2|try exact Logic.I]); [|destruct c; try exact Logic.I; apply HP, H2].
      set (F1 := e_fs e) in *. assert (HQ1 : forall G, dc_as F1 G -> allowed x F0 G) by (intros G1 HG1; left; eapply same_trans; [exact H2|apply same_dc; exact HG1]).
      assert (KG : keep anyc (dc_as F1) (allowed x F0) (match p with inl err => except err | inr q => ga_begin K (x_nfc x) (x_t2 x) q ;;; ga_rest K (x_nfc x) (x_t2 x) end)).
      { destruct p as [err|q]; [apply kp_except|]. apply kp_bind; [|intros _].
        - eapply kp_ga_begin with (okq := fun _ => True); auto; intros; exact Logic.I.
        - eapply kp_ga_rest with (okq := fun _ => True); auto; try (intros; exact Logic.I). apply kc_count; exact HQ1. }
      eapply wp_mono; [apply KG, kgo; [reflexivity|exact H1]|]. clear H1. intros o s1 e1 (_ & H4 & H1). assert (H5 : same_shown F0 (e_fs e1)) by (eapply same_trans; [exact H2|apply same_dc; exact H4]).
      destruct o as [v|c| |]; [apply wp_ret|..]; (split; [exact H1|]); (split; [left; exact H5|]); try exact Logic.I; [apply HP, H5|destruct c; try exact Logic.I; apply HP, H5].
    + elim Hr. right. exact Ex.
    + pose proof (nz_cm K (x_t1 x) (x_t2 x) (x_nfc x) (x_junk x) q (d_ram d) (start F0 (x_flt x) (x_rnd x) (x_tch x))) as N.
      eapply wp_mono with (Q := fun o s e => (Forall (img_cm q F0) (e_log e) /\ img_cm q F0 (e_fs e) /\ match o with Ret v => if cm_sub q =? 6 then deleted q F0 (e_fs e) else if cm_sub q =? 7 then updated q F0 (e_fs e) else same_shown F0 (e_fs e) | _ => True end) /\ match o with Exc c => c <> 0 | _ => True end).
      * apply wp_and; [|exact N]. unfold cbor_cmd, cp_observer. apply wp_bind, wp_modify. unfold start. apply cm_wp; [exact Hok|exact HX|constructor; [left; apply same_refl|constructor]].
      * intros o s e ((H1 & H2 & H3) & H4). split; [eapply Forall_impl; [|exact H1]; intros G0 HG0; unfold allowed; rewrite Ex; exact HG0|]. split; [unfold allowed; rewrite Ex; exact H2|]. destruct o as [v|[]| |]; try exact Logic.I; [unfold performed; rewrite Ex; exact H3|congruence].
  - unfold body. rewrite Ex. apply B. apply kp_bind; [apply kp_register|intros; apply kp_ret].
  - unfold body. rewrite Ex. apply B. apply kp_bind; [apply kp_auth; apply kc_count; exact PQ'|intros; apply kp_ret].
  - elim Hr. left. exact Ex.
  - unfold body. rewrite Ex. apply B. apply kp_bind; [|intros; apply kp_ret]. unfold install_private_key. apply kp_bind; [apply kp_guard|intros _]. apply kp_bind; [apply kp_modify; intros ? H; exact H|intros _].
    apply kp_bind; [apply kp_must, PA|intros _; apply kp_must, PA].
  - unfold body. rewrite Ex. apply B. apply kp_bind; [|intros; apply kp_ret]. unfold install_cert. apply kp_bind; [apply kp_guard|intros _]. apply kp_must, kp_write_file; [exact PQ'|exact P3].
  - unfold body. rewrite Ex. apply B. apply kp_bind; [|intros; apply kp_ret]. unfold write_sm2_config. apply kp_bind; [apply kp_guard|intros _]. apply kp_bind; [apply PA|intros ok]. apply kp_bind; [apply kp_modify; intros ? H; exact H|intros _; apply kp_guard].
Qed.
(** *** Histories *)
Lemma boot_same F rnd : F LB_FILE <> None -> d_fs (boot K F [] rnd) = F.
Proof.
  intros HF. unfold boot.
  assert (V : wp (ctap_install K false) (fun _ _ e => e_fs e = F) ctap_boot (start F [] rnd [])).
  { unfold ctap_install. apply wp_bind, wp_modify. apply wp_bind, wp_modify. apply wp_bind. set (s0 := set_last _ _). clearbody s0. apply wp_mono with (Q := fun o _ e => e_fs e = F /\ e_flt e = [] /\ match o with Ret _ => True | _ => False end).
    - unfold cp_initialize, cp_regenerate, cp_reset_token. apply wp_bind, wp_bind. unfold wp at 1, random_buffer. apply wp_modify. apply wp_bind. unfold wp at 1, random_buffer. apply wp_modify. cbn. auto.
    - intros [u|w| |] s e (H1 & H2 & H3); try destruct H3. destruct e as [G L X R T O]. cbn [e_fs e_flt] in *. subst G X. apply wp_bind. apply wp_get_file_size. intros X' r Hr _. destruct (Hr eq_refl) as (-> & ->). unfold fsize. destruct (F LB_FILE) as [f|]; [|congruence].
      apply wp_bind. unfold got. apply wp_bind. apply wp_read_attr. intros X2 r2 _ _. destruct r2; [apply wp_ret; apply wp_modify; reflexivity|reflexivity]. }
  unfold wp in V. destruct (ctap_install K false ctap_boot _) as [[o s] e]. exact V.
Qed.
Definition installed (G : fs) : Prop := G LB_FILE <> None.
Lemma images_installed d x : installed (d_fs d) -> ~ is_reset x -> let '(_, _, e) := exec K d x in installed (e_fs e) /\ Forall installed (e_log e).
Proof.
  intros Hn Hr. assert (PI : forall p, p <> LB_FILE -> indep installed p) by (intros p Hp G y HG; unfold installed; rewrite fset_other by congruence; exact HG).
  apply (exec_keep K installed installed (fun _ h => h)); [apply PI; discriminate|apply PI; discriminate|apply PI; discriminate| | | |exact Hn|].
  - apply kp_rename_at; [exact (fun _ h => h)|]. intros G f HG Hf. unfold installed. rewrite fset_same. discriminate.
  - intros a v _ _ _. apply kp_write_attr; [exact (fun _ h => h)|apply PI; discriminate].
  - intros c. apply kp_write_file; [exact (fun _ h => h)|apply PI; discriminate].
  - unfold left_out. destruct (x_op x) as [q|da|p1 da| |da|da|da] eqn:Ex; try exact Logic.I; [|elim Hr; left; exact Ex]. destruct q as [p|p| | |p| |p| |p| ]; cbn [is_pin CtapFrame.is_reset orb]; try exact Logic.I; [|elim Hr; right; exact Ex].
    unfold cbor_cmd, cp_observer. apply kp_bind; [apply kp_modify; intros; exact Logic.I|intros _]. apply kp_pin; try (intros; exact Logic.I); intros v; (apply kp_write_attr; [exact (fun _ h => h)|apply PI; discriminate]).
Qed.
(** Power loss at any point of a command, and the next boot: the credentials are as before, or as after the operation that was asked for;
    but when a credential replaces one of the same account there may be neither. *)
Theorem C53_power_loss_partial d x n rnd' o d' : hmac_sized K -> array (d_fs d) <> None -> ev_ok d (Cut x n [] rnd') -> ~ is_reset x ->
  (unfinished (d_fs d) = None \/ x_flt x = []) -> step K d (Cut x n [] rnd') = Some (o, d') -> allowed x (d_fs d) (d_fs d').
Proof.
  intros Hsz HF Hv Hr HX Hs. pose proof (images_installed d x (proj2 (nn _) HF) Hr) as HI. pose proof (exec_all d x Hsz Hr Hv HX) as W. cbn [step] in Hs. destruct (exec K d x) as [[o1 s] e]. injection Hs as _ <-.
  destruct W as (W1 & W2 & _). destruct HI as (I1 & I2). assert (HI : nth n (e_log e) (e_fs e) LB_FILE <> None) by (apply (Forall_nth_default installed); assumption). rewrite boot_same by exact HI. apply Forall_nth_default; assumption.
Qed.
(** So for a new account the creation is atomic, *)
Theorem C53_create d x n rnd' o d' q : hmac_sized K -> array (d_fs d) <> None -> ev_ok d (Cut x n [] rnd') -> x_op x = OCbor (RMake (inr q)) ->
  (unfinished (d_fs d) = None \/ x_flt x = []) -> no_account q (d_fs d) -> step K d (Cut x n [] rnd') = Some (o, d') -> same_shown (d_fs d) (d_fs d') \/ exists id, created q id (d_fs d) (d_fs d').
Proof.
  intros Hsz HF Hv Hx HX Ha Hs. assert (Hr : ~ is_reset x) by (intros [E|E]; rewrite Hx in E; discriminate). pose proof (C53_power_loss_partial d x n rnd' o d' Hsz HF Hv Hr HX Hs) as W. unfold allowed in W. rewrite Hx in W.
  destruct W as [W|(_ & [W|(k & old & W1 & W2 & _)])]; [left; exact W|right; exact W|elim (Ha k old W1 W2)].
Qed.
(** and so is a deletion, and an update of the user information. *)
Theorem C53_delete_update d x n rnd' o d' q : hmac_sized K -> array (d_fs d) <> None -> ev_ok d (Cut x n [] rnd') -> x_op x = OCbor (RCm (inr q)) ->
  (unfinished (d_fs d) = None \/ x_flt x = []) -> step K d (Cut x n [] rnd') = Some (o, d') -> same_shown (d_fs d) (d_fs d') \/ cm_sub q = 6 /\ deleted q (d_fs d) (d_fs d') \/ cm_sub q = 7 /\ updated q (d_fs d) (d_fs d').
Proof.
  intros Hsz HF Hv Hx HX Hs. assert (Hr : ~ is_reset x) by (intros [E|E]; rewrite Hx in E; discriminate). pose proof (C53_power_loss_partial d x n rnd' o d' Hsz HF Hv Hr HX Hs) as W. unfold allowed in W. rewrite Hx in W. exact W.
Qed.
(** An operation that is answered, with whatever status, has been done or not; when the answer is success it has been done. *)
Theorem C53_answered d x a d' : hmac_sized K -> ev_ok d (Do x) -> ~ is_reset x -> (unfinished (d_fs d) = None \/ x_flt x = []) -> step K d (Do x) = Some (Some a, d') ->
  allowed x (d_fs d) (d_fs d') /\ forall v, a = ACbor 0 v -> performed x v (d_fs d) (d_fs d').
Proof.
  intros Hsz Hv Hr HX Hs. pose proof (exec_all d x Hsz Hr Hv HX) as W. cbn [step] in Hs. destruct (exec K d x) as [[[a1|] s] e]; [|discriminate]. injection Hs as -> <-. destruct W as (_ & W2 & W3). split; [exact W2|]. intros v ->. exact W3.
Qed.
(** What is shown is what there is, once the next command that uses credentials has begun. *)
Theorem C53_recovery F rnd tch s s' e : consistency_check s (start F [] rnd tch) = (Ret tt, s', e) -> unfinished (e_fs e) = None /\ forall j, credential (e_fs e) j = shown_at F j.
Proof.
  intros E. pose proof (check_wp (fun _ => True) F s [F] [] rnd tch [] (or_intror eq_refl) (fun _ _ => I) (Forall_cons _ I (Forall_nil _))) as W. change (mkE F [F] [] rnd tch []) with (start F [] rnd tch) in W. unfold wp in W. rewrite E in W. destruct W as (_ & W1 & W2). split; [exact W2|].
  intros j. rewrite <- (W1 j). unfold shown_at. rewrite W2. reflexivity.
Qed.
End S.

(** ** Examples *)
(** A credential for user 1 of RP 7.  The power fails while one for user 2 is stored, before and after the point of no return. *)
Definition make53 (t rp id : Z) : cmd := cmd_at t (OCbor (RMake (inr (mc_of rp id 1 None)))).
Definition h53 : list ev := [do_at 20000 (OKey (repeat 6 32)); Do (make53 20001 7 1)].
Definition slots (d : dev) : list Z := map (fun j => match shown_at (d_fs d) j with Some r => nth 0 (u_id (dc_user r)) 0 | None => -1 end) [0; 1; 2].
Definition case53 (n : nat) : list ev := h53 ++ [Cut (make53 20002 7 2) n [] (repeat 5 100); Do (cmd_at 20003 (OCbor (RGet (inr (ga_of 7 [] None)))))].
Example C53_case_create : forallb (fun z => let '(n, l) := z in forallb ev_okb (case53 n) && match play toyf fresh_dev (case53 n) with Some (tr, d) => forallb oks tr && beqb (slots d) l | None => false end)
  [(0%nat, [1; 2; -1]); (1%nat, [1; -1; -1]); (2%nat, [1; -1; -1]); (3%nat, [1; -1; -1]); (5%nat, [1; -1; -1])] = true.
Proof. vm_compute. reflexivity. Qed.
Example C53_case_answered : exists tr d, hist toyf fresh_dev tr d /\ forallb oks tr && beqb (slots d) [1; 2; 1] = true /\ map (fun e => snd (fst e)) tr = h53 ++ [Do (make53 20002 7 2); Do (make53 20003 8 1)].
Proof. apply play_case. vm_compute. reflexivity. Qed.
(** A deletion and an update *)
Definition ask53 : list ev := make81 ++ [pin_at 20004 (ask_perm pin_a 4 None)].
Definition user53 : bytes := repeat 1 64 ++ [1] ++ repeat 7 130.
Definition cm53 (sub : Z) : cmd := cmd_at 20005 (OCbor (RCm (inr (mkCm sub [1; 2; 3] (repeat 0 32) id81 (if sub =? 7 then user53 else repeat 0 195) 1 (tag_at 20004 [sub; 1; 2; 3]))))).
Definition name53 (d : dev) : Z := match shown_at (d_fs d) 0 with Some r => nth 100 (dc_user r) 0 | None => -1 end.
Definition played53 (l : list ev) (z : Z) : bool := forallb ev_okb l && match play toyf fresh_dev l with Some (tr, d) => (name53 d =? z) && match rev tr with e :: _ => oks e | [] => false end | None => false end.
Example C53_case_cm : played53 (ask53 ++ [Do (cm53 6)]) (-1) && played53 (ask53 ++ [Cut (cm53 6) 3 [] (repeat 5 100)]) (-1) && played53 (ask53 ++ [Cut (cm53 6) 4 [] (repeat 5 100)]) 0 &&
  played53 (ask53 ++ [Do (cm53 7)]) 7 && played53 (ask53 ++ [Cut (cm53 7) 1 [] (repeat 5 100)]) 0 = true.
Proof. vm_compute. reflexivity. Qed.
Example C53_case_sized : hmac_sized toyf /\ array (d_fs fresh_dev) <> None.
Proof. split; [intros k m; apply toy_sha_length|vm_compute; discriminate]. Qed.

(** ** What does not hold *)
Lemma one_slot F j : match fdata F "ctap_dc" with Some l => zlen l <= 300 | None => True end -> j <> 0 -> shown_at F j = None.
Proof.
  intros H Hj. assert (cell F j = None) as E. { unfold cell. destruct (fdata F "ctap_dc") as [l|]; [|reflexivity]. destruct (0 <=? j) eqn:E1; [|reflexivity]. cbn [andb]. destruct ((j + 1) * 300 <=? zlen l) eqn:E2; [lia|reflexivity]. }
  unfold shown_at, credential. rewrite E. destruct (unfinished F) as [i|]; [destruct (i =? j)|]; reflexivity.
Qed.
(** Power loss while the credential of an account is replaced loses the old one and the new one. *)
Definition is_some {A} (o : option A) : bool := match o with Some _ => true | None => false end.
Theorem C53_replace_refuted : exists tr d n d' old, hist toyf fresh_dev tr d /\ ev_ok d (Cut (make53 20002 7 1) n [] (repeat 5 100)) /\ unfinished (d_fs d) = None /\
  step toyf d (Cut (make53 20002 7 1) n [] (repeat 5 100)) = Some (None, d') /\ shown_at (d_fs d) 0 = Some old /\ account (mc_of 7 1 1 None) old /\ forall j, shown_at (d_fs d') j = None.
Proof.
  destruct (play_case toyf fresh_dev h53 (fun tr d => match step toyf d (Cut (make53 20002 7 1) 2 [] (repeat 5 100)), shown_at (d_fs d) 0 with
    | Some (None, d'), Some old => negb (is_some (unfinished (d_fs d))) && negb (is_some (shown_at (d_fs d') 0)) && match fdata (d_fs d') "ctap_dc" with Some l => zlen l <=? 300 | None => true end &&
        beqb (id_rp (dc_id old)) (repeat 7 32) && (u_size (dc_user old) =? 1) && beqb (slice 0 1 (u_id (dc_user old))) [1]
    | _, _ => false end)) as (tr & d & H1 & H2 & _); [vm_compute; reflexivity|].
  destruct (step toyf d _) as [[[a|] d']|] eqn:Es; try discriminate. destruct (shown_at (d_fs d) 0) as [old|] eqn:Eo; [|discriminate]. repeat (apply andb_true_iff in H2; destruct H2 as (H2 & ?)).
  exists tr, d, 2%nat, d', old. split; [exact H1|]. split; [apply ev_okb_ok; vm_compute; reflexivity|]. split; [destruct (unfinished (d_fs d)); [discriminate|reflexivity]|]. split; [exact Es|]. split; [exact Eo|]. split.
  - unfold account. change (mc_rphash (mc_of 7 1 1 None)) with (repeat 7 32). change (u_size (mc_user (mc_of 7 1 1 None))) with 1. change (slice 0 1 (u_id (mc_user (mc_of 7 1 1 None)))) with [1]. split; [apply beqb_eq; assumption|]. split; [lia|apply beqb_eq; assumption].
  - intros j. destruct (Z.eq_dec j 0) as [->|Hj]; [destruct (shown_at (d_fs d') 0); [discriminate|reflexivity]|]. apply one_slot; [|exact Hj]. destruct (fdata (d_fs d') "ctap_dc"); [lia|exact Logic.I].
Qed.
(** A storage error while an interrupted operation is rolled back is ignored, and the operation is taken to be finished: the credential whose
    creation was rolled back is there again, after a getAssertion. *)
Definition get53 : cmd := mkCmd (OCbor (RGet (inr (ga_of 7 [] None)))) 1300 false 20003 20003 [] [FNone; FEarly] (repeat 3 200) (repeat 0 8).
Theorem C53_storage_error_refuted : exists tr d d' a r, hist toyf fresh_dev tr d /\ ev_ok d (Do get53) /\ shown_at (d_fs d) 1 = None /\ step toyf d (Do get53) = Some (Some a, d') /\ shown_at (d_fs d') 1 = Some r.
Proof.
  destruct (play_case toyf fresh_dev (h53 ++ [Cut (make53 20002 7 2) 1 [] (repeat 5 100)]) (fun tr d => negb (is_some (shown_at (d_fs d) 1)) && match step toyf d (Do get53) with Some (Some a, d') => is_some (shown_at (d_fs d') 1) | _ => false end)) as (tr & d & H1 & H2 & _); [vm_compute; reflexivity|].
  apply andb_true_iff in H2. destruct H2 as (H2 & H3). destruct (step toyf d _) as [[[a|] d']|] eqn:Es; try discriminate. destruct (shown_at (d_fs d') 1) as [r|] eqn:Er; [|discriminate]. exists tr, d, d', a, r. split; [exact H1|]. split; [apply ev_okb_ok; vm_compute; reflexivity|].
  split; [destruct (shown_at (d_fs d) 1); [discriminate|reflexivity]|]. split; [exact Es|exact Er].
Qed.
Print Assumptions C53_power_loss_partial. Print Assumptions C53_create. Print Assumptions C53_delete_update. Print Assumptions C53_answered. Print Assumptions C53_recovery. Print Assumptions C53_replace_refuted. Print Assumptions C53_storage_error_refuted.
