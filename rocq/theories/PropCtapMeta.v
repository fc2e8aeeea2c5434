(** C54: the metadata of the relying parties agrees with the resident credentials. *)
From Verif Require Import CtapSpec CtapFrame CtapExec CtapRel CtapCred CtapToy CtapStore CtapMeta PropCtapPin PropCtapToken PropCtapCred PropCtapReset PropCtapBlob PropCtapCrash.
Open Scope string_scope. Open Scope list_scope. Open Scope Z_scope.

Definition tidy (F : fs) : Prop := MIF F /\ unfinished F = None.
Definition mpost {A} (R : fs -> Prop) (o : out A) (_ : ctap) (e : env) : Prop := Forall MIF (e_log e) /\ MIF (e_fs e) /\ match o with Ret _ => R (e_fs e) | _ => True end.
Lemma tidy_indep p : p <> DC_FILE -> p <> DC_META_FILE -> indep tidy p.
Proof. intros H1 H2 F x (H3 & H4). split; [apply MIF_indep; assumption|]. rewrite (unfinished_dc F); [exact H4|apply fset_other; congruence]. Qed.
Lemma but_attr k F v : but k F (fsetattr F DC_FILE DC_GENERAL_ATTR v).
Proof. split; [intros j _; apply cred_attr|]. unfold fsetattr. destruct (F DC_FILE) as [f|]; [apply fset_other; discriminate|reflexivity]. Qed.
Lemma but_write k F r : has_room F k -> zlen r = 300 -> but k F (fwrite F DC_FILE r (k * 300) false).
Proof.
  intros H1 H2. split; [intros j Hj; rewrite cred_write by assumption; destruct (j =? k) eqn:E; [lia|reflexivity]|].
  destruct (room_file F k H1) as (f & Hf & _). unfold fwrite, fcreate. rewrite Hf. cbv beta iota. rewrite Hf. destruct r; [reflexivity|]. apply fset_other. discriminate.
Qed.
Lemma cred_dc F G j : G DC_FILE = F DC_FILE -> credential G j = credential F j.
Proof. intros H. unfold credential. rewrite (cell_dc F G j H). reflexivity. Qed.
Lemma count_wp F s L X R T O {B} (f : Z -> Mc B) (Q : out B -> ctap -> env -> Prop) :
  (forall X' n, 0 <= n -> (forall i, entry_at F i <> None <-> 0 <= i < n) -> room76 F n -> wp (f n) Q s (mkE F L X' R T O)) -> (forall o X', match o with Ret _ => False | _ => True end -> Q o s (mkE F L X' R T O)) ->
  wp (n <- count_recs DC_META_FILE META_SIZE ;; f n) Q s (mkE F L X R T O).
Proof.
  intros H1 H2. apply wp_bind. unfold count_recs, got. apply wp_bind, wp_bind. apply wp_get_file_size. intros X' r _ Hr. destruct r as [z|]; [|apply H2; exact Logic.I]. apply wp_ret, wp_ret. destruct Hr as [Hr|Hr]; [discriminate|]. symmetry in Hr.
  change META_SIZE with 76. assert (Hz : 0 <= z) by (unfold fsize in Hr; destruct (F DC_META_FILE); [injection Hr as <-; apply zlen_nonneg|discriminate]). pose proof (Z.div_pos z 76 Hz ltac:(lia)) as Hn. apply H1; [exact Hn|intros i; apply entry_dom; exact Hr|].
  split; [exact Hn|]. unfold fsize in Hr. unfold fdata. change "ctap_dm" with DC_META_FILE. destruct (F DC_META_FILE) as [f0|]; [|discriminate]. injection Hr as <-. cbn. pose proof (Z.div_mod (zlen (f_data f0)) 76). pose proof (Z.mod_pos_bound (zlen (f_data f0)) 76). lia.
Qed.
Lemma unf F a : fattr F DC_FILE DC_GENERAL_ATTR = Some a -> unfinished F = if Z.land (nth 2 a 0) 3 =? 0 then None else Some (nth 1 a 0).
Proof. intros Ha. unfold unfinished. change (fattr F "ctap_dc" 0) with (fattr F DC_FILE DC_GENERAL_ATTR). rewrite Ha. reflexivity. Qed.

Section S.
Variable K : fcrypto.
(** *** The check at the start of a command *)
Lemma check_meta F s L X R T O : (unfinished F = None \/ X = []) -> MIF F -> Forall MIF L -> wp consistency_check (mpost (fun G => unfinished G = None)) s (mkE F L X R T O).
Proof.
  intros HX HF HL. unfold consistency_check, read_general, got. apply wp_bind, wp_bind, wp_bind. apply wp_read_attr. intros X1 r HX1 Hr. destruct r as [a|]; [|split; [exact HL|]; split; [exact HF|exact Logic.I]].
  assert (Ha : fattr F DC_FILE DC_GENERAL_ATTR = Some a) by (destruct Hr; [discriminate|symmetry; assumption]). apply wp_ret, wp_ret. destruct (attr_flags a) as (A2 & A1 & A0). unfold ga_flags, ga_index, ga_numbers. rewrite A2, A1, A0.
  pose proof (unf F a Ha) as Hu. destruct (Z.land (nth 2 a 0) 3 =? 0) eqn:Ef; [apply wp_ret; split; [exact HL|]; split; [exact HF|exact Hu]|].
  destruct HX as [HX|HX]; [rewrite Hu in HX; discriminate|]. destruct (HX1 HX) as (-> & _). set (idx := nth 1 a 0) in *. cbv zeta.
  assert (Hne : exists f, F DC_FILE = Some f) by (unfold fattr in Ha; destruct (F DC_FILE) as [f|]; [eauto|discriminate]). destruct Hne as (f & Hf).
  apply wp_bind. apply wp_get_file_size. intros X2 r HX2 _. destruct (HX2 eq_refl) as (-> & ->). unfold fsize. rewrite Hf.
  assert (W : forall s1 F1 L1 X1 R1 T1 O1, Forall MIF L1 -> MIF F1 -> unfinished F1 = Some idx -> credential F1 idx = None ->
     wp (n <- count_recs DC_META_FILE META_SIZE ;; drop_slot (Z.to_nat n) 0 idx ;;; must (write_attr DC_FILE DC_GENERAL_ATTR [if Z.testbit (nth 2 a 0) 1 then u8 (nth 0 a 0 - 1) else nth 0 a 0; idx; Z.land (nth 2 a 0) 252]))
       (mpost (fun G => unfinished G = None)) s1 (mkE F1 L1 X1 R1 T1 O1)).
  { clear s L HL X HX HX1 HX2 R T O. intros s F1 L X R T O HL HF1 Hu1 Hc.
    apply count_wp; [|intros o X' Ho; split; [exact HL|]; split; [exact HF1|destruct o; [destruct Ho|exact Logic.I|exact Logic.I|exact Logic.I]]]. intros X' n Hn Hdom _.
    apply wp_bind. eapply wp_mono; [apply drop_slot_wp; [exact HF1|exact Hu1|exact HL| |]|].
    { intros i' m Hi Hm. assert (0 <= i' < n) by (apply Hdom; congruence). lia. }
    { intros i' Hi. apply Hdom in Hi. lia. }
    intros [u|w| |] s1 e1 (H1 & H2 & H3 & H4); try (split; [exact H1|]; split; [exact H2|exact Logic.I]). destruct e1 as [F2 L2 X2 R2 T2 O2]. cbn [e_fs e_log] in *.
    unfold must. apply wp_bind. apply wp_write_attr; intros Hn2 X3 _; [|apply wp_guard; intros Eg; [discriminate|]; split; [exact H1|]; split; [exact H2|exact Logic.I]].
    assert (Hu3 : unfinished (fsetattr F2 DC_FILE DC_GENERAL_ATTR [if Z.testbit (nth 2 a 0) 1 then u8 (nth 0 a 0 - 1) else nth 0 a 0; idx; Z.land (nth 2 a 0) 252]) = None).
    { rewrite unfinished_attr by exact Hn2. rewrite <- Z.land_assoc. change (Z.land 252 3) with 0. rewrite Z.land_0_r. reflexivity. }
    pose proof (but_attr idx F2 [if Z.testbit (nth 2 a 0) 1 then u8 (nth 0 a 0 - 1) else nth 0 a 0; idx; Z.land (nth 2 a 0) 252]) as B3.
    pose proof (cred_attr F2 [if Z.testbit (nth 2 a 0) 1 then u8 (nth 0 a 0 - 1) else nth 0 a 0; idx; Z.land (nth 2 a 0) 252] idx) as C3. set (F3 := fsetattr F2 _ _ _) in *.
    assert (H5 : MIF F3). { apply (MIF_removed idx F2 F3); [rewrite (unfinished_dc F1 F2 H3); exact Hu1|exact Hu3|exact B3| |exact H4|exact H2]. rewrite C3, (cred_dc F1 F2 idx H3). exact Hc. }
    apply wp_guard; intros Eg; [|discriminate]. split; [constructor; [exact H5|exact H1]|]. split; [exact H5|exact Hu3]. }
  apply wp_bind. destruct ((idx + 1) * DC_SIZE <=? zlen (f_data f)) eqn:Ez.
  2: { apply wp_ret. apply W; [exact HL|exact HF|exact Hu|]. unfold credential, cell, fdata. change "ctap_dc" with DC_FILE. rewrite Hf. change DC_SIZE with 300 in Ez. cbn [option_map]. rewrite Ez, andb_false_r. reflexivity. }
  apply wp_bind. unfold read_rec, got. apply wp_bind, wp_bind. apply wp_read_file. intros X3 r HX3 Hr3. destruct r as [d|]; [|split; [exact HL|]; split; [exact HF|exact Logic.I]]. apply wp_ret.
  destruct (zlen d =? DC_SIZE) eqn:Ed; [|split; [exact HL|]; split; [exact HF|exact Logic.I]]. apply Z.eqb_eq in Ed. change DC_SIZE with 300 in *. destruct Hr3 as [Hr3|Hr3]; [discriminate|]. symmetry in Hr3. destruct (cell_read F idx d Hr3 Ed) as (Hc & Hi). apply wp_ret.
  destruct (dc_deleted d) eqn:Edd; [apply wp_ret; apply W; [exact HL|exact HF|exact Hu|rewrite (cred_cell F idx d Hc), Edd; reflexivity]|].
  destruct (HX3 eq_refl) as (-> & _). destruct (deleted_delete d Ed) as (D1 & D2). pose proof (room_cell F idx d Hc) as Hroom.
  assert (L0 : lcreate F L DC_FILE = L) by (unfold lcreate; rewrite Hf; reflexivity).
  unfold must. apply wp_bind. apply wp_write_file; [intros X4 _|intros Hx; congruence|intros Hx; congruence]. rewrite L0. apply wp_guard; intros Eg; [|discriminate].
  assert (Hu1 : unfinished (fwrite F DC_FILE (dc_delete d) (idx * 300) false) = Some idx) by (rewrite unfinished_write by assumption; exact Hu).
  assert (HF1 : MIF (fwrite F DC_FILE (dc_delete d) (idx * 300) false)) by (apply (MIF_hidden idx F); [exact Hu|exact Hu1|apply but_write; assumption|exact HF]).
  apply W; [constructor; [exact HF1|exact HL]|exact HF1|exact Hu1|]. rewrite cred_write by assumption. rewrite Z.eqb_refl, D1. reflexivity.
Qed.
(** *** makeCredential *)
Lemma store_meta q id F s L X R T O : zlen (mc_rphash q) = 32 -> unfinished F = None -> zlen id = 70 -> id_rp id = mc_rphash q -> zlen (mc_user q) = 195 -> MIF F -> Forall MIF L ->
  wp (mc_store q id) (mpost (fun G => unfinished G = None)) s (mkE F L X R T O).
Proof.
  intros Hh32 Hu Hid Hrp Hus HF HL.
  assert (KQ : forall {A} (m : Mc A) s e, keep anyc (fun G => G = F) MIF m -> e_fs e = F -> Forall MIF (e_log e) -> wp m (fun _ _ e' => e_fs e' = F /\ Forall MIF (e_log e')) s e).
  { intros A m s1 e1 Hm H1 H2. eapply wp_mono; [apply Hm; split; [exact Logic.I|]; split; assumption|]. intros o s2 e2 (_ & H). exact H. }
  unfold mc_store. apply wp_bind. eapply wp_mono.
  { apply wp_and; [apply (rd_count DC_FILE DC_SIZE F); reflexivity|]. apply KQ; [|reflexivity|exact HL]. unfold count_recs. apply kp_bind; [apply kp_got, kp_size|intros; apply kp_ret]. }
  clear L HL X R T O. intros [n|w| |] s1 e1 (Hr & He & HL); try (split; [exact HL|]; rewrite He; split; [exact HF|exact Logic.I]). destruct Hr as ((z & Hz & ->) & -> & _). change DC_SIZE with 300.
  assert (Hfl : exists f, F DC_FILE = Some f /\ z = zlen (f_data f)) by (unfold fsize in Hz; destruct (F DC_FILE) as [f|]; [injection Hz as <-; eauto|discriminate]). destruct Hfl as (f & Hf & Hzf). pose proof (zlen_nonneg (f_data f)) as Hz0.
  set (n := z / 300). assert (Hn : 0 <= n /\ n * 300 <= z < (n + 1) * 300) by (unfold n; pose proof (Z.div_mod z 300); pose proof (Z.mod_pos_bound z 300); lia).
  apply wp_bind. eapply wp_mono.
  { apply wp_and; [apply (find_slot_spec q F (Z.to_nat n) 0 MAX_DC_NUM (zeros 300)); [exact He|reflexivity|lia|intros; lia|left; reflexivity]|]. apply KQ; [apply kp_find_slot|exact He|exact HL]. }
  clear e1 He HL. intros [[[pos fd] old]|w| |] s1 e1 (Hr & He & HL); try (split; [exact HL|]; rewrite He; split; [exact HF|exact Logic.I]). destruct Hr as (Hr & -> & _). rewrite Z.add_0_l, Z2Nat.id in Hr by lia. cbn [found] in Hr.
  destruct Hr as (Hold & Hp0 & Hpos & Hfd). cbv zeta. change MAX_DC_NUM with 64. set (k := if (pos =? n) && negb (fd =? 64) then fd else pos).
  apply wp_bind. apply wp_guard; intros Ek; [|cbn; unfold mpost; rewrite He; split; [exact HL|]; split; [exact HF|exact Logic.I]].
  set (bl := match mc_blob q with Some b => if zlen b <=? 32 then b else [] | None => [] end). assert (Hbl : zlen bl <= 32) by (unfold bl; destruct (mc_blob q) as [b|]; [|discriminate]; destruct (zlen b <=? 32) eqn:E; [lia|discriminate]). clearbody bl.
  destruct (dc_make_parts id (mc_user q) (if mc_lbk q then 1 else 0) (zlen bl) (overlay bl (dc_blob old)) Hid Hus (zlen_over bl old Hold Hbl)) as (R1 & R2 & R3 & R4).
  set (r := dc_make _ _ _ _ _ _) in *. clearbody r.
  assert (Hslot : has_room F k /\ (credential F k = None \/ exists old, credential F k = Some old /\ account q old)).
  { assert (Hroom : forall k, 0 <= k <= n -> has_room F k). { intros k' Hk'. split; [lia|]. unfold fdata. change "ctap_dc" with DC_FILE. rewrite Hf. cbn. lia. }
    unfold k. destruct Hpos as [(H1 & H2)|(H1 & H2)].
    - destruct (pos =? n) eqn:E; [lia|]. cbn [andb]. split; [apply Hroom; lia|right; exact H2].
    - rewrite H1, Z.eqb_refl. cbn [andb]. destruct (fd =? 64) eqn:E; cbn [negb].
      + split; [apply Hroom; lia|left]. unfold credential, cell, fdata. change "ctap_dc" with DC_FILE. rewrite Hf. cbn [option_map]. rewrite <- Hzf. destruct ((n + 1) * 300 <=? z) eqn:E2; [lia|]. rewrite andb_false_r. reflexivity.
      + destruct Hfd as [->|(H3 & H4 & H5)]; [discriminate|]. split; [apply Hroom; lia|left; exact H5]. }
  clearbody k. destruct Hslot as (Hroom & Hslot). assert (Hk : 0 <= k < 64) by (destruct Hroom; lia).
  destruct e1 as [F1 L X R T O]. cbn [e_fs e_log] in He, HL. subst F1. apply wp_bind. unfold read_general, got. apply wp_bind, wp_bind. apply wp_read_attr. intros X1 ra _ Hra. destruct ra as [a|]; [|split; [exact HL|]; split; [exact HF|exact Logic.I]].
  assert (Ha : fattr F DC_FILE DC_GENERAL_ATTR = Some a) by (destruct Hra; [discriminate|symmetry; assumption]). apply wp_ret, wp_ret. destruct (attr_flags a) as (A2 & A1 & A0). unfold ga_flags, ga_index, ga_numbers. rewrite A2, A0.
  assert (Hfl : Z.land (nth 2 a 0) 3 = 0) by (rewrite (unf F a Ha) in Hu; destruct (Z.land (nth 2 a 0) 3 =? 0) eqn:E; [lia|discriminate]).
  destruct (lor_flags (nth 2 a 0) 1 254 (or_introl (conj eq_refl eq_refl)) Hfl) as (B1 & B2). set (fl := Z.lor (nth 2 a 0) 1) in *. clearbody fl.
  assert (Hne : F DC_FILE <> None) by congruence.
  apply wp_bind. unfold must at 1. apply wp_bind. apply wp_write_attr; intros _ X2 _; [|apply wp_guard; intros Eg; [discriminate|]; split; [exact HL|]; split; [exact HF|exact Logic.I]]. apply wp_guard; intros Eg; [clear Eg|discriminate].
  pose proof (but_attr k F [nth 0 a 0; k; fl]) as BA. set (F1 := fsetattr F _ _ _) in *. assert (U1 : unfinished F1 = Some k) by (unfold F1; rewrite unfinished_attr by exact Hne; destruct (Z.land fl 3 =? 0) eqn:E; [lia|reflexivity]).
  assert (M1 : MIF F1) by (apply (MIF_begun k F); assumption). assert (Rm1 : has_room F1 k) by (apply room_attr, Hroom).
  (* the bits of the slot are in a record of the same party *)
  assert (Hbit : forall i m, entry_at F1 i = Some m -> Z.testbit (m_slots m) k = true -> m_hash m = mc_rphash q).
  { intros i m Hm Hb. rewrite (entry_dm F F1 i (proj2 BA)) in Hm. pose proof HF as (A & _). destruct (A i m k Hm Hb) as [H|H]; [congruence|]. rewrite (party_none F k Hu) in H.
    destruct Hslot as [H0|(od & H0 & H1)]; rewrite H0 in H; [discriminate|]. injection H as <-. destruct H1 as (H1 & _). symmetry. exact (eq_sym H1) || exact H1. }
  assert (N1 : exists f1, F1 DC_FILE = Some f1) by (destruct (room_file F1 k Rm1) as (f1 & H & _); eauto). destruct N1 as (f1 & Hf1). clearbody F1.
  apply wp_bind. unfold must at 1. apply wp_bind. assert (LC : forall L, lcreate F1 L DC_FILE = L) by (intros L0; unfold lcreate; rewrite Hf1; reflexivity). assert (FC : fcreate F1 DC_FILE = F1) by (unfold fcreate; rewrite Hf1; reflexivity).
  apply wp_write_file; [intros X3 _|intros _ X3|intros _ X3]; rewrite ?LC, ?FC.
  2,3: apply wp_guard; intros Eg; [discriminate|]; split; [constructor; assumption|]; split; [exact M1|exact Logic.I].
  apply wp_guard; intros Eg; [clear Eg|discriminate]. pose proof (but_write k F1 r Rm1 R1) as BW. pose proof (cred_write F1 k r k Rm1 R1) as CW. rewrite Z.eqb_refl, R2 in CW. pose proof (unfinished_write F1 k r Rm1 R1) as U2. rewrite U1 in U2. set (F2 := fwrite F1 DC_FILE r (k * 300) false) in *.
  assert (M2 : MIF F2) by (apply (MIF_hidden k F1); assumption). assert (Hbit2 : forall i m, entry_at F2 i = Some m -> Z.testbit (m_slots m) k = true -> m_hash m = mc_rphash q) by (intros i m; rewrite (entry_dm F1 F2 i (proj2 BW)); apply Hbit). clearbody F2.
  assert (HL2 : Forall MIF (F2 :: F1 :: L)) by (constructor; [exact M2|]; constructor; assumption). set (L2 := F2 :: F1 :: L) in *. clearbody L2.
  apply count_wp; [|intros o X' Ho; split; [exact HL2|]; split; [exact M2|destruct o; [destruct Ho|exact Logic.I|exact Logic.I|exact Logic.I]]]. intros X4 m Hm Hdom Hroomm.
  apply wp_bind. eapply wp_mono; [apply find_meta_wp; [exact M2|lia|]|].
  { cbn [meta_found]. split; [reflexivity|]. split; [intros; lia|]. left. split; [reflexivity|intros; lia]. }
  intros [[[mp mf] sl]|w| |] s3 e3 (H1 & H2 & H3); try (unfold mpost; rewrite H1, H2; split; [exact HL2|]; split; [exact M2|exact Logic.I]). rewrite Z.add_0_l, Z2Nat.id in H3 by lia.
  destruct e3 as [F3 L3 X5 R3' T3 O3]. cbn [e_fs e_log] in H1, H2. subst F3 L3. cbv zeta. change META_SIZE with 76.
  set (mpos := if present sl then mp else if mf =? 64 then mp else mf). set (z0 := match sl with Some z1 => z1 | None => 0 end).
  assert (W : let r2 := meta_make (mc_rphash q) (attr_buf 32 (mc_rp q)) (zlen (mc_rp q)) (Z.lor z0 (2 ^ k)) in
    room76 F2 mpos /\ zlen r2 = 76 /\ MI (party F2) (unfinished F2) (upd (entry_at F2) mpos (Some r2)) /\ Z.testbit (m_slots r2) k = true /\ m_hash r2 = mc_rphash q).
  { intros r2. assert (Hz64 : 0 <= z0 < 2 ^ 64). { unfold z0. destruct sl as [z1|]; [|lia]. destruct H3 as (mm & H3 & <- & _). pose proof M2 as (_ & _ & _ & _ & G). apply (G mp mm H3). }
    destruct (m_parts (mc_rphash q) (attr_buf 32 (mc_rp q)) (zlen (mc_rp q)) (Z.lor z0 (2 ^ k)) Hh32) as (P1 & P2 & P3); [unfold attr_buf, zlen; rewrite firstn_length, app_length; unfold zeros; rewrite repeat_length; lia|apply add_bound; assumption|]. fold r2 in P1, P2, P3.
    assert (Hbk : Z.testbit (m_slots r2) k = true) by (rewrite P3, bit_add, Z.eqb_refl, orb_true_r by lia; reflexivity).
    clearbody r2. pose proof M2 as M2'. unfold MIF in M2'. rewrite U2 in *. unfold mpos, z0 in *. destruct sl as [z1|]; cbn [present] in *.
    - cbn [meta_found] in H3. destruct H3 as (mm & E1 & E2 & E3 & E4). split; [apply (entry_room F2 mp mm E1)|]. split; [exact P1|]. split; [|split; assumption]. apply (MI_add _ _ k mp mm); try assumption; try congruence. intros i2 m2 Hi2 Hb2. rewrite E4. apply (Hbit2 i2 m2); assumption.
    - cbn [meta_found] in H3. destruct H3 as (-> & E1 & E2). change (Z.lor 0 (2 ^ k)) with (2 ^ k) in P3.
      assert (Hall : forall i2 m2, entry_at F2 i2 = Some m2 -> m_hash m2 = m_hash r2 -> m_slots m2 = 0). { intros i2 m2 Hi2 Hh2. destruct (E1 i2 m2) as [E|E]; [apply Hdom; congruence|exact Hi2|exact E|congruence]. }
      assert (Hnb : forall i2 m2, entry_at F2 i2 = Some m2 -> Z.testbit (m_slots m2) k = false). { intros i2 m2 Hi2. destruct (Z.testbit (m_slots m2) k) eqn:Eb; [|reflexivity]. elim (bit_nz _ _ Eb). apply (Hall i2 m2 Hi2). rewrite P2. apply (Hbit2 i2 m2); assumption. }
      destruct E2 as [(-> & E2)|(E2 & (mm & E3 & E4) & E5)].
      + rewrite Z.eqb_refl. split; [exact Hroomm|]. split; [exact P1|]. split; [|split; assumption]. apply MI_new; try assumption.
        * split; [exact Hm|]. apply (MI_room _ _ _ m k M2'); [exact Hk|exact Hm|]. intros i Hi. destruct (entry_at F2 i) as [mi|] eqn:Ei; [|elim (proj2 (Hdom i) Hi); exact Ei]. exists mi. split; [reflexivity|]. split; [apply (E2 i mi Hi Ei)|apply (Hnb i mi Ei)].
        * intros mm Hmm. assert (0 <= m < m) by (apply Hdom; congruence). lia.
        * intros i2 m2 Hlt Hi2. apply (E2 i2 m2); [|exact Hi2]. apply Hdom. congruence.
      + destruct (mf =? 64) eqn:E; [lia|]. split; [apply (entry_room F2 mf mm E3)|]. split; [exact P1|]. split; [|split; assumption]. apply MI_new; try assumption.
        * intros m9 Hm9. assert (m9 = mm) by congruence. subst m9. exact E4.
        * intros i2 m2 Hlt Hi2. apply (E5 i2 m2); [|exact Hi2]. assert (0 <= i2 < m) by (apply Hdom; congruence). lia. }
  set (r2 := meta_make _ _ _ _) in *. cbv zeta in W. destruct W as (W1 & W2 & W3 & W4 & W5). clearbody r2. clearbody mpos.
  apply wp_bind. eapply wp_mono; [apply (meta_write_wp F2 mpos); assumption|].
  intros [u|w| |] s4 e4 (H1 & H2 & H4 & H5); try (split; [exact H1|]; split; [exact H2|exact Logic.I]).
  destruct e4 as [F3 L3 X6 R4' T4 O4]. cbn [e_fs e_log] in *. unfold must. apply wp_bind. apply wp_write_attr; intros Hn3 X7 _; [|apply wp_guard; intros Eg; [discriminate|]; split; [exact H1|]; split; [exact H2|exact Logic.I]]. apply wp_guard; intros Eg; [clear Eg|discriminate].
  pose proof (but_attr k F3 [u8 (nth 0 a 0 + 1); k; Z.land fl 254]) as B4. pose proof (cred_attr F3 [u8 (nth 0 a 0 + 1); k; Z.land fl 254] k) as C4. set (F4 := fsetattr F3 _ _ _) in *.
  assert (U4 : unfinished F4 = None) by (unfold F4; rewrite unfinished_attr by exact Hn3; rewrite B2; reflexivity). clearbody F4. rewrite (cred_dc F2 F3 k H4), CW in C4.
  assert (M4 : MIF F4). { apply (MIF_added k F3 F4 r); [rewrite (unfinished_dc F2 F3 H4); exact U2|exact U4|exact B4|exact C4| |exact H2]. exists mpos, r2. rewrite H5, upd_same. split; [reflexivity|]. split; [exact W4|]. rewrite W5, R3, Hrp. reflexivity. }
  split; [constructor; [exact M4|exact H1]|]. split; [exact M4|exact U4].
Qed.
(** *** Deleting and updating *)
Lemma delete_meta q n F s e : unfinished F = None -> e_fs e = F -> MIF F -> Forall MIF (e_log e) -> wp (cm_delete q n) (mpost (fun G => unfinished G = None)) s e.
Proof.
  intros Hu He HF HL. unfold cm_delete. apply (find_wp q n F s e MIF); [exact He|exact HL| |].
  { intros o s1 e1 H1 H2 Ho. split; [exact H2|]. rewrite H1. split; [exact HF|destruct o; [destruct Ho|auto|auto|auto]]. }
  clear s e He HL. intros k d s e He HL Hc Hdd Hid. destruct (cell_len F k d Hc) as (Hl & Hk0). pose proof (room_cell F k d Hc) as Hroom. assert (Hcr : credential F k = Some d) by (rewrite (cred_cell F k d Hc), Hdd; reflexivity).
  destruct (deleted_delete d Hl) as (D1 & D2). destruct (room_file F k Hroom) as (f & Hf & _).
  destruct e as [F1 L X R T O]. cbn [e_fs e_log] in He, HL. subst F1. apply wp_bind. unfold read_general, got. apply wp_bind, wp_bind. apply wp_read_attr. intros X1 ra _ Hra. destruct ra as [a|]; [|split; [exact HL|]; split; [exact HF|exact Logic.I]].
  assert (Ha : fattr F DC_FILE DC_GENERAL_ATTR = Some a) by (destruct Hra; [discriminate|symmetry; assumption]). apply wp_ret, wp_ret. destruct (attr_flags a) as (A2 & A1 & A0). unfold ga_flags, ga_index, ga_numbers. rewrite A2, A0.
  assert (Hfl : Z.land (nth 2 a 0) 3 = 0) by (rewrite (unf F a Ha) in Hu; destruct (Z.land (nth 2 a 0) 3 =? 0) eqn:E; [lia|discriminate]).
  destruct (lor_flags (nth 2 a 0) 2 253 (or_intror (conj eq_refl eq_refl)) Hfl) as (B1 & B2). cbv zeta. set (fl := Z.lor (nth 2 a 0) 2) in *. clearbody fl.
  assert (Hne : F DC_FILE <> None) by congruence.
  (* the record with the slot *)
  assert (HB : exists i m, entry_at F i = Some m /\ Z.testbit (m_slots m) k = true /\ m_hash m = id_rp (cm_id q)).
  { pose proof HF as (A & B & _). assert (Hp : party F k = Some (id_rp (cm_id q))) by (rewrite (party_none F k Hu), Hcr, Hid; reflexivity). destruct (B k _ Hp) as (_ & i & m & Hm & Hb). exists i, m. split; [exact Hm|]. split; [exact Hb|]. destruct (A i m k Hm Hb) as [H|H]; congruence. }
  apply wp_bind. unfold must at 1. apply wp_bind. apply wp_write_attr; intros _ X2 _; [|apply wp_guard; intros Eg; [discriminate|]; split; [exact HL|]; split; [exact HF|exact Logic.I]]. apply wp_guard; intros Eg; [clear Eg|discriminate].
  pose proof (but_attr k F [nth 0 a 0; k; fl]) as BA. set (F1 := fsetattr F _ _ _) in *. assert (U1 : unfinished F1 = Some k) by (unfold F1; rewrite unfinished_attr by exact Hne; destruct (Z.land fl 3 =? 0) eqn:E; [lia|reflexivity]).
  assert (M1 : MIF F1) by (apply (MIF_begun k F); assumption). assert (Rm1 : has_room F1 k) by (apply room_attr, Hroom).
  assert (N1 : exists f1, F1 DC_FILE = Some f1) by (destruct (room_file F1 k Rm1) as (f1 & H & _); eauto). destruct N1 as (f1 & Hf1). clearbody F1.
  apply wp_bind. unfold must at 1. apply wp_bind. assert (LC : forall L, lcreate F1 L DC_FILE = L) by (intros L0; unfold lcreate; rewrite Hf1; reflexivity). assert (FC : fcreate F1 DC_FILE = F1) by (unfold fcreate; rewrite Hf1; reflexivity).
  apply wp_write_file; [intros X3 _|intros _ X3|intros _ X3]; rewrite ?LC, ?FC.
  2,3: apply wp_guard; intros Eg; [discriminate|]; split; [constructor; assumption|]; split; [exact M1|exact Logic.I].
  apply wp_guard; intros Eg; [clear Eg|discriminate]. change DC_SIZE with 300. pose proof (but_write k F1 (dc_delete d) Rm1 D2) as BW. pose proof (cred_write F1 k (dc_delete d) k Rm1 D2) as CW. rewrite Z.eqb_refl, D1 in CW. pose proof (unfinished_write F1 k (dc_delete d) Rm1 D2) as U2. rewrite U1 in U2. set (F2 := fwrite F1 DC_FILE (dc_delete d) (k * 300) false) in *.
  assert (M2 : MIF F2) by (apply (MIF_hidden k F1); assumption). assert (HB2 : exists i m, entry_at F2 i = Some m /\ Z.testbit (m_slots m) k = true /\ m_hash m = id_rp (cm_id q)) by (destruct HB as (i & m & HB); exists i, m; rewrite (entry_dm F1 F2 i (proj2 BW)), (entry_dm F F1 i (proj2 BA)); exact HB). clearbody F2.
  assert (HL2 : Forall MIF (F2 :: F1 :: L)) by (constructor; [exact M2|]; constructor; assumption). set (L2 := F2 :: F1 :: L) in *. clearbody L2.
  apply count_wp; [|intros o X' Ho; split; [exact HL2|]; split; [exact M2|destruct o; [destruct Ho|exact Logic.I|exact Logic.I|exact Logic.I]]]. intros X4 m Hm Hdom _.
  assert (Hu8 : u8 m = m). { pose proof M2 as (_ & _ & _ & _ & G). destruct (Z.eq_dec m 0) as [->|Hm0]; [reflexivity|]. destruct (entry_at F2 (m - 1)) as [ml|] eqn:El; [|elim (proj2 (Hdom (m - 1)) ltac:(lia)); exact El]. destruct (G (m - 1) ml El). unfold u8. apply Z.mod_small. lia. }
  rewrite Hu8. destruct HB2 as (i0 & m0 & E1 & E2 & E3). apply wp_bind. eapply wp_mono; [apply (drop_from_wp k (id_rp (cm_id q)) (Z.to_nat m) 0 F2 _ L2 _ _ _ _ i0 m0); try assumption; assert (0 <= i0 < m) by (apply Hdom; congruence); lia|].
  intros [u|w| |] s4 e4 (H1 & H2 & H4 & H5); try (split; [exact H1|]; split; [exact H2|exact Logic.I]).
  destruct e4 as [F3 L3 X6 R4' T4 O4]. cbn [e_fs e_log] in *. unfold must. apply wp_bind. apply wp_write_attr; intros Hn3 X7 _; [|apply wp_guard; intros Eg; [discriminate|]; split; [exact H1|]; split; [exact H2|exact Logic.I]]. apply wp_guard; intros Eg; [clear Eg|discriminate].
  pose proof (but_attr k F3 [u8 (nth 0 a 0 - 1); k; Z.land fl 253]) as B4. pose proof (cred_attr F3 [u8 (nth 0 a 0 - 1); k; Z.land fl 253] k) as C4. set (F4 := fsetattr F3 _ _ _) in *.
  assert (U4 : unfinished F4 = None) by (unfold F4; rewrite unfinished_attr by exact Hn3; rewrite B2; reflexivity). clearbody F4. rewrite (cred_dc F2 F3 k H4), CW in C4.
  assert (M4 : MIF F4) by (apply (MIF_removed k F3 F4); [rewrite (unfinished_dc F2 F3 H4); exact U2|exact U4|exact B4|exact C4|exact H5|exact H2]).
  split; [constructor; [exact M4|exact H1]|]. split; [exact M4|exact U4].
Qed.
Lemma update_meta q n F s e : cm_ok q -> unfinished F = None -> e_fs e = F -> MIF F -> Forall MIF (e_log e) -> wp (cm_update q n) (mpost (fun G => unfinished G = None)) s e.
Proof.
  intros (_ & _ & (Huz & _) & _) Hu He HF HL. unfold cm_update. apply (find_wp q n F s e MIF); [exact He|exact HL| |].
  { intros o s1 e1 H1 H2 Ho. split; [exact H2|]. rewrite H1. split; [exact HF|destruct o; [destruct Ho|auto|auto|auto]]. }
  clear s e He HL. intros k d s e He HL Hc Hdd Hid. destruct (cell_len F k d Hc) as (Hl & Hk0). pose proof (room_cell F k d Hc) as Hroom. assert (Hcr : credential F k = Some d) by (rewrite (cred_cell F k d Hc), Hdd; reflexivity).
  destruct (room_file F k Hroom) as (f & Hf & _). destruct e as [F1 L X R T O]. cbn [e_fs e_log] in He, HL. subst F1. cbv zeta. apply wp_bind. apply wp_guard; intros Eg; [|split; [exact HL|]; split; [exact HF|exact Logic.I]].
  set (r := splice d 70 (cm_user q)). assert (R1 : zlen r = 300) by (unfold r; rewrite zlen_splice; lia). assert (R2 : dc_deleted r = false).
  { unfold dc_deleted, r. rewrite nth_splice by lia. replace (length (cm_user q)) with 195%nat by (unfold zlen in Huz; lia). exact Hdd. }
  assert (R3 : dc_id r = dc_id d) by (unfold dc_id, r; apply slice_splice_disj; lia).
  assert (LC : lcreate F L DC_FILE = L) by (unfold lcreate; rewrite Hf; reflexivity). assert (FC : fcreate F DC_FILE = F) by (unfold fcreate; rewrite Hf; reflexivity).
  unfold must. apply wp_bind. apply wp_write_file; [intros X3 _|intros _ X3|intros _ X3]; rewrite ?LC, ?FC.
  2,3: apply wp_guard; intros Eg2; [discriminate|]; split; [exact HL|]; split; [exact HF|exact Logic.I].
  apply wp_guard; intros Eg2; [|discriminate]. change DC_SIZE with 300. pose proof (but_write k F r Hroom R1) as BW. pose proof (cred_write F k r k Hroom R1) as CW. rewrite Z.eqb_refl, R2 in CW. pose proof (unfinished_write F k r Hroom R1) as U2. rewrite Hu in U2. set (F2 := fwrite F DC_FILE r (k * 300) false) in *.
  assert (M2 : MIF F2).
  { apply (MIF_same F F2 Hu U2); [|exact (proj2 BW)|exact HF]. intros j. rewrite (party_none F2 j U2), (party_none F j Hu). destruct (Z.eq_dec j k) as [->|Hj]; [rewrite CW, Hcr, R3; reflexivity|]. rewrite (proj1 BW j Hj). reflexivity. }
  split; [constructor; [exact M2|exact HL]|]. split; [exact M2|exact U2].
Qed.
(** *** Whole commands *)
Lemma tidy_MIF G : tidy G -> MIF G. Proof. intros (H & _). exact H. Qed.
Lemma kt_count : keep anyc tidy MIF increase_counter.
Proof.
  unfold increase_counter. apply kp_bind; [apply kp_got, kp_read_attr|intros v]. cbv zeta. apply kp_bind; [|intros _; apply kp_ret]. apply kp_must, kp_write_attr; [exact tidy_MIF|apply tidy_indep; discriminate].
Qed.
Lemma fails {A} (o : out A) (R : fs -> Prop) s e : tidy (e_fs e) -> Forall MIF (e_log e) -> failed o -> mpost R o s e.
Proof. intros (H1 & _) H2 H3. split; [exact H2|]. split; [exact H1|]. destruct o; [destruct H3|exact Logic.I|exact Logic.I|exact Logic.I]. Qed.
Lemma make_meta nfc t2 junk q F s L X R T O : hmac_sized K -> mc_ok q -> (unfinished F = None \/ X = []) -> MIF F -> Forall MIF L ->
  wp (ctap_make_credential K nfc t2 junk (inr q)) (mpost (fun _ => True)) s (mkE F L X R T O).
Proof.
  intros Hsz (_ & (Hh & _) & (Huz & _) & _ & _ & _ & _ & Ha & _) HX HF HL. unfold ctap_make_credential. apply wp_bind. eapply wp_mono; [apply check_meta; assumption|].
  clear HX HF HL L X R T O s F. intros [u|w| |] s e (HL & HM & Hu); try (split; [exact HL|]; split; [exact HM|exact Logic.I]). assert (HP : tidy (e_fs e)) by (split; assumption). clear HM Hu.
  match goal with |- wp _ ?R0 _ _ => set (RR := R0) end. assert (HR : forall o s' e', tidy (e_fs e') -> Forall MIF (e_log e') -> failed o -> RR o s' e') by (intros o s' e'; apply fails).
  apply (kb tidy MIF); [apply kp_touch_probe|exact HP|exact HL|exact HR|]. clear s e HP HL. intros _ s e HP HL.
  apply (kb tidy MIF); [apply kp_mc_auth; intros; exact Logic.I|exact HP|exact HL|exact HR|]. clear s e HP HL. intros uv s e HP HL.
  apply (kb tidy MIF); [apply kp_exclude|exact HP|exact HL|exact HR|]. clear s e HP HL. intros _ s e HP HL.
  apply (kb tidy MIF); [apply kp_ask|exact HP|exact HL|exact HR|]. clear s e HP HL. intros _ s e HP HL.
  apply (kb tidy MIF); [apply kp_modify; intros; exact Logic.I|exact HP|exact HL|exact HR|]. clear s e HP HL. intros _ s e HP HL.
  apply (kb tidy MIF); [apply kp_guard|exact HP|exact HL|exact HR|]. clear s e HP HL. intros _ s e HP HL. cbv zeta.
  apply wp_bind. eapply wp_mono. { apply wp_and; [apply auth_data_issued; [exact Hsz|exact Hh|exact Ha]|]. refine (kp_auth_data K anyc tidy MIF kt_count _ _ _ _ _ _ _). split; [exact Logic.I|]. split; [exact HP|exact HL]. }
  clear s e HP HL. intros [[ad id]|w| |] s e (Hi & _ & HP & HL); try (apply HR; [exact HP|exact HL|exact Logic.I]). cbn [on_ret fst snd] in Hi. destruct Hi as (Hid & Hirp & Had).
  assert (Hrest : forall s e, tidy (e_fs e) -> Forall MIF (e_log e) ->
     wp (att <- mc_att K q ad ;; lbk <- (if mc_lbk q then k <- make_large_blob_key K (id_nonce id) ;; ret [(CInt 5, CBytes k)] else ret []) ;; ret (CMap ([(CInt 1, txt "packed"); (CInt 2, CBytes ad); (CInt 3, att)] ++ lbk))) RR s e).
  { clear s e HP HL. intros s e HP HL. apply (kb tidy MIF); [apply kp_mc_att|exact HP|exact HL|exact HR|]. clear s e HP HL. intros att s e HP HL.
    apply (kb tidy MIF); [unfold make_large_blob_key, read_key32; destruct (mc_lbk q); [|apply kp_ret]; apply kp_bind; [|intros; apply kp_ret]; apply kp_bind; [apply kp_bind; [apply kp_read_attr|intros; apply kp_ret]|intros kk; destruct kk; [apply kp_ret|apply kp_except]]|exact HP|exact HL|exact HR|].
    clear s e HP HL. intros lbk s e HP HL. apply wp_ret. split; [exact HL|]. split; [exact (proj1 HP)|exact Logic.I]. }
  apply wp_bind. destruct (mc_rk q =? 1) eqn:Erk; [|apply wp_ret; apply Hrest; assumption].
  destruct e as [F2 L X R T O]. cbn [e_fs e_log] in HP, HL. destruct HP as (HP & Hu). eapply wp_mono; [apply store_meta; assumption|].
  intros o s1 e1 (H1 & H2 & H3). destruct o as [u1|w| |]; try (split; [exact H1|]; split; [exact H2|exact Logic.I]). apply Hrest; [split; assumption|exact H1].
Qed.
Lemma cm_meta t2 q F s L X R T O : cm_ok q -> (unfinished F = None \/ X = []) -> MIF F -> Forall MIF L ->
  wp (ctap_credential_management K t2 (inr q)) (mpost (fun _ => True)) s (mkE F L X R T O).
Proof.
  intros Hq HX HF HL. unfold ctap_credential_management. apply wp_bind. eapply wp_mono; [apply check_meta; assumption|].
  clear HX HF HL L X R T O s F. intros [u|w| |] s e (HL & HM & Hu); try (split; [exact HL|]; split; [exact HM|exact Logic.I]). assert (HP : tidy (e_fs e)) by (split; assumption). clear HM Hu.
  cbv zeta. match goal with |- wp _ ?R0 _ _ => set (RR := R0) end. assert (HR : forall o s' e', tidy (e_fs e') -> Forall MIF (e_log e') -> failed o -> RR o s' e') by (intros o s' e'; apply fails).
  assert (HK : forall m : Mc (option cbor), keep anyc tidy MIF m -> wp m RR s e).
  { intros m Hm. eapply wp_mono; [apply Hm; split; [exact Logic.I|split; [exact HP|exact HL]]|]. intros o s1 e1 (_ & H1 & H2). split; [exact H2|]. split; [exact (proj1 H1)|destruct o; exact Logic.I]. }
  assert (KA : keep anyc tidy MIF (cm_auth K t2 q)) by (apply kp_cm_auth; intros; exact Logic.I).
  assert (KS : forall m : Mc cbor, keep anyc tidy MIF m -> keep anyc tidy MIF (v <- m ;; ret (Some v))) by (intros m Hm; apply kp_bind; [exact Hm|intros; apply kp_ret]).
  destruct (cm_sub q =? 1) eqn:E1; [apply HK; apply kp_bind; [exact KA|intros n; apply KS; unfold cm_metadata, cp_has_rp; apply kp_bind; [apply kp_bind; [apply kp_get|intros; apply kp_ret]|intros b; apply kp_bind; [apply kp_guard|intros; apply kp_ret]]]|].
  destruct (cm_sub q =? 2) eqn:E2; [apply HK; apply kp_bind; [exact KA|intros n; apply KS; apply kp_cm_rps; intros; exact Logic.I]|].
  destruct (cm_sub q =? 3) eqn:E3; [apply HK; apply KS; apply kp_cm_next_rp; intros; exact Logic.I|].
  destruct (cm_sub q =? 4) eqn:E4; [apply HK; apply kp_bind; [exact KA|intros n; apply KS; apply kp_cm_creds; intros; exact Logic.I]|].
  destruct (cm_sub q =? 5) eqn:E5; [apply HK; apply KS; apply kp_cm_next_cred; intros; exact Logic.I|].
  destruct (cm_sub q =? 6) eqn:E6; [|destruct (cm_sub q =? 7) eqn:E7; [|apply HK; apply kp_ret]].
  all: apply (kb tidy MIF); [exact KA|exact HP|exact HL|exact HR|]; clear s e HP HL HK; intros n s e (HP & Hu) HL; apply wp_bind; eapply wp_mono.
  - apply (delete_meta q n (e_fs e)); [exact Hu|reflexivity|exact HP|exact HL].
  - intros o s1 e1 (H1 & H2 & H3). destruct o as [u1|w| |]; [apply wp_ret|..]; (split; [exact H1|]; split; [exact H2|exact Logic.I]).
  - apply (update_meta q n (e_fs e)); [exact Hq|exact Hu|reflexivity|exact HP|exact HL].
  - intros o s1 e1 (H1 & H2 & H3). destruct o as [u1|w| |]; [apply wp_ret|..]; (split; [exact H1|]; split; [exact H2|exact Logic.I]).
Qed.
Lemma exec_meta d x : hmac_sized K -> ~ is_reset x -> match x_op x with OCbor q => creq_ok q | _ => True end -> (unfinished (d_fs d) = None \/ x_flt x = []) -> MIF (d_fs d) ->
  let '(_, _, e) := exec K d x in Forall MIF (e_log e) /\ MIF (e_fs e).
Proof.
  intros Hsz Hr Hok HX HF. set (F0 := d_fs d) in *. set (RR := fun (e : env) => Forall MIF (e_log e) /\ MIF (e_fs e)).
  pose proof (exec_wp K d x (fun o s e => RR e)) as W. destruct (exec K d x) as [[o s] e]. apply W. clear W o s e. fold F0.
  assert (P3 : indep MIF CTAP_CERT_FILE) by (apply MIF_indep; discriminate). assert (PQ : forall G, MIF G -> MIF G) by auto.
  assert (PA : forall a v, keep anyc MIF MIF (write_attr CTAP_CERT_FILE a v)) by (intros a v; apply kp_write_attr; [exact PQ|exact P3]).
  assert (Kc : keep anyc MIF MIF increase_counter). { unfold increase_counter. apply kp_bind; [apply kp_got, kp_read_attr|intros v]. cbv zeta. apply kp_bind; [|intros _; apply kp_ret]. apply kp_must, PA. }
  assert (G : kgood anyc MIF MIF (d_ram d) (start F0 (x_flt x) (x_rnd x) (x_tch x))) by (split; [exact Logic.I|split; [exact HF|constructor; [exact HF|constructor]]]).
  assert (B : forall m : Mc Z, keep anyc MIF MIF m -> wp m (fun o s e => match o with Ret w | Exc w => RR e | Fail => RR e | UB => RR e end) (d_ram d) (start F0 (x_flt x) (x_rnd x) (x_tch x))).
  { intros m Hm. eapply wp_mono; [apply Hm, G|]. intros [] s e (_ & H1 & H2); split; auto. }
  assert (C : forall q, wp (cbor_cmd K (x_nfc x) (x_t1 x) (x_t2 x) (x_junk x) q) (fun o _ e => RR e) (d_ram d) (start F0 (x_flt x) (x_rnd x) (x_tch x)) ->
     wp (cbor_body K x q) (fun o s e => match o with Ret (c, v) => RR e | _ => RR e end) (d_ram d) (start F0 (x_flt x) (x_rnd x) (x_tch x))).
  { intros q V. unfold cbor_body, process_cbor. unfold wp in *. destruct (cbor_cmd K _ _ _ _ _ _ _) as [[[v|c| |] s] e]; [destruct (_ <=? x_cap x)|..]; exact V. }
  assert (CK : forall q, keep anyc MIF MIF (cbor_cmd K (x_nfc x) (x_t1 x) (x_t2 x) (x_junk x) q) -> wp (cbor_cmd K (x_nfc x) (x_t1 x) (x_t2 x) (x_junk x) q) (fun o _ e => RR e) (d_ram d) (start F0 (x_flt x) (x_rnd x) (x_tch x))).
  { intros q Hm. eapply wp_mono; [apply Hm, G|]. intros o s e (_ & H1 & H2). split; assumption. }
  destruct (x_op x) as [q|da|p1 da| |da|da|da] eqn:Ex.
  - apply C. assert (KO : match q with RMake (inr _) | RCm (inr _) | RGet _ | RReset => False | _ => True end -> keep anyc MIF MIF (cbor_cmd K (x_nfc x) (x_t1 x) (x_t2 x) (x_junk x) q)).
    { intros Hq. unfold cbor_cmd. apply kp_bind; [unfold cp_observer; apply kp_modify; intros ? H; exact H|intros _]. destruct q as [[]|[]| | |p| |[]| |p|]; try destruct Hq; try apply kp_except.
      - apply kp_bind; [|intros; apply kp_ret]. eapply kp_gna with (okq := fun _ => True); auto; intros; exact Logic.I.
      - apply kp_bind; [apply kp_info|intros; apply kp_ret].
      - apply kp_pin; auto; intros; exact Logic.I.
      - apply kp_bind; [|intros; apply kp_ret]. unfold WAIT. destruct (x_nfc x); [apply kp_ret|]. apply kp_bind; [apply kp_wait|intros r]. destruct (r =? _); [apply kp_except|]. destruct (r =? _); [apply kp_except|apply kp_ret].
      - apply kp_lb; [exact PQ|intros; exact Logic.I|intros; exact Logic.I|apply MIF_indep; discriminate|]. apply kp_rename; [exact PQ|apply MIF_indep; discriminate|apply MIF_indep; discriminate]. }
    destruct q as [[err|q]|p| | |p| |[err|q]| |p| ]; try (apply CK, KO, Logic.I).
    + unfold cbor_cmd, cp_observer. apply wp_bind, wp_modify, wp_bind. unfold start. eapply wp_mono; [apply make_meta; [exact Hsz|exact Hok|exact HX|exact HF|constructor; [exact HF|constructor]]|].
      intros o s e (H1 & H2 & H3). destruct o as [v|c| |]; [apply wp_ret|..]; split; assumption.
    + unfold cbor_cmd, cp_observer. apply wp_bind, wp_modify, wp_bind. unfold ctap_get_assertion. apply wp_bind, wp_modify, wp_bind. unfold start. eapply wp_mono; [apply check_meta; [exact HX|exact HF|constructor; [exact HF|constructor]]|].
      intros [u|c| |] s e (H1 & H2 & H3); try (split; assumption).
      assert (KG : keep anyc MIF MIF (match p with inl err => except err | inr q => ga_begin K (x_nfc x) (x_t2 x) q ;;; ga_rest K (x_nfc x) (x_t2 x) end)).
      { destruct p as [err|q]; [apply kp_except|]. apply kp_bind; [|intros _].
        - eapply kp_ga_begin with (okq := fun _ => True); auto; intros; exact Logic.I.
        - eapply kp_ga_rest with (okq := fun _ => True); auto; try (intros; exact Logic.I). }
      eapply wp_mono; [apply KG; split; [exact Logic.I|split; [exact H2|exact H1]]|]. clear H1 H2 H3. intros o s1 e1 (_ & H4 & H1). destruct o as [v|c| |]; [apply wp_ret|..]; split; assumption.
    + elim Hr. right. exact Ex.
    + unfold cbor_cmd, cp_observer. apply wp_bind, wp_modify. unfold start. eapply wp_mono; [apply cm_meta; [exact Hok|exact HX|exact HF|constructor; [exact HF|constructor]]|]. intros o s e (H1 & H2 & H3). split; assumption.
  - unfold body. rewrite Ex. apply B. apply kp_bind; [apply kp_register|intros; apply kp_ret].
  - unfold body. rewrite Ex. apply B. apply kp_bind; [apply kp_auth; exact Kc|intros; apply kp_ret].
  - elim Hr. left. exact Ex.
  - unfold body. rewrite Ex. apply B. apply kp_bind; [|intros; apply kp_ret]. unfold install_private_key. apply kp_bind; [apply kp_guard|intros _]. apply kp_bind; [apply kp_modify; intros ? H; exact H|intros _].
    apply kp_bind; [apply kp_must, PA|intros _; apply kp_must, PA].
  - unfold body. rewrite Ex. apply B. apply kp_bind; [|intros; apply kp_ret]. unfold install_cert. apply kp_bind; [apply kp_guard|intros _]. apply kp_must, kp_write_file; [exact PQ|exact P3].
  - unfold body. rewrite Ex. apply B. apply kp_bind; [|intros; apply kp_ret]. unfold write_sm2_config. apply kp_bind; [apply kp_guard|intros _]. apply kp_bind; [apply PA|intros ok]. apply kp_bind; [apply kp_modify; intros ? H; exact H|intros _; apply kp_guard].
Qed.
(** *** Histories *)
Lemma MIF_wiped F : fattr F "ctap_dc" 0 = Some [0; 0; 0] -> fdata F "ctap_dm" = Some [] -> no_credentials F -> MIF F.
Proof.
  intros HA HM HC. assert (HE : forall i, entry_at F i = None). { intros i. unfold entry_at. rewrite HM. change (zlen []) with 0. destruct (0 <=? i) eqn:E; [|reflexivity]. destruct ((i + 1) * 76 <=? 0) eqn:E2; [lia|reflexivity]. }
  assert (HP : forall j, party F j = None). { intros j. unfold party, shown_at. destruct (unfinished F) as [u|]; [destruct (u =? j); [reflexivity|]|]; unfold credential, cell; rewrite HC; change (zlen []) with 0; (destruct (0 <=? j) eqn:E; [|reflexivity]); (destruct ((j + 1) * 300 <=? 0) eqn:E2; [lia|reflexivity]). }
  split; [|split; [|split; [|split]]]; intros *; rewrite ?HE, ?HP; discriminate.
Qed.
Lemma refused d x : x_op x = OCbor RReset -> 10000 < x_t1 x -> d_fs d = e_fs (snd (exec K d x)).
Proof.
  intros Hx Ht. unfold exec, cbor_body, process_cbor, cbor_cmd, ctap_reset_data, bind, cp_observer, modify, guard, except. rewrite Hx. destruct (x_t1 x <=? 10000) eqn:E; [lia|]. reflexivity.
Qed.
(** What is left out: a reset must succeed, or be refused because it comes too late; power loss must not hit a reset; and while an
    operation is unfinished the storage must not fail, at a boot either. *)
Definition usual (en : entry) : Prop :=
  let '(d, v, o) := en in
  match v with
  | Do x => (unfinished (d_fs d) = None \/ x_flt x = []) /\ (is_reset x -> x_op x = OCbor RReset /\ 10000 < x_t1 x \/ 128 <= zlen (x_rnd x) /\ exists a, o = Some a /\ succeeded a)
  | Cut x _ flt _ => (unfinished (d_fs d) = None \/ x_flt x = []) /\ ~ is_reset x /\ flt = []
  | Other _ => True
  end.
Lemma reset_dec x : is_reset x \/ ~ is_reset x.
Proof. unfold is_reset. destruct (x_op x) as [[]| | | | | |]; (left; left; reflexivity) || (left; right; reflexivity) || (right; intros [H|H]; discriminate). Qed.
Lemma step_meta d v o d' : hmac_sized K -> ev_ok d v -> usual (d, v, o) -> step K d v = Some (o, d') -> array (d_fs d) <> None -> MIF (d_fs d) -> array (d_fs d') <> None /\ MIF (d_fs d').
Proof.
  intros Hsz Hv Hu Hs HA HF. destruct v as [x|x n flt rnd|G]; cbn [usual] in Hu.
  - destruct Hu as (HX & HR). destruct (reset_dec x) as [Hr|Hr].
    + destruct (HR Hr) as [(H1 & H2)|(H1 & a & -> & H2)]; cbn [step] in Hs.
      * pose proof (refused d x H1 H2) as E. destruct (exec K d x) as [[[a|] s] e]; [|discriminate]. injection Hs as _ <-. cbn [snd d_fs] in *. rewrite <- E. split; assumption.
      * pose proof (C58_complete K d x) as W. destruct (exec K d x) as [[[a1|] s] e]; [|discriminate]. injection Hs as -> <-. destruct (W a s e Hr H1 eq_refl H2) as [W1 W2 W3 _ _ _ _ W4]. cbn [d_fs]. split; [|apply MIF_wiped; assumption]. unfold array. rewrite W4. discriminate.
    + pose proof (exec_meta d x Hsz Hr Hv HX HF) as W. pose proof (images_installed K d x (proj2 (nn _) HA) Hr) as I. cbn [step] in Hs. destruct (exec K d x) as [[[a|] s] e]; [|discriminate]. injection Hs as _ <-. cbn [d_fs]. split; [apply nn, I|apply W].
  - destruct Hu as (HX & Hr & ->). pose proof (exec_meta d x Hsz Hr Hv HX HF) as W. pose proof (images_installed K d x (proj2 (nn _) HA) Hr) as I. cbn [step] in Hs. destruct (exec K d x) as [[o1 s] e]. injection Hs as _ <-. destruct W as (W1 & W2). destruct I as (I1 & I2).
    assert (HI : installed (nth n (e_log e) (e_fs e))) by (apply (Forall_nth_default installed); assumption). rewrite boot_same by exact HI. split; [apply nn, HI|apply Forall_nth_default; assumption].
  - cbn [step] in Hs. injection Hs as _ <-. cbn [d_fs ev_ok] in *. assert (E : forall q, In q ctap_files -> G q = d_fs d q) by exact Hv. split; [|apply (MIF_as (d_fs d)); [apply E; cbn; tauto|apply E; cbn; tauto|exact HF]].
    apply nn. rewrite E by (cbn; tauto). apply nn. exact HA.
Qed.
(** Along every such history from a device that was reset: in each state the slots in the sets are those of the credentials of that
    relying party, each credential is in a set, and no party has two sets. *)
Theorem C54_consistent_partial d0 kh he tr d : hmac_sized K -> wiped (d_fs d0) kh he -> hist K d0 tr d -> Forall usual tr -> consistent (d_fs d).
Proof.
  intros Hsz [W1 W2 W3 _ _ _ _ W4] H. assert (Inv : Forall usual tr -> array (d_fs d) <> None /\ MIF (d_fs d)); [|intros Hu; apply MI_consistent, Inv, Hu].
  induction H as [d|d0 tr d v o d' H IH Hv Hs]; intros Hu.
  - split; [unfold array; rewrite W4; discriminate|apply MIF_wiped; assumption].
  - apply Forall_app in Hu. destruct Hu as (Hu1 & Hu2). inversion Hu2; subst. destruct (IH W1 W2 W3 W4 Hu1) as (I1 & I2). eapply step_meta; eassumption.
Qed.
End S.

(** ** Examples *)
(** Two credentials of RP 7 and one of RP 8; the power fails while a second one of RP 8 is stored, and its slot, which is in the set, does not count. *)
Definition case54 : list ev := h53 ++ [Do (make53 20002 7 2); Do (make53 20003 8 1); Cut (make53 20004 8 2) 1 [] (repeat 5 100)].
Definition head_of (o : option bytes) : Z := match o with Some h => nth 0 h 0 | None => -1 end.
Definition sets54 (d : dev) : list Z := flat_map (fun i => match entry_at (d_fs d) i with Some m => [nth 0 m 0; le (slice 68 8 m)] | None => [] end) [0; 1; 2].
Definition usual_b (en : entry) : bool :=
  let '(d, v, _) := en in
  match v with Do x => match x_flt x with [] => true | _ => false end && match x_op x with OReset | OCbor RReset => false | _ => true end | Cut x _ flt _ => match x_flt x, flt with [], [] => true | _, _ => false end && match x_op x with OReset | OCbor RReset => false | _ => true end | Other _ => true end.
Lemma usual_b_ok en : usual_b en = true -> usual en.
Proof.
  destruct en as [[d v] o]. destruct v as [x|x n flt rnd|G]; cbn [usual_b usual]; [| |intros; exact Logic.I]; intros H; apply andb_true_iff in H; destruct H as (H1 & H2).
  - split; [right; destruct (x_flt x); [reflexivity|discriminate]|]. intros [E|E]; rewrite E in H2; discriminate.
  - destruct (x_flt x) as [|? ?]; [|discriminate]. destruct flt as [|? ?]; [|discriminate]. split; [right; reflexivity|]. split; [|reflexivity]. intros [E|E]; rewrite E in H2; discriminate.
Qed.
Example C54_case : (exists kh he, wiped (d_fs fresh_dev) kh he) /\ exists tr d, hist toyf fresh_dev tr d /\ Forall usual tr /\ map (fun e => snd (fst e)) tr = case54 /\ map (fun j => head_of (party (d_fs d) j)) [0; 1; 2; 3] = [7; 7; 8; -1] /\ sets54 d = [7; 3; 8; 12].
Proof.
  split; [do 2 eexists; constructor; vm_compute; reflexivity|].
  destruct (play_case toyf fresh_dev case54 (fun tr d => forallb usual_b tr && beqb (map (fun j => head_of (party (d_fs d) j)) [0; 1; 2; 3]) [7; 7; 8; -1] && beqb (sets54 d) [7; 3; 8; 12])) as (tr & d & H1 & H2 & H3); [vm_compute; reflexivity|].
  apply andb_true_iff in H2. destruct H2 as (H2 & H5). apply andb_true_iff in H2. destruct H2 as (H2 & H4). exists tr, d. split; [exact H1|]. split; [apply Forall_forall; intros e He; apply usual_b_ok; rewrite forallb_forall in H2; apply H2, He|].
  split; [exact H3|]. split; apply beqb_eq; assumption.
Qed.
(** ** What does not hold *)
(** The reported number: after two creations for one account, the second of which replaces the first, getCredsMetadata says two. *)
Definition twice54 : list ev := make81 ++ [pin_at 20006 (token_req fresh_dev pin_a); do_at 20007 (OCbor (RMake (inr (mc_tag 20006 7 1 1)))); pin_at 20008 (ask_perm pin_a 4 None);
  do_at 20009 (OCbor (RCm (inr (mkCm 1 [] (repeat 0 32) (repeat 0 70) (repeat 0 195) 1 (tag_at 20008 [1])))))].
Definition reported (tr : list entry) : Z := match rev tr with (_, _, Some (ACbor 0 (Some (CMap ((CInt 1, CInt n) :: _))))) :: _ => n | _ => -1 end.
Theorem C54_number_refuted : exists tr d, hist toyf fresh_dev tr d /\ map (fun e => snd (fst e)) tr = twice54 /\ Forall usual tr /\ reported tr = 2 /\ (exists c, shown_at (d_fs d) 0 = Some c) /\ forall j, j <> 0 -> shown_at (d_fs d) j = None.
Proof.
  destruct (play_case toyf fresh_dev twice54 (fun tr d => forallb usual_b tr && (reported tr =? 2) && is_some (shown_at (d_fs d) 0) && match fdata (d_fs d) "ctap_dc" with Some l => zlen l <=? 300 | None => true end)) as (tr & d & H1 & H2 & H3); [vm_compute; reflexivity|].
  repeat (apply andb_true_iff in H2; destruct H2 as (H2 & ?)). exists tr, d. split; [exact H1|]. split; [exact H3|]. split; [apply Forall_forall; intros e He; apply usual_b_ok; rewrite forallb_forall in H2; apply H2, He|]. split; [lia|].
  split; [destruct (shown_at (d_fs d) 0) as [c|]; [exists c; reflexivity|discriminate]|]. intros j Hj. apply one_slot; [|exact Hj]. destruct (fdata (d_fs d) "ctap_dc"); [lia|exact Logic.I].
Qed.
(** Power loss in a reset, when the credentials are gone but the metadata is not: the next credential, of RP 8, is in the set of RP 7. *)
Definition cut54 : list ev := h53 ++ [Cut (cmd_at 5000 (OCbor RReset)) 7 [] (repeat 5 100); Do (make53 20002 8 1)].
Theorem C54_reset_refuted : exists tr d, hist toyf fresh_dev tr d /\ map (fun e => snd (fst e)) tr = cut54 /\ in_set (d_fs d) 0 0 (repeat 7 32) /\ party (d_fs d) 0 = Some (repeat 8 32).
Proof.
  destruct (play_case toyf fresh_dev cut54 (fun tr d => match entry_at (d_fs d) 0, party (d_fs d) 0 with Some m, Some h => beqb (slice 0 32 m) (repeat 7 32) && Z.testbit (le (slice 68 8 m)) 0 && negb (is_some (unfinished (d_fs d))) && beqb h (repeat 8 32) | _, _ => false end)) as (tr & d & H1 & H2 & H3); [vm_compute; reflexivity|].
  destruct (entry_at (d_fs d) 0) as [m|] eqn:Em; [|discriminate]. destruct (party (d_fs d) 0) as [h|] eqn:Eh; [|discriminate]. repeat (apply andb_true_iff in H2; destruct H2 as (H2 & ?)). exists tr, d. split; [exact H1|]. split; [exact H3|].
  split; [|rewrite Eh; f_equal; apply beqb_eq; assumption]. exists m. split; [exact Em|]. split; [apply beqb_eq; exact H2|]. split; [assumption|]. destruct (unfinished (d_fs d)); discriminate.
Qed.
Print Assumptions C54_consistent_partial. Print Assumptions C54_number_refuted. Print Assumptions C54_reset_refuted.
