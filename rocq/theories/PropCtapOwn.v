(** C94: every resident credential in the storage is one of the device's own. *)
From Verif Require PropCtapCount.
From Verif Require Import CtapSpec CtapFrame CtapCred CtapStore CtapToy CtapExec PropCtapPin PropCtapToken PropCtapCred PropCtapSign PropCtapExclude PropCtapAnswered PropCtapCrash PropCtapNext PropCtapNextLive.
Open Scope string_scope. Open Scope list_scope. Open Scope Z_scope.

(** ** Specification *)
Section Spec.
Variable K : fcrypto.
(** A credential id that a device with the key [a] made: its tag authenticates the relying party under the key derived from the nonce *)
Definition ours (a : option bytes) (id : bytes) : Prop :=
  exists kh, a = Some kh /\ id_tag id = firstn 16 (f_hmac K (f_hmac K (attr_buf 32 kh) (id_nonce id)) (id_rp id)).
(** The key of the device is [a], and each of the credentials in the storage was made with it. *)
Definition mine (a : option bytes) (F : fs) : Prop := fattr F "ctap_cert" 4 = a /\ forall j d, credential F j = Some d -> ours a (dc_id d).
End Spec.
(** No credentials at all *)
Definition no_creds (F : fs) : Prop := forall j, credential F j = None.

(** ** Steps *)
Lemma cred_dc F F' j : F' DC_FILE = F DC_FILE -> credential F' j = credential F j.
Proof. intros H. unfold credential. rewrite (cell_dc F F' j H). reflexivity. Qed.
Section L.
Variable K : fcrypto.
Variable nfc : bool.
Variables t1 t2 : Z.
Variable junk : bytes.
Variable a : option bytes.
Notation mn := (mine K a).
Notation lv := (CtapFrame.keep anyst mn mn).
Notation kg := (kgood anyst mn mn).
Lemma aa : forall F, mn F -> mn F. Proof. auto. Qed.
Lemma mn_set F p f g : p <> DC_FILE -> F p = Some f -> (p = CTAP_CERT_FILE -> f_attr g 4 = f_attr f 4) -> mn F -> mn (fset F p (Some g)).
Proof.
  intros Hp Hf Hg (H1 & H2). split.
  - unfold fattr in *. destruct (string_dec p CTAP_CERT_FILE) as [->|N]; [|rewrite fset_other by (intros E; apply N; symmetry; exact E); exact H1].
    change "ctap_cert" with CTAP_CERT_FILE in *. rewrite fset_same. rewrite Hf in H1. rewrite Hg by reflexivity. exact H1.
  - intros j d Hd. apply (H2 j). rewrite <- Hd. symmetry. apply cred_dc. apply fset_other. congruence.
Qed.
Lemma mn_new F p : p <> DC_FILE -> F p = None -> mn F -> mn (fset F p (Some (mkF [] no_attr))).
Proof.
  intros Hp Hf (H1 & H2). split.
  - unfold fattr in *. destruct (string_dec p CTAP_CERT_FILE) as [->|N]; [|rewrite fset_other by (intros E; apply N; symmetry; exact E); exact H1].
    change "ctap_cert" with CTAP_CERT_FILE in *. rewrite fset_same. rewrite Hf in H1. exact H1.
  - intros j d Hd. apply (H2 j). rewrite <- Hd. symmetry. apply cred_dc. apply fset_other. congruence.
Qed.
Lemma lv_wf p d o t : p <> DC_FILE -> lv (write_file p d o t).
Proof.
  intros Hp s e H. apply kp_pop in H. unfold wp, write_file. destruct (pop_fault e) as [x e']. cbn [snd] in H.
  assert (G : forall e1 f y, kg s e1 -> e_fs e1 p = Some f -> kg s (commit (fset (e_fs e1) p (Some (mkF y (f_attr f)))) e1)).
  { intros e1 f y G1 Ef. apply kgood_commit; [exact aa|exact G1|]. eapply mn_set; [exact Hp|exact Ef|intros _; reflexivity|apply G1]. }
  destruct x; try exact H; (destruct (e_fs e' p) as [f|] eqn:E;
    [ rewrite ?E; try exact H; apply G; assumption
    | assert (H1 : kg s (commit (fset (e_fs e') p (Some (mkF [] no_attr))) e')) by (apply kgood_commit; [exact aa|exact H|apply mn_new; [exact Hp|exact E|apply H]]); cbn [e_fs commit]; rewrite ?fset_same; try exact H1;
      refine (G _ (mkF [] no_attr) _ H1 _); cbn [e_fs commit]; apply fset_same ]).
Qed.
Lemma lv_wa p b v : p <> DC_FILE -> b <> KH_KEY_ATTR -> lv (write_attr p b v).
Proof.
  intros Hp Hb. apply kp_write_attr_at; [exact aa|]. intros F f HF Ef. eapply mn_set; [exact Hp|exact Ef| |exact HF]. intros _. cbn [f_attr]. unfold aset. change KH_KEY_ATTR with 4 in Hb. destruct (4 =? b) eqn:E; [lia|]. reflexivity.
Qed.
Lemma mn_attr F v : mn F -> mn (fsetattr F DC_FILE DC_GENERAL_ATTR v).
Proof.
  intros (H1 & H2). split; [|intros j d; rewrite cred_attr; apply H2]. rewrite <- H1. unfold fattr, fsetattr. destruct (F DC_FILE) as [f|]; [|reflexivity]. rewrite fset_other by discriminate. reflexivity.
Qed.
Lemma lv_wd v : lv (write_attr DC_FILE DC_GENERAL_ATTR v).
Proof.
  apply kp_write_attr_at; [exact aa|]. intros F f HF Ef. pose proof (mn_attr F v HF) as H. unfold fsetattr in H. rewrite Ef in H. exact H.
Qed.
Lemma lv_ren : lv (fs_rename LB_FILE_TMP LB_FILE).
Proof.
  apply kp_rename_at; [exact aa|]. intros F f (H1 & H2) Ef. split.
  - unfold fattr in *. rewrite !fset_other by discriminate. exact H1.
  - intros j d Hd. apply (H2 j). rewrite <- Hd. symmetry. apply cred_dc. rewrite !fset_other by discriminate. reflexivity.
Qed.
(** A record is written to a slot. *)
Lemma mn_put F k r : has_room F k -> zlen r = 300 -> (dc_deleted r = false -> ours K a (dc_id r)) -> mn F -> mn (fwrite F DC_FILE r (k * 300) false).
Proof.
  intros HR Hr Ho (H1 & H2). split.
  - rewrite <- H1. unfold fattr, fwrite, fcreate. destruct (F DC_FILE) as [f|] eqn:E; rewrite ?E, ?fset_same; destruct r; rewrite ?fset_other by discriminate; reflexivity.
  - intros j d. rewrite cred_write by assumption. destruct (j =? k); [|apply H2]. destruct (dc_deleted r) eqn:E; [discriminate|]. intros Hd. injection Hd as <-. apply Ho. reflexivity.
Qed.
Lemma wr_put k r s e : has_room (e_fs e) k -> zlen r = 300 -> (dc_deleted r = false -> ours K a (dc_id r)) -> kg s e -> wp (write_file DC_FILE r (k * DC_SIZE) false) (fun _ s' e' => kg s' e') s e.
Proof.
  intros HR Hr Ho (_ & H1 & H2). destruct e as [F L X R T O]. cbn [e_fs e_log] in *. destruct (room_file F k HR) as (f & Hf & _).
  assert (LC : lcreate F L DC_FILE = L) by (unfold lcreate; rewrite Hf; reflexivity). assert (FC : fcreate F DC_FILE = F) by (unfold fcreate; rewrite Hf; reflexivity). change DC_SIZE with 300.
  pose proof (mn_put F k r HR Hr Ho H1) as H3.
  apply wp_write_file; [intros X3 _|intros _ X3|intros _ X3]; rewrite ?LC, ?FC; (split; [exact Logic.I|split; [try exact H3; exact H1|cbn [e_log]; try exact H2; constructor; assumption]]).
Qed.
Lemma must_put k r s e : has_room (e_fs e) k -> zlen r = 300 -> (dc_deleted r = false -> ours K a (dc_id r)) -> kg s e -> wp (must (write_file DC_FILE r (k * DC_SIZE) false)) (fun _ s' e' => kg s' e') s e.
Proof. intros HR Hr Ho H. unfold must. apply wp_bind. eapply wp_mono; [apply wr_put; assumption|]. intros [b|w| |] s1 e1 H1; try exact H1. apply wp_guard; intros _; exact H1. Qed.
(** Continuing after a step that keeps things *)
Lemma kb1 {A B} (m : Mc A) (k : A -> Mc B) s e : wp m (fun _ s' e' => kg s' e') s e -> (forall x s' e', kg s' e' -> wp (k x) (fun _ s2 e2 => kg s2 e2) s' e') -> wp (bind m k) (fun _ s' e' => kg s' e') s e.
Proof. intros Hm Hk. apply wp_bind. eapply wp_mono; [exact Hm|]. intros [x|w| |] s1 e1 H1; [apply Hk, H1|exact H1..]. Qed.
(** ... and leaves room in a slot *)
Definition roomy (k : Z) (F : fs) : Prop := mn F /\ has_room F k.
Lemma rm_mn k : forall F, roomy k F -> mn F. Proof. intros F H. apply H. Qed.
Lemma kb2 {A B} i (m : Mc A) (k : A -> Mc B) s e : CtapFrame.keep anyst (roomy i) mn m -> has_room (e_fs e) i -> kg s e -> (forall x s' e', has_room (e_fs e') i -> kg s' e' -> wp (k x) (fun _ s2 e2 => kg s2 e2) s' e') -> wp (bind m k) (fun _ s' e' => kg s' e') s e.
Proof.
  intros Hm HR (H1 & H2 & H3) Hk. apply wp_bind. eapply wp_mono; [apply Hm; split; [exact H1|split; [split; assumption|exact H3]]|]. intros [x|w| |] s1 e1 (H4 & (H5 & H6) & H7); [apply Hk; [exact H6|]|..]; (split; [exact H4|split; assumption]).
Qed.
Lemma rm_wd k v : CtapFrame.keep anyst (roomy k) mn (must (write_attr DC_FILE DC_GENERAL_ATTR v)).
Proof.
  apply kp_must, kp_write_attr_at; [apply rm_mn|]. intros F f (HF & HR) Ef. pose proof (mn_attr F v HF) as H. pose proof (room_attr F v k HR) as H'. unfold fsetattr in *. rewrite Ef in *. split; assumption.
Qed.
Lemma rm_general k : CtapFrame.keep anyst (roomy k) mn read_general.
Proof. unfold read_general. apply kp_bind; [apply kp_got, kp_read_attr|intros; apply kp_ret]. Qed.
Ltac fc1 :=
  lazymatch goal with
  | |- CtapFrame.keep _ _ _ (bind _ _) => apply kp_bind; [|intros ?]
  | |- CtapFrame.keep _ _ _ (ret _) => apply kp_ret
  | |- CtapFrame.keep _ _ _ (got _) => apply kp_got
  | |- CtapFrame.keep _ _ _ (must _) => apply kp_must
  | |- CtapFrame.keep _ _ _ (gets _) => apply kp_gets
  | |- CtapFrame.keep _ _ _ get => apply kp_get
  | |- CtapFrame.keep _ _ _ ub => apply kp_ub
  | |- CtapFrame.keep _ _ _ fail => apply kp_fail
  | |- CtapFrame.keep _ _ _ (except _) => apply kp_except
  | |- CtapFrame.keep _ _ _ (guard _ _) => apply kp_guard
  | |- CtapFrame.keep _ _ _ (set_out _) => apply kp_set_out
  | |- CtapFrame.keep _ _ _ wait_touch => apply kp_wait
  | |- CtapFrame.keep _ _ _ (random_buffer _) => apply kp_random
  | |- CtapFrame.keep _ _ _ (read_file _ _ _) => apply kp_read_file
  | |- CtapFrame.keep _ _ _ (read_attr _ _) => apply kp_read_attr
  | |- CtapFrame.keep _ _ _ (get_file_size _) => apply kp_size
  | |- CtapFrame.keep _ _ _ (write_file _ _ _ _) => apply lv_wf; discriminate
  | |- CtapFrame.keep _ _ _ (write_attr _ _ _) => first [apply lv_wd | apply lv_wa; discriminate]
  | |- CtapFrame.keep _ _ _ (fs_rename _ _) => apply lv_ren
  | |- CtapFrame.keep _ _ _ (modify _) => apply kp_modify; intros; exact Logic.I
  | |- CtapFrame.keep _ _ _ (let _ := _ in _) => cbv zeta
  | |- CtapFrame.keep _ _ _ (let '(_, _) := ?x in _) => destruct x
  | |- CtapFrame.keep _ _ _ (match ?x with _ => _ end) => destruct x
  | |- CtapFrame.keep _ _ _ _ => match goal with H : context [CtapFrame.keep] |- _ => simple apply H end
  end.
Ltac fc := repeat fc1.
Ltac un := unfold WAIT, has_pin, cp_user_present, cp_user_verified,
   cp_clear_flags, cp_has_permission, cp_has_rp, cp_verify_rp, cp_associate_rp, cp_verify_token, verify_key_handle,
   sign_with_device_key, sign_with_private_key, make_large_blob_key, cp_encrypt, cp_decapsulate, cp_observer, cp_regenerate, cp_begin_using,
   cp_reset_token, cp_set_permission, read_rec, count_recs, read_general, read_key32, cose_alg_to_key_type.
Lemma lv_ctr : lv increase_counter. Proof. unfold increase_counter. cbv zeta. fc. Qed.
Lemma lv_drop_slot n i idx : lv (drop_slot n i idx).
Proof. revert i; induction n; intros i; cbn [drop_slot]; un; fc. Qed.
Lemma lv_rec p z i : lv (read_rec p z i). Proof. unfold read_rec. fc. Qed.
Lemma lv_count p z : lv (count_recs p z). Proof. unfold count_recs. fc. Qed.
Lemma lv_consistency : lv consistency_check.
Proof.
  pose proof lv_drop_slot. unfold consistency_check, read_general. apply kp_bind; [fc|intros b]. destruct (Z.land (ga_flags b) 3 =? 0); [fc|]. cbv zeta. apply kp_bind; [fc|intros sz]. apply kp_bind; [|intros _; unfold count_recs; fc].
  destruct sz as [z|]; [|fc]. destruct (_ <=? z); [|fc]. intros s e G. apply wp_bind. eapply wp_mono; [apply wp_and; [apply rd_rec; reflexivity|apply (lv_rec DC_FILE DC_SIZE (ga_index b) s e G)]|].
  intros [d|w| |] s1 e1 (H1 & H2); try exact H2. destruct H1 as ((H1 & H3) & _ & He). change DC_SIZE with 300 in H1, H3. destruct (cell_read _ _ _ H1 H3) as (Hc & _). rewrite <- He in Hc. destruct (dc_deleted d); [exact H2|].
  destruct (deleted_delete d H3) as (D1 & D2). apply must_put; [apply (room_cell _ _ d), Hc|exact D2|congruence|exact H2].
Qed.
Lemma lv_derive n kt kh rp alg dc cp : lv (derive K n kt kh rp alg dc cp).
Proof. induction n; cbn [derive]; cbv zeta; fc. Qed.
Lemma lv_generate rp alg dc cp : lv (generate_key_handle K rp alg dc cp).
Proof. pose proof (lv_derive 64). unfold generate_key_handle. un. fc. Qed.
Lemma lv_auth_data rp fl ext at_ : lv (make_auth_data K rp fl ext at_).
Proof. pose proof lv_generate. pose proof lv_ctr. unfold make_auth_data. cbv zeta. fc. Qed.
Lemma lv_exclude q uv l buf : lv (exclude K nfc q uv l buf).
Proof. revert buf; induction l; intros buf; cbn [exclude]; cbv zeta; un; fc. Qed.
Lemma lv_find_slot n pos fd rp user buf : lv (find_slot n pos fd rp user buf).
Proof. revert pos fd buf; induction n; intros pos fd buf; cbn [find_slot]; un; fc. Qed.
Lemma lv_find_meta n pos fd rp : lv (find_meta n pos fd rp).
Proof. revert pos fd; induction n; intros pos fd; cbn [find_meta]; un; fc. Qed.
Lemma lv_mc_store q id s e : zlen id = 70 -> zlen (mc_user q) = 195 -> ours K a id -> kg s e -> wp (mc_store q id) (fun _ s' e' => kg s' e') s e.
Proof.
  intros Hid Hus Ho G. pose proof lv_find_meta. unfold mc_store. apply wp_bind. eapply wp_mono; [apply wp_and; [apply (rd_count DC_FILE DC_SIZE (e_fs e)); reflexivity|apply (lv_count DC_FILE DC_SIZE s e G)]|].
  intros [n|w| |] s1 e1 (H1 & H2); try exact H2. destruct H1 as ((z & Hz & ->) & _ & He). set (F := e_fs e) in *. clearbody F. clear s e G. change DC_SIZE with 300. change (Z.of_nat 64) with 64.
  assert (Hfl : exists f, F DC_FILE = Some f /\ z = zlen (f_data f)) by (unfold fsize in Hz; destruct (F DC_FILE) as [f|]; [injection Hz as <-; eauto|discriminate]). destruct Hfl as (f & Hf & Hzf). pose proof (zlen_nonneg (f_data f)) as Hz0.
  set (n := z / 300). assert (Hn : 0 <= n /\ n * 300 <= z < (n + 1) * 300) by (unfold n; pose proof (Z.div_mod z 300); pose proof (Z.mod_pos_bound z 300); lia).
  apply wp_bind. eapply wp_mono.
  { apply wp_and; [apply (find_slot_spec q F (Z.to_nat n) 0 MAX_DC_NUM (zeros 300)); [exact He|reflexivity|lia|intros; lia|left; reflexivity]|]. apply lv_find_slot. exact H2. }
  clear e1 He H2. intros [[[pos fd] old]|w| |] s2 e1 (Hr & G); try exact G. destruct Hr as (Hr & _ & He). rewrite Z.add_0_l, Z2Nat.id in Hr by lia. cbn [found] in Hr.
  destruct Hr as (Hold & Hp0 & Hpos & Hfd). cbv zeta. change MAX_DC_NUM with 64. set (k := if (pos =? n) && negb (fd =? 64) then fd else pos).
  assert (HR : has_room (e_fs e1) k).
  { rewrite He. assert (Hn' : has_room F n) by (split; [lia|]; unfold fdata; change "ctap_dc" with DC_FILE; rewrite Hf; lia).
    assert (Hp' : has_room F pos). { destruct Hpos as [(_ & d & Hd & _)|(-> & _)]; [|exact Hn']. unfold credential in Hd. destruct (cell F pos) as [c|] eqn:Ec; [apply (room_cell F pos c), Ec|discriminate]. }
    unfold k. destruct ((pos =? n) && negb (fd =? 64)) eqn:E; [|exact Hp']. apply andb_true_iff in E. destruct E as (_ & E). destruct Hfd as [->|(_ & Hc & _)]; [discriminate E|]. destruct (cell F fd) as [c|] eqn:Ec; [apply (room_cell F fd c), Ec|congruence]. }
  clearbody k. clear He Hpos Hfd Hf Hzf Hz Hn. clearbody n. apply wp_bind. apply wp_guard; intros _; [|exact G].
  set (bl := match mc_blob q with Some b => if zlen b <=? 32 then b else [] | None => [] end). assert (Hbl : zlen bl <= 32) by (unfold bl; destruct (mc_blob q) as [b|]; [|discriminate]; destruct (zlen b <=? 32) eqn:E; [lia|discriminate]). clearbody bl.
  destruct (dc_make_parts id (mc_user q) (if mc_lbk q then 1 else 0) (zlen bl) (overlay bl (dc_blob old)) Hid Hus (zlen_over bl old Hold Hbl)) as (R1 & R2 & R3 & R4).
  set (r := dc_make _ _ _ _ _ _) in *. clearbody r.
  apply (kb2 k); [apply rm_general|exact HR|exact G|]. clear s2 e1 HR G. intros ga s2 e2 HR G.
  apply (kb2 k); [apply rm_wd|exact HR|exact G|]. clear s2 e2 HR G. intros _ s2 e2 HR G.
  apply kb1; [apply must_put; [exact HR|exact R1|intros _; rewrite R3; exact Ho|exact G]|]. clear s2 e2 HR G. intros _ s2 e2 G. revert s2 e2 G.
  match goal with |- forall s e, _ -> wp ?m _ s e => change (lv m) end. un. fc.
Qed.
Lemma lv_touch_probe p : lv (touch_probe nfc p). Proof. unfold touch_probe. un. fc. Qed.
Lemma lv_mc_token q sig : lv (mc_token K t2 q sig). Proof. unfold mc_token. un. fc. Qed.
Lemma lv_mc_auth q : lv (mc_auth K t2 q). Proof. pose proof lv_mc_token. unfold mc_auth. un. fc. Qed.
Lemma lv_ask b : lv (ask_presence nfc b). Proof. unfold ask_presence. un. fc. Qed.
Lemma lv_mc_att q ad : lv (mc_att K q ad). Proof. unfold mc_att. un. fc. Qed.
Lemma make_ours rp fl ext alg dc cp s e : hmac_sized K -> zlen rp = 32 -> -2147483648 <= alg < 2147483648 -> kg s e -> wp (make_auth_data K rp fl ext (Some (alg, dc, cp))) (on_ret (fun r => zlen (snd r) = 70 /\ ours K a (snd r))) s e.
Proof.
  intros Hsz Hh Ha G. unfold make_auth_data. apply wp_bind. eapply wp_mono; [apply (lv_ctr s e G)|]. intros [c|w| |] s9 e9 G9; try exact Logic.I. cbv zeta.
  apply wp_bind. eapply wp_mono; [apply (generate_genuine K (e_fs e9)); [exact Hsz|reflexivity|exact Hh|exact Ha]|]. intros [[[i p]|]|?| |] s10 e10 H10; try exact Logic.I. cbn [on_ret] in H10. specialize (H10 i p eq_refl).
  apply wp_bind, wp_get. apply wp_skip; [exact (fun _ _ _ => Logic.I)|exact (fun _ _ => Logic.I)|exact (fun _ _ => Logic.I)|]. intros key s11 e11. apply wp_skip; [exact (fun _ _ _ => Logic.I)|exact (fun _ _ => Logic.I)|exact (fun _ _ => Logic.I)|]. intros _ s12 e12. apply wp_ret. cbn [on_ret fst snd].
  destruct H10 as (pri & Hg & Hr & H70 & _). split; [exact H70|]. destruct Hg as (kh & Hk & -> & Ht). destruct G9 as (_ & (G9 & _) & _). exists kh. split; [rewrite <- G9; exact Hk|exact Ht].
Qed.
Lemma lv_make p : hmac_sized K -> creq_ok (RMake p) -> lv (ctap_make_credential K nfc t2 junk p).
Proof.
  intros Hsz. pose proof lv_consistency. pose proof lv_touch_probe. pose proof lv_mc_auth. pose proof lv_exclude. pose proof lv_ask. pose proof lv_auth_data. pose proof lv_mc_att.
  destruct p as [w|q]; [intros _; apply kp_except|]. cbn [creq_ok]. intros (_ & (Hh & _) & (Huz & _) & _ & _ & _ & _ & Ha & _). unfold ctap_make_credential. cbv zeta.
  apply kp_bind; [fc|intros _]. apply kp_bind; [fc|intros _]. apply kp_bind; [fc|intros uv]. apply kp_bind; [fc|intros _]. apply kp_bind; [fc|intros _]. apply kp_bind; [un; fc|intros _]. apply kp_bind; [fc|intros _].
  intros s e G. apply wp_bind. eapply wp_mono; [apply wp_and; [apply make_ours; [exact Hsz|exact Hh|exact Ha|exact G]|apply (lv_auth_data _ _ _ _ s e G)]|].
  intros [[ad id]|w| |] s1 e1 (HI & G1); try exact G1. cbn [on_ret snd] in HI. destruct HI as (H70 & Ho).
  apply kb1; [destruct (mc_rk q =? 1); [apply lv_mc_store; assumption|apply kp_ret, G1]|]. clear s e G s1 e1 G1. intros _ s e G. revert s e G.
  match goal with |- forall s e, _ -> wp ?m _ s e => change (lv m) end. un. fc.
Qed.
Lemma lv_ga_begin q : lv (ga_begin K nfc t2 q). Proof. pose proof lv_touch_probe. unfold ga_begin, ga_token. un. fc. Qed.
Lemma lv_find_dc n j rp nonce buf : lv (find_dc n j rp nonce buf).
Proof. revert j buf; induction n; intros j buf; cbn [find_dc]; un; fc. Qed.
Lemma lv_allow rp uv l dc : lv (allow K rp uv l dc).
Proof. pose proof lv_find_dc. revert dc; induction l; intros dc; cbn [allow]; cbv zeta; un; fc. Qed.
Lemma lv_applicable n rp uv : lv (applicable n rp uv).
Proof. induction n; cbn [applicable]; cbv zeta; un; fc. Qed.
Lemma lv_ga_select q : lv (ga_select K q).
Proof. pose proof lv_allow. pose proof lv_applicable. unfold ga_select. un. fc. Qed.
Lemma lv_ga_ext q dc : lv (ga_ext K q dc).
Proof. unfold ga_ext, ga_hmac_secret. cbv zeta. un. fc. Qed.
Lemma lv_ga_rest : lv (ga_rest K nfc t2).
Proof. pose proof lv_ga_select. pose proof lv_ask. pose proof lv_ga_ext. pose proof lv_auth_data. unfold ga_rest. cbv zeta. un. fc. Qed.
Lemma lv_ga p : lv (ctap_get_assertion K nfc t2 p).
Proof. pose proof lv_consistency. pose proof lv_ga_begin. pose proof lv_ga_rest. unfold ctap_get_assertion. fc. Qed.
Lemma lv_gna : lv (ctap_get_next_assertion K nfc t1 t2).
Proof. pose proof lv_ga_rest. unfold ctap_get_next_assertion. fc. Qed.
Lemma lv_info : lv ctap_get_info. Proof. unfold ctap_get_info. un. fc. Qed.
Lemma lv_scan_rps n : lv (scan_rps n). Proof. induction n; cbn [scan_rps]; cbv zeta; un; fc. Qed.
Lemma lv_next_rp n i : lv (next_rp n i). Proof. revert i; induction n; intros i; cbn [next_rp]; un; fc. Qed.
Lemma lv_find_rp n i h : lv (find_rp n i h). Proof. revert i; induction n; intros i; cbn [find_rp]; un; fc. Qed.
Lemma lv_find_id n i h : lv (find_id n i h). Proof. revert i; induction n; intros i; cbn [find_id]; un; fc. Qed.
Lemma lv_drop_from n i x h : lv (drop_from_meta n i x h). Proof. revert i; induction n; intros i; cbn [drop_from_meta]; un; fc. Qed.
Lemma lv_cm_auth q : lv (cm_auth K t2 q). Proof. unfold cm_auth. un. fc. Qed.
Lemma lv_cm_credential b : lv (cm_credential K b).
Proof. unfold cm_credential, get_next_slot. cbv zeta. un. fc. Qed.
Lemma lv_cm_rps n : lv (cm_rps_begin n). Proof. pose proof lv_scan_rps. unfold cm_rps_begin. cbv zeta. un. fc. Qed.
Lemma lv_cm_next_rp q : lv (cm_next_rp q). Proof. pose proof lv_next_rp. unfold cm_next_rp, cm_next_allowed. cbv zeta. fc. Qed.
Lemma lv_cm_creds q n : lv (cm_creds_begin K q n). Proof. pose proof lv_find_rp. pose proof lv_cm_credential. unfold cm_creds_begin. cbv zeta. un. fc. Qed.
Lemma lv_cm_next_cred q : lv (cm_next_cred K q). Proof. pose proof lv_cm_credential. unfold cm_next_cred, cm_next_allowed. fc. Qed.
Lemma lv_find q n s e {A} (k : Z * bytes -> Mc A) : kg s e ->
  (forall i d s' e', kg s' e' -> cell (e_fs e') i = Some d -> dc_deleted d = false -> wp (k (i, d)) (fun _ s2 e2 => kg s2 e2) s' e') ->
  wp (ok <- cp_verify_rp (id_rp (cm_id q)) ;; guard ok ERR_PIN_AUTH_INVALID ;;; guard (negb (n =? 0)) ERR_NO_CREDENTIALS ;;; m <- count_recs DC_FILE DC_SIZE ;; r <- find_id (Z.to_nat (u8 m)) 0 (cm_id q) ;; k r) (fun _ s2 e2 => kg s2 e2) s e.
Proof.
  intros (_ & G1 & G2) Hk. apply (find_wp q n (e_fs e) s e mn); [reflexivity|exact G2| |].
  - intros o s1 e1 H1 H2 _. split; [exact Logic.I|]. rewrite H1. split; assumption.
  - intros i d s1 e1 H1 H2 H3 H4 _. apply Hk; [split; [exact Logic.I|]; rewrite H1; split; assumption|rewrite H1; exact H3|exact H4].
Qed.
Lemma lv_cm_delete q n : lv (cm_delete q n).
Proof.
  pose proof lv_drop_from. intros s e G. unfold cm_delete. apply lv_find; [exact G|]. clear s e G. intros i d s e G Hc Hd. destruct (cell_len _ _ _ Hc) as (Hl & _). destruct (deleted_delete d Hl) as (D1 & D2). assert (HR : has_room (e_fs e) i) by (apply (room_cell _ _ d), Hc). clear Hc.
  apply (kb2 i); [apply rm_general|exact HR|exact G|]. clear s e HR G. intros ga s e HR G. cbv zeta. apply (kb2 i); [apply rm_wd|exact HR|exact G|]. clear s e HR G. intros _ s e HR G.
  apply kb1; [apply must_put; [exact HR|exact D2|congruence|exact G]|]. clear s e HR G. intros _ s e G. revert s e G. match goal with |- forall s e, _ -> wp ?m _ s e => change (lv m) end. un. fc.
Qed.
Lemma lv_cm_update q n : zlen (cm_user q) = 195 -> lv (cm_update q n).
Proof.
  intros Hu s e G. unfold cm_update. apply lv_find; [exact G|]. clear s e G. intros i d s e G Hc Hd. destruct (cell_len _ _ _ Hc) as (Hl & _). assert (HR : has_room (e_fs e) i) by (apply (room_cell _ _ d), Hc). cbv zeta. apply wp_bind. apply wp_guard; intros _; [|exact G].
  apply must_put; [exact HR|rewrite zlen_splice; lia| |exact G]. intros _. assert (E : dc_id (splice d 70 (cm_user q)) = dc_id d).
  { unfold dc_id, splice, slice. change (Z.to_nat 70) with 70%nat. change (Z.to_nat 0) with 0%nat. rewrite ?skipn_O. rewrite firstn_app. assert (L : length d = 300%nat) by (unfold zlen in Hl; lia). rewrite firstn_length, L. change (70 - Nat.min 70 300)%nat with 0%nat. rewrite firstn_O, app_nil_r, firstn_firstn, Nat.min_id. reflexivity. }
  rewrite E. destruct G as (_ & (_ & G) & _). apply (G i). rewrite (cred_cell _ _ _ Hc), Hd. reflexivity.
Qed.
Lemma lv_cm p : creq_ok (RCm p) -> lv (ctap_credential_management K t2 p).
Proof.
  destruct p as [w|q]; [intros _; apply kp_except|]. cbn [creq_ok]. intros (_ & _ & (Huz & _) & _).
  pose proof lv_consistency as H1. pose proof lv_cm_auth as H2. pose proof lv_cm_rps as H3. pose proof lv_cm_next_rp as H4. pose proof lv_cm_creds as H5. pose proof lv_cm_next_cred as H6.
  pose proof lv_cm_delete as H7. pose proof (fun n => lv_cm_update q n Huz) as H8.
  assert (H9 : forall n, lv (cm_metadata n)) by (intros n; unfold cm_metadata; un; fc).
  unfold ctap_credential_management. cbv zeta. fc.
Qed.
Lemma lv_lb_read n off len : lv (lb_read n off len). Proof. revert off; induction n; intros off; cbn [lb_read]; cbv zeta; un; fc. Qed.
Lemma lv_lb_auth q : lv (lb_auth K t2 q). Proof. unfold lb_auth. un. fc. Qed.
Lemma lv_lb p : lv (ctap_large_blobs K t2 p).
Proof. pose proof lv_lb_read. pose proof lv_lb_auth. unfold ctap_large_blobs, lb_store, lb_fetch. cbv zeta. un. fc. Qed.
Lemma lv_register cap d : lv (u2f_register K nfc cap d).
Proof. pose proof lv_generate. unfold u2f_register, u2f_touch. cbv zeta. un. fc. Qed.
Lemma lv_auth p1 d : lv (u2f_authenticate K nfc p1 d).
Proof.
  unfold u2f_authenticate, u2f_touch. cbv zeta. un. 
  apply kp_bind; [fc|intros _]. apply kp_bind; [fc|intros _]. apply kp_bind; [fc|intros _]. apply kp_bind; [fc|intros v9].
  destruct v9 as [[pri|]|]; try solve [fc]. apply kp_bind; [fc|intros _]. apply kp_bind; [fc|intros _]. apply kp_bind.
  - intros s e H. pose proof (lv_ctr s e H) as P_ctr. unfold wp in *. destruct (increase_counter s e) as [[[] s'] e']; exact P_ctr.
  - intros c. fc.
Qed.
Lemma lv_check_pin key h proto r b : lv (check_pin K key h proto r b).
Proof. unfold check_pin, verify_pin_hash, set_pin_retries. un. fc. Qed.
Lemma lv_new_pin d : lv (new_pin K d). Proof. unfold new_pin, set_pin. cbv zeta. fc. Qed.
Lemma lv_pin p : lv (ctap_client_pin K t2 p).

Proof.
  pose proof lv_check_pin. pose proof lv_new_pin.
  unfold ctap_client_pin, get_pin_retries, set_pin_cmd, change_pin_cmd, get_token_cmd, pin_retries_left, get_pin_retries, set_pin_retries. cbv zeta. un. fc.
Qed.
End L.
Section H.
Variable K : fcrypto.
(** Each credential of the storage was made with the key that the device has. *)
Definition own (F : fs) : Prop := mine K (fattr F "ctap_cert" 4) F.
Lemma own_mine a F : mine K a F -> own F.
Proof. intros (H1 & H2). unfold own. rewrite H1. split; [exact H1|exact H2]. Qed.
Lemma own_no_creds F : no_creds F -> own F.
Proof. intros H. split; [reflexivity|]. intros j d Hd. rewrite H in Hd. discriminate. Qed.
Lemma oo : forall F, own F -> own F. Proof. auto. Qed.
Notation lo := (CtapFrame.keep anyst own own).
Notation lb := (CtapFrame.keep anyst no_creds own).
Lemma lb_wf p d o t : p <> DC_FILE -> lb (write_file p d o t).
Proof. intros Hp. apply kp_write_file; [exact own_no_creds|]. intros F x HF j. rewrite <- (HF j). apply cred_dc. apply fset_other. congruence. Qed.
Lemma lb_wa p b v : p <> DC_FILE -> lb (write_attr p b v).
Proof. intros Hp. apply kp_write_attr; [exact own_no_creds|]. intros F x HF j. rewrite <- (HF j). apply cred_dc. apply fset_other. congruence. Qed.
Lemma lb_wd v : lb (write_attr DC_FILE DC_GENERAL_ATTR v).
Proof. apply kp_write_attr_at; [exact own_no_creds|]. intros F f HF Ef j. pose proof (cred_attr F v j) as H. unfold fsetattr in H. rewrite Ef in H. rewrite H. apply HF. Qed.
Lemma no_creds_empty F f x : F DC_FILE = Some f -> f_data f = [] -> x = F -> no_creds x.
Proof. intros H1 H2 -> j. unfold credential, cell, fdata. change "ctap_dc" with DC_FILE. rewrite H1, H2. change (zlen []) with 0. destruct (0 <=? j) eqn:E; [|reflexivity]. destruct ((j + 1) * 300 <=? 0) eqn:E2; [lia|reflexivity]. Qed.
Lemma own_create F : own F -> own (fcreate F DC_FILE).
Proof. intros H. unfold fcreate. destruct (F DC_FILE) as [f|] eqn:E; [exact H|]. apply own_no_creds. eapply no_creds_empty; [apply fset_same| |reflexivity]. reflexivity. Qed.
Lemma own_lcreate F L : own F -> Forall own L -> Forall own (lcreate F L DC_FILE).
Proof. intros H1 H2. pose proof (own_create F H1) as H3. unfold lcreate, fcreate in *. destruct (F DC_FILE); [exact H2|constructor; assumption]. Qed.
(** After the records have been dropped there are none. *)
Lemma trunc_wp s e (R : out unit -> ctap -> env -> Prop) : kgood anyst own own s e ->
  (forall o s' e', kgood anyst own own s' e' -> match o with Ret _ => no_creds (e_fs e') | _ => True end -> R o s' e') -> wp (must (write_file DC_FILE [] 0 true)) R s e.
Proof.
  intros (_ & H1 & H2) HR. destruct e as [F L X R0 T O]. cbn [e_fs e_log] in *. unfold must. apply wp_bind. pose proof (own_create F H1) as H3. pose proof (own_lcreate F L H1 H2) as H4.
  assert (HB : no_creds (fwrite F DC_FILE [] 0 true)).
  { unfold fwrite. destruct (fcreate F DC_FILE DC_FILE) as [f|] eqn:E; [|exfalso; unfold fcreate in E; destruct (F DC_FILE) eqn:E2; [congruence|rewrite fset_same in E; discriminate]]. eapply no_creds_empty; [apply fset_same| |reflexivity]. reflexivity. }
  apply wp_write_file; [intros X3 _|intros _ X3|intros _ X3]; apply wp_guard; intros Eg; try discriminate; apply HR; try exact Logic.I; try (split; [exact Logic.I|]; split; cbn [e_fs e_log]; try assumption).
  - apply own_no_creds, HB.
  - constructor; [apply own_no_creds, HB|exact H4].
  - exact HB.
Qed.
Lemma lo_install b : lo (ctap_install K b).
Proof.
  unfold ctap_install. apply kp_bind; [apply kp_modify; intros; exact Logic.I|intros _]. apply kp_bind; [apply kp_modify; intros; exact Logic.I|intros _].
  apply kp_bind. { unfold cp_initialize, cp_regenerate, cp_reset_token. repeat first [apply kp_bind; [|intros ?] | apply kp_random | apply kp_modify; intros; exact Logic.I]. }
  intros _. apply kp_bind; [destruct b; [apply kp_ret|apply kp_size]|intros sz]. destruct sz as [z|]; [apply kp_bind; [apply kp_got, kp_read_attr|intros v; apply kp_modify; intros; exact Logic.I]|].
  intros s e G. apply wp_bind. apply trunc_wp; [exact G|]. clear s e G. intros [u|w| |] s e G HB; try exact G.
  assert (W : forall m : Mc unit, lb m -> wp m (fun _ s' e' => kgood anyst own own s' e') s e).
  { intros m Hm. eapply wp_mono; [apply Hm; split; [exact Logic.I|split; [exact HB|apply G]]|]. intros o s' e' (_ & H1 & H2). split; [exact Logic.I|split; [apply own_no_creds, H1|exact H2]]. }
  apply W. repeat first [apply kp_guard | apply kp_bind; [|intros ?] | apply kp_random | apply lb_wf; discriminate | apply lb_wd | apply lb_wa; discriminate].
Qed.
(** ** Commands and histories *)
Lemma exec_own d x : hmac_sized K -> own (d_fs d) -> ev_ok d (Do x) -> let '(_, _, e) := exec K d x in own (e_fs e) /\ Forall own (e_log e).
Proof.
  intros Hsz HF Hv. pose proof (exec_wp K d x (fun _ _ e => own (e_fs e) /\ Forall own (e_log e))) as W. destruct (exec K d x) as [[o s] e]. apply W. clear W o s e.
  set (a := fattr (d_fs d) "ctap_cert" 4) in *.
  assert (G : kgood anyst (mine K a) (mine K a) (d_ram d) (start (d_fs d) (x_flt x) (x_rnd x) (x_tch x))) by (split; [exact Logic.I|split; [exact HF|constructor; [exact HF|constructor]]]).
  assert (G' : kgood anyst own own (d_ram d) (start (d_fs d) (x_flt x) (x_rnd x) (x_tch x))) by (split; [exact Logic.I|split; [exact HF|constructor; [exact HF|constructor]]]).
  assert (U : forall L, Forall (mine K a) L -> Forall own L) by (intros L; apply Forall_impl; intros F; apply own_mine).
  assert (B : forall m : Mc Z, CtapFrame.keep anyst (mine K a) (mine K a) m -> wp m (fun o s e => match o with Ret w | Exc w => own (e_fs e) /\ Forall own (e_log e) | Fail => own (e_fs e) /\ Forall own (e_log e) | UB => own (e_fs e) /\ Forall own (e_log e) end) (d_ram d) (start (d_fs d) (x_flt x) (x_rnd x) (x_tch x))).
  { intros m Hm. eapply wp_mono; [apply Hm, G|]. intros [] s e (H1 & H2 & H3); (split; [eapply own_mine; exact H2|apply U, H3]). }
  cbn [ev_ok] in Hv. destruct (x_op x) as [q|da|p1 da| |da|da|da] eqn:Ex.
  - assert (Hc : (exists w, q = w /\ CtapFrame.keep anyst (mine K a) (mine K a) (cbor_cmd K (x_nfc x) (x_t1 x) (x_t2 x) (x_junk x) w)) \/ lo (cbor_cmd K (x_nfc x) (x_t1 x) (x_t2 x) (x_junk x) q)).
    { unfold cbor_cmd. destruct q as [p|p| | |p| |p| |p| ].
      6: { right. apply kp_bind; [unfold cp_observer; apply kp_modify; intros; exact Logic.I|intros _]. apply kp_bind; [|intros; apply kp_ret]. unfold ctap_reset_data. apply kp_bind; [apply kp_guard|intros _; apply lo_install]. }
      all: left; eexists; split; [reflexivity|]; apply kp_bind; [unfold cp_observer; apply kp_modify; intros; exact Logic.I|intros _]; try (apply kp_bind; [|intros; apply kp_ret]).
      + apply lv_make; assumption. + apply lv_ga. + apply lv_gna. + apply lv_info. + apply lv_pin.
      + apply lv_cm; assumption. + unfold WAIT. destruct (x_nfc x); [apply kp_ret|]. apply kp_bind; [apply kp_wait|intros r]. destruct (r =? _); [apply kp_except|]. destruct (r =? _); [apply kp_except|apply kp_ret]. + apply lv_lb. + apply kp_except. }
    destruct Hc as [(w & <- & Hc)|Hc].
    + eapply wp_mono; [refine (kp_process K (x_nfc x) (x_t1 x) (x_t2 x) (x_junk x) anyst (mine K a) (mine K a) (fun _ _ _ => Logic.I) (x_cap x) q Hc _ _ G)|]. intros [[c v]| | |] s e (H1 & H2 & H3); (split; [eapply own_mine; exact H2|apply U, H3]).
    + eapply wp_mono; [refine (kp_process K (x_nfc x) (x_t1 x) (x_t2 x) (x_junk x) anyst own own (fun _ _ _ => Logic.I) (x_cap x) q Hc _ _ G')|]. intros [[c v]| | |] s e (H1 & H2 & H3); split; assumption.
  - unfold body. rewrite Ex. apply B. apply kp_bind; [apply lv_register|intros; apply kp_ret].
  - unfold body. rewrite Ex. apply B. apply kp_bind; [apply lv_auth|intros; apply kp_ret].
  - unfold body. rewrite Ex. eapply wp_mono; [refine (kp_bind anyst own own _ _ (lo_install true) _ _ _ G'); intros; apply kp_ret|]. intros [] s e (H1 & H2 & H3); split; assumption.
  - unfold body. rewrite Ex. apply B. apply kp_bind; [|intros; apply kp_ret]. unfold install_private_key. apply kp_bind; [apply kp_guard|intros _]. apply kp_bind; [apply kp_modify; intros; exact Logic.I|intros _].
    apply kp_bind; [apply kp_must, lv_wa; discriminate|intros _; apply kp_must, lv_wa; discriminate].
  - unfold body. rewrite Ex. apply B. apply kp_bind; [|intros; apply kp_ret]. unfold install_cert. apply kp_bind; [apply kp_guard|intros _]. apply kp_must, lv_wf; discriminate.
  - unfold body. rewrite Ex. apply B. apply kp_bind; [|intros; apply kp_ret]. unfold write_sm2_config. apply kp_bind; [apply kp_guard|intros _]. apply kp_bind; [apply lv_wa; discriminate|intros ok]. apply kp_bind; [apply kp_modify; intros; exact Logic.I|intros _; apply kp_guard].
Qed.
Lemma boot_own F flt rnd : own F -> own (d_fs (boot K F flt rnd)).
Proof.
  intros HF. unfold boot. assert (G : kgood anyst own own ctap_boot (start F flt rnd [])) by (split; [exact Logic.I|split; [exact HF|constructor; [exact HF|constructor]]]).
  pose proof (lo_install false _ _ G) as W. unfold wp in W. destruct (ctap_install K false ctap_boot (start F flt rnd [])) as [[o s] e]. cbn [d_fs]. destruct W as (_ & W & _). exact W.
Qed.
Lemma step_own d v o d' : hmac_sized K -> own (d_fs d) -> ev_ok d v -> step K d v = Some (o, d') -> own (d_fs d').
Proof.
  intros Hsz HF Hv H. destruct v as [x|x n flt rnd|F]; unfold step in H.
  - pose proof (exec_own d x Hsz HF Hv) as W. destruct (exec K d x) as [[[r|] s] e]; [|discriminate]. injection H as <- <-. apply W.
  - pose proof (exec_own d x Hsz HF Hv) as W. destruct (exec K d x) as [[r s] e]. injection H as <- <-. destruct W as (W1 & W2). apply boot_own. apply Forall_nth_default; assumption.
  - injection H as <- <-. cbn [d_fs ev_ok] in *. apply (own_mine (fattr (d_fs d) "ctap_cert" 4)). destruct HF as (_ & HF). split; [unfold fattr; rewrite (Hv "ctap_cert") by (cbn; tauto); reflexivity|].
    intros j r Hr. apply (HF j). rewrite <- Hr. symmetry. apply cred_dc. apply Hv. cbn; tauto.
Qed.
Lemma hist_own d0 tr d : hmac_sized K -> hist K d0 tr d -> own (d_fs d0) -> own (d_fs d).
Proof. intros Hsz. induction 1 as [d|d0 tr d v o d' H IH Hv Hs]; intros HF; [exact HF|]. exact (step_own d v o d' Hsz (IH HF) Hv Hs). Qed.
Lemma live_cred F j d : live F j d -> credential F j = Some d.
Proof. intros (H1 & H2 & H3). destruct (cell_read F j d H1 H2) as (Hc & _). rewrite (cred_cell F j d Hc), H3. reflexivity. Qed.
(** ** The theorems *)
(** Whatever happens to a device that had no credentials of other devices in its storage - commands with any arguments, storage errors in
    any of them, power losses between any two writes, also during a reset and during the boot that follows -, each resident credential that is
    not deleted can be opened with the device's key. *)
Theorem C94_own d0 tr d j r : hmac_sized K -> hist K d0 tr d ->
  (forall i r0, live (d_fs d0) i r0 -> exists pri, genuine K (d_fs d0) (dc_id r0) pri) ->
  live (d_fs d) j r -> exists pri, genuine K (d_fs d) (dc_id r) pri.
Proof.
  intros Hsz Hh H0 Hl. assert (O : own (d_fs d)).
  { apply (hist_own d0 tr d Hsz Hh). split; [reflexivity|]. intros i r0 Hr. unfold credential in Hr. destruct (cell (d_fs d0) i) as [c|] eqn:Ec; [|discriminate]. destruct (nth 265 c 0 =? 0) eqn:E; [|discriminate]. injection Hr as <-.
    destruct (H0 i c) as (pri & kh & H1 & -> & H2); [|exists kh; auto]. destruct (cell_len _ _ _ Ec) as (L1 & L2). split; [|split; [exact L1|unfold dc_deleted; rewrite E; reflexivity]].
    unfold cell, fdata in Ec. unfold fread. destruct (d_fs d0 "ctap_dc") as [f|]; [|discriminate]. destruct (i * 300 <? 0) eqn:E3; [lia|]. destruct ((0 <=? i) && ((i + 1) * 300 <=? zlen (f_data f))); [|discriminate]. injection Ec as <-. reflexivity. }
  destruct O as (_ & O). destruct (O j r (live_cred _ _ _ Hl)) as (kh & H1 & H2). eexists. exists kh. split; [exact H1|]. split; [reflexivity|exact H2].
Qed.
(** From an empty storage nothing is required. *)
Theorem C94_fresh rnd tr d j r : hmac_sized K -> hist K (boot K (fun _ => None) [] rnd) tr d -> live (d_fs d) j r -> exists pri, genuine K (d_fs d) (dc_id r) pri.
Proof.
  intros Hsz Hh. apply (C94_own _ tr d j r Hsz Hh). intros i r0 Hl. assert (O : own (d_fs (boot K (fun _ => None) [] rnd))) by (apply boot_own; apply own_no_creds; intros k; reflexivity).
  destruct O as (_ & O). destruct (O i r0 (live_cred _ _ _ Hl)) as (kh & H1 & H2). eexists. exists kh. split; [exact H1|]. split; [reflexivity|exact H2].
Qed.
(** So the getNextAssertion commands leave out no credential that is made for an algorithm every device has (-7: ES256, -8: EdDSA). *)
Theorem C94_next rnd tr0 d x q v s e xs : aes_works K -> keys_work K -> hmac_sized K -> hist K (boot K (fun _ => None) [] rnd) tr0 d ->
  x_op x = OCbor (RGet (inr q)) -> ga_ok q -> ga_allow q = [] -> exec K d x = (Some (ACbor 0 (Some v)), s, e) -> slots_of (e_fs e) < 256 -> stocked (e_fs e) ->
  (forall j r, live (e_fs e) j r -> id_rp (dc_id r) = ga_rphash q -> id_alg (dc_id r) = -7 \/ id_alg (dc_id r) = -8) -> in_time (x_t2 x) xs ->
  exists L, eligible (e_fs e) (ga_rphash q) (says_uv v) (slots_of (e_fs e)) L /\ (if 1 <? zlen L then counted_as v (zlen L) else bare v) /\
    ((length xs < length L)%nat -> exists tr d2, hist K (mkD s (e_fs e)) tr d2 /\ map (fun en => snd (fst en)) tr = map Do xs /\
       Forall2 (of_slot K (e_fs e) q (says_uv v)) (firstn (S (length xs)) L) (v :: flat_map served tr)).
Proof.
  intros AW KW HZ Hh Hx Hq Hal E Hn HS HU Hi. apply (C57_complete K d x q v s e xs); try assumption. intros j (r & Hl & Hr & _).
  assert (Hh2 : hist K (boot K (fun _ => None) [] rnd) (tr0 ++ [(d, Do x, Some (ACbor 0 (Some v)))]) (mkD s (e_fs e))).
  { econstructor; [exact Hh|cbn [ev_ok]; rewrite Hx; exact Hq|cbn [step]; rewrite E; reflexivity]. }
  destruct (C94_fresh rnd _ _ j r HZ Hh2 Hl) as (pri & Hg). exists r, pri. split; [exact Hl|]. split; [exact Hg|]. exact (HU j r Hl Hr).
Qed.
End H.
Print Assumptions C94_own.
Print Assumptions C94_fresh.
Print Assumptions C94_next.
(** Two credentials, a reset, another one, and a power loss while a further one is created: one is left, and the hypotheses hold. *)
Definition case94 : list ev :=
  firstn 3 case57 ++ [do_at 20003 OReset; do_at 20004 (OCbor (RMake (inr (mc_of 7 3 1 None)))); Cut (cmd_at 20005 (OCbor (RMake (inr (mc_of 8 1 1 None))))) 1 [] (repeat 3 100)].
Example C94_case : hmac_sized toyn /\ exists tr d r, hist toyn (boot toyn (fun _ => None) [] (repeat 5 100 ++ repeat 9 100)) tr d /\ map (fun e => snd (fst e)) tr = case94 /\ live (d_fs d) 0 r /\ dc_user r = mc_user (mc_of 7 3 1 None).
Proof.
  split; [apply C57_complete_case|].
  destruct (play_case toyn (boot toyn (fun _ => None) [] (repeat 5 100 ++ repeat 9 100)) case94 (fun _ d => match fread (d_fs d) "ctap_dc" (0 * 300) 300 with Some r => (zlen r =? 300) && negb (dc_deleted r) && beqb (dc_user r) (mc_user (mc_of 7 3 1 None)) | None => false end)) as (tr & d & H1 & H2 & H3); [vm_compute; reflexivity|].
  exists tr, d. destruct (fread (d_fs d) "ctap_dc" (0 * 300) 300) as [r|] eqn:Er; [|discriminate]. apply andb_true_iff in H2. destruct H2 as (H2 & H4). apply andb_true_iff in H2. destruct H2 as (H2 & H5). exists r. split; [exact H1|]. split; [exact H3|]. split; [split; [exact Er|split; [lia|destruct (dc_deleted r); [discriminate|reflexivity]]]|apply beqb_eq, H4].
Qed.
