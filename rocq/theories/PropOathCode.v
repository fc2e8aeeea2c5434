(** Property theorems of the OATH applet: the access code (C15), what re-selecting the applet and replaying a
    VALIDATE command do (C66, C67). *)
From Coq Require Import Permutation.
From Verif Require Import Sys Apdu Applet Pass Oath OathProofs OathCmds OathEff OathSpec OathPres OathHist OathStep OathFacts OathEx PropOath.
Open Scope string_scope. Open Scope list_scope. Open Scope Z_scope.

(** VALIDATE data: response to the device's challenge (tag 75), and the host's own challenge (tag 74). *)
Definition validate_data (resp chal : bytes) : bytes := [0x75; 20] ++ resp ++ [0x74; zlen chal] ++ chal.
(** The challenge in force: the one in the last SELECT answer that contained one (28 bytes, challenge at
    offset 17); all zero after a power cut. *)
Definition next_chal (ch : bytes) (x : event * obs) : bytes :=
  match x with
  | (Cmd _ c _ _ _, Resp r) =>
    if (c_ins c =? 0xA4) && (c_p1 c =? 4) && (r_sw r =? 0x9000) && (zlen (r_data r) =? 28) then slice 17 8 (r_data r) else ch
  | (CutCmd _ _ _ _ _ _, _) | (CutTouch _ _ _, _) | (CutConf _ _ _, _) => zeros 8
  | _ => ch
  end.
Definition challenge (tr : list (event * obs)) : bytes := fold_left next_chal tr (zeros 8).
(** A VALIDATE command that was accepted *)
Definition unlocks (x : event * obs) : Prop :=
  match x with (Cmd _ c _ _ _, Resp r) => c_ins c = 0xA3 /\ r_sw r = 0x9000 | _ => False end.
(** What a locked device may answer: the identification given by SELECT, 6982 to other commands. *)
Definition locked_answer (x : event * obs) : Prop :=
  match x with
  | (Cmd _ c _ _ _, Resp r) =>
    (c_ins c <> 0xA3 -> c_ins c <> 0xA4 -> r_sw r = 0x6982 /\ r_data r = []) /\
    (c_ins c = 0xA4 -> c_p1 c <> 4 -> r_sw r <> 0x9000 /\ r_data r = []) /\
    (c_ins c = 0xA3 -> r_data r = [])
  | _ => True
  end.

Lemma parse_validate_complete resp chal : zlen resp = 20 -> 1 <= zlen chal <= 255 ->
  parse_validate (validate_data resp chal) = Ret (resp, chal).
Proof.
  intros Hr Hc. set (d := validate_data resp chal).
  assert (zlen d = 24 + zlen chal) as Hz by (unfold d, validate_data; rewrite !zlen_app, Hr; change (zlen [0x75; 20]) with 2; change (zlen [0x74; zlen chal]) with 2; lia).
  assert (D : d = [0x75; 20] ++ resp ++ [0x74; zlen chal] ++ chal) by reflexivity.
  unfold parse_validate. rewrite Hz. cbv zeta.
  destruct (Z.leb_spec (24 + zlen chal) 2); [lia|]. destruct (Z.leb_spec (24 + zlen chal) (22 + 2)); [lia|].
  assert (rd d 0 = Some 0x75) as -> by (rewrite D; reflexivity). assert (rd d 1 = Some 20) as -> by (rewrite D; reflexivity).
  assert (length resp = 20)%nat as Hl by (unfold zlen in Hr; lia).
  assert (rd d 22 = Some 0x74) as ->.
  { rewrite rd_nth by lia. f_equal. rewrite D. change (Z.to_nat 22) with 22%nat. rewrite app_nth2 by (cbn [length]; lia). rewrite app_nth2 by (cbn [length]; lia). cbn [length]. rewrite Hl. reflexivity. }
  assert (rd d 23 = Some (zlen chal)) as ->.
  { rewrite rd_nth by lia. f_equal. rewrite D. change (Z.to_nat 23) with 23%nat. rewrite app_nth2 by (cbn [length]; lia). rewrite app_nth2 by (cbn [length]; lia). cbn [length]. rewrite Hl. reflexivity. }
  assert (sub d 2 20 = Some resp) as ->.
  { rewrite sub_ok by lia. f_equal. rewrite D. unfold slice. change (Z.to_nat 2) with 2%nat. change (Z.to_nat 20) with 20%nat. cbn [skipn app]. rewrite firstn_app, <- Hl, firstn_all, Nat.sub_diag. cbn [firstn]. apply app_nil_r. }
  assert (sub d 24 (zlen chal) = Some chal) as E24.
  { rewrite sub_ok by lia. f_equal. rewrite D. rewrite app_assoc, app_assoc. unfold slice.
    replace (Z.to_nat 24) with (length (([0x75; 20] ++ resp) ++ [0x74; zlen chal])) by (rewrite !app_length, Hl; reflexivity).
    rewrite skipn_app, skipn_all, Nat.sub_diag. cbn [skipn app]. unfold zlen. rewrite Nat2Z.id. apply firstn_all. }
  cbn [obind oneed oguard negb]. change (0x75 =? OATH_TAG_FULL_RESPONSE) with true. change (0x74 =? OATH_TAG_CHALLENGE) with true. rewrite !Z.eqb_refl.
  cbn [obind oneed oguard negb]. rewrite E24. reflexivity.
Qed.

Lemma parse_long d x : parse_validate d = Ret x -> 24 < zlen d.
Proof.
  intros H. destruct (Z.leb_spec (zlen d) (22 + 2)) as [Hl|Hl]; [|lia]. exfalso. revert H. unfold parse_validate. cbv zeta.
  assert (zlen d <=? 22 + 2 = true) as -> by (apply Z.leb_le; assumption).
  destruct (zlen d <=? 2); [discriminate|]. destruct (rd d 0) as [t|]; [|discriminate]. cbn [obind oneed oguard negb].
  destruct (t =? OATH_TAG_FULL_RESPONSE); [|discriminate]. cbn [obind oneed oguard negb].
  destruct (rd d 1) as [n|]; [|discriminate]. cbn [obind oneed oguard negb]. destruct (n =? 20); discriminate.
Qed.

(** Booting never authorises. *)
Definition keeps_locked {A} (m : Mo A) : Prop := forall s e, o_valid s = false -> o_valid (snd (fst (m s e))) = false.
Lemma kl_bind {A B} (m : Mo A) (k : A -> Mo B) : keeps_locked m -> (forall a, keeps_locked (k a)) -> keeps_locked (bind m k).
Proof.
  intros Hm Hk s e H. specialize (Hm s e H). unfold bind. destruct (m s e) as [[[a|w| |] s1] e1]; cbn [fst snd] in *; try assumption. apply Hk, Hm.
Qed.
Lemma kl_same {A} (m : Mo A) : (forall s e, snd (fst (m s e)) = s) -> keeps_locked m.
Proof. intros H s e Hv. rewrite H. exact Hv. Qed.
Lemma boot_locked F rnd : o_valid (d_ram (oboot F rnd)) = false.
Proof.
  assert (Hw : forall p d o t, keeps_locked (write_file p d o t)).
  { intros. apply kl_same. intros s e. unfold write_file. destruct (pop_fault e) as [[| |] e1]; cbv iota beta zeta; repeat match goal with |- context [match ?x with _ => _ end] => destruct x end; reflexivity. }
  assert (Ha : forall p a d, keeps_locked (write_attr p a d)).
  { intros. apply kl_same. intros s e. unfold write_attr. destruct (pop_fault e) as [[| |] e1]; cbv iota beta zeta; repeat match goal with |- context [match ?x with _ => _ end] => destruct x end; reflexivity. }
  assert (Hr : forall p o n, keeps_locked (read_file p o n)).
  { intros. apply kl_same. intros s e. unfold read_file. destruct (pop_fault e) as [[| |] e1]; cbv iota beta zeta; repeat match goal with |- context [match ?x with _ => _ end] => destruct x end; reflexivity. }
  assert (Hz : forall p, keeps_locked (get_file_size p)).
  { intros. apply kl_same. intros s e. unfold get_file_size. destruct (pop_fault e) as [[| |] e1]; cbv iota beta zeta; repeat match goal with |- context [match ?x with _ => _ end] => destruct x end; reflexivity. }
  assert (Hx : forall n, keeps_locked (random_buffer n)) by (intros; apply kl_same; reflexivity).
  assert (He : forall A (a : A), keeps_locked (ret a)) by (intros; apply kl_same; reflexivity).
  assert (keeps_locked (oath_install false ;;; pass_install o_slots oset_slots false)) as H.
  { apply kl_bind; [|intros _].
    - unfold oath_install. apply kl_bind; [intros s e _; reflexivity|intros _].
      apply kl_bind; [apply Hz|]. intros [n|]; [apply He|]. apply kl_bind; [apply Hw|]. intros [|]; [|apply He]. cbn [negb].
      apply kl_bind; [apply Ha|]. intros [|]; [|apply He]. apply kl_bind; [apply Hx|]. intros b. apply Ha.
    - unfold pass_install. apply kl_bind; [apply Hz|]. intros n. destruct (_ || _).
      + apply kl_bind; [|intros _].
        * intros s e Hv. exact Hv.
        * unfold save_slots. apply kl_bind; [apply kl_same; reflexivity|intros s]. apply Hw.
      + apply kl_bind; [apply Hr|]. intros [d|]; [|apply He]. apply kl_bind; [apply kl_same; reflexivity|intros s].
        apply kl_bind; [|intros _; apply He]. intros s1 e1 Hv. exact Hv. }
  unfold oboot. specialize (H oath_boot (start F [] rnd []) eq_refl). match type of H with context [fst ?x] => destruct x as [[o s] e] end. exact H.
Qed.

Section Oath.
Variables hmac_sha1 hmac_sha256 hmac_sha512 : bytes -> bytes -> bytes.
Hypothesis Hsha1 : digest_ok 20 hmac_sha1.
Hypothesis Hsha256 : digest_ok 32 hmac_sha256.
Hypothesis Hsha512 : digest_ok 64 hmac_sha512.
Variable junk : bytes.
Hypothesis Hjunk : zlen junk = 141.
Hypothesis Hjunkb : all_bytes junk.
Notation step := (step hmac_sha1 hmac_sha256 hmac_sha512 junk).
Notation hist := (hist hmac_sha1 hmac_sha256 hmac_sha512 junk).
Notation reach := (reach hmac_sha1 hmac_sha256 hmac_sha512 junk).
Notation eff := (eff hmac_sha1 hmac_sha256 hmac_sha512).
Notation cmd_run := (cmd_run hmac_sha1 hmac_sha256 hmac_sha512 junk).

Lemma good_code d rs k k1 h : good d rs k h -> access_code d k1 -> k1 = k.
Proof. intros (_ & (H & _) & _) H1. unfold access_code in H1. change OATH_FILE with "oath" in H. change ATTR_KEY with 2 in H. congruence. Qed.

(** A locked device refuses at once. *)
Lemma locked_run nfc c flt rnd tch d : o_valid (d_ram d) = false -> c_ins c <> 0xA3 -> (c_ins c <> 0xA4 \/ c_p1 c <> 4) ->
  exists sw, cmd_run nfc c flt rnd tch d = (Some (mkR [] sw), d_ram d, start (d_fs d) flt rnd tch) /\ sw <> 0x9000 /\
    (c_ins c <> 0xA4 -> sw = 0x6982).
Proof.
  intros Hv H3 H4. unfold OathSpec.cmd_run, oath_process_apdu, run_apdu, start, oath_body. cbn [e_fs e_log e_flt e_rnd e_tch].
  unfold bind, get, guard. rewrite Hv. cbn [orb].
  change OATH_INS_SELECT with 0xA4. change OATH_INS_VALIDATE with 0xA3.
  destruct (Z.eqb_spec (c_ins c) 0xA3); [contradiction|]. destruct (Z.eqb_spec (c_ins c) 0xA4) as [E|E]; cbn [orb].
  - rewrite E. cbn [Z.eqb Pos.eqb].
    change (0xA4 =? OATH_INS_PUT) with false. change (0xA4 =? OATH_INS_DELETE) with false. change (0xA4 =? OATH_INS_SET_CODE) with false. change (0xA4 =? OATH_INS_RENAME) with false.
    change (0xA4 =? OATH_INS_LIST) with false. change (0xA4 =? OATH_INS_CALCULATE) with false.
    destruct (Z.eqb_spec (c_p1 c) 4); [destruct H4; contradiction|]. cbv iota.
    destruct (c_p1 c =? 0); cbv iota; unfold bind, guard; rewrite ?Hv; cbn [e_out]; eexists; (split; [reflexivity|]); (split; [discriminate|]); intros; contradiction.
  - exists 0x6982. split; [reflexivity|]. split; [discriminate|reflexivity].
Qed.

Lemma incs_chg c rs rs1 : Forall2 incd rs rs1 -> chg c rs false rs1.
Proof. apply G_inc. Qed.

Definition same_chal (d : dev) (x : event * obs) (d' : dev) : Prop := o_chal (d_ram d') = next_chal (o_chal (d_ram d)) x.

Lemma zlen_sel h ch : zlen h = 8 -> zlen ch = 8 -> zlen ([0x79; 3; 6; 0; 0; 0x71; 8] ++ h ++ [0x74; 8] ++ ch ++ [0x7B; 1; 1]) = 28 /\
  slice 17 8 ([0x79; 3; 6; 0; 0; 0x71; 8] ++ h ++ [0x74; 8] ++ ch ++ [0x7B; 1; 1]) = ch.
Proof.
  intros Hh Hc. split.
  - rewrite !zlen_app, Hh, Hc. reflexivity.
  - assert (length h = 8)%nat as Lh by (unfold zlen in Hh; lia). assert (length ch = 8)%nat as Lc by (unfold zlen in Hc; lia).
    replace ([0x79; 3; 6; 0; 0; 0x71; 8] ++ h ++ [0x74; 8] ++ ch ++ [0x7B; 1; 1]) with (([0x79; 3; 6; 0; 0; 0x71; 8] ++ h ++ [0x74; 8]) ++ ch ++ [0x7B; 1; 1]) by (rewrite <- !app_assoc; reflexivity).
    unfold slice. replace (Z.to_nat 17) with (length ([0x79; 3; 6; 0; 0; 0x71; 8] ++ h ++ [0x74; 8])) by (rewrite !app_length, Lh; reflexivity).
    rewrite skipn_app, skipn_all, Nat.sub_diag. cbn [app]. change (Z.to_nat 8) with 8%nat. rewrite <- Lc. rewrite skipn_O. rewrite firstn_app, firstn_all, Nat.sub_diag. apply app_nil_r.
Qed.

Lemma eff_chal nfc c rs k h s F L X T oc s' F' L' T' out rs' k' : attrs_ok F k h ->
  eff nfc c rs k h s F L X T oc s' F' L' T' out rs' k' -> all_bytes (c_data c) ->
  o_chal s' = (if (c_ins c =? 0xA4) && (c_p1 c =? 4) && (match oc with Ret sw => sw | Exc w => w | _ => 0x6900 end =? 0x9000) && (zlen out =? 28)
               then slice 17 8 out else o_chal s).
Proof.
  intros (_ & _ & _ & Hh) He Hb.
  destruct oc as [sw|w| |].
  - assert (Hno : (c_ins c =? 0xA4) && (c_p1 c =? 4) = false -> o_chal s' = o_chal s -> o_chal s' = (if (c_ins c =? 0xA4) && (c_p1 c =? 4) && (sw =? 0x9000) && (zlen out =? 28)
               then slice 17 8 out else o_chal s)) by (intros -> E; exact E).
    inversion He; subst; try (match goal with H : c_ins c = _ |- _ => rewrite H; reflexivity end).
    + apply Hno; [match goal with H : c_ins c = _ \/ _ |- _ => destruct H as [H|[H _]]; rewrite H; reflexivity end | reflexivity].
    + match goal with H : page_only _ _ |- _ => destruct H as (_ & _ & Hpc) end.
      apply Hno; [match goal with H : c_ins c = _ /\ _ \/ _ |- _ => destruct H as [[H H9]|[H _]]; rewrite H; [rewrite H9|]; reflexivity end | exact Hpc].
    + rewrite zlen_app, Hh, andb_false_r. reflexivity.
    + match goal with H : c_ins c = _, H1 : c_p1 c = 4, H2 : zlen ch = 8 |- _ => rewrite H, H1; destruct (zlen_sel h ch Hh H2) as [-> ->] end. reflexivity.
  - destruct (eff_exc _ _ _ _ _ _ _ _ _ _ _ _ _ _ _ _ _ _ _ _ _ He) as [Hw _]. apply Z.eqb_neq in Hw. rewrite Hw, andb_false_r. cbn [andb].
    inversion He; subst; try reflexivity; try (match goal with H : page_only _ _ |- _ => destruct H as (_ & _ & Hpc); exact Hpc end).
    + unfold at_start. destruct (c_ins c =? OATH_INS_SEND_REMAINING); reflexivity.
    + match goal with H : _ = s \/ _ = _ |- _ => destruct H as [-> | ->]; reflexivity end.
  - change (0x6900 =? 0x9000) with false. rewrite andb_false_r. cbn [andb]. inversion He; subst. assumption.
  - inversion He.
Qed.

Lemma run_chal nfc c flt rnd tch d rs k h r s' e' : good d rs k h -> all_bytes (c_data c) ->
  cmd_run nfc c flt rnd tch d = (Some r, s', e') -> o_chal s' = next_chal (o_chal (d_ram d)) (Cmd nfc c flt rnd tch, Resp r).
Proof.
  intros Hg Hb Hr. pose proof (cmd_spec _ _ _ Hsha1 Hsha256 Hsha512 junk Hjunk Hjunkb nfc c flt rnd tch d rs k h Hg Hb) as H.
  rewrite Hr in H. destruct H as (oc & rs' & k' & He & Hsw & _). cbn [next_chal]. rewrite Hsw.
  eapply eff_chal; [apply Hg|exact He|exact Hb].
Qed.

(** The challenge in force is the one the history says. *)
Lemma chal_step d ev o d' rs k h : good d rs k h -> ev_ok ev -> step d ev = Some (o, d') ->
  o_chal (d_ram d') = next_chal (o_chal (d_ram d)) (ev, o).
Proof.
  intros Hg He Hs. pose proof Hg as (Hok & Hat & Hinv & Hsl & Hpf).
  destruct ev as [nfc c flt rnd tch|kind flt|c flt| |nfc c flt rnd tch n|kind flt n|c flt n]; cbn [OathSpec.step ev_ok] in *.
  - destruct (cmd_run nfc c flt rnd tch d) as [[[r|] s'] e'] eqn:E; [|discriminate]. injection Hs as <- <-.
    eapply run_chal; [exact Hg|apply He|exact E].
  - pose proof (touch_spec _ _ _ Hsha1 Hsha256 Hsha512 junk Hjunk kind flt d rs k h Hg) as H.
    destruct (touch_run _ _ _ _ _ _ d) as [[[t| | |] s'] e']; try contradiction. injection Hs as <- <-.
    destruct H as (-> & _). reflexivity.
  - pose proof (conf_spec c flt d rs k h Hg He) as H. destruct (conf_run c flt d) as [[[r|] s'] e']; [|contradiction]. injection Hs as <- <-.
    destruct H as (_ & _ & _ & _ & _ & [(_ & _ & -> & _)|[(_ & _ & _ & ->)|(_ & _ & -> & _)]]); reflexivity.
  - injection Hs as <- <-. reflexivity.
  - pose proof (cmd_spec _ _ _ Hsha1 Hsha256 Hsha512 junk Hjunk Hjunkb nfc c flt rnd tch d rs k h Hg (proj1 He)) as H.
    destruct (cmd_run _ _ _ _ _ d) as [[[r|] s'] e']; [|contradiction]. injection Hs as <- <-.
    destruct H as (oc & rs' & k' & _ & _ & Hg' & Hc & Hl & Hp).
    assert (img c rs h (nth n (e_log e') (e_fs e'))) as (b & rs1 & k1 & Hok1 & Hat1 & Hc1).
    { apply (cut_good (img c rs h) d); [assumption| |].
      - exists false, rs, k. split; [assumption|]. split; [assumption|apply chg_refl].
      - destruct Hg' as (G1 & G2 & _). eexists _, rs', k'. split; [exact G1|]. split; [exact G2|exact Hc]. }
    assert (pfile_ok (nth n (e_log e') (e_fs e'))) as Hp1 by (apply cut_pfile; [assumption|apply Hg']).
    apply (boot_good junk _ [] rs1 k1 h Hok1 Hat1 Hp1).
  - pose proof (touch_spec _ _ _ Hsha1 Hsha256 Hsha512 junk Hjunk kind flt d rs k h Hg) as H.
    destruct (touch_run _ _ _ _ _ _ d) as [[[t| | |] s'] e']; try contradiction. injection Hs as <- <-.
    destruct H as (-> & rs' & _ & _ & Hg' & Hc & Hl & Hp).
    match type of Hl with logs ?P _ _ => pose proof (cut_good P d e' n Hl) as Hcut end. cbv beta in Hcut.
    destruct Hcut as (rs1 & Hok1 & Hat1 & Hc1).
    { exists rs. split; [assumption|]. split; [assumption|intros; apply chg_refl]. }
    { destruct Hg' as (G1 & G2 & _). exists rs'. split; [exact G1|]. split; [exact G2|exact Hc]. }
    assert (pfile_ok (nth n (e_log e') (e_fs e'))) as Hp1 by (apply cut_pfile; [assumption|apply Hg']).
    apply (boot_good junk _ [] rs1 k h Hok1 Hat1 Hp1).
  - pose proof (conf_spec c flt d rs k h Hg He) as H. destruct (conf_run c flt d) as [[[r|] s'] e']; [|contradiction]. injection Hs as <- <-.
    destruct H as (Hg' & Hl & Hp & Hss & _).
    assert (oath_same (d_fs d) (nth n (e_log e') (e_fs e'))) as Hs1 by (apply (cut_good _ d); [assumption|apply oath_same_refl|assumption]).
    assert (pfile_ok (nth n (e_log e') (e_fs e'))) as Hp1 by (apply cut_pfile; [assumption|apply Hg']).
    apply (boot_good junk _ [] rs k h); [eapply ok_other; [exact Hs1|exact Hok]|eapply attrs_ok_same; [apply attrs_other, Hs1|exact Hat]|assumption].
Qed.
Lemma hist_chal d tr d' rs k h : good d rs k h -> tr_ok tr -> hist d tr d' -> o_chal (d_ram d') = fold_left next_chal tr (o_chal (d_ram d)).
Proof.
  intros Hg Ht H. revert rs k Hg Ht. induction H as [|d ev o d1 tr d2 Hs H IH]; intros rs k Hg Ht; [reflexivity|].
  apply Forall_cons_iff in Ht as [He Ht]. cbn [fst] in He.
  destruct (step_good _ _ _ Hsha1 Hsha256 Hsha512 junk Hjunk Hjunkb d ev rs k h Hg He) as (o1 & d1' & rs1 & k1 & Hs1 & Hg1 & _).
  rewrite Hs in Hs1. injection Hs1 as <- <-. cbn [fold_left]. rewrite (IH rs1 k1 Hg1 Ht). f_equal. eapply chal_step; eassumption.
Qed.
Lemma reach_chal tr d : reach tr d -> o_chal (d_ram d) = challenge tr.
Proof.
  intros (Ht & rnd & H). destruct (boot_empty [] rnd) as [h Hg]. rewrite (hist_chal _ _ _ _ _ _ Hg Ht H). unfold challenge. reflexivity.
Qed.

(** Cutting power while a locked device handles a command: only moving factors may have changed. *)
Lemma locked_step d ev o d' rs k h : good d rs k h -> k <> [] -> o_valid (d_ram d) = false -> ev_ok ev ->
  step d ev = Some (o, d') -> ~ unlocks (ev, o) ->
  exists rs', good d' rs' k h /\ o_valid (d_ram d') = false /\ Permutation (creds rs') (creds rs) /\ locked_answer (ev, o).
Proof.
  intros Hg Hk Hv He Hs Hu. pose proof Hg as (Hok & Hat & Hinv & Hsl & Hpf). pose proof Hok as (_ & Hoks & _ & Hnd).
  assert (Hcr : forall rs1, Forall2 incd rs rs1 -> Permutation (creds rs1) (creds rs)) by (intros; apply (chg_creds (mkC 0 0 0 0 [] 0) rs false); [assumption|assumption|constructor|apply G_inc; assumption]).
  (* a command, seen through its effect *)
  assert (Hcmd : forall nfc c flt rnd tch r s' e', ev_ok (Cmd nfc c flt rnd tch) -> cmd_run nfc c flt rnd tch d = (Some r, s', e') ->
    exists rs', (~ unlocks (Cmd nfc c flt rnd tch, Resp r) -> good (mkDev s' (e_fs e')) rs' k h /\ o_valid s' = false /\ locked_answer (Cmd nfc c flt rnd tch, Resp r)) /\
      Permutation (creds rs') (creds rs) /\ oath_ok (e_fs e') rs' /\ same_attrs (d_fs d) (e_fs e') /\
      logs (ximg (d_fs d) (Forall2 incd rs)) [d_fs d] (e_log e') /\ Forall pfile_ok (e_log e') /\ pfile_ok (e_fs e')).
  { intros nfc c flt rnd tch r s' e' [Hb Hbr] Hrun.
    destruct (Z.eq_dec (c_ins c) 0xA3) as [E3|N3]; [|destruct (Z.eq_dec (c_ins c) 0xA4) as [E4|N4]].
    - pose proof (cmd_spec _ _ _ Hsha1 Hsha256 Hsha512 junk Hjunk Hjunkb nfc c flt rnd tch d rs k h Hg Hb) as H. rewrite Hrun in H.
      destruct H as (oc & rs' & k' & Heff & Hsw & Hg' & _ & _ & Hpl). exists rs'.
      destruct e' as [Fe Le Xe Re Te Oe], r as [rd rw]. cbn [e_fs e_log e_tch e_out r_sw r_data] in *.
      assert (pfile_ok Fe) as Hpf' by apply Hg'.
      inversion Heff; try (exfalso; kill_ins E3); try (exfalso; match goal with H : c_ins c <> OATH_INS_VALIDATE |- _ => apply H; exact E3 end); try (exfalso; congruence); subst.
      + split; [|split; [reflexivity|split; [exact (proj1 Hg')|split; [apply same_attrs_refl|split; [apply logs_nil|split; assumption]]]]].
        intros _. split; [assumption|]. split; [match goal with H : s' = _ \/ s' = _ |- _ => destruct H as [-> | ->]; [assumption|reflexivity] end|].
        cbn [locked_answer]. split; [intros; contradiction|]. split; [intros; congruence|intros; reflexivity].
      + split; [|split; [reflexivity|split; [exact (proj1 Hg')|split; [apply same_attrs_refl|split; [apply logs_nil|split; assumption]]]]].
        intros Hnu. exfalso. apply Hnu. cbn [unlocks]. split; [assumption|first [reflexivity|assumption]].
      + split; [|split; [apply Hcr; assumption|split; [exact (proj1 Hg')|split; [assumption|split; [assumption|split; assumption]]]]].
        intros _. split; [assumption|]. split; [match goal with H : o_valid s' = _ \/ _ |- _ => destruct H as [-> | Hx]; [assumption|rewrite E3 in Hx; discriminate] end|].
        cbn [locked_answer]. split; [intros; contradiction|]. split; [intros; congruence|]. intros _. cbn [r_data]. match goal with H : rd = [] \/ _ |- _ => destruct H as [->|Hx]; [reflexivity|rewrite E3 in Hx; discriminate] end.
    - destruct (Z.eq_dec (c_p1 c) 4) as [E1|N1].
      + pose proof (cmd_spec _ _ _ Hsha1 Hsha256 Hsha512 junk Hjunk Hjunkb nfc c flt rnd tch d rs k h Hg Hb) as H. rewrite Hrun in H.
        destruct H as (oc & rs' & k' & Heff & Hsw & Hg' & _ & _ & Hpl). exists rs'.
        destruct e' as [Fe Le Xe Re Te Oe], r as [rd rw]. cbn [e_fs e_log e_tch e_out r_sw r_data] in *.
      assert (pfile_ok Fe) as Hpf' by apply Hg'.
        assert (locked_answer (Cmd nfc c flt rnd tch, Resp (mkR rd rw))) as Hla by (cbn [locked_answer]; split; [intros; contradiction|split; [intros; contradiction|intros; congruence]]).
        inversion Heff; try (exfalso; kill_ins E4); try (exfalso; match goal with H : c_ins c <> OATH_INS_SELECT |- _ => apply H; exact E4 end); try (exfalso; congruence);
          try (exfalso; match goal with H : c_ins c = _ /\ c_p1 c = 0 \/ _ |- _ => destruct H as [[_ Hx]|[Hx _]]; [rewrite E1 in Hx|rewrite E4 in Hx]; discriminate Hx end); subst.
        * split; [|split; [reflexivity|split; [exact (proj1 Hg')|split; [apply same_attrs_refl|split; [apply logs_nil|split; assumption]]]]].
          intros _. split; [assumption|]. split; assumption.
        * split; [|split; [reflexivity|split; [exact (proj1 Hg')|split; [apply same_attrs_refl|split; [apply logs_nil|split; assumption]]]]].
          intros _. split; [assumption|]. split; assumption.
        * split; [|split; [apply Hcr; assumption|split; [exact (proj1 Hg')|split; [assumption|split; [assumption|split; assumption]]]]].
          intros _. split; [assumption|]. split; [match goal with H : o_valid s' = _ \/ _ |- _ => destruct H as [-> | Hx]; [assumption|rewrite E4 in Hx; discriminate] end|]. assumption.
      + destruct (locked_run nfc c flt rnd tch d Hv N3 (or_intror N1)) as (sw & E & Hsw & _). rewrite E in Hrun. injection Hrun as <- <- <-.
        exists rs. split; [|split; [reflexivity|split; [assumption|split; [apply same_attrs_refl|split; [apply logs_nil|split; [constructor; [assumption|constructor]|assumption]]]]]].
        intros _. split; [destruct d; exact Hg|]. split; [assumption|]. cbn [locked_answer r_sw r_data]. split; [intros; contradiction|]. split; [intros; split; [assumption|reflexivity]|intros; reflexivity].
    - destruct (locked_run nfc c flt rnd tch d Hv N3 (or_introl N4)) as (sw & E & Hsw & H6). rewrite E in Hrun. injection Hrun as <- <- <-.
      exists rs. split; [|split; [reflexivity|split; [assumption|split; [apply same_attrs_refl|split; [apply logs_nil|split; [constructor; [assumption|constructor]|assumption]]]]]].
      intros _. split; [destruct d; exact Hg|]. split; [assumption|]. cbn [locked_answer r_sw r_data]. split; [intros; split; [apply H6; assumption|reflexivity]|]. split; [intros; contradiction|intros; reflexivity]. }
  destruct ev as [nfc c flt rnd tch|kind flt|c flt| |nfc c flt rnd tch n|kind flt n|c flt n]; cbn [OathSpec.step] in *.
  - destruct (cmd_run nfc c flt rnd tch d) as [[[r|] s'] e'] eqn:E; [|discriminate]. injection Hs as <- <-.
    destruct (Hcmd nfc c flt rnd tch r s' e' He E) as (rs' & H & Hc & _). destruct (H Hu) as (H1 & H2 & H3). exists rs'. tauto.
  - pose proof (touch_spec _ _ _ Hsha1 Hsha256 Hsha512 junk Hjunk kind flt d rs k h Hg) as H.
    destruct (touch_run _ _ _ _ _ _ d) as [[[t| | |] s'] e']; try contradiction. injection Hs as <- <-.
    destruct H as (-> & rs' & _ & _ & Hg' & Hc & _). exists rs'. split; [assumption|]. split; [assumption|]. split; [|exact I].
    specialize (Hc (mkC 0 0 0 0 [] 0)). apply (chg_creds (mkC 0 0 0 0 [] 0) _ _ _ Hoks Hnd (Forall_nil _) Hc).
  - pose proof (conf_spec c flt d rs k h Hg He) as H. destruct (conf_run c flt d) as [[[r|] s'] e']; [|contradiction]. injection Hs as <- <-.
    destruct H as (Hg' & _ & _ & _ & _ & H). exists rs. split; [assumption|]. split; [|split; [reflexivity|exact I]].
    destruct H as [(_ & _ & -> & _)|[(_ & _ & _ & ->)|(_ & _ & -> & _)]]; exact Hv.
  - injection Hs as <- <-. exists rs. split; [|split; [reflexivity|split; [reflexivity|exact I]]].
    split; [assumption|]. split; [assumption|]. split; [|split; assumption]. destruct Hinv as [Hst _]. split; [exact Hst|left; reflexivity].
  - destruct (cmd_run nfc c flt rnd tch d) as [[[r|] s'] e'] eqn:E.
    2:{ pose proof (cmd_spec _ _ _ Hsha1 Hsha256 Hsha512 junk Hjunk Hjunkb nfc c flt rnd tch d rs k h Hg (proj1 He)) as H. rewrite E in H. contradiction. }
    injection Hs as <- <-. destruct (Hcmd nfc c flt rnd tch r s' e' He E) as (rs' & _ & Hc & Hok' & Hsa & Hl & Hp & Hpf').
    assert (exists rs1, oath_ok (nth n (e_log e') (e_fs e')) rs1 /\ same_attrs (d_fs d) (nth n (e_log e') (e_fs e')) /\ Permutation (creds rs1) (creds rs)) as (rs1 & Hok1 & Hsa1 & Hc1).
    { apply (cut_good (fun G => exists rs1, oath_ok G rs1 /\ same_attrs (d_fs d) G /\ Permutation (creds rs1) (creds rs)) d).
      - destruct Hl as (new & El & Hn). exists new. split; [assumption|]. eapply Forall_impl; [|exact Hn].
        intros G (rs1 & G1 & G2 & G3). exists rs1. split; [assumption|]. split; [assumption|apply Hcr; assumption].
      - exists rs. split; [assumption|]. split; [apply same_attrs_refl|reflexivity].
      - exists rs'. split; [assumption|]. split; assumption. }
    assert (pfile_ok (nth n (e_log e') (e_fs e'))) as Hp1 by (apply cut_pfile; assumption).
    destruct (boot_good junk _ [] rs1 k h Hok1 (attrs_ok_same _ _ _ _ Hsa1 Hat) Hp1) as (Hg1 & Hv1 & _).
    exists rs1. split; [exact Hg1|]. split; [exact Hv1|]. split; [assumption|exact I].
  - pose proof (touch_spec _ _ _ Hsha1 Hsha256 Hsha512 junk Hjunk kind flt d rs k h Hg) as H.
    destruct (touch_run _ _ _ _ _ _ d) as [[[t| | |] s'] e']; try contradiction. injection Hs as <- <-.
    destruct H as (-> & rs' & _ & _ & Hg' & Hc & Hl & Hp).
    match type of Hl with logs ?P _ _ => pose proof (cut_good P d e' n Hl) as Hcut end. cbv beta in Hcut.
    destruct Hcut as (rs1 & Hok1 & Hat1 & Hc1).
    { exists rs. split; [assumption|]. split; [assumption|intros; apply chg_refl]. }
    { destruct Hg' as (G1 & G2 & _). exists rs'. split; [exact G1|]. split; [exact G2|exact Hc]. }
    assert (pfile_ok (nth n (e_log e') (e_fs e'))) as Hp1 by (apply cut_pfile; [assumption|apply Hg']).
    destruct (boot_good junk _ [] rs1 k h Hok1 Hat1 Hp1) as (Hg1 & Hv1 & _).
    exists rs1. split; [exact Hg1|]. split; [exact Hv1|]. split; [|exact I]. apply (chg_creds (mkC 0 0 0 0 [] 0) _ _ _ Hoks Hnd (Forall_nil _) (Hc1 _)).
  - pose proof (conf_spec c flt d rs k h Hg He) as H. destruct (conf_run c flt d) as [[[r|] s'] e']; [|contradiction]. injection Hs as <- <-.
    destruct H as (Hg' & Hl & Hp & Hss & _).
    assert (oath_same (d_fs d) (nth n (e_log e') (e_fs e'))) as Hs1 by (apply (cut_good _ d); [assumption|apply oath_same_refl|assumption]).
    assert (pfile_ok (nth n (e_log e') (e_fs e'))) as Hp1 by (apply cut_pfile; [assumption|apply Hg']).
    destruct (boot_good junk _ [] rs k h (ok_other _ _ _ Hs1 Hok) (attrs_ok_same _ _ _ _ (attrs_other _ _ Hs1) Hat) Hp1) as (Hg1 & Hv1 & _).
    exists rs. split; [exact Hg1|]. split; [exact Hv1|]. split; [reflexivity|exact I].
Qed.

(** C15.  While an access code is set and not proved, whatever happens (commands, storage errors, touches,
    power cuts) short of an accepted VALIDATE: the device stays locked, every command but SELECT and VALIDATE
    is answered 6982 without data, and neither the access code nor the credentials change. *)
Theorem C15_locked_until_validated : forall tr0 d k A tr d', reach tr0 d -> access_code d k -> k <> [] -> ~ authorised d -> holds d A ->
  hist d tr d' -> tr_ok tr -> Forall (fun x => ~ unlocks x) tr ->
  access_code d' k /\ ~ authorised d' /\ (exists A', holds d' A' /\ Permutation A' A) /\ Forall locked_answer tr.
Proof.
  intros tr0 d k A tr d' Hr Hcode Hk Hna HA Hh Ht Hnu.
  destruct (reach_good _ _ _ Hsha1 Hsha256 Hsha512 junk Hjunk Hjunkb tr0 d Hr) as (rs & k1 & h & Hg).
  assert (k = k1) as -> by exact (good_code _ _ _ _ _ Hg Hcode). rewrite (holds_creds d rs k1 h A Hg HA).
  assert (o_valid (d_ram d) = false) as Hv by (unfold authorised in Hna; destruct (o_valid (d_ram d)); [exfalso; apply Hna|]; reflexivity).
  clear Hcode Hna HA A Hr. revert rs Hg Hv. induction Hh as [d|d ev o d1 tr d2 Hs Hh IH]; intros rs Hg Hv.
  - pose proof Hg as (Hok & (Ha & _) & _). split; [exact Ha|]. split; [unfold authorised; congruence|]. split; [|constructor].
    exists (creds rs). split; [|reflexivity]. exists rs. split; [apply ok_records; assumption|reflexivity].
  - apply Forall_cons_iff in Ht as [He Ht]. apply Forall_cons_iff in Hnu as [Hn1 Hnu]. cbn [fst] in He.
    destruct (locked_step d ev o d1 rs k1 h Hg Hk Hv He Hs Hn1) as (rs1 & Hg1 & Hv1 & Hc & Hl).
    destruct (IH Ht Hnu rs1 Hg1 Hv1) as (H1 & H2 & (A' & H3 & HP) & H4). split; [assumption|]. split; [assumption|]. split; [exists A'; split; [assumption|rewrite HP; exact Hc]|]. constructor; assumption.
Qed.

(** C15.  The device is locked after boot, after losing power, after being deselected, and after a new access
    code was set. *)
Theorem C15_locks_again : forall tr d ev o d', reach tr d -> ev_ok ev -> step d ev = Some (o, d') ->
  match ev with
  | PowerOff | CutCmd _ _ _ _ _ _ | CutTouch _ _ _ | CutConf _ _ _ => ~ authorised d'
  | Cmd _ c _ _ _ => c_ins c = 0x03 -> (exists r, o = Resp r /\ r_sw r = 0x9000) -> access_code d' [] \/ ~ authorised d'
  | _ => True
  end.
Proof.
  intros tr d ev o d' Hr He Hs. destruct (reach_good _ _ _ Hsha1 Hsha256 Hsha512 junk Hjunk Hjunkb tr d Hr) as (rs & k & h & Hg).
  assert (Hnv : forall F, o_valid (d_ram (oboot F [])) = false) by (intros F; apply boot_locked).
  destruct ev as [nfc c flt rnd tch|kind flt|c flt| |nfc c flt rnd tch n|kind flt n|c flt n]; cbn [OathSpec.step] in Hs; try exact I.
  - intros E3 (r & -> & Hsw). pose proof (cmd_spec _ _ _ Hsha1 Hsha256 Hsha512 junk Hjunk Hjunkb nfc c flt rnd tch d rs k h Hg (proj1 He)) as H.
    destruct (cmd_run nfc c flt rnd tch d) as [[[r1|] s'] e'] eqn:E; [|contradiction]. injection Hs as -> <-.
    destruct H as (oc & rs' & k' & Heff & Hsw' & Hg' & _). rewrite Hsw in Hsw'.
    destruct oc as [z|w| |]; [|exfalso; destruct (eff_exc _ _ _ _ _ _ _ _ _ _ _ _ _ _ _ _ _ _ _ _ _ Heff) as [Hne _]; congruence|discriminate Hsw'|inversion Heff].
    inversion Heff; try (exfalso; kill_ins E3); subst.
    + left. apply Hg'.
    + right. unfold authorised. cbn [d_ram o_valid oset_valid]. discriminate.
  - injection Hs as <- <-. unfold authorised. cbn. discriminate.
  - destruct (cmd_run nfc c flt rnd tch d) as [[r1 s'] e']. injection Hs as <- <-. unfold authorised, after_cut. rewrite Hnv. discriminate.
  - destruct (touch_run _ _ _ _ kind flt d) as [[r1 s'] e']. injection Hs as <- <-. unfold authorised, after_cut. rewrite Hnv. discriminate.
  - destruct (conf_run c flt d) as [[r1 s'] e']. injection Hs as <- <-. unfold authorised, after_cut. rewrite Hnv. discriminate.
Qed.

(** C15.  VALIDATE is accepted only with the HMAC of the challenge in force under the access code, and then
    answers the HMAC of the host's challenge. *)
Theorem C15_validate_needs_the_key : forall tr d k nfc c flt rnd tch r d', reach tr d -> access_code d k -> c_ins c = 0xA3 ->
  all_bytes (c_data c) -> step d (Cmd nfc c flt rnd tch) = Some (Resp r, d') -> r_sw r = 0x9000 ->
  k <> [] /\ exists hc, c_data c = validate_data (hmac_sha1 k (challenge tr)) hc /\ r_data r = [0x75; 20] ++ hmac_sha1 k hc.
Proof.
  intros tr d k nfc c flt rnd tch r d' Hr Hcode Hins Hb Hs Hsw.
  destruct (reach_good _ _ _ Hsha1 Hsha256 Hsha512 junk Hjunk Hjunkb tr d Hr) as (rs & k1 & h & Hg).
  assert (k = k1) as -> by exact (good_code _ _ _ _ _ Hg Hcode).
  pose proof (cmd_spec _ _ _ Hsha1 Hsha256 Hsha512 junk Hjunk Hjunkb nfc c flt rnd tch d rs k1 h Hg Hb) as H.
  cbn [OathSpec.step] in Hs. destruct (cmd_run nfc c flt rnd tch d) as [[[r1|] s'] e'] eqn:E; [|contradiction]. injection Hs as -> <-.
  destruct H as (oc & rs' & k' & Heff & Hsw' & _). rewrite Hsw in Hsw'.
  destruct oc as [z|w| |]; [|exfalso; destruct (eff_exc _ _ _ _ _ _ _ _ _ _ _ _ _ _ _ _ _ _ _ _ _ Heff) as [Hne _]; congruence|discriminate Hsw'|inversion Heff].
  inversion Heff; try (exfalso; kill_ins Hins); subst.
  split; [assumption|]. exists chal. split; [|reflexivity].
  match goal with H : parse_validate _ = Ret _ |- _ => pose proof (parse_validate_sound (c_data c) Hb) as Hp; rewrite H in Hp end.
  destruct Hp as (_ & _ & ->). rewrite (reach_chal tr d Hr). reflexivity.
Qed.

(** C15.  And it is accepted with it (no storage error). *)
Theorem C15_validate_unlocks : forall tr d k hc nfc c rnd tch, reach tr d -> access_code d k -> k <> [] -> c_ins c = 0xA3 ->
  c_p1 c = 0 -> c_p2 c = 0 -> all_bytes (c_data c) -> 1 <= zlen hc <= 255 ->
  c_data c = validate_data (hmac_sha1 k (challenge tr)) hc ->
  exists d', step d (Cmd nfc c [] rnd tch) = Some (Resp (mkR ([0x75; 20] ++ hmac_sha1 k hc) 0x9000), d') /\ authorised d'.
Proof.
  intros tr d k hc nfc c rnd tch Hr Hcode Hk Hins Hp1 Hp2 Hb Hz Hd.
  destruct (reach_good _ _ _ Hsha1 Hsha256 Hsha512 junk Hjunk Hjunkb tr d Hr) as (rs & k1 & h & Hg).
  assert (k = k1) as -> by exact (good_code _ _ _ _ _ Hg Hcode).
  destruct (one_good _ _ _ Hsha1 Hsha256 Hsha512 junk Hjunk Hjunkb d nfc c rnd tch rs k1 h Hg Hb) as (r & d' & oc & rs' & k' & Hs & Hg' & (F' & L' & T' & He & HF) & Hsw).
  pose proof (parse_validate_complete (hmac_sha1 k1 (challenge tr)) hc (proj1 (Hsha1 _ _)) Hz) as Hp. rewrite <- Hd in Hp.
  inversion He; try (exfalso; kill_ins Hins); try (exfalso; match goal with H : c_ins c <> OATH_INS_VALIDATE |- _ => apply H; exact Hins end); subst.
  - exfalso. match goal with H : ~ val_ok _ _ _ _ |- _ => apply H end. split; [assumption|]. split; [assumption|]. split; [assumption|]. eexists _, _. split; [exact Hp|]. rewrite (reach_chal tr d Hr). reflexivity.
  - exists d'. rewrite Hs. match goal with H : parse_validate _ = Ret _ |- _ => rewrite Hp in H; injection H; intros; subst end.
    destruct r as [rd rw]. cbn [r_sw r_data] in *. subst. split; [reflexivity|]. unfold authorised. match goal with H : _ = d_ram d' |- _ => rewrite <- H | H : d_ram d' = _ |- _ => rewrite H end. reflexivity.
Qed.

(** C66, refuted.  Selecting the applet again does not ask for the access code again: an authorised host stays
    authorised although a new challenge is issued. *)
Theorem C66_reselect_requires_code_refuted : forall tr d k nfc c rnd tch, reach tr d -> access_code d k -> k <> [] -> authorised d ->
  c_ins c = 0xA4 -> c_p1 c = 4 -> c_p2 c = 0 -> all_bytes (c_data c) ->
  exists r d', step d (Cmd nfc c [] rnd tch) = Some (Resp r, d') /\ r_sw r = 0x9000 /\ zlen (r_data r) = 28 /\ authorised d'.
Proof.
  intros tr d k nfc c rnd tch Hr Hcode Hk Hv Hins Hp1 Hp2 Hb.
  destruct (reach_good _ _ _ Hsha1 Hsha256 Hsha512 junk Hjunk Hjunkb tr d Hr) as (rs & k1 & h & Hg).
  assert (k = k1) as -> by exact (good_code _ _ _ _ _ Hg Hcode).
  destruct (one_good _ _ _ Hsha1 Hsha256 Hsha512 junk Hjunk Hjunkb d nfc c rnd tch rs k1 h Hg Hb) as (r & d' & oc & rs' & k' & Hs & Hg' & (F' & L' & T' & He & HF) & Hsw).
  exists r, d'. split; [assumption|]. pose proof Hg as (_ & (_ & _ & _ & Hh) & _).
  inversion He; try (exfalso; kill_ins Hins); try (exfalso; match goal with H : c_ins c <> OATH_INS_SELECT |- _ => apply H; exact Hins end); try (exfalso; congruence);
    try (exfalso; match goal with H : c_ins c = _ /\ c_p1 c = 0 \/ _ |- _ => destruct H as [[_ Hx]|[Hx _]]; [rewrite Hp1 in Hx|rewrite Hins in Hx]; discriminate Hx end);
    try (exfalso; match goal with H : c_p1 c = 4 -> c_p2 c <> 0 |- _ => apply (H Hp1); assumption end); subst.
  split; [assumption|]. match goal with H : zlen ch = 8 |- _ => destruct (zlen_sel h ch Hh H) as [Hz _] end.
  split; [exact Hz|].
  unfold authorised. match goal with H : _ = d_ram d' |- _ => rewrite <- H | H : d_ram d' = _ |- _ => rewrite H end. exact Hv.
Qed.

(** C67, refuted.  An accepted VALIDATE command is accepted again when replayed, even after the applet has been
    deselected, as long as no SELECT issues a new challenge. *)
Theorem C67_validate_replay_refuted : forall tr d nfc c rnd tch r d1, reach tr d -> c_ins c = 0xA3 -> c_p1 c = 0 -> c_p2 c = 0 -> all_bytes (c_data c) -> all_bytes rnd ->
  step d (Cmd nfc c [] rnd tch) = Some (Resp r, d1) -> r_sw r = 0x9000 ->
  exists d2 d3, step d1 PowerOff = Some (Nothing, d2) /\ ~ authorised d2 /\ step d2 (Cmd nfc c [] rnd tch) = Some (Resp r, d3) /\ authorised d3.
Proof.
  intros tr d nfc c rnd tch r d1 Hr Hins Hp1 Hp2 Hb Hbr Hs Hsw.
  destruct (reach_good _ _ _ Hsha1 Hsha256 Hsha512 junk Hjunk Hjunkb tr d Hr) as (rs & k & h & Hg).
  assert (access_code d k) as Hcode by apply Hg.
  assert (k <> [] /\ d_fs d1 = d_fs d /\ exists hc, 1 <= zlen hc <= 255 /\ c_data c = validate_data (hmac_sha1 k (challenge tr)) hc /\ r_data r = [0x75; 20] ++ hmac_sha1 k hc) as (Hk & HF & hc & Hz & Hd & Hrd).
  { destruct (one_good _ _ _ Hsha1 Hsha256 Hsha512 junk Hjunk Hjunkb d nfc c rnd tch rs k h Hg Hb) as (r1 & d1' & oc & rs' & k' & Hs1 & Hg' & (F' & L' & T' & He & HF) & Hsw').
    rewrite Hs in Hs1. injection Hs1 as <- <-. rewrite Hsw in Hsw'.
    destruct oc as [z|w| |]; [|exfalso; destruct (eff_exc _ _ _ _ _ _ _ _ _ _ _ _ _ _ _ _ _ _ _ _ _ He) as [Hne _]; congruence|discriminate Hsw'|inversion He].
    remember (r_data r) as rd eqn:Erd. remember (d_ram d1) as ram. remember (d_fs d1) as F1.
    inversion He; try (exfalso; kill_ins Hins); subst. split; [assumption|]. split; [congruence|]. exists chal.
    match goal with H : parse_validate _ = Ret _ |- _ => pose proof (parse_validate_sound (c_data c) Hb) as Hp; rewrite H in Hp; pose proof (parse_long _ _ H) as Hl end.
    destruct Hp as (Hp20 & Hp255 & Hp). rewrite <- (reach_chal tr d Hr). split; [|split; [exact Hp|reflexivity]].
    rewrite Hp, !zlen_app, Hp20 in Hl. change (zlen [OATH_TAG_FULL_RESPONSE; 20]) with 2 in Hl. change (zlen [OATH_TAG_CHALLENGE; zlen chal]) with 2 in Hl. lia. }
  set (tr2 := (tr ++ [(Cmd nfc c [] rnd tch, Resp r)]) ++ [(PowerOff, Nothing)]).
  set (d2 := mkDev (oath_poweroff (d_ram d1)) (d_fs d1)).
  assert (reach tr2 d2) as Hr2.
  { destruct Hr as (Ht & rnd0 & Hh). split.
    - unfold tr2. apply Forall_app. split; [apply Forall_app; split; [assumption|]|]; (constructor; [|constructor]); [split; assumption|exact I].
    - exists rnd0. unfold tr2. eapply hist_app; [eapply hist_app; [exact Hh|econstructor; [exact Hs|constructor]]|]. econstructor; [reflexivity|constructor]. }
  assert (challenge tr2 = challenge tr) as Hch.
  { unfold tr2, challenge. rewrite !fold_left_app. cbn [fold_left next_chal]. rewrite Hins. reflexivity. }
  assert (access_code d2 k) as Hcode2 by (unfold access_code, d2; cbn [d_fs]; rewrite HF; exact Hcode).
  rewrite <- Hch in Hd. destruct (C15_validate_unlocks tr2 d2 k hc nfc c rnd tch Hr2 Hcode2 Hk Hins Hp1 Hp2 Hb Hz Hd) as (d3 & Hs3 & Hv3).
  exists d2, d3. split; [reflexivity|]. split; [unfold authorised, d2; cbn; discriminate|]. split; [|assumption].
  rewrite Hs3. destruct r as [rd rw]. cbn [r_sw r_data] in *. subst. reflexivity.
Qed.
End Oath.

(** ** Examples: the device of OathEx.v on which an access code is set *)
Example dev1_reached : reach h1 h2 h5 junk0 tr1 dev1 /\ access_code dev1 key16 /\ ~ authorised dev1 /\ challenge tr1 = [9; 8; 7; 6; 5; 4; 3; 2].
Proof.
  split; [apply (run_reach setup1); vm_compute; reflexivity|]. split; [vm_compute; reflexivity|]. split; [vm_compute; discriminate|vm_compute; reflexivity].
Qed.
Example dev1_holds : holds dev1 [mkCred nA kH 0; mkCred nB kT 1].
Proof. exists (the_records dev1). split; [apply recsb_ok; vm_compute; reflexivity|vm_compute; reflexivity]. Qed.
(** Refused commands, a touch, a power cut, a wrong VALIDATE; then the right one *)
Example C15_ex : let evs := [cmd c_list; cmd (c_put nC kT []); Touch 1 []; cmd (c_calc nA []); cmd (mkC 0 0xA3 0 0 [0x75; 20] 256)] in
  runs dev1 evs = true /\ sws (tr_of dev1 evs) = [0x6982; 0x6982; 0; 0x6982; 0x6700] /\
  c_data (c_val [1; 2]) = validate_data (h1 key16 (challenge (tr1 ++ tr_of dev1 evs))) [1; 2] /\
  sws (tr_of (dev_of dev1 evs) [cmd (c_val [1; 2]); cmd c_list]) = [0x9000; 0x9000].
Proof. vm_compute. repeat split. Qed.
Example C15_unlocks_ex : Forall (fun x => ~ unlocks x) (tr_of dev1 [cmd c_list; cmd c_select]).
Proof. vm_compute. constructor; [intros [H _]; discriminate|]. constructor; [intros [H _]; discriminate|constructor]. Qed.
(** C66, C67: re-select after VALIDATE; replay after the card was reset *)
Example C66_ex : sws (tr_of dev1 [cmd (c_val [1; 2]); cmd c_select; cmd c_list]) = [0x9000; 0x9000; 0x9000].
Proof. vm_compute. reflexivity. Qed.
Example C67_ex : sws (tr_of dev1 [cmd (c_val [1; 2]); PowerOff; cmd c_list; cmd (c_val [1; 2]); cmd c_list]) = [0x9000; 0; 0x6982; 0x9000; 0x9000].
Proof. vm_compute. reflexivity. Qed.

Print Assumptions C15_locked_until_validated.
Print Assumptions C15_locks_again.
Print Assumptions C15_validate_needs_the_key.
Print Assumptions C15_validate_unlocks.
Print Assumptions C66_reselect_requires_code_refuted.
Print Assumptions C67_validate_replay_refuted.
