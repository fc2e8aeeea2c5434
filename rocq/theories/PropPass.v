(** Property theorems of the touch slots: what deleting an OATH credential does to them (C19), their configuration
    (C20); the OATH applet leaves other applets' files alone (C70); storage errors at boot (C68). *)
From Coq Require Import Permutation.
From Verif Require Import Sys Apdu Applet Pass Oath OathProofs OathCmds OathEff OathSpec OathPres OathHist OathStep OathFacts OathEx PropOath Frame.
Open Scope string_scope. Open Scope list_scope. Open Scope Z_scope.

(** Slot configuration data (admin applet, WRITE CONFIG; P1 = 1 short touch, 2 long touch): 00 turns the slot off;
    02, length, password, Enter flag makes it type a static password. *)
Definition conf_off (c : capdu) : Prop := c_data c = [0].
Definition conf_static (c : capdu) (pw : bytes) (en : Z) : Prop := c_data c = [2; zlen pw] ++ pw ++ [en] /\ zlen pw <= 32.
(** Configuring a slot, assigning a HOTP credential to it (SET DEFAULT) or deleting a credential may change slots;
    nothing else. *)
Definition leaves_slots (ev : event) : Prop :=
  match ev with
  | Conf _ _ | CutConf _ _ _ => False
  | Cmd _ c _ _ _ | CutCmd _ c _ _ _ _ => c_ins c <> 0x02 /\ c_ins c <> 0x55
  | _ => True
  end.

(** ** The applet's commands as frames *)
Section Fr.
Variables hmac_sha1 hmac_sha256 hmac_sha512 : bytes -> bytes -> bytes.
Variable junk : bytes.
Variable I : oath -> Prop.
Hypothesis HI : forall s s', o_slots s' = o_slots s -> I s -> I s'.
Variable P : fs -> Prop.
Hypothesis HP : indep P OATH_FILE.
Notation frame := (frame I P).
Lemma fr_mod f : (forall s, o_slots (f s) = o_slots s) -> frame (modify f).
Proof. intros H. apply fr_modify. intros s. apply HI, H. Qed.
Ltac f1 := first [apply fr_mod; intros ?; reflexivity | apply fr_write_file; exact HP | apply fr_write_attr; exact HP | frame1].
Lemma fr_rd_rec o r : frame (rd_rec o r). Proof. unfold rd_rec. repeat f1. Qed.
Lemma fr_put_loop k : forall i n r u nm, frame (put_loop k i n r u nm).
Proof. induction k; intros; cbn [put_loop]; repeat (first [apply fr_rd_rec|apply IHk|f1]). Qed.
Lemma fr_find_loop k : forall i r nm, frame (find_loop k i r nm).
Proof. induction k; intros; cbn [find_loop]; repeat (first [apply fr_rd_rec|apply IHk|f1]). Qed.
Lemma fr_rename_loop k : forall i n r x o m, frame (rename_loop k i n r x o m).
Proof. induction k; intros; cbn [rename_loop]; repeat (first [apply fr_rd_rec|apply IHk|f1]). Qed.
Lemma fr_list_loop k : forall r a l, frame (list_loop k r a l).
Proof. induction k; intros; cbn [list_loop]; repeat (first [apply fr_rd_rec|apply IHk|f1]). Qed.
Lemma fr_enforce r o c : frame (oath_enforce_increasing r o c).
Proof. unfold oath_enforce_increasing, oath_update_challenge_field. repeat f1. Qed.
Lemma fr_calc_loop k : forall r a l, frame (calc_loop hmac_sha1 hmac_sha256 hmac_sha512 k r a l).
Proof. induction k; intros; cbn [calc_loop]; repeat (first [apply fr_rd_rec|apply fr_enforce|apply IHk|f1]). Qed.
Lemma fr_n : frame n_records. Proof. unfold n_records. repeat f1. Qed.
Ltac f2 := first [apply fr_rd_rec|apply fr_n|apply fr_enforce|apply fr_calc_loop|apply fr_list_loop|apply fr_put_loop
  |apply fr_find_loop|apply fr_rename_loop|f1].
Lemma fr_list c : frame (oath_list junk c). Proof. unfold oath_list. repeat f2. Qed.
Lemma fr_all c : frame (oath_calculate_all hmac_sha1 hmac_sha256 hmac_sha512 junk c).
Proof. unfold oath_calculate_all. repeat f2. Qed.
Lemma fr_body nfc c : (c_ins c = 0x02 -> frame (oath_delete junk c)) -> (c_ins c = 0x55 -> frame (oath_set_default junk c)) ->
  frame (oath_body hmac_sha1 hmac_sha256 hmac_sha512 junk nfc c).
Proof.
  intros Hd Hs. unfold oath_body.
  apply fr_bind; [f1|intros ?]. apply fr_bind; [f1|intros ?]. cbv zeta.
  destruct (c_ins c =? OATH_INS_PUT); [unfold oath_put; repeat f2|].
  destruct (Z.eqb_spec (c_ins c) OATH_INS_DELETE) as [E|_]; [apply Hd, E|].
  repeat match goal with |- Frame.frame _ _ (if c_ins c =? OATH_INS_SET_DEFAULT then _ else _) =>
    destruct (Z.eqb_spec (c_ins c) OATH_INS_SET_DEFAULT) as [E|_]; [apply Hs, E|]
  | |- Frame.frame _ _ (if c_ins c =? _ then _ else _) =>
    match goal with |- Frame.frame _ _ (if ?b then _ else _) => destruct b; [unfold oath_send_remaining, oath_rename, oath_set_code, oath_validate, oath_select, oath_calculate, oath_update_challenge_field; repeat (first [apply fr_list|apply fr_all|f2])|] end end.
  all: repeat f2.
Qed.
Lemma fr_touch kind : frame (pass_handle_touch hmac_sha1 hmac_sha256 hmac_sha512 junk kind).
Proof. unfold pass_handle_touch, oath_calculate_by_offset, oath_update_challenge_field. repeat f2. Qed.
(** When the slots may be written *)
Hypothesis HP2 : indep P PASS_FILE.
Hypothesis HI2 : forall s sl, I s -> I (oset_slots sl s).
Ltac f3 := first [apply fr_modify; intros ? ?; apply HI2; assumption | apply fr_write_file; exact HP2 | f2].
Lemma fr_delete c : frame (oath_delete junk c).
Proof. unfold oath_delete, pass_delete_oath, save_slots. repeat f3. Qed.
Lemma fr_set_default c : frame (oath_set_default junk c).
Proof. unfold oath_set_default, pass_update_oath, save_slots. repeat f3. Qed.
Lemma fr_config c : frame (pass_write_config o_slots oset_slots c).
Proof. unfold pass_write_config, save_slots. repeat f3. Qed.
Lemma fr_boot : frame (oath_install false ;;; pass_install o_slots oset_slots false).
Proof. unfold oath_install, pass_install, save_slots. repeat f3. Qed.
End Fr.

Section Pass.
Variables hmac_sha1 hmac_sha256 hmac_sha512 : bytes -> bytes -> bytes.
Hypothesis Hsha1 : digest_ok 20 hmac_sha1.
Hypothesis Hsha256 : digest_ok 32 hmac_sha256.
Hypothesis Hsha512 : digest_ok 64 hmac_sha512.
Variable junk : bytes.
Hypothesis Hjunk : zlen junk = 141.
Hypothesis Hjunkb : all_bytes junk.
Notation step := (step hmac_sha1 hmac_sha256 hmac_sha512 junk).
Notation hist := (hist hmac_sha1 hmac_sha256 hmac_sha512 junk).
Notation reach := (reach hmac_sha1 hmac_sha256 hmac_sha512 junk).
Notation cmd_run := (cmd_run hmac_sha1 hmac_sha256 hmac_sha512 junk).
Notation touch_run := (touch_run hmac_sha1 hmac_sha256 hmac_sha512 junk).

(** C70.  No OATH command, touch, slot configuration or boot, with whatever storage errors and power cuts,
    changes a file of another applet. *)
Theorem C70_other_files_untouched : forall d ev o d' p, step d ev = Some (o, d') -> p <> "oath" -> p <> "pass" ->
  d_fs d' p = d_fs d p.
Proof.
  intros d ev o d' p Hs Hp1 Hp2.
  set (P := fun F : fs => F p = d_fs d p).
  assert (indep P OATH_FILE) as H1 by (intros F x H; unfold P; rewrite fset_other; assumption).
  assert (indep P PASS_FILE) as H2 by (intros F x H; unfold P; rewrite fset_other; assumption).
  assert (Hc : forall nfc c flt rnd tch, let '(_, _, e) := cmd_run nfc c flt rnd tch d in P (e_fs e) /\ Forall P (e_log e)).
  { intros. unfold OathSpec.cmd_run, oath_process_apdu.
    pose proof (frame_apdu (fun _ => True) P (oath_body hmac_sha1 hmac_sha256 hmac_sha512 junk nfc c) (d_ram d) (d_fs d) flt rnd tch) as H.
    destruct (run_apdu _ _ _) as [[r s] e]. apply H; [|exact Logic.I|reflexivity]. apply fr_body; [trivial|exact H1| |]; intros _;
      [apply fr_delete|apply fr_set_default]; trivial. }
  assert (Ht : forall kind flt, let '(_, _, e) := touch_run kind flt d in P (e_fs e) /\ Forall P (e_log e)).
  { intros. unfold OathSpec.touch_run.
    pose proof (frame_run (fun _ => True) P (pass_handle_touch hmac_sha1 hmac_sha256 hmac_sha512 junk kind) (d_ram d) (d_fs d) flt [] []) as H.
    destruct (pass_handle_touch _ _ _ _ _ _ _) as [[r s] e]. apply H; [|exact Logic.I|reflexivity]. apply fr_touch; trivial. }
  assert (Hf : forall c flt, let '(_, _, e) := conf_run c flt d in P (e_fs e) /\ Forall P (e_log e)).
  { intros. unfold OathSpec.conf_run.
    pose proof (frame_apdu (fun _ => True) P (pass_write_config o_slots oset_slots c) (d_ram d) (d_fs d) flt [] []) as H.
    destruct (run_apdu _ _ _) as [[r s] e]. apply H; [|exact Logic.I|reflexivity]. apply fr_config; trivial. }
  assert (Hb : forall e n, P (e_fs e) /\ Forall P (e_log e) -> P (d_fs (after_cut e n))).
  { intros e n [HF HL]. unfold after_cut, oboot. assert (P (nth n (e_log e) (e_fs e))) as HG.
    { destruct (nth_in_or_default n (e_log e) (e_fs e)) as [Hi| ->]; [|assumption]. rewrite Forall_forall in HL. apply HL, Hi. }
    pose proof (frame_run (fun _ => True) P (oath_install false ;;; pass_install o_slots oset_slots false) oath_boot (nth n (e_log e) (e_fs e)) [] [] []) as H.
    destruct ((oath_install false ;;; pass_install o_slots oset_slots false) oath_boot (start (nth n (e_log e) (e_fs e)) [] [] [])) as [[r s] e1].
    apply H; [|exact Logic.I|exact HG]. apply fr_boot; trivial. }
  destruct ev as [nfc c flt rnd tch|kind flt|c flt| |nfc c flt rnd tch n|kind flt n|c flt n]; cbn [OathSpec.step] in Hs.
  - specialize (Hc nfc c flt rnd tch). destruct (cmd_run nfc c flt rnd tch d) as [[[r|] s] e]; [|discriminate]. injection Hs as <- <-. apply Hc.
  - specialize (Ht kind flt). destruct (touch_run kind flt d) as [[[t| | |] s] e]; try discriminate. injection Hs as <- <-. apply Ht.
  - specialize (Hf c flt). destruct (conf_run c flt d) as [[[r|] s] e]; [|discriminate]. injection Hs as <- <-. apply Hf.
  - injection Hs as <- <-. reflexivity.
  - specialize (Hc nfc c flt rnd tch). destruct (cmd_run nfc c flt rnd tch d) as [[r s] e]. injection Hs as <- <-. apply Hb, Hc.
  - specialize (Ht kind flt). destruct (touch_run kind flt d) as [[r s] e]. injection Hs as <- <-. apply Hb, Ht.
  - specialize (Hf c flt). destruct (conf_run c flt d) as [[r s] e]. injection Hs as <- <-. apply Hb, Hf.
Qed.

(** The slots in RAM are [sl], and the stored ones as well. *)
Definition slots_are (d : dev) (sl : slots) : Prop := o_slots (d_ram d) = sl /\ fdata (d_fs d) PASS_FILE = Some (slots_bytes sl).
Lemma slots_step d ev o d' rs k h sl : good d rs k h -> ev_ok ev -> step d ev = Some (o, d') -> leaves_slots ev -> slots_are d sl -> slots_are d' sl.
Proof.
  intros Hg He Hs Hlv [Hr Hp]. pose proof Hg as (Hok & Hat & Hinv & Hsl & Hpf). rewrite Hr in Hsl.
  set (I := fun s => o_slots s = sl). set (P := fun F : fs => fdata F PASS_FILE = Some (slots_bytes sl)).
  assert (indep P OATH_FILE) as H1 by (intros F x H; unfold P, fdata; rewrite fset_other by discriminate; exact H).
  assert (HI : forall s s', o_slots s' = o_slots s -> I s -> I s') by (unfold I; intros; congruence).
  assert (Hc : forall nfc c flt rnd tch, c_ins c <> 0x02 -> c_ins c <> 0x55 -> let '(_, s, e) := cmd_run nfc c flt rnd tch d in I s /\ P (e_fs e) /\ Forall P (e_log e)).
  { intros nfc c flt rnd tch N2 N5. unfold OathSpec.cmd_run, oath_process_apdu.
    pose proof (frame_apdu I P (oath_body hmac_sha1 hmac_sha256 hmac_sha512 junk nfc c) (d_ram d) (d_fs d) flt rnd tch) as H.
    destruct (run_apdu _ _ _) as [[r s] e]. apply H; [|exact Hr|exact Hp]. apply fr_body; try assumption; intros; contradiction. }
  assert (Ht : forall kind flt, let '(_, s, e) := touch_run kind flt d in I s /\ P (e_fs e) /\ Forall P (e_log e)).
  { intros. unfold OathSpec.touch_run.
    pose proof (frame_run I P (pass_handle_touch hmac_sha1 hmac_sha256 hmac_sha512 junk kind) (d_ram d) (d_fs d) flt [] []) as H.
    destruct (pass_handle_touch _ _ _ _ _ _ _) as [[r s] e]. apply H; [|exact Hr|exact Hp]. apply fr_touch; trivial. }
  assert (Hb : forall e n rs1 k1 h1, P (e_fs e) /\ Forall P (e_log e) -> oath_ok (nth n (e_log e) (e_fs e)) rs1 -> attrs_ok (nth n (e_log e) (e_fs e)) k1 h1 ->
    pfile_ok (nth n (e_log e) (e_fs e)) -> slots_are (after_cut e n) sl).
  { intros e n rs1 k1 h1 [HF HL] Hok1 Hat1 Hp1. assert (P (nth n (e_log e) (e_fs e))) as HG.
    { destruct (nth_in_or_default n (e_log e) (e_fs e)) as [Hi| ->]; [|assumption]. rewrite Forall_forall in HL. apply HL, Hi. }
    destruct (boot_good junk _ [] rs1 k1 h1 Hok1 Hat1 Hp1) as (_ & _ & _ & _ & HB).
    destruct (HB _ HG (slots_bytes_len sl Hsl)) as [E1 E2]. unfold slots_are, after_cut. rewrite E1, E2, (slots_bytes_of sl Hsl). split; [reflexivity|exact HG]. }
  destruct ev as [nfc c flt rnd tch|kind flt|c flt| |nfc c flt rnd tch n|kind flt n|c flt n]; cbn [OathSpec.step leaves_slots] in *; try contradiction.
  - specialize (Hc nfc c flt rnd tch (proj1 Hlv) (proj2 Hlv)). destruct (cmd_run nfc c flt rnd tch d) as [[[r|] s] e]; [|discriminate]. injection Hs as <- <-. split; apply Hc.
  - specialize (Ht kind flt). destruct (touch_run kind flt d) as [[[t| | |] s] e]; try discriminate. injection Hs as <- <-. split; apply Ht.
  - injection Hs as <- <-. split; assumption.
  - specialize (Hc nfc c flt rnd tch (proj1 Hlv) (proj2 Hlv)).
    pose proof (cmd_spec _ _ _ Hsha1 Hsha256 Hsha512 junk Hjunk Hjunkb nfc c flt rnd tch d rs k h Hg (proj1 He)) as H.
    destruct (cmd_run _ _ _ _ _ d) as [[[r|] s'] e']; [|contradiction]. injection Hs as <- <-.
    destruct H as (oc & rs' & k' & _ & _ & Hg' & Hcc & Hl & Hpp).
    assert (img c rs h (nth n (e_log e') (e_fs e'))) as (b & rs1 & k1 & Hok1 & Hat1 & Hc1).
    { apply (cut_good (img c rs h) d); [assumption| |].
      - exists false, rs, k. split; [assumption|]. split; [assumption|apply chg_refl].
      - destruct Hg' as (G1 & G2 & _). eexists _, rs', k'. split; [exact G1|]. split; [exact G2|exact Hcc]. }
    assert (pfile_ok (nth n (e_log e') (e_fs e'))) as Hp1 by (apply cut_pfile; [assumption|apply Hg']).
    eapply Hb; [apply Hc|exact Hok1|exact Hat1|exact Hp1].
  - specialize (Ht kind flt).
    pose proof (touch_spec _ _ _ Hsha1 Hsha256 Hsha512 junk Hjunk kind flt d rs k h Hg) as H.
    destruct (touch_run kind flt d) as [[[t| | |] s'] e']; try contradiction. injection Hs as <- <-.
    destruct H as (-> & rs' & _ & _ & Hg' & Hcc & Hl & Hpp).
    match type of Hl with logs ?P _ _ => pose proof (cut_good P d e' n Hl) as Hcut end. cbv beta in Hcut.
    destruct Hcut as (rs1 & Hok1 & Hat1 & Hc1).
    { exists rs. split; [assumption|]. split; [assumption|intros; apply chg_refl]. }
    { destruct Hg' as (G1 & G2 & _). exists rs'. split; [exact G1|]. split; [exact G2|exact Hcc]. }
    assert (pfile_ok (nth n (e_log e') (e_fs e'))) as Hp1 by (apply cut_pfile; [assumption|apply Hg']).
    eapply Hb; [apply Ht|exact Hok1|exact Hat1|exact Hp1].
Qed.
Lemma slots_hist d tr d' rs k h sl : good d rs k h -> tr_ok tr -> hist d tr d' -> Forall (fun x => leaves_slots (fst x)) tr -> slots_are d sl ->
  slots_are d' sl /\ exists rs' k', good d' rs' k' h.
Proof.
  intros Hg Ht H. revert rs k Hg Ht. induction H as [|d ev o d1 tr d2 Hs H IH]; intros rs k Hg Ht Hl Ha; [split; [assumption|eauto]|].
  apply Forall_cons_iff in Ht as [He Ht]. apply Forall_cons_iff in Hl as [Hl1 Hl]. cbn [fst] in *.
  destruct (step_good _ _ _ Hsha1 Hsha256 Hsha512 junk Hjunk Hjunkb d ev rs k h Hg He) as (o1 & d1' & rs1 & k1 & Hs1 & Hg1 & _).
  pose proof (slots_step d ev o d1 rs k h sl Hg He Hs Hl1 Ha) as Ha1.
  rewrite Hs in Hs1. injection Hs1 as <- <-. exact (IH rs1 k1 Hg1 Ht Hl Ha1).
Qed.

Lemma conf_static_slot c pw en a : conf_static c pw en -> zlen (sl_u a) = 69 ->
  exists b, conf_slot c a = Some b /\ sl_type b = 2 /\ sl_enter b = en /\ slice 0 (sl_password_len b) (sl_password b) = pw.
Proof.
  intros [Hd Hz] Hu. pose proof (zlen_nonneg pw) as Hp. unfold conf_slot. rewrite Hd. cbn [app].
  assert ((0 <=? zlen pw) && (zlen pw <=? 32) && (zlen (pw ++ [en]) =? zlen pw + 1) = true) as ->.
  { rewrite zlen_app. change (zlen [en]) with 1. lia. }
  eexists. split; [reflexivity|]. split; [reflexivity|]. split.
  - cbn [sl_enter]. rewrite app_nth2 by (unfold zlen; lia). replace (Z.to_nat (zlen pw) - length pw)%nat with 0%nat by (unfold zlen; lia). reflexivity.
  - unfold sl_password_len, sl_password. cbn [sl_u].
    assert (firstn (Z.to_nat (zlen pw)) (pw ++ [en]) = pw) as ->.
    { rewrite firstn_app. replace (Z.to_nat (zlen pw) - length pw)%nat with 0%nat by (unfold zlen; lia). cbn [firstn]. rewrite app_nil_r. apply firstn_all2. unfold zlen; lia. }
    unfold splice. change (Z.to_nat 0) with 0%nat. cbn [firstn app nth]. unfold slice. change (Z.to_nat 0) with 0%nat. change (Z.to_nat 1) with 1%nat. cbn [skipn].
    rewrite firstn_firstn. rewrite Nat.min_l by lia. rewrite firstn_app. replace (Z.to_nat (zlen pw) - length pw)%nat with 0%nat by (unfold zlen; lia).
    cbn [firstn]. rewrite app_nil_r. apply firstn_all2. unfold zlen; lia.
Qed.
Lemma conf_wf_iff c : conf_wf c <-> (c_p1 c = 1 \/ c_p1 c = 2) /\ (conf_off c \/ exists pw en, conf_static c pw en).
Proof.
  unfold conf_wf, conf_slot, conf_off, conf_static. split; intros [H1 H2]; (split; [exact H1|]).
  - destruct (c_data c) as [|t l]; [contradiction|]. destruct t as [|p|p]; [|destruct p as [p|p|]; try contradiction; destruct p; try contradiction|contradiction].
    + destruct l; [left; reflexivity|contradiction].
    + destruct l as [|n l]; [contradiction|]. destruct ((0 <=? n) && (n <=? 32) && (zlen l =? n + 1)) eqn:E; [|contradiction].
      right. exists (firstn (Z.to_nat n) l), (nth (Z.to_nat n) l 0).
      assert (zlen (firstn (Z.to_nat n) l) = n) as Hn by (unfold zlen in *; rewrite firstn_length; lia).
      rewrite Hn. split; [|lia]. cbn [app]. do 2 f_equal. rewrite <- (firstn_skipn (Z.to_nat n) l) at 1. f_equal.
      assert (length (skipn (Z.to_nat n) l) = 1)%nat as Hl by (rewrite skipn_length; unfold zlen in E; lia).
      rewrite <- (firstn_skipn (Z.to_nat n) l) at 2. rewrite app_nth2 by (rewrite firstn_length; unfold zlen in E; lia).
      replace (Z.to_nat n - length (firstn (Z.to_nat n) l))%nat with 0%nat by (rewrite firstn_length; unfold zlen in E; lia).
      destruct (skipn (Z.to_nat n) l) as [|x [|y t]]; try discriminate. reflexivity.
  - destruct H2 as [-> | (pw & en & -> & Hz)]; [discriminate|]. cbn [app]. pose proof (zlen_nonneg pw).
    assert ((0 <=? zlen pw) && (zlen pw <=? 32) && (zlen (pw ++ [en]) =? zlen pw + 1) = true) as ->; [|discriminate].
    rewrite zlen_app. change (zlen [en]) with 1. lia.
Qed.

(** C20.  A static password accepted for a slot is what a touch of that slot types, after any later history
    (power cuts, storage errors, other commands) that does not configure slots or delete credentials. *)
Theorem C20_configured_password_is_typed : forall tr0 d c pw en r d1 tr d2,
  reach tr0 d -> (c_p1 c = 1 \/ c_p1 c = 2) -> conf_static c pw en -> all_bytes (c_data c) ->
  step d (Conf c []) = Some (Resp r, d1) ->
  hist d1 tr d2 -> tr_ok tr -> Forall (fun x => leaves_slots (fst x)) tr ->
  r_sw r = 0x9000 /\ exists d3, step d2 (Touch (c_p1 c) []) = Some (Typed (Some (pw ++ (if en =? 0 then [] else [13]))), d3).
Proof.
  intros tr0 d c pw en r d1 tr d2 Hr Hp1 Hst Hb Hs Hh Ht Hl.
  destruct (reach_good _ _ _ Hsha1 Hsha256 Hsha512 junk Hjunk Hjunkb tr0 d Hr) as (rs & k & h & Hg).
  pose proof (conf_spec c [] d rs k h Hg Hb) as H. cbn [OathSpec.step] in Hs. destruct (conf_run c [] d) as [[[r1|] s'] e'] eqn:E; [|contradiction].
  injection Hs as -> <-. destruct H as (Hg' & _ & _ & _ & _ & H).
  assert (conf_wf c) as Hwf by (apply conf_wf_iff; split; [assumption|right; exists pw, en; assumption]).
  destruct H as [(_ & H & _)|[(_ & _ & H & _)|(Hsw & _ & Es & Hp)]]; [contradiction|congruence|]. split; [assumption|].
  destruct (slots_hist _ tr d2 rs k h (o_slots s') Hg' Ht Hh Hl (conj eq_refl Hp)) as [[Hsl _] (rs2 & k2 & Hg2)].
  pose proof (touch_spec _ _ _ Hsha1 Hsha256 Hsha512 junk Hjunk (c_p1 c) [] d2 rs2 k2 h Hg2) as HT.
  assert (exists b, the_slot (c_p1 c) (d_ram d2) = b /\ sl_type b = 2 /\ sl_enter b = en /\ slice 0 (sl_password_len b) (sl_password b) = pw) as (b & Eb & T1 & T2 & T3).
  { destruct Hg as (_ & _ & _ & [[Hu1 _] [Hu2 _]] & _).
    assert (zlen (sl_u (the_slot (c_p1 c) (d_ram d))) = 69) as Hu by (unfold the_slot; destruct (c_p1 c =? 1); assumption).
    destruct (conf_static_slot c pw en (the_slot (c_p1 c) (d_ram d)) Hst Hu) as (b & Eb & Hbb). exists b. split; [|exact Hbb].
    unfold the_slot in *. rewrite Hsl, Es. cbn [o_slots oset_slots]. unfold conf_slots, upd_slot.
    destruct Hp1 as [Ep|Ep]; rewrite Ep in Eb |- *; cbn [Z.eqb Pos.eqb Z.sub Z.add Z.opp Z.pos_sub Pos.pred_double fst snd] in *; rewrite Eb; reflexivity. }
  cbn [OathSpec.step]. destruct (touch_run (c_p1 c) [] d2) as [[[t| | |] s2] e2] eqn:Et; try contradiction.
  destruct HT as (_ & rs3 & Hty & Hne & _). exists (mkDev s2 (e_fs e2)). do 3 f_equal.
  inversion Hty; subst; try (match goal with H : sl_type (the_slot _ _) = _ |- _ => rewrite T1 in H; discriminate H end).
  - exfalso. apply Hne; try reflexivity; [assumption|exact T1].
  - unfold enter. destruct (sl_enter (the_slot (c_p1 c) (d_ram d2)) =? 0); reflexivity.
Qed.

(** C20.  The other slot is not affected. *)
Theorem C20_other_slot_unaffected : forall tr d c flt r d' kind, reach tr d -> all_bytes (c_data c) -> step d (Conf c flt) = Some (Resp r, d') ->
  (kind = 1 \/ kind = 2) -> kind <> c_p1 c -> the_slot kind (d_ram d') = the_slot kind (d_ram d).
Proof.
  intros tr d c flt r d' kind Hr Hb Hs Hk Hne.
  destruct (reach_good _ _ _ Hsha1 Hsha256 Hsha512 junk Hjunk Hjunkb tr d Hr) as (rs & k & h & Hg).
  pose proof (conf_spec c flt d rs k h Hg Hb) as H. cbn [OathSpec.step] in Hs. destruct (conf_run c flt d) as [[[r1|] s'] e'] eqn:E; [|contradiction].
  injection Hs as -> <-. destruct H as (_ & _ & _ & _ & _ & H). cbn [d_ram].
  assert (Hu : conf_wf c -> the_slot kind (oset_slots (conf_slots c (o_slots (d_ram d))) (d_ram d)) = the_slot kind (d_ram d)).
  { intros [Hp _]. unfold the_slot, conf_slots, upd_slot. cbn [o_slots oset_slots].
    destruct (Z.eqb_spec (c_p1 c - 1) 0), (Z.eqb_spec kind 1); try reflexivity; lia. }
  destruct H as [(_ & _ & -> & _)|[(_ & Hwf & _ & ->)|(_ & Hwf & -> & _)]]; [reflexivity|apply Hu, Hwf|apply Hu, Hwf].
Qed.

(** C20.  Malformed configurations are refused and change nothing. *)
Theorem C20_malformed_refused : forall tr d c flt r d', reach tr d -> all_bytes (c_data c) -> step d (Conf c flt) = Some (Resp r, d') ->
  ~ ((c_p1 c = 1 \/ c_p1 c = 2) /\ (conf_off c \/ exists pw en, conf_static c pw en)) -> r_sw r <> 0x9000 /\ r_data r = [] /\ d' = d.
Proof.
  intros tr d c flt r d' Hr Hb Hs Hn.
  destruct (reach_good _ _ _ Hsha1 Hsha256 Hsha512 junk Hjunk Hjunkb tr d Hr) as (rs & k & h & Hg).
  pose proof (conf_spec c flt d rs k h Hg Hb) as H. cbn [OathSpec.step] in Hs. destruct (conf_run c flt d) as [[[r1|] s'] e'] eqn:E; [|contradiction].
  injection Hs as -> <-. destruct H as (_ & _ & _ & _ & Hd & H). rewrite <- conf_wf_iff in Hn.
  destruct H as [(Hsw & _ & -> & ->)|[(_ & Hwf & _)|(_ & Hwf & _)]]; [|contradiction|contradiction].
  split; [assumption|]. split; [assumption|]. destruct d; reflexivity.
Qed.

(** C20.  What the read command reports: the slot types, the Enter flag, for an OATH slot the credential's
    name; of a static password nothing. *)
Definition read_config (d : dev) : option rapdu := fst (fst (run_apdu (pass_read_config o_slots) (d_ram d) (start (d_fs d) [] [] []))).
Theorem C20_read_config : forall tr d c pw en r d1, reach tr d -> (c_p1 c = 1 \/ c_p1 c = 2) -> conf_static c pw en -> all_bytes (c_data c) ->
  step d (Conf c []) = Some (Resp r, d1) ->
  exists other, read_config d1 = Some (mkR (if c_p1 c =? 1 then [2; en] ++ other else other ++ [2; en]) 0x9000).
Proof.
  intros tr d c pw en r d1 Hr Hp1 Hst Hb Hs.
  destruct (reach_good _ _ _ Hsha1 Hsha256 Hsha512 junk Hjunk Hjunkb tr d Hr) as (rs & k & h & Hg).
  pose proof (conf_spec c [] d rs k h Hg Hb) as H. cbn [OathSpec.step] in Hs. destruct (conf_run c [] d) as [[[r1|] s'] e'] eqn:E; [|contradiction].
  injection Hs as -> <-. destruct H as (Hg' & _ & _ & _ & _ & H).
  assert (conf_wf c) as Hwf by (apply conf_wf_iff; split; [assumption|right; exists pw, en; assumption]).
  destruct H as [(_ & H & _)|[(_ & _ & H & _)|(Hsw & _ & Es & Hp)]]; [contradiction|congruence|].
  destruct Hg as (_ & _ & _ & [[Hu1 _] [Hu2 _]] & _).
  unfold read_config, run_apdu, pass_read_config, bind, get, set_out, ret. cbn [fst e_out e_fs e_log e_flt e_rnd e_tch d_ram]. rewrite Es. cbn [o_slots oset_slots].
  unfold conf_slots, upd_slot.
  destruct Hp1 as [Ep|Ep]; rewrite Ep; cbn [Z.eqb Pos.eqb Z.sub Z.add Z.opp Z.pos_sub Pos.pred_double fst snd].
  - destruct (conf_static_slot c pw en (fst (o_slots (d_ram d))) Hst Hu1) as (b & -> & T1 & T2 & _).
    eexists. do 2 f_equal. f_equal. unfold dump_slot at 1. rewrite T1, T2. reflexivity.
  - destruct (conf_static_slot c pw en (snd (o_slots (d_ram d))) Hst Hu2) as (b & -> & T1 & T2 & _).
    eexists. do 2 f_equal. f_equal. unfold dump_slot at 1. rewrite T1, T2. reflexivity.
Qed.

Lemma name_index (rs : list bytes) : NoDup (names rs) -> forall i j, (i < length rs)%nat -> (j < length rs)%nat ->
  islive (nth i rs []) = true -> islive (nth j rs []) = true -> rname (nth i rs []) = rname (nth j rs []) -> i = j.
Proof.
  unfold names, live. induction rs as [|x l IH]; intros Hnd i j Hi Hj Li Lj E; [cbn [length] in Hi; lia|].
  cbn [filter map] in Hnd. cbn [length] in Hi, Hj.
  assert (Hin : forall n, (n < length l)%nat -> islive (nth n l []) = true -> In (rname (nth n l [])) (map rname (filter islive l))).
  { intros n Hn Hl. apply in_map, filter_In. split; [apply nth_In, Hn|exact Hl]. }
  destruct i as [|i], j as [|j]; cbn [nth] in *; [reflexivity| | |].
  - exfalso. rewrite Li in Hnd. cbn [map] in Hnd. inversion Hnd as [|? ? Hx _]; subst. apply Hx. rewrite E. apply Hin; [lia|assumption].
  - exfalso. rewrite Lj in Hnd. cbn [map] in Hnd. inversion Hnd as [|? ? Hx _]; subst. apply Hx. rewrite <- E. apply Hin; [lia|assumption].
  - f_equal. apply IH; try assumption; try lia. destruct (islive x); cbn [map] in Hnd; [inversion Hnd; assumption|assumption].
Qed.
(** C19.  A slot refers to the credential stored as record number [j]. *)
Definition refers (a : slot) (j : Z) : Prop := sl_type a = 1 /\ sl_oath_offset a = j * 141.
Theorem C19_single_slot_cleared_partial : forall tr d rs j nfc c rnd tch r d',
  reach tr d -> records (d_fs d) rs -> 0 <= j < zlen rs -> used (nth (Z.to_nat j) rs []) = true ->
  c_ins c = 0x02 -> arg1 c = cr_name (cred_of (nth (Z.to_nat j) rs [])) -> all_bytes (c_data c) ->
  step d (Cmd nfc c [] rnd tch) = Some (Resp r, d') -> r_sw r = 0x9000 ->
  ~ (refers (the_slot 1 (d_ram d)) j /\ refers (the_slot 2 (d_ram d)) j) ->
  ~ refers (the_slot 1 (d_ram d')) j /\ ~ refers (the_slot 2 (d_ram d')) j.
Proof.
  intros tr d rs1 j nfc c rnd tch r d' Hr Hrec Hj Hu Hins Ha Hb Hs Hsw Hone.
  destruct (reach_good _ _ _ Hsha1 Hsha256 Hsha512 junk Hjunk Hjunkb tr d Hr) as (rs & k & h & Hg).
  assert (rs1 = rs) as -> by (eapply recs_uniq; [apply Hg|exact Hrec]).
  destruct (one_good _ _ _ Hsha1 Hsha256 Hsha512 junk Hjunk Hjunkb d nfc c rnd tch rs k h Hg Hb) as (r1 & d1' & oc & rs' & k' & Hs1 & Hg' & (F' & L' & T' & He & HF) & Hsw').
  rewrite Hs in Hs1. injection Hs1 as <- <-. rewrite Hsw in Hsw'.
  destruct oc as [z|w| |]; [|exfalso; destruct (eff_exc _ _ _ _ _ _ _ _ _ _ _ _ _ _ _ _ _ _ _ _ _ He) as [Hne _]; congruence|discriminate Hsw'|inversion He].
  pose proof Hg as (Hok & _). pose proof Hok as (_ & Hoks & _ & Hnd).
  remember (d_ram d') as ram eqn:Er. remember (r_data r) as rd0 eqn:Erd.
  inversion He; try (exfalso; kill_ins Hins); subst.
  match goal with H : parse_name 2 _ = Ret ?n |- _ => rename n into name; pose proof (parse_name_sound 2 (c_data c) ltac:(lia) Hb) as Hp; rewrite H in Hp end.
  destruct Hp as (_ & _ & _ & Ed). pose proof (arg1_name c name _ Ed) as Ea.
  match goal with H : at_name rs name ?i |- _ => rename H into Hat; rename i into j0 end.
  destruct (at_live rs name j0 Hoks ltac:(lia) Hat) as [Hl _]. destruct Hat as [Hj0 En].
  assert (Z.to_nat j0 = Z.to_nat j) as Ej.
  { apply (name_index rs Hnd); try assumption; try (unfold zlen in *; lia). rewrite En, <- Ea. exact Ha. }
  assert (j0 = j) as -> by lia.
  unfold the_slot in *. cbn [o_slots oset_slots Z.eqb Pos.eqb fst snd] in *. unfold del_slots, refers in *.
  destruct (o_slots (d_ram d)) as [a b]. cbn [fst snd] in *. unfold slot_hits, REC. change PASS_SLOT_OATH with 1.
  destruct (Z.eqb_spec (sl_type a) 1), (Z.eqb_spec (sl_oath_offset a) (j * 141)), (Z.eqb_spec (sl_type b) 1), (Z.eqb_spec (sl_oath_offset b) (j * 141));
    cbn [andb fst snd]; unfold slot_off; cbn [sl_type]; (split; [intros [H1' H2']|intros [H1' H2']]); try discriminate H1'; tauto.
Qed.

(** C20.  A slot that was switched off types nothing. *)
Theorem C20_off_types_nothing : forall tr0 d c r d1 tr d2 flt t d3,
  reach tr0 d -> (c_p1 c = 1 \/ c_p1 c = 2) -> conf_off c -> step d (Conf c []) = Some (Resp r, d1) ->
  hist d1 tr d2 -> tr_ok tr -> Forall (fun x => leaves_slots (fst x)) tr ->
  step d2 (Touch (c_p1 c) flt) = Some (Typed t, d3) -> r_sw r = 0x9000 /\ (t = None \/ t = Some []).
Proof.
  intros tr0 d c r d1 tr d2 flt t d3 Hr Hp1 Hst Hs Hh Ht Hl Hs3.
  destruct (reach_good _ _ _ Hsha1 Hsha256 Hsha512 junk Hjunk Hjunkb tr0 d Hr) as (rs & k & h & Hg).
  assert (all_bytes (c_data c)) as Hb by (rewrite Hst; constructor; [unfold is_byte; lia|constructor]).
  pose proof (conf_spec c [] d rs k h Hg Hb) as H. cbn [OathSpec.step] in Hs. destruct (conf_run c [] d) as [[[r1|] s'] e'] eqn:E; [|contradiction].
  injection Hs as -> <-. destruct H as (Hg' & _ & _ & _ & _ & H).
  assert (conf_wf c) as Hwf by (apply conf_wf_iff; split; [assumption|left; assumption]).
  destruct H as [(_ & H & _)|[(_ & _ & H & _)|(Hsw & _ & Es & Hp)]]; [contradiction|congruence|]. split; [assumption|].
  destruct (slots_hist _ tr d2 rs k h (o_slots s') Hg' Ht Hh Hl (conj eq_refl Hp)) as [[Hsl _] (rs2 & k2 & Hg2)].
  pose proof (touch_spec _ _ _ Hsha1 Hsha256 Hsha512 junk Hjunk (c_p1 c) flt d2 rs2 k2 h Hg2) as HT.
  assert (sl_type (the_slot (c_p1 c) (d_ram d2)) = 0) as T1.
  { unfold the_slot in *. rewrite Hsl, Es. cbn [o_slots oset_slots]. unfold conf_slots, upd_slot, conf_slot. rewrite Hst.
    destruct Hp1 as [Ep|Ep]; rewrite Ep; reflexivity. }
  cbn [OathSpec.step] in Hs3. destruct (touch_run (c_p1 c) flt d2) as [[[t1| | |] s2] e2] eqn:Et; try contradiction.
  injection Hs3 as -> <-. destruct HT as (_ & rs3 & Hty & _).
  remember (e_fs e2) as F3 eqn:E3. remember (e_log e2) as L3 eqn:E4.
  inversion Hty; subst; try (match goal with H : sl_type (the_slot _ _) = _ |- _ => rewrite T1 in H; discriminate H end); [left; reflexivity|right; reflexivity].
Qed.
End Pass.

(** C19 fails in general: with both slots set to a credential that is then deleted, the second slot keeps
    pointing at its storage location, and types codes of whatever credential is stored there next. *)
Definition both_slots : list event := [cmd c_select; cmd (c_put nA kH []); cmd (c_def 1 nA); cmd (c_def 2 nA)].
Definition kH2 : bytes := [0x11; 6; 77; 88; 99].
Theorem C19_every_slot_cleared_refuted :
  ~ (forall tr d rs j nfc c rnd tch r d',
      reach h1 h2 h5 junk0 tr d -> records (d_fs d) rs -> 0 <= j < zlen rs -> used (nth (Z.to_nat j) rs []) = true ->
      c_ins c = 0x02 -> arg1 c = cr_name (cred_of (nth (Z.to_nat j) rs [])) -> all_bytes (c_data c) ->
      step h1 h2 h5 junk0 d (Cmd nfc c [] rnd tch) = Some (Resp r, d') -> r_sw r = 0x9000 ->
      ~ refers (the_slot 1 (d_ram d')) j /\ ~ refers (the_slot 2 (d_ram d')) j).
Proof.
  intros H. set (d := dev_of boot0 both_slots).
  destruct (H (tr_of boot0 both_slots) d (the_records d) 0 false (c_del nA) [9; 8; 7; 6; 5; 4; 3; 2] [] (mkR [] 0x9000) (dev_of d [cmd (c_del nA)])) as [_ H2].
  - apply (run_reach both_slots). vm_compute. reflexivity.
  - apply recsb_ok. vm_compute. reflexivity.
  - vm_compute. split; [discriminate|reflexivity].
  - vm_compute. reflexivity.
  - reflexivity.
  - vm_compute. reflexivity.
  - apply bytesb_ok. vm_compute. reflexivity.
  - apply step_of. vm_compute. reflexivity.
  - reflexivity.
  - apply H2. vm_compute. split; reflexivity.
Qed.
(** What a user sees of it: the long touch was never set to the credential "c", and types its code. *)
Example C19_types_other_code :
  let d := dev_of boot0 (both_slots ++ [cmd (c_del nA); cmd (c_put nC kH2 [])]) in
  runs boot0 (both_slots ++ [cmd (c_del nA); cmd (c_put nC kH2 [])]) = true /\
  map snd (tr_of d [Touch 1 []]) = [Typed (Some [])] /\
  exists t, map snd (tr_of d [Touch 2 []]) = [Typed (Some t)] /\ zlen t = 7.
Proof. vm_compute. repeat split; try reflexivity. eexists. split; reflexivity. Qed.
Example C19_partial_ex : let evs := [cmd c_select; cmd (c_put nA kH []); cmd (c_put nB kT []); cmd (c_def 2 nA)] in
  let d := dev_of boot0 evs in
  runs boot0 evs = true /\ refers (the_slot 2 (d_ram d)) 0 /\ ~ refers (the_slot 1 (d_ram d)) 0 /\ sws (tr_of d [cmd (c_del nA)]) = [0x9000].
Proof. vm_compute. repeat split; try reflexivity. intros [H _]. discriminate H. Qed.

(** C68.  Booting while storage operations fail as [flt] says. *)
Definition oboot_flt (F : fs) (flt : list fault) (rnd : bytes) : dev :=
  match (oath_install false ;;; pass_install o_slots oset_slots false) oath_boot (start F flt rnd []) with
  | (_, s, e) => mkDev s (e_fs e)
  end.
(** It fails: one failing size query (lfs_stat or lfs_file_open) at boot empties the store, whatever it held. *)
Lemma pass_install_keeps s F L R T O : let '(_, _, e') := pass_install o_slots oset_slots false s (mkE F L [] R T O) in fdata (e_fs e') OATH_FILE = fdata F OATH_FILE.
Proof.
  unfold pass_install, save_slots, bind, modify, get, ret, read_file, write_file, get_file_size, pop_fault. cbn [orb e_flt e_fs].
  destruct (F PASS_FILE) as [f|] eqn:E; cbn [negb].
  - destruct (zlen (f_data f) =? SLOTS_SIZE); cbn [negb e_flt e_fs].
    + rewrite E. reflexivity.
    + rewrite !E. cbn [e_fs]. rewrite !E. reflexivity.
  - cbn [e_flt e_fs]. rewrite E. cbn [commit e_fs e_log e_flt e_rnd e_tch e_out]. unfold fset at 1. cbn. reflexivity.
Qed.
Theorem C68_read_error_at_boot_refuted : forall F rnd rnd',
  fdata (d_fs (oboot (d_fs (oboot_flt F [FEarly] rnd)) rnd')) "oath" = Some [].
Proof.
  intros F rnd rnd'.
  assert (fdata (d_fs (oboot_flt F [FEarly] rnd)) OATH_FILE = Some []) as H.
  { unfold oboot_flt, bind at 1. destruct (oath_install false oath_boot (start F [FEarly] rnd [])) as [[o s] e] eqn:E.
    assert (fdata (e_fs e) OATH_FILE = Some [] /\ e_flt e = [] /\ exists b, o = Ret b) as (H1 & H2 & b & ->).
    { revert E. unfold oath_install, bind, modify, ret, get_file_size, write_file, write_attr, random_buffer, pop_fault, start. cbn [e_flt e_fs e_log e_rnd e_tch e_out].
      destruct (F OATH_FILE) as [f|] eqn:E; cbn [commit e_flt e_fs e_log e_rnd e_tch e_out negb].
      - rewrite E. cbn. intros H. injection H as <- <- <-. repeat split. eexists; reflexivity.
      - cbn. intros H. injection H as <- <- <-. repeat split. eexists; reflexivity. }
    destruct e as [F1 L X R T O]. cbn [e_fs e_flt] in *. subst X.
    pose proof (pass_install_keeps s F1 L R T O) as H. destruct (pass_install _ _ _ _ _) as [[o1 s1] e1]. cbn [d_fs]. congruence. }
  revert H. generalize (d_fs (oboot_flt F [FEarly] rnd)) as F1. intros F1 H.
  unfold oboot, bind at 1. unfold oath_install, bind, modify, ret, get_file_size, pop_fault, start. cbn [e_flt e_fs].
  unfold fdata in H. destruct (F1 OATH_FILE) as [f|] eqn:E; [|discriminate].
  pose proof (pass_install_keeps (oath_poweroff oath_boot) F1 [F1] rnd' [] []) as H1. destruct (pass_install _ _ _ _ _) as [[o1 s1] e1]. cbn [d_fs].
  change "oath" with OATH_FILE. rewrite H1. unfold fdata. rewrite E. exact H.
Qed.
(** The store of [dev0] holds two credentials before. *)
Example C68_ex : map cred_of (the_records dev0) = [mkCred nA kH 0; mkCred nB kT 1] /\ the_records (oboot_flt (d_fs dev0) [FEarly] []) = [].
Proof. vm_compute. split; reflexivity. Qed.

(** ** Examples for C20 and C70 *)
Definition c_conf slot data := mkC 0 0x44 slot 0 data 0.
Example C20_ex : let c := c_conf 2 [2; 3; 65; 66; 67; 1] in
  let evs := [Conf c []; cmd (c_put nC kT []); Touch 1 []; CutCmd false c_list [] [] [] 0; PowerOff] in
  runs dev0 evs = true /\ conf_static c [65; 66; 67] 1 /\ all_bytes (c_data c) /\
  Forall leaves_slots (tl evs) /\
  map snd (tr_of (dev_of dev0 evs) [Touch 2 []; Touch 1 []]) = [Typed (Some [65; 66; 67; 13]); Typed (Some [])] /\
  read_config (dev_of dev0 evs) = Some (mkR [0; 2; 1] 0x9000).
Proof.
  split; [vm_compute; reflexivity|]. split; [split; [reflexivity|vm_compute; discriminate]|]. split; [apply bytesb_ok; vm_compute; reflexivity|].
  split; [|split; vm_compute; reflexivity].
  cbn [tl]. repeat (constructor; [cbn; try exact Logic.I; split; discriminate|]). constructor.
Qed.
Example C20_malformed_ex : map snd (tr_of dev0 [Conf (c_conf 1 [2; 33]) []; Conf (c_conf 3 [0]) []; Conf (c_conf 1 [1; 0; 0]) []; Conf (c_conf 1 [0; 0]) []])
  = [Resp (mkR [] 0x6700); Resp (mkR [] 0x6A86); Resp (mkR [] 0x6A80); Resp (mkR [] 0x6700)].
Proof. vm_compute. reflexivity. Qed.
Example C20_off_ex : conf_off (c_conf 2 [0]) /\ sws (tr_of dev0 [Conf (c_conf 2 [0]) []]) = [0x9000] /\ map snd (tr_of (dev_of dev0 [Conf (c_conf 2 [0]) []]) [Touch 2 []]) = [Typed (Some [])].
Proof. vm_compute. repeat split. Qed.
Example C70_ex : let F := fset (d_fs dev0) "piv-alg" (Some (mkF [1; 2; 3] no_attr)) in
  fdata (d_fs (dev_of (mkDev (d_ram dev0) F) [cmd (c_del nA); CutCmd false (c_del nB) [] [] [] 1])) "piv-alg" = Some [1; 2; 3] /\
  runs (mkDev (d_ram dev0) F) [cmd (c_del nA); CutCmd false (c_del nB) [] [] [] 1] = true.
Proof. vm_compute. split; reflexivity. Qed.

Print Assumptions C70_other_files_untouched.
Print Assumptions C20_configured_password_is_typed.
Print Assumptions C20_other_slot_unaffected.
Print Assumptions C20_malformed_refused.
Print Assumptions C20_read_config.
Print Assumptions C20_off_types_nothing.
Print Assumptions C19_single_slot_cleared_partial.
Print Assumptions C19_every_slot_cleared_refuted.
Print Assumptions C68_read_error_at_boot_refuted.
