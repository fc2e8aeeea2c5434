(** One event of the OATH device keeps it well formed; what it does to the records. *)
From Coq Require Import Permutation.
From Verif Require Import Sys Apdu Applet Pass Oath OathProofs OathCmds OathEff OathSpec OathPres OathHist.
Open Scope string_scope. Open Scope list_scope. Open Scope Z_scope.

(** ** Slot configuration (admin command) *)
(** what the command asks for: [None] malformed *)
Definition conf_slot (c : capdu) (a : slot) : option slot :=
  let d := c_data c in
  match d with
  | [0] => Some (mkSlot PASS_SLOT_OFF (sl_u a) (sl_enter a))
  | 2 :: n :: l =>
    if (0 <=? n) && (n <=? 32) && (zlen l =? n + 1)
    then Some (mkSlot PASS_SLOT_STATIC (splice (sl_u a) 0 (n :: firstn (Z.to_nat n) l)) (nth (Z.to_nat n) l 0)) else None
  | _ => None
  end.
Definition conf_wf (c : capdu) : Prop := (c_p1 c = 1 \/ c_p1 c = 2) /\ conf_slot c slot_zero <> None.
Definition conf_slots (c : capdu) (sl : slots) : slots :=
  upd_slot (c_p1 c - 1) (fun a => match conf_slot c a with Some b => b | None => a end) sl.

Lemma wp_conf c (Q : out Z -> oath -> env -> Prop) s F L X R T :
  all_bytes (c_data c) ->
  (forall w, w <> 0x9000 -> ~ conf_wf c -> Q (Exc w) s (mkE F L X R T [])) ->
  (conf_wf c -> X <> [] -> forall X' F' L', oath_same F F' -> logs (oath_same F) L L' ->
     Q Fail (oset_slots (conf_slots c (o_slots s)) s) (mkE F' L' X' R T [])) ->
  (conf_wf c -> forall X' F' L', nxt X X' -> oath_same F F' -> logs (oath_same F) L L' ->
     fdata F' PASS_FILE = Some (slots_bytes (conf_slots c (o_slots s))) ->
     Q (Ret 0x9000) (oset_slots (conf_slots c (o_slots s)) s) (mkE F' L' X' R T [])) ->
  wp (pass_write_config o_slots oset_slots c) Q s (mkE F L X R T []).
Proof.
  intros Hb Hbad Hfail Hok. unfold pass_write_config. cbv zeta.
  apply wp_bind, wp_guard; intros E1; [|apply Hbad; [discriminate|intros [[?|?] _]; lia]].
  assert (c_p1 c = 1 \/ c_p1 c = 2) as Hp1 by lia.
  apply wp_bind, wp_guard; intros E2.
  2:{ apply Hbad; [discriminate|]. unfold c_lc in E2. intros [_ H]. apply H. unfold conf_slot.
      destruct (c_data c) as [|z l]; [reflexivity|]. rewrite zlen_cons in E2. pose proof (zlen_nonneg l). lia. }
  destruct (c_data c) as [|t d] eqn:Ed; [exfalso; unfold c_lc in E2; rewrite Ed in E2; discriminate E2|].
  change (rd (t :: d) 0) with (Some t). unfold need at 1. apply wp_bind, wp_ret.
  assert (Hsave : conf_wf c -> forall s1, s1 = oset_slots (conf_slots c (o_slots s)) s ->
    wp (ok <- save_slots o_slots;; (if ok then ret SW_NO_ERROR else fail)) Q s1 (mkE F L X R T [])).
  { intros Hwf s1 ->. apply wp_bind. unfold save_slots. apply wp_bind, wp_get.
    change (o_slots (oset_slots (conf_slots c (o_slots s)) s)) with (conf_slots c (o_slots s)).
    apply wp_write_file.
    - intros X' Hx. apply wp_ret. apply Hok; try assumption; [apply oath_same_write| |apply fdata_fwrite_trunc].
      apply logs_cons; [apply logs_create|apply oath_same_write].
    - intros Hx X'. apply wp_fail. apply Hfail; try assumption; [apply oath_same_refl|apply logs_nil].
    - intros Hx X'. apply wp_fail. apply Hfail; try assumption; [apply oath_same_create|apply logs_create]. }
  apply wp_bind.
  destruct (Z.eqb_spec t PASS_SLOT_OFF) as [Et|Et].
  { unfold PASS_SLOT_OFF in Et. subst t. apply wp_guard; intros E3; unfold c_lc in E3; rewrite Ed, zlen_cons in E3; pose proof (zlen_nonneg d).
    2:{ apply Hbad; [discriminate|]. intros [_ H1]. apply H1. unfold conf_slot. rewrite Ed. cbv zeta.
        destruct d; [discriminate|reflexivity]. }
    assert (d = []) as -> by (destruct d; [reflexivity|rewrite zlen_cons in E3; pose proof (zlen_nonneg d); lia]).
    apply wp_bind, wp_modify. apply Hsave.
    - split; [assumption|]. unfold conf_slot. rewrite Ed. discriminate.
    - unfold conf_slots, conf_slot. rewrite Ed. reflexivity. }
  destruct (Z.eqb_spec t PASS_SLOT_STATIC) as [Et2|Et2].
  2:{ apply Hbad; [discriminate|]. intros [_ H]. apply H. unfold conf_slot. rewrite Ed. cbv zeta.
      unfold PASS_SLOT_OFF, PASS_SLOT_STATIC in *.
      destruct t as [|p|p]; [lia| |reflexivity]. destruct p as [p|p|]; try reflexivity. destruct p; try reflexivity. lia. }
  unfold PASS_SLOT_STATIC in Et2. subst t.
  assert (Hwf' : conf_wf c -> exists n l, d = n :: l /\ n <= 32 /\ zlen l = n + 1).
  { intros [_ H]. unfold conf_slot in H. rewrite Ed in H. cbv zeta in H. destruct d as [|n l]; [contradiction|].
    destruct ((0 <=? n) && (n <=? 32) && (zlen l =? n + 1)) eqn:E; [|contradiction]. exists n, l. repeat split; lia. }
  apply wp_bind, wp_guard; intros E3; unfold c_lc in E3; rewrite Ed, zlen_cons in E3; pose proof (zlen_nonneg d).
  2:{ apply Hbad; [discriminate|]. intros H1. destruct (Hwf' H1) as (n & l & -> & Hn & Hl). rewrite zlen_cons in E3.
      apply Forall_inv_tail, Forall_inv in Hb. unfold is_byte in Hb. lia. }
  destruct d as [|n l]; [discriminate|]. change (rd (2 :: n :: l) 1) with (Some n). unfold need at 1. apply wp_bind, wp_ret.
  assert (0 <= n) as Hn0 by (apply Forall_inv_tail, Forall_inv in Hb; unfold is_byte in Hb; lia).
  unfold PASS_MAX_PASSWORD_LENGTH.
  apply wp_bind, wp_guard; intros E4.
  2:{ apply Hbad; [discriminate|]. intros H1. destruct (Hwf' H1) as (n1 & l1 & [= -> ->] & Hn & Hl). lia. }
  apply wp_bind, wp_guard; intros E5; unfold c_lc in E5; rewrite Ed, !zlen_cons in E5.
  2:{ apply Hbad; [discriminate|]. intros H1. destruct (Hwf' H1) as (n1 & l1 & [= -> ->] & Hn & Hl). lia. }
  rewrite (sub_ok (2 :: n :: l) 2 n) by (rewrite ?zlen_cons; lia). unfold need at 1. apply wp_bind, wp_ret.
  assert (rd (2 :: n :: l) (2 + n) = Some (nth (Z.to_nat n) l 0)) as ->.
  { unfold rd. destruct (Z.ltb_spec (2 + n) 0); [lia|]. replace (Z.to_nat (2 + n)) with (S (S (Z.to_nat n))) by lia. cbn [nth_error].
    apply nth_error_nth'. unfold zlen in *. lia. }
  unfold need at 1. apply wp_bind, wp_ret. apply wp_modify. apply wp_bind, wp_modify.
  assert ((0 <=? n) && (n <=? 32) && (zlen l =? n + 1) = true) as Hc by lia.
  apply Hsave.
  - split; [assumption|]. unfold conf_slot. rewrite Ed. cbv zeta. rewrite Hc. discriminate.
  - cbn [o_slots oset_slots]. rewrite upd_slot_upd. unfold conf_slots.
    assert (forall a, match conf_slot c a with Some b => b | None => a end =
      mkSlot 2 (splice (sl_u a) 0 (n :: slice 2 n (2 :: n :: l))) (nth (Z.to_nat n) l 0)) as Hx.
    { intros a. unfold conf_slot. rewrite Ed. cbv zeta. rewrite Hc. reflexivity. }
    unfold upd_slot. destruct (c_p1 c - 1 =? 0); rewrite Hx; reflexivity.
Qed.

(** ** One event *)
Section Step.
Variables hmac_sha1 hmac_sha256 hmac_sha512 : bytes -> bytes -> bytes.
Hypothesis Hsha1 : digest_ok 20 hmac_sha1.
Hypothesis Hsha256 : digest_ok 32 hmac_sha256.
Hypothesis Hsha512 : digest_ok 64 hmac_sha512.
Variable junk : bytes.
Hypothesis Hjunk : zlen junk = 141.
Hypothesis Hjunkb : all_bytes junk.
Notation step := (step hmac_sha1 hmac_sha256 hmac_sha512 junk).
Notation hist := (hist hmac_sha1 hmac_sha256 hmac_sha512 junk).

Lemma conf_spec c flt d rs k h : good d rs k h -> all_bytes (c_data c) ->
  match conf_run c flt d with
  | (None, _, _) => False
  | (Some r, s', e') =>
      good (mkDev s' (e_fs e')) rs k h /\ logs (oath_same (d_fs d)) [d_fs d] (e_log e') /\ Forall pfile_ok (e_log e') /\
      oath_same (d_fs d) (e_fs e') /\ r_data r = [] /\
      (r_sw r <> 0x9000 /\ ~ conf_wf c /\ s' = d_ram d /\ e_fs e' = d_fs d \/
       r_sw r <> 0x9000 /\ conf_wf c /\ flt <> [] /\ s' = oset_slots (conf_slots c (o_slots (d_ram d))) (d_ram d) \/
       r_sw r = 0x9000 /\ conf_wf c /\ s' = oset_slots (conf_slots c (o_slots (d_ram d))) (d_ram d) /\
         fdata (e_fs e') PASS_FILE = Some (slots_bytes (o_slots s')))
  end.
Proof.
  intros (Hok & Hat & Hinv & Hsl & Hpf) Hb. unfold conf_run, run_apdu, start. cbn [e_fs e_log e_flt e_rnd e_tch e_out].
  set (Q := fun (o : out Z) s' e' => o <> UB /\ s' = oset_slots (o_slots s') (d_ram d) /\ oath_same (d_fs d) (e_fs e') /\
     logs (oath_same (d_fs d)) [d_fs d] (e_log e') /\ e_out e' = [] /\
     ((exists w, o = Exc w /\ w <> 0x9000) /\ ~ conf_wf c /\ s' = d_ram d /\ e_fs e' = d_fs d \/
      o = Fail /\ conf_wf c /\ flt <> [] /\ s' = oset_slots (conf_slots c (o_slots (d_ram d))) (d_ram d) \/
      o = Ret 0x9000 /\ conf_wf c /\ s' = oset_slots (conf_slots c (o_slots (d_ram d))) (d_ram d) /\
         fdata (e_fs e') PASS_FILE = Some (slots_bytes (o_slots s')))).
  assert (wp (pass_write_config o_slots oset_slots c) Q (d_ram d) (mkE (d_fs d) [d_fs d] flt [] [] [])) as H.
  { apply wp_conf; [assumption| | |]; unfold Q; cbn [e_fs e_log e_out].
    - intros w Hw Hwf. split; [discriminate|]. split; [destruct (d_ram d); reflexivity|]. split; [apply oath_same_refl|].
      split; [apply logs_nil|]. split; [reflexivity|]. left. repeat split; try assumption. exists w; split; [reflexivity|assumption].
    - intros Hwf Hx X' F' L' Hs Hl. split; [discriminate|]. split; [reflexivity|]. split; [assumption|]. split; [assumption|].
      split; [reflexivity|]. right; left. split; [reflexivity|]. split; [assumption|]. split; [assumption|reflexivity].
    - intros Hwf X' F' L' Hx Hs Hl Hd. split; [discriminate|]. split; [reflexivity|]. split; [assumption|]. split; [assumption|].
      split; [reflexivity|]. right; right. split; [reflexivity|]. split; [assumption|]. split; [reflexivity|assumption]. }
  pose proof (pres_config c (d_ram d) (mkE (d_fs d) [d_fs d] flt [] [] [])) as Hpr.
  unfold wp in H, Hpr. destruct (pass_write_config o_slots oset_slots c (d_ram d) _) as [[oc s'] e'].
  destruct Hpr as (Hsl' & Hpf' & Hpl').
  { split; [assumption|]. split; [assumption|]. constructor; [assumption|constructor]. }
  destruct H as (Hub & Es & Hs & Hl & Ho & Hcase).
  assert (good (mkDev s' (e_fs e')) rs k h) as Hg.
  { split; [eapply ok_other; [exact Hs|exact Hok]|]. split; [eapply attrs_ok_same; [apply attrs_other, Hs|exact Hat]|].
    split; [cbn [d_ram]; rewrite Es; eapply inv_ext; [exact Hinv|reflexivity..]|]. split; assumption. }
  destruct oc as [sw|w| |]; [| | |contradiction]; cbn [r_sw r_data];
    (split; [assumption|]); (split; [assumption|]); (split; [assumption|]); (split; [assumption|]); (split; [first [assumption|reflexivity]|]).
  - right; right. destruct Hcase as [((w & E & _) & _)|[(E & _)|([= ->] & H)]]; [discriminate..|]. split; [reflexivity|exact H].
  - left. destruct Hcase as [((w' & [= ->] & Hw) & H)|[(E & _)|(E & H)]]; [|discriminate..]. split; assumption.
  - right; left. destruct Hcase as [((w' & E & Hw) & H)|[(_ & H)|(E & H)]]; [discriminate| |discriminate]. split; [discriminate|exact H].
Qed.

Lemma cut_good (P : fs -> Prop) (d : dev) (e : env) n :
  logs P [d_fs d] (e_log e) -> P (d_fs d) -> P (e_fs e) -> P (nth n (e_log e) (e_fs e)).
Proof.
  intros (new & -> & Hn) H1 H2.
  assert (Forall P (new ++ [d_fs d])) as H by (apply Forall_app; split; [assumption|constructor; [assumption|constructor]]).
  rewrite Forall_forall in H. destruct (Nat.lt_ge_cases n (length (new ++ [d_fs d]))) as [Hlt|Hge].
  - apply H, nth_In, Hlt.
  - rewrite nth_overflow by assumption. assumption.
Qed.
Lemma cut_pfile (e : env) n : Forall pfile_ok (e_log e) -> pfile_ok (e_fs e) -> pfile_ok (nth n (e_log e) (e_fs e)).
Proof.
  intros H H2. rewrite Forall_forall in H. destruct (Nat.lt_ge_cases n (length (e_log e))) as [Hlt|Hge].
  - apply H, nth_In, Hlt.
  - rewrite nth_overflow by assumption. assumption.
Qed.

Lemma step_good d ev rs k h : good d rs k h -> ev_ok ev ->
  exists o d' rs' k', step d ev = Some (o, d') /\ good d' rs' k' h /\ ev_chg ev o rs rs'.
Proof.
  intros Hg He. pose proof Hg as (Hok & Hat & Hinv & Hsl & Hpf).
  destruct ev as [nfc c flt rnd tch|kind flt|c flt| |nfc c flt rnd tch n|kind flt n|c flt n]; cbn [OathSpec.step ev_ok] in *.
  - pose proof (cmd_spec _ _ _ Hsha1 Hsha256 Hsha512 junk Hjunk Hjunkb nfc c flt rnd tch d rs k h Hg (proj1 He)) as H.
    destruct (cmd_run _ _ _ _ _ _ _ _ _ d) as [[[r|] s'] e']; [|contradiction].
    destruct H as (oc & rs' & k' & _ & _ & Hg' & Hc & _). exists (Resp r), (mkDev s' (e_fs e')), rs', k'. split; [reflexivity|]. split; assumption.
  - pose proof (touch_spec _ _ _ Hsha1 Hsha256 Hsha512 junk Hjunk kind flt d rs k h Hg) as H.
    destruct (touch_run _ _ _ _ _ _ d) as [[[t| | |] s'] e']; try contradiction.
    destruct H as (-> & rs' & _ & _ & Hg' & Hc & _). exists (Typed t), (mkDev (d_ram d) (e_fs e')), rs', k. split; [reflexivity|]. split; assumption.
  - pose proof (conf_spec c flt d rs k h Hg He) as H. destruct (conf_run c flt d) as [[[r|] s'] e']; [|contradiction].
    destruct H as (Hg' & _). exists (Resp r), (mkDev s' (e_fs e')), rs, k. split; [reflexivity|]. split; [assumption|]. intros c0. apply chg_refl.
  - exists Nothing, (mkDev (oath_poweroff (d_ram d)) (d_fs d)), rs, k. split; [reflexivity|]. split; [|intros c; apply chg_refl].
    split; [assumption|]. split; [assumption|]. split; [|split; assumption]. destruct Hinv as [Hst _]. split; [exact Hst|left; reflexivity].
  - pose proof (cmd_spec _ _ _ Hsha1 Hsha256 Hsha512 junk Hjunk Hjunkb nfc c flt rnd tch d rs k h Hg (proj1 He)) as H.
    destruct (cmd_run _ _ _ _ _ _ _ _ _ d) as [[[r|] s'] e']; [|contradiction].
    destruct H as (oc & rs' & k' & _ & _ & Hg' & Hc & Hl & Hp).
    assert (img c rs h (nth n (e_log e') (e_fs e'))) as (b & rs1 & k1 & Hok1 & Hat1 & Hc1).
    { apply (cut_good (img c rs h) d); [assumption| |].
      - exists false, rs, k. split; [assumption|]. split; [assumption|apply chg_refl].
      - destruct Hg' as (G1 & G2 & _). eexists _, rs', k'. split; [exact G1|]. split; [exact G2|exact Hc]. }
    assert (pfile_ok (nth n (e_log e') (e_fs e'))) as Hp1 by (apply cut_pfile; [assumption|apply Hg']).
    exists Nothing, (after_cut e' n), rs1, k1. split; [reflexivity|]. split; [apply (boot_good junk _ [] rs1 k1 h Hok1 Hat1 Hp1)|]. exists b; assumption.
  - pose proof (touch_spec _ _ _ Hsha1 Hsha256 Hsha512 junk Hjunk kind flt d rs k h Hg) as H.
    destruct (touch_run _ _ _ _ _ _ d) as [[[t| | |] s'] e']; try contradiction.
    destruct H as (-> & rs' & _ & _ & Hg' & Hc & Hl & Hp).
    match type of Hl with logs ?P _ _ => pose proof (cut_good P d e' n Hl) as Hcut end. cbv beta in Hcut.
    destruct Hcut as (rs1 & Hok1 & Hat1 & Hc1).
    { exists rs. split; [assumption|]. split; [assumption|intros; apply chg_refl]. }
    { destruct Hg' as (G1 & G2 & _). exists rs'. split; [exact G1|]. split; [exact G2|exact Hc]. }
    assert (pfile_ok (nth n (e_log e') (e_fs e'))) as Hp1 by (apply cut_pfile; [assumption|apply Hg']).
    exists Nothing, (after_cut e' n), rs1, k. split; [reflexivity|]. split; [apply (boot_good junk _ [] rs1 k h Hok1 Hat1 Hp1)|]. exact Hc1.
  - pose proof (conf_spec c flt d rs k h Hg He) as H. destruct (conf_run c flt d) as [[[r|] s'] e']; [|contradiction].
    destruct H as (Hg' & Hl & Hp & Hs & _).
    assert (oath_same (d_fs d) (nth n (e_log e') (e_fs e'))) as Hs1 by (apply (cut_good _ d); [assumption|apply oath_same_refl|assumption]).
    assert (pfile_ok (nth n (e_log e') (e_fs e'))) as Hp1 by (apply cut_pfile; [assumption|apply Hg']).
    exists Nothing, (after_cut e' n), rs, k. split; [reflexivity|]. split; [|intros c0; apply chg_refl].
    apply (boot_good junk _ [] rs k h); [eapply ok_other; [exact Hs1|exact Hok]|eapply attrs_ok_same; [apply attrs_other, Hs1|exact Hat]|assumption].
Qed.
End Step.

(** ** Credentials *)
Definition creds (rs : list bytes) : list cred := map cred_of (filter used rs).
Lemma creds_app a b : creds (a ++ b) = creds a ++ creds b.
Proof. unfold creds. rewrite filter_app, map_app. reflexivity. Qed.
Lemma creds_split i (rs : list bytes) : (i < length rs)%nat ->
  creds rs = creds (firstn i rs) ++ creds [nth i rs []] ++ creds (skipn (S i) rs).
Proof. intros H. rewrite (list_split_nth i rs [] H) at 1. change (?a ++ ?b :: ?c) with (a ++ [b] ++ c). rewrite !creds_app. reflexivity. Qed.
Lemma creds_upd i r (rs : list bytes) : creds (upd i r rs) = creds (firstn i rs) ++ creds [r] ++ creds (skipn (S i) rs).
Proof. unfold upd. change (?a ++ ?b :: ?c) with (a ++ [b] ++ c). rewrite !creds_app. reflexivity. Qed.
Lemma creds_live r : islive r = true -> creds [r] = [cred_of r].
Proof. intros H. unfold creds, used. cbn [filter]. unfold islive, r_name_len in H. rewrite H. reflexivity. Qed.
Lemma creds_dead r : islive r = false -> creds [r] = [].
Proof. intros H. unfold creds, used. cbn [filter]. unfold islive, r_name_len in H. rewrite H. reflexivity. Qed.
Lemma names_creds (rs : list bytes) : names rs = map cr_name (creds rs).
Proof. unfold names, creds. rewrite map_map. reflexivity. Qed.

Lemma rechal_cred r ch : rec_ok r -> zlen ch = 8 ->
  cred_of (splice r 133 ch) = cred_of r /\ used (splice r 133 ch) = used r /\ ctr_of (splice r 133 ch) = be ch.
Proof.
  intros Hr Hz. destruct (rechal_fields r ch Hr Hz) as (_ & E1 & E2 & _ & E3 & E4 & E5 & _).
  split; [|split].
  - change (mkCred (rname (splice r 133 ch)) (rkey (splice r 133 ch)) (r_prop (splice r 133 ch)) = mkCred (rname r) (rkey r) (r_prop r)). congruence.
  - unfold used. change (nth 0 ?x 0) with (r_name_len x). rewrite E1. reflexivity.
  - change (be (r_chal (splice r 133 ch)) = be ch). congruence.
Qed.
Lemma incd_cred r r1 : rec_ok r -> incd r r1 -> creds [r1] = creds [r] /\ used r1 = used r /\ cred_of r1 = cred_of r /\ ctr_of r <= ctr_of r1.
Proof.
  intros Hr [-> |(Hl & _ & _ & ch & Hz & _ & Hle & ->)]; [repeat split; lia|].
  destruct (rechal_cred r ch Hr Hz) as (E1 & E2 & E3).
  unfold creds. cbn [filter]. rewrite E2. split; [destruct (used r); cbn [map]; congruence|]. repeat split; try assumption. rewrite E3. exact Hle.
Qed.
Lemma creds_cons r rs : creds (r :: rs) = creds [r] ++ creds rs.
Proof. apply (creds_app [r] rs). Qed.
Lemma incs_creds rs rs1 : Forall rec_ok rs -> Forall2 incd rs rs1 -> creds rs1 = creds rs.
Proof.
  intros Hok H. induction H as [|x y l m Hx _ IH]; [reflexivity|]. inversion Hok; subst.
  rewrite (creds_cons y), (creds_cons x), IH by assumption. f_equal. apply incd_cred; assumption.
Qed.

Lemma arg1_name c name rest : c_data c = enc_name name ++ rest -> arg1 c = name.
Proof.
  intros E. unfold arg1. rewrite E. unfold enc_name. cbn [app nth]. unfold slice. change (Z.to_nat 2) with 2%nat. cbn [skipn].
  unfold zlen. rewrite Nat2Z.id. rewrite firstn_app, Nat.sub_diag, firstn_all. cbn [firstn]. apply app_nil_r.
Qed.
Lemma arg2_name c name new rest : c_data c = enc_name name ++ enc_name new ++ rest -> arg2 c = new.
Proof.
  intros E. unfold arg2. rewrite E. unfold enc_name. cbn [app nth]. cbv zeta.
  replace (Z.to_nat (2 + zlen name + 1)) with (S (S (length name + 1))) by (unfold zlen; lia). cbn [nth].
  rewrite app_nth2 by lia. replace (length name + 1 - length name)%nat with 1%nat by lia. cbn [nth].
  unfold slice. replace (Z.to_nat (2 + zlen name + 2)) with (S (S (length name + 2))) by (unfold zlen; lia). cbn [skipn].
  rewrite skipn_app, skipn_all2 by lia. replace (length name + 2 - length name)%nat with 2%nat by lia. cbn [skipn app].
  unfold zlen. rewrite Nat2Z.id, firstn_app, Nat.sub_diag, firstn_all. cbn [firstn]. apply app_nil_r.
Qed.
Lemma put_cred_name c name key po imf : c_data c = enc_put name key po imf ->
  match po with Some p => 0 <= p <= 3 | None => True end ->
  put_cred c = mkCred name key (match po with Some p => p | None => 0 end).
Proof.
  intros E Hpo.
  assert (arg1 c = name) as A1 by (eapply arg1_name; rewrite E; reflexivity).
  assert (nth 1 (c_data c) 0 = zlen name) as N1 by (rewrite E; reflexivity).
  unfold put_cred. cbv zeta. rewrite A1, N1.
  set (tl := match po with Some p => [OATH_TAG_PROPERTY; p] | None => [] end ++ match imf with Some c => [OATH_TAG_COUNTER; 4] ++ c | None => [] end).
  assert (c_data c = (OATH_TAG_NAME :: zlen name :: name) ++ (OATH_TAG_KEY :: zlen key :: key) ++ tl) as E2.
  { rewrite E. unfold enc_put, tl. cbn [app]. rewrite <- ?app_assoc. reflexivity. }
  assert (forall i, nth (length name + i + 2) (c_data c) 0 = nth i ((OATH_TAG_KEY :: zlen key :: key) ++ tl) 0) as Hn.
  { intros i. rewrite E2, app_nth2 by (cbn [length]; lia). f_equal. cbn [length]. lia. }
  replace (Z.to_nat (2 + zlen name + 1)) with (length name + 1 + 2)%nat by (unfold zlen; lia). rewrite Hn. cbn [app nth].
  replace (Z.to_nat (2 + zlen name + 2 + zlen key)) with (length name + (length key + 2) + 2)%nat by (unfold zlen; lia).
  replace (Z.to_nat (2 + zlen name + 2 + zlen key + 1)) with (length name + (length key + 3) + 2)%nat by (unfold zlen; lia).
  rewrite !Hn.
  assert (forall i, nth (length key + 2 + i) ((OATH_TAG_KEY :: zlen key :: key) ++ tl) 0 = nth i tl 0) as Ht.
  { intros i. rewrite app_nth2 by (cbn [length]; lia). f_equal. cbn [length]. lia. }
  pose proof (Ht 0%nat) as T0. pose proof (Ht 1%nat) as T1. rewrite Nat.add_0_r in T0. replace (length key + 2 + 1)%nat with (length key + 3)%nat in T1 by lia.
  rewrite T0, T1.
  assert (slice (2 + zlen name + 2) (zlen key) (c_data c) = key) as ->.
  { rewrite E2. unfold slice. replace (Z.to_nat (2 + zlen name + 2)) with (length (OATH_TAG_NAME :: zlen name :: name) + 2)%nat by (unfold zlen; cbn [length]; lia).
    rewrite skipn_app, skipn_all2 by lia. rewrite Nat.add_comm, Nat.add_sub. cbn [skipn app]. unfold zlen. rewrite Nat2Z.id, firstn_app, Nat.sub_diag, firstn_all.
    cbn [firstn]. apply app_nil_r. }
  f_equal. unfold tl. destruct po as [p|]; [reflexivity|]. destruct imf as [ic|]; reflexivity.
Qed.

Lemma filter_all {A} (f : A -> bool) l : (forall x, In x l -> f x = true) -> filter f l = l.
Proof. induction l as [|x l IH]; intros H; [reflexivity|]. cbn [filter]. rewrite (H x (or_introl eq_refl)), IH; [reflexivity|]. intros; apply H; right; assumption. Qed.
Lemma map_id_in {A} (f : A -> A) l : (forall x, In x l -> f x = x) -> map f l = l.
Proof. induction l as [|x l IH]; intros H; [reflexivity|]. cbn [map]. rewrite (H x (or_introl eq_refl)), IH; [reflexivity|]. intros; apply H; right; assumption. Qed.
Lemma beqb_neq a b : a <> b -> beqb a b = false.
Proof. intros H. destruct (beqb a b) eqn:E; [apply beqb_eq in E; contradiction|reflexivity]. Qed.

Lemma chg_creds c rs b rs1 : Forall rec_ok rs -> NoDup (names rs) -> all_bytes (c_data c) -> chg c rs b rs1 ->
  Permutation (creds rs1) (if b then apply_cmd c (creds rs) else creds rs).
Proof.
  intros Hok Hnd Hb H. destruct H as [rs1 Hi|j Hj Hl Ht Hlt|name key prop chal i r Hin Hp1 Hp2 Hp Hnn Hi Hd Hr En Ek Ep Ec
    |name j Hin Hp Hn Ha|old new j Hin Hp Ho Hn Hbn Hnn Ha].
  - rewrite (incs_creds rs rs1); [reflexivity|assumption..].
  - assert ((Z.to_nat j < length rs)%nat) as Hj' by (unfold zlen in Hj; lia).
    rewrite creds_upd. rewrite (creds_split (Z.to_nat j) rs Hj') at 1. assert (rec_ok (nth (Z.to_nat j) rs [])) as Hr by (apply oks_nth; assumption).
    destruct (rechal_cred _ (to_be 8 (ctr_of (nth (Z.to_nat j) rs []) + 1)) Hr ltac:(apply zlen_to_be)) as (E1 & E2 & _).
    assert (creds [splice (nth (Z.to_nat j) rs []) 133 (to_be 8 (ctr_of (nth (Z.to_nat j) rs []) + 1))] = creds [nth (Z.to_nat j) rs []]) as ->.
    { unfold creds. cbn [filter]. rewrite E2. clear E2. destruct (used (nth (Z.to_nat j) rs [])); [|reflexivity]. cbn [map]. rewrite E1. reflexivity. }
    reflexivity.
  - unfold apply_cmd. rewrite Hin. change (OATH_INS_PUT =? 1) with true. cbv iota.
    pose proof (parse_put_sound (c_data c) Hb) as Hs. rewrite Hp in Hs. destruct Hs as (po & imf & Hpo & Ed & Epp & Ecc).
    rewrite (put_cred_name c name key po imf Ed ltac:(apply Hpo)). rewrite creds_upd.
    assert (islive r = true) as Hl.
    { apply islive_spec; [assumption|]. rewrite En. destruct Hpo as (Hz & _). intros ->. change (zlen (@nil Z)) with 0 in Hz. lia. }
    rewrite (creds_live r Hl). assert (cred_of r = mkCred name key (match po with Some p => p | None => 0 end)) as ->.
    { change (mkCred (rname r) (rkey r) (r_prop r) = mkCred name key (match po with Some p => p | None => 0 end)). congruence. }
    apply Permutation_sym. cbn [app]. apply Permutation_cons_app.
    destruct (Z.eq_dec i (zlen rs)) as [E|E].
    + rewrite firstn_all2, skipn_all2 by (unfold zlen in E; lia). change (creds []) with (@nil cred). rewrite app_nil_r. reflexivity.
    + rewrite (creds_split (Z.to_nat i) rs) at 1 by (unfold zlen in *; lia). rewrite (creds_dead _ (Hd ltac:(lia))). reflexivity.
  - unfold apply_cmd. rewrite Hin. change (OATH_INS_DELETE =? 1) with false. change (OATH_INS_DELETE =? 2) with true. cbv iota.
    pose proof (parse_name_sound 2 (c_data c) ltac:(lia) Hb) as Hs. rewrite Hp in Hs. destruct Hs as (_ & _ & _ & Ed).
    rewrite (arg1_name c name _ Ed).
    destruct (at_live rs name j Hok ltac:(lia) Ha) as [Hl Hr]. destruct Ha as [Hj En].
    assert ((Z.to_nat j < length rs)%nat) as Hj' by (unfold zlen in Hj; lia).
    rewrite creds_upd. rewrite (creds_dead (dead (nth (Z.to_nat j) rs [])) eq_refl).
    rewrite (creds_split (Z.to_nat j) rs Hj') at 1. rewrite (creds_live _ Hl), !filter_app.
    rewrite (names_split (Z.to_nat j) rs Hj'), (names_one_live _ Hl), En in Hnd.
    apply NoDup_remove_2 in Hnd.
    rewrite (filter_all _ (creds (firstn _ rs))), (filter_all _ (creds (skipn _ rs))).
    + cbn [filter]. unfold not_named at 1. change (cr_name (cred_of ?x)) with (rname x). rewrite En, beqb_refl. reflexivity.
    + intros x Hx. unfold not_named. rewrite beqb_neq; [reflexivity|]. intros E. apply Hnd, in_or_app. right. rewrite names_creds. rewrite <- E. apply in_map, Hx.
    + intros x Hx. unfold not_named. rewrite beqb_neq; [reflexivity|]. intros E. apply Hnd, in_or_app. left. rewrite names_creds. rewrite <- E. apply in_map, Hx.
  - unfold apply_cmd. rewrite Hin. change (OATH_INS_RENAME =? 1) with false. change (OATH_INS_RENAME =? 2) with false. change (OATH_INS_RENAME =? 5) with true. cbv iota.
    pose proof (parse_rename_sound (c_data c) Hb) as Hs. rewrite Hp in Hs. destruct Hs as (_ & _ & _ & _ & rest & Ed).
    rewrite (arg1_name c old _ Ed), (arg2_name c old new rest Ed).
    destruct (at_live rs old j Hok ltac:(lia) Ha) as [Hl Hr]. destruct Ha as [Hj En].
    assert ((Z.to_nat j < length rs)%nat) as Hj' by (unfold zlen in Hj; lia).
    rewrite creds_upd. rewrite (creds_split (Z.to_nat j) rs Hj') at 1. rewrite (creds_live _ Hl), !map_app.
    destruct (rehead_fields (nth (Z.to_nat j) rs []) new ltac:(apply Hr) ltac:(lia)) as (_ & F2 & F3 & _ & F4 & F5 & _).
    fold (renamed (nth (Z.to_nat j) rs []) new) in F2, F3, F4, F5.
    rewrite creds_live by (unfold islive; rewrite F2; lia).
    rewrite (names_split (Z.to_nat j) rs Hj'), (names_one_live _ Hl), En in Hnd.
    apply NoDup_remove_2 in Hnd.
    rewrite (map_id_in _ (creds (firstn _ rs))), (map_id_in _ (creds (skipn _ rs))).
    + cbn [map]. unfold rename_in at 1. change (cr_name (cred_of ?x)) with (rname x). rewrite En, beqb_refl.
      change (cred_of (renamed ?x new)) with (mkCred (rname (renamed x new)) (rkey (renamed x new)) (r_prop (renamed x new))).
      rewrite F3, F4, F5. reflexivity.
    + intros x Hx. unfold rename_in. rewrite beqb_neq; [reflexivity|]. intros E. apply Hnd, in_or_app. right. rewrite names_creds. rewrite <- E. apply in_map, Hx.
    + intros x Hx. unfold rename_in. rewrite beqb_neq; [reflexivity|]. intros E. apply Hnd, in_or_app. left. rewrite names_creds. rewrite <- E. apply in_map, Hx.
Qed.
