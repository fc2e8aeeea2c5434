(** C62 for OATH and for the touch slots: power loss during the first installation. *)
From Verif Require Import Sys Apdu Applet Frame Pass Oath OathSpec PropOathCode.
Open Scope string_scope. Open Scope list_scope. Open Scope Z_scope.

(** ** Specification *)
(** One boot with storage errors [flt] *)
Definition booting (F : fs) (flt : list fault) (rnd : bytes) : out bool * oath * env :=
  (oath_install false ;;; pass_install o_slots oset_slots false) oath_boot (start F flt rnd []).
(** No credentials, no access code, and the identifier of 8 bytes *)
Definition new_oath (G : fs) : Prop := fdata G "oath" = Some [] /\ fattr G "oath" 2 = Some [] /\ exists h, zlen h = 8 /\ fattr G "oath" 3 = Some h.
(** The file without the attributes: what a power loss between the creation of the file and the writing of the identifier leaves *)
Definition half_oath (G : fs) : Prop := fdata G "oath" = Some [] /\ fattr G "oath" 3 = None.
(** Both touch slots off *)
Definition new_slots (G : fs) : Prop := fdata G "pass" = Some (repeat 0 142).

Lemma log_nth {A} (Q : A -> Prop) l n d : Forall Q l -> Q d -> Q (nth n l d).
Proof. intros H Hd. revert n. induction H; intros [|n]; cbn; auto. Qed.

(** The storage [F] after any number of boots, each of them interrupted: there may be storage errors (but not when the first thing is looked
    up, whether there is an installation), and the power fails when the [n]-th last update is current. *)
Inductive interrupted (F : fs) : fs -> Prop :=
  | I_none : interrupted F F
  | I_more G flt rnd n : interrupted F G -> hd FNone flt = FNone -> interrupted F (let '(_, _, e) := booting G flt rnd in nth n (e_log e) (e_fs e)).

(** ** The images of the installations *)
Definition slots_img (G : fs) : Prop := G "pass" = None \/ fdata G "pass" = Some [] \/ new_slots G.
Definition oath_img (G : fs) : Prop := G "oath" = None \/ half_oath G \/ new_oath G.
Definition whole (G : fs) : Prop := slots_img G /\ oath_img G.
Lemma oath_img_same F G : G "oath" = F "oath" -> oath_img F -> oath_img G.
Proof. intros E. unfold oath_img, half_oath, new_oath, fdata, fattr. rewrite E. auto. Qed.
Lemma slots_img_same F G : G "pass" = F "pass" -> slots_img F -> slots_img G.
Proof. intros E. unfold slots_img, new_slots, fdata. rewrite E. auto. Qed.
Lemma pass_attempt s F L X R : whole F -> Forall whole L -> o_slots s = (slot_zero, slot_zero) ->
  wp (pass_install o_slots oset_slots false) (fun o s' e => whole (e_fs e) /\ Forall whole (e_log e) /\ e_fs e "oath" = F "oath" /\
     (X = [] -> o = Ret true /\ new_slots (e_fs e) /\ o_slots s' = (slot_zero, slot_zero))) s (mkE F L X R [] []).
Proof.
  intros (HS & HO) HL Hs. unfold pass_install. apply wp_bind, wp_get_file_size. intros X1 r HX1 Hr.
  assert (HW : whole (fwrite F "pass" (repeat 0 142) 0 true)).
  { split; [right; right; apply fdata_fwrite_trunc|]. apply (oath_img_same F); [apply fwrite_other; discriminate|exact HO]. }
  assert (HC : whole (fcreate F "pass")).
  { split; [|apply (oath_img_same F); [apply fcreate_other; discriminate|exact HO]]. unfold fcreate. destruct (F "pass") eqn:E; [exact HS|]. right. left. unfold fdata. rewrite fset_same. reflexivity. }
  assert (HLC : Forall whole (lcreate F L "pass")) by (unfold lcreate; destruct (F "pass"); [exact HL|constructor; assumption]).
  destruct (false || _) eqn:EB.
  - apply wp_bind, wp_modify. unfold save_slots. apply wp_bind, wp_get. unfold PASS_FILE.
    assert (HZ : slots_bytes (o_slots (oset_slots (slot_zero, slot_zero) s)) = repeat 0 142) by (vm_compute; reflexivity). rewrite HZ. apply wp_write_file.
    + intros X' HX. split; [exact HW|]. split; [constructor; assumption|]. split; [apply fwrite_other; discriminate|]. intros _. split; [reflexivity|]. split; [apply fdata_fwrite_trunc|reflexivity].
    + intros N X'. split; [split; assumption|]. split; [exact HL|]. split; [reflexivity|]. intros E. elim N. destruct (HX1 E). assumption.
    + intros N X'. split; [exact HC|]. split; [exact HLC|]. split; [apply fcreate_other; discriminate|]. intros E. elim N. destruct (HX1 E). assumption.
  - cbn [orb] in EB. destruct r as [n|]; [|discriminate]. destruct Hr as [Hr|Hr]; [discriminate|]. apply negb_false_iff, Z.eqb_eq in EB. subst n.
    assert (HN : new_slots F).
    { unfold fsize, PASS_FILE in Hr. unfold new_slots, fdata. destruct HS as [HS|[HS|HS]]; [rewrite HS in Hr; discriminate| |exact HS]. unfold fdata in HS. destruct (F "pass") as [f|]; [|discriminate]. injection HS as HS. rewrite HS in Hr. discriminate. }
    apply wp_bind, wp_read_file. intros X2 q HX2 Hq. destruct q as [d|].
    + apply wp_bind, wp_get. apply wp_bind, wp_modify. apply wp_ret. split; [split; assumption|]. split; [exact HL|]. split; [reflexivity|]. intros E. split; [reflexivity|]. split; [exact HN|].
      destruct Hq as [Hq|Hq]; [discriminate|]. unfold new_slots, fdata in HN. unfold fread, PASS_FILE in Hq. destruct (F "pass") as [f|]; [|discriminate]. injection HN as HN. rewrite HN in Hq. injection Hq as ->. rewrite Hs. vm_compute. reflexivity.
    + apply wp_ret. split; [split; assumption|]. split; [exact HL|]. split; [reflexivity|]. intros E. destruct (HX1 E) as (-> & _). destruct (HX2 eq_refl) as (_ & Q).
      unfold new_slots, fdata in HN. unfold fread, PASS_FILE in Q. destruct (F "pass"); discriminate.
Qed.
Lemma oath_attempt F X R : whole F -> hd FNone X = FNone ->
  wp (oath_install false) (fun o s' e => whole (e_fs e) /\ Forall whole (e_log e) /\ e_tch e = [] /\ e_out e = [] /\ o_slots s' = (slot_zero, slot_zero) /\ (exists b, o = Ret b) /\
     (F "oath" <> None -> e_fs e = F) /\ (X = [] -> e_flt e = [] /\ (F "oath" = None -> new_oath (e_fs e)))) oath_boot (mkE F [F] X R [] []).
Proof.
  intros HF Hh. unfold oath_install. apply wp_bind, wp_modify. destruct HF as (HS & HO).
  destruct (F "oath") as [f|] eqn:EO.
  { apply wp_bind. unfold wp, get_file_size, pop_fault. destruct X as [|[| |] X]; try discriminate Hh; cbn [e_flt e_fs]; unfold OATH_FILE; rewrite EO; cbn [e_log];
      (split; [split; assumption|]; split; [constructor; [split; assumption|constructor]|]; repeat split; try (eexists; reflexivity); try discriminate). }
  apply wp_bind, wp_get_file_size. intros X1 r HX1 Hr.
  assert (r = None) as -> by (destruct Hr as [Hr|Hr]; [exact Hr|]; rewrite Hr; unfold fsize, OATH_FILE; rewrite EO; reflexivity).
  assert (HF : whole F) by (split; assumption). assert (HL : Forall whole [F]) by (constructor; [exact HF|constructor]).
  assert (SC : slots_img (fcreate F "oath")) by (apply (slots_img_same F); [apply fcreate_other; discriminate|exact HS]).
  assert (HC : whole (fcreate F "oath")).
  { split; [exact SC|]. right. left. unfold half_oath, fdata, fattr, fcreate. rewrite EO, fset_same. split; reflexivity. }
  assert (HLC : Forall whole (lcreate F [F] "oath")) by (unfold lcreate; rewrite EO; constructor; assumption).
  assert (E1 : fwrite F "oath" [] 0 true "oath" = Some (mkF [] no_attr)) by (unfold fwrite, fcreate; rewrite EO, !fset_same; reflexivity).
  assert (SW : slots_img (fwrite F "oath" [] 0 true)) by (apply (slots_img_same F); [apply fwrite_other; discriminate|exact HS]).
  assert (H1 : whole (fwrite F "oath" [] 0 true)).
  { split; [exact SW|]. right. left. unfold half_oath, fdata, fattr. rewrite E1. split; reflexivity. }
  apply wp_bind. unfold OATH_FILE. apply wp_write_file.
  2: { intros N X'. apply wp_ret. cbn [e_fs e_log e_tch e_out e_flt]. split; [exact HF|]. split; [exact HL|]. repeat split; try (eexists; reflexivity); try congruence; elim N; destruct (HX1 H); auto. }
  2: { intros N X'. apply wp_ret. cbn [e_fs e_log e_tch e_out e_flt]. split; [exact HC|]. split; [exact HLC|]. repeat split; try (eexists; reflexivity); try congruence; elim N; destruct (HX1 H); auto. }
  intros X2 HX2. cbn [negb]. set (F1 := fwrite F "oath" [] 0 true) in *. clearbody F1.
  assert (E2 : fsetattr F1 "oath" 2 [] "oath" = Some (mkF [] (aset no_attr 2 []))) by (unfold fsetattr; rewrite E1, fset_same; reflexivity).
  assert (S2 : slots_img (fsetattr F1 "oath" 2 [])) by (apply (slots_img_same F1); [apply fsetattr_other; discriminate|exact SW]).
  assert (H2 : whole (fsetattr F1 "oath" 2 [])).
  { split; [exact S2|]. right. left. unfold half_oath, fdata, fattr. rewrite E2. split; reflexivity. }
  apply wp_bind. unfold ATTR_KEY. apply wp_write_attr.
  2: { intros [N|N] X' HX'; [|congruence]. apply wp_ret. cbn [e_fs e_log e_tch e_out e_flt]. split; [exact H1|]. split; [constructor; assumption|]. repeat split; try (eexists; reflexivity); try congruence; elim N; destruct (HX1 H); auto. }
  intros _ X3 HX3. cbn [negb]. set (F2 := fsetattr F1 "oath" 2 []) in *. clearbody F2. apply wp_bind. unfold wp at 1, random_buffer. cbn [e_fs e_log e_flt e_rnd e_tch e_out].
  set (h := firstn _ _). assert (Hh8 : zlen h = 8) by (unfold h, zlen; rewrite firstn_length, app_length; unfold zeros, HANDLE_LEN; rewrite repeat_length; lia). clearbody h.
  assert (H3 : new_oath (fsetattr F2 "oath" 3 h)).
  { unfold new_oath, fdata, fattr, fsetattr. rewrite E2, fset_same. split; [reflexivity|]. split; [reflexivity|]. exists h. split; [exact Hh8|reflexivity]. }
  assert (H3' : whole (fsetattr F2 "oath" 3 h)) by (split; [apply (slots_img_same F2); [apply fsetattr_other; discriminate|exact S2]|right; right; exact H3]).
  unfold ATTR_HANDLE. apply wp_write_attr.
  - intros _ X4 HX4. cbn [e_fs e_log e_tch e_out e_flt]. split; [exact H3'|]. split; [repeat (constructor; [assumption|]); assumption|]. repeat split; try (eexists; reflexivity); try congruence.
    + apply HX4, HX3, HX2. destruct (HX1 H); assumption.
    + apply H3.
    + apply H3.
    + apply H3.
  - intros [N|N] X' HX'; [|congruence]. cbn [e_fs e_log e_tch e_out e_flt]. split; [exact H2|]. split; [repeat (constructor; [assumption|]); assumption|]. repeat split; try (eexists; reflexivity); try congruence; elim N; destruct (HX1 H); auto.
Qed.
Lemma attempt F flt rnd : whole F -> hd FNone flt = FNone ->
  let '(o, s, e) := booting F flt rnd in whole (e_fs e) /\ Forall whole (e_log e) /\ (F "oath" <> None -> e_fs e "oath" = F "oath") /\
  (flt = [] -> o = Ret true /\ new_slots (e_fs e) /\ o_slots s = (slot_zero, slot_zero) /\ (F "oath" = None -> new_oath (e_fs e))).
Proof.
  intros HF Hh. unfold booting.
  assert (W : wp (oath_install false ;;; pass_install o_slots oset_slots false) (fun o s e => whole (e_fs e) /\ Forall whole (e_log e) /\ (F "oath" <> None -> e_fs e "oath" = F "oath") /\
    (flt = [] -> o = Ret true /\ new_slots (e_fs e) /\ o_slots s = (slot_zero, slot_zero) /\ (F "oath" = None -> new_oath (e_fs e)))) oath_boot (start F flt rnd [])).
  { apply wp_bind. unfold start. eapply wp_mono; [apply oath_attempt; assumption|]. cbv beta. intros o s [F1 L1 X1 R1 T1 O1] (H1 & H2 & H3 & H4 & H5 & (b & ->) & H6 & H7). cbn [e_fs e_log e_tch e_out e_flt] in *. subst T1 O1.
    eapply wp_mono; [apply (pass_attempt s F1 L1 X1 R1 H1 H2 H5)|]. cbv beta. intros o' s' e' (G1 & G2 & G3 & G4). split; [exact G1|]. split; [exact G2|]. split; [intros N; rewrite G3, (H6 N); reflexivity|].
    intros E. destruct (H7 E) as (H8 & H9). destruct (G4 H8) as (G5 & G6 & G7). split; [exact G5|]. split; [exact G6|]. split; [exact G7|]. intros N. specialize (H9 N). unfold new_oath, fdata, fattr in *. rewrite G3. exact H9. }
  unfold wp in W. destruct ((oath_install false ;;; pass_install o_slots oset_slots false) oath_boot (start F flt rnd [])) as [[o s] e]. exact W.
Qed.
Lemma interrupted_whole F G : F "oath" = None -> F "pass" = None -> interrupted F G -> whole G.
Proof.
  intros H1 H2 HI. induction HI as [|G flt r n HI IH Hf]; [split; left; assumption|]. pose proof (attempt G flt r IH Hf) as W. destruct (booting G flt r) as [[o s] e]. destruct W as (W1 & W2 & _). apply log_nth; assumption.
Qed.
(** C62.  The touch slots: however often the first installation is interrupted, after an undisturbed boot both are off. *)
Theorem C62_pass : forall F G, F "oath" = None -> F "pass" = None -> interrupted F G -> forall rnd,
  let '(o, s, e) := booting G [] rnd in o = Ret true /\ new_slots (e_fs e) /\ o_slots s = (slot_zero, slot_zero).
Proof.
  intros F G H1 H2 HI rnd. pose proof (attempt G [] rnd (interrupted_whole F G H1 H2 HI) eq_refl) as W. destruct (booting G [] rnd) as [[o s] e]. destruct W as (_ & _ & _ & W). destruct (W eq_refl) as (A & B & C & _). auto.
Qed.
Print Assumptions C62_pass.
(** C62.  OATH: an undisturbed boot completes the installation, unless the power was lost between the creation of the file and the writing of the identifier. *)
Theorem C62_oath_partial : forall F G, F "oath" = None -> F "pass" = None -> interrupted F G -> forall rnd,
  let '(o, s, e) := booting G [] rnd in new_oath (e_fs e) \/ half_oath G /\ half_oath (e_fs e).
Proof.
  intros F G H1 H2 HI rnd. pose proof (interrupted_whole F G H1 H2 HI) as HG. pose proof (attempt G [] rnd HG eq_refl) as W. destruct (booting G [] rnd) as [[o s] e]. destruct W as (_ & _ & W1 & W). destruct (W eq_refl) as (_ & _ & _ & D).
  destruct (G "oath") eqn:E; [|left; apply D; reflexivity]. destruct HG as (_ & [HG|[HG|HG]]); [congruence| |]; [right|left].
  - split; [exact HG|]. unfold half_oath, fdata, fattr in *. rewrite W1 by discriminate. rewrite E in HG. exact HG.
  - unfold new_oath, fdata, fattr in *. rewrite W1 by discriminate. rewrite E in HG. exact HG.
Qed.
Print Assumptions C62_oath_partial.

(** ** After a loss of power in between the applet is lost *)
Definition bare (G : fs) : Prop := exists d, G "oath" = Some (mkF d no_attr).
Section Dead.
Variables hmac_sha1 hmac_sha256 hmac_sha512 : bytes -> bytes -> bytes.
Variable junk : bytes.
Notation step := (step hmac_sha1 hmac_sha256 hmac_sha512 junk).
Notation hist := (hist hmac_sha1 hmac_sha256 hmac_sha512 junk).
Notation cmd_run := (cmd_run hmac_sha1 hmac_sha256 hmac_sha512 junk).
Notation touch_run := (touch_run hmac_sha1 hmac_sha256 hmac_sha512 junk).
Notation frame := (@Frame.frame oath (fun s => o_valid s = false) bare).
Lemma bare_other : indep bare PASS_FILE.
Proof. intros F x (d & H). exists d. rewrite fset_other by discriminate. exact H. Qed.
Lemma bare_write d o t : frame (write_file OATH_FILE d o t).
Proof.
  intros s e (H1 & H2 & H3). destruct e as [F L X R T O]. cbn [e_fs e_log] in *. pose proof H2 as (f & HF). 
  assert (HW : bare (fwrite F OATH_FILE d o t)) by (unfold bare, fwrite, fcreate, OATH_FILE; rewrite HF, HF, fset_same; cbn [f_attr]; eexists; reflexivity).
  assert (HC : fcreate F OATH_FILE = F) by (unfold fcreate, OATH_FILE; rewrite HF; reflexivity). assert (HLC : lcreate F L OATH_FILE = L) by (unfold lcreate, OATH_FILE; rewrite HF; reflexivity).
  apply wp_write_file; intros; unfold fgood; cbn [e_fs e_log]; rewrite ?HC, ?HLC; auto.
Qed.
Ltac f1 := first [apply bare_write | apply fr_write_file; exact bare_other | apply fr_modify; intros ? ?; assumption | frame1].
Lemma bare_touch kind : frame (pass_handle_touch hmac_sha1 hmac_sha256 hmac_sha512 junk kind).
Proof. unfold pass_handle_touch, oath_calculate_by_offset, oath_update_challenge_field, rd_rec, n_records. repeat f1. Qed.
Lemma bare_conf c : frame (pass_write_config o_slots oset_slots c).
Proof. unfold pass_write_config, save_slots. repeat f1. Qed.
Lemma bare_pass : frame (pass_install o_slots oset_slots false).
Proof. unfold pass_install, save_slots. repeat f1. Qed.
Lemma bare_boot F rnd : bare F -> bare (d_fs (oboot F rnd)) /\ o_valid (d_ram (oboot F rnd)) = false.
Proof.
  intros H. split; [|apply boot_locked]. unfold oboot. unfold bind at 1, oath_install. unfold bind, modify, get_file_size, pop_fault, start. cbn [e_flt e_fs]. unfold OATH_FILE. destruct H as (d & H). rewrite H. unfold ret.
  pose proof (bare_pass (oath_poweroff oath_boot) (mkE F [F] [] rnd [] [])) as W. unfold wp in W. destruct (pass_install o_slots oset_slots false _ _) as [[o s] e]. apply W. split; [reflexivity|]. cbn [e_fs e_log]. assert (bare F) by (exists d; exact H). auto.
Qed.
Lemma bare_cmd nfc c flt rnd tch d : bare (d_fs d) -> o_valid (d_ram d) = false ->
  let '(r, s, e) := cmd_run nfc c flt rnd tch d in (forall a, r = Some a -> r_sw a <> 0x9000) /\ e_fs e = d_fs d /\ e_log e = [d_fs d] /\ o_valid s = false.
Proof.
  intros (f & HF) HV. unfold OathSpec.cmd_run, oath_process_apdu, run_apdu.
  assert (W : wp (oath_body hmac_sha1 hmac_sha256 hmac_sha512 junk nfc c) (fun o s e => (match o with Ret _ => False | Exc w => w <> 0x9000 | _ => True end) /\ e_fs e = d_fs d /\ e_log e = [d_fs d] /\ o_valid s = false) (d_ram d) (start (d_fs d) flt rnd tch)).
  { unfold oath_body, start. apply wp_bind, wp_get. rewrite HV. cbn [orb]. apply wp_bind, wp_guard; intros G1; [|repeat split; [discriminate|exact HV]]. cbv zeta.
    assert (HI : c_ins c = OATH_INS_SELECT \/ c_ins c = OATH_INS_VALIDATE) by (apply orb_true_iff in G1; destruct G1 as [G1|G1]; apply Z.eqb_eq in G1; auto).
    destruct HI as [-> | ->].
    - change (if OATH_INS_SELECT =? OATH_INS_PUT then ?a else ?b) with b.
      cbn [Z.eqb OATH_INS_SELECT OATH_INS_PUT OATH_INS_DELETE OATH_INS_SET_CODE OATH_INS_RENAME OATH_INS_LIST OATH_INS_CALCULATE OATH_INS_VALIDATE Pos.eqb].
      destruct (c_p1 c =? 4); [|destruct (c_p1 c =? 0); [apply wp_bind, wp_guard; [discriminate|intros _]; repeat split; [discriminate|exact HV]|repeat split; [discriminate|exact HV]]].
      unfold oath_select. apply wp_bind, wp_guard; intros G2; [|repeat split; [discriminate|exact HV]]. apply wp_bind, wp_read_attr. intros X' r _ Hr.
      assert (r = None) as -> by (destruct Hr as [Hr|Hr]; [exact Hr|]; rewrite Hr; unfold fattr, OATH_FILE; rewrite HF; reflexivity). repeat split; exact HV.
    - cbn [Z.eqb OATH_INS_SELECT OATH_INS_PUT OATH_INS_DELETE OATH_INS_SET_CODE OATH_INS_RENAME OATH_INS_LIST OATH_INS_CALCULATE OATH_INS_VALIDATE Pos.eqb].
      unfold oath_validate. apply wp_bind, wp_guard; intros G2; [|repeat split; [discriminate|exact HV]]. apply wp_bind. unfold wp at 1, lift.
      destruct (parse_validate (c_data c)) as [[resp chal]|w| |] eqn:EP.
      + apply wp_bind, wp_read_attr. intros X' r _ Hr.
        assert (r = None) as -> by (destruct Hr as [Hr|Hr]; [exact Hr|]; rewrite Hr; unfold fattr, OATH_FILE; rewrite HF; reflexivity). repeat split; exact HV.
      + repeat split; [|exact HV]. intros ->. revert EP. unfold parse_validate, obind, oneed, oguard. repeat match goal with |- context [match ?x with _ => _ end] => lazymatch x with context [match _ with _ => _ end] => fail | _ => destruct x; try discriminate end end.
      + repeat split; exact HV.
      + repeat split; exact HV. }
  unfold wp in W. destruct (oath_body _ _ _ _ _ _ _ _) as [[[a|w| |] s] e]; destruct W as (W1 & W2 & W3 & W4); cbn [fst snd]; try contradiction; (split; [intros a E; injection E as <-; cbn [r_sw]; first [exact W1|discriminate]|auto]) || (split; [discriminate|auto]).
Qed.
Definition lost (d : dev) : Prop := bare (d_fs d) /\ o_valid (d_ram d) = false.
Lemma lost_step d ev o d' : lost d -> step d ev = Some (o, d') -> lost d' /\ (forall r, o = Resp r -> match ev with Cmd _ _ _ _ _ => r_sw r <> 0x9000 | _ => True end).
Proof.
  intros (HB & HV) Hs.
  assert (HA : forall e n, e_fs e = d_fs d -> e_log e = [d_fs d] -> lost (after_cut e n)).
  { intros e n E1 E2. unfold after_cut. assert (nth n (e_log e) (e_fs e) = d_fs d) as -> by (rewrite E1, E2; destruct n as [|[|n]]; reflexivity). apply bare_boot, HB. }
  assert (HA2 : forall e n, bare (e_fs e) -> Forall bare (e_log e) -> lost (after_cut e n)) by (intros e n E1 E2; apply bare_boot, log_nth; assumption).
  destruct ev as [nfc c flt rnd tch|kind flt|c flt| |nfc c flt rnd tch n|kind flt n|c flt n]; cbn [OathSpec.step] in Hs.
  - pose proof (bare_cmd nfc c flt rnd tch d HB HV) as W. destruct (cmd_run nfc c flt rnd tch d) as [[[r|] s] e]; [|discriminate]. injection Hs as <- <-. destruct W as (W1 & W2 & W3 & W4). split; [split; [cbn [d_fs]; rewrite W2; exact HB|exact W4]|]. intros r0 E. injection E as <-. apply W1. reflexivity.
  - pose proof (bare_touch kind (d_ram d) (start (d_fs d) flt [] [])) as W. unfold wp in W. unfold OathSpec.touch_run in Hs. destruct (pass_handle_touch _ _ _ _ _ _ _) as [[[t| | |] s] e]; try discriminate. injection Hs as <- <-.
    destruct W as (W1 & W2 & W3); [repeat split; auto; constructor; [exact HB|constructor]|]. split; [split; assumption|]. discriminate.
  - pose proof (frame_apdu _ _ _ (d_ram d) (d_fs d) flt [] [] (bare_conf c) HV HB) as W. unfold conf_run in Hs. destruct (run_apdu _ _ _) as [[[r|] s] e]; [|discriminate]. injection Hs as <- <-. destruct W as (W1 & W2 & W3). split; [split; assumption|auto].
  - injection Hs as <- <-. split; [split; [exact HB|reflexivity]|discriminate].
  - pose proof (bare_cmd nfc c flt rnd tch d HB HV) as W. destruct (cmd_run nfc c flt rnd tch d) as [[r s] e]. injection Hs as <- <-. destruct W as (_ & W2 & W3 & _). split; [apply HA; assumption|discriminate].
  - pose proof (bare_touch kind (d_ram d) (start (d_fs d) flt [] [])) as W. unfold wp in W. unfold OathSpec.touch_run in Hs. destruct (pass_handle_touch _ _ _ _ _ _ _) as [[t s] e]. injection Hs as <- <-.
    destruct W as (W1 & W2 & W3); [repeat split; auto; constructor; [exact HB|constructor]|]. split; [apply HA2; assumption|discriminate].
  - pose proof (frame_apdu _ _ _ (d_ram d) (d_fs d) flt [] [] (bare_conf c) HV HB) as W. unfold conf_run in Hs. destruct (run_apdu _ _ _) as [[r s] e]. injection Hs as <- <-. destruct W as (W1 & W2 & W3). split; [apply HA2; assumption|discriminate].
Qed.
(** C62, refuted for OATH.  One power loss during the first boot of a working device, and no OATH command succeeds any more, SELECT included,
    whatever is sent and however often the device is booted (the administrator can still reset the applet). *)
Theorem C62_oath_refuted : exists n, let '(_, _, e) := booting fs_empty [] [] in
  forall rnd tr d, hist (oboot (nth n (e_log e) (e_fs e)) rnd) tr d ->
  forall nfc c flt rnd' tch r d', step d (Cmd nfc c flt rnd' tch) = Some (Resp r, d') -> r_sw r <> 0x9000.
Proof.
  exists 5%nat. destruct (booting fs_empty [] []) as [[o s] e] eqn:EB. intros rnd tr d HH.
  assert (HB : bare (nth 5 (e_log e) (e_fs e))).
  { assert (E : nth 5 (e_log e) (e_fs e) "oath" = Some (mkF [] no_attr)); [|exists []; exact E].
    transitivity (let '(_, _, e) := booting fs_empty [] [] in nth 5 (e_log e) (e_fs e) "oath"); [rewrite EB; reflexivity|vm_compute; reflexivity]. }
  assert (HL : lost d).
  { pose proof (bare_boot _ rnd HB) as H0. clear - H0 HH. set (d0 := oboot _ rnd) in *. clearbody d0. induction HH as [d|d ev o d1 tr d2 Hs HH IH]; [exact H0|]. apply IH. exact (proj1 (lost_step _ _ _ _ H0 Hs)). }
  intros nfc c flt rnd' tch r d' Hs. exact (proj2 (lost_step _ _ _ _ HL Hs) r eq_refl).
Qed.
End Dead.
Print Assumptions C62_oath_refuted.
(** Interrupted boots of an empty device: one that leaves no OATH file, but the installation is then completed; one that leaves the file without identifier. *)
Example C62_oath_ex : (exists G, interrupted fs_empty G /\ half_oath G /\ G "pass" = None) /\
  (exists G, interrupted fs_empty G /\ new_oath G /\ fdata G "pass" = Some []).
Proof.
  split; eexists.
  - split; [eapply (I_more _ _ [FNone; FNone; FEarly] [] 2); [apply I_none|reflexivity]|]. vm_compute. repeat split.
  - split; [eapply (I_more _ _ [] [1; 2; 3; 4; 5; 6; 7; 8] 1); [apply I_none|reflexivity]|]. vm_compute. repeat split. eexists. split; [|reflexivity]. reflexivity.
Qed.
