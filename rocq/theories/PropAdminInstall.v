(** C62 for the administrator's applet: power loss during the first installation. *)
From Verif Require Import Sys Apdu Applet Pin PinProofs Admin PropAdmin.
Open Scope string_scope. Open Scope list_scope. Open Scope Z_scope.

(** ** Specification *)
(** One boot with storage errors [flt]; [x]: the other applets' variables *)
Definition booting {X} (x : X) (F : fs) (flt : list fault) : out bool * (admin * X) * env := admin_install false (admin_boot, x) (start F flt [] []).
(** The configuration of a new device: all three switches on *)
Definition new_config (G : fs) : Prop := fdata G "admin_cfg" = Some [7].
(** PIN 123456, three attempts, three attempts after each success *)
Definition new_pin (G : fs) : Prop := fdata G "admin-pin" = Some [49; 50; 51; 52; 53; 54] /\ fattr G "admin-pin" 0 = Some [3] /\ fattr G "admin-pin" 1 = Some [3].
(** A PIN file without the number of attempts after a success, the last thing that is written *)
Definition half_pin (G : fs) : Prop := G "admin-pin" <> None /\ fattr G "admin-pin" 1 = None.
(** ... and without the number of attempts left *)
Definition bare (G : fs) : Prop := G "admin-pin" <> None /\ fattr G "admin-pin" 0 = None.
(** The storage [F] after any number of boots, each of them interrupted: there may be storage errors, and the power fails when the [n]-th last
    update is current. *)
Inductive interrupted {X} (x : X) (F : fs) : fs -> Prop :=
  | I_none : interrupted x F F
  | I_more G flt n : interrupted x F G -> interrupted x F (let '(_, _, e) := booting x G flt in nth n (e_log e) (e_fs e)).

(** ** Proof *)
Definition cfg_img (G : fs) : Prop := G "admin_cfg" = None \/ fdata G "admin_cfg" = Some [] \/ new_config G.
Definition pin_img (G : fs) : Prop := G "admin-pin" = None \/ half_pin G \/ new_pin G.
Definition img (G : fs) : Prop := cfg_img G /\ pin_img G.
Lemma cfg_same F G : G "admin_cfg" = F "admin_cfg" -> cfg_img F -> cfg_img G.
Proof. unfold cfg_img, new_config, fdata. intros ->. auto. Qed.
Lemma half_same F G : G "admin-pin" = F "admin-pin" -> half_pin F -> half_pin G.
Proof. unfold half_pin, fattr. intros ->. auto. Qed.
Lemma new_same F G : G "admin-pin" = F "admin-pin" -> new_pin F -> new_pin G.
Proof. unfold new_pin, fattr, fdata. intros ->. auto. Qed.
Lemma pin_same F G : G "admin-pin" = F "admin-pin" -> pin_img F -> pin_img G.
Proof. intros E [H|[H|H]]; [left; congruence|right; left; eapply half_same; eauto|right; right; eapply new_same; eauto]. Qed.

Section Boot.
Context {X : Type}.
Notation St := (@St X).
Lemma pin_part (s : St) F L Y : img F -> Forall img L ->
  wp (create <- (a <- pin_get_size admin_pin ;; ret (match a with None => true | _ => false end)) ;;
      if negb create then ret true else r <- pin_create admin_pin default_pin 3 ;; ret (negb (r <? 0)))
     (fun o s' e => s' = s /\ img (e_fs e) /\ Forall img (e_log e) /\ e_fs e "admin_cfg" = F "admin_cfg" /\
        (Y = [] -> o = Ret true /\ (new_pin (e_fs e) \/ half_pin F /\ half_pin (e_fs e)))) s (mkE F L Y [] [] []).
Proof.
  intros (HC & HP) HL. assert (HF : img F) by (split; assumption). apply wp_bind, wp_bind. unfold pin_get_size. apply wp_get_file_size. intros Y1 r H1 Hr. apply wp_ret. change (pin_path admin_pin) with "admin-pin" in *.
  destruct r as [z|].
  { cbn [negb]. apply wp_ret. cbn [e_fs e_log]. split; [reflexivity|]. split; [exact HF|]. split; [exact HL|]. split; [reflexivity|]. intros _. split; [reflexivity|].
    destruct HP as [HP|[HP|HP]]; [|right; auto|left; exact HP]. destruct Hr as [Hr|Hr]; [discriminate|]. unfold fsize in Hr. rewrite HP in Hr. discriminate. }
  assert (HN : Y = [] -> F "admin-pin" = None) by (intros E; destruct (H1 E) as (_ & Q); unfold fsize in Q; destruct (F "admin-pin"); [discriminate|reflexivity]).
  cbn [negb]. apply wp_bind. unfold pin_create. change (pin_path admin_pin) with "admin-pin".
  set (F1 := fwrite F "admin-pin" default_pin 0 true).
  (* the file after the first write: the attributes are those it had *)
  assert (E1 : exists at1, F1 "admin-pin" = Some (mkF default_pin at1) /\ (at1 = no_attr \/ exists f, F "admin-pin" = Some f /\ at1 = f_attr f)).
  { unfold F1, fwrite, fcreate. destruct (F "admin-pin") as [f|] eqn:E; [rewrite E|]; rewrite fset_same; [exists (f_attr f)|exists no_attr]; rewrite ?fset_same; split; try reflexivity; [right; eauto|left; reflexivity]. }
  destruct E1 as (at1 & E1 & Hat). 
  assert (P1 : (at1 1 = None) \/ (at1 0 = Some [3] /\ at1 1 = Some [3])).
  { destruct Hat as [->|(f & Ef & ->)]; [left; reflexivity|]. destruct HP as [HP|[(_ & HP)|(_ & HP)]]; [congruence|left|right]; unfold fattr in HP; rewrite Ef in HP; exact HP. }
  assert (PI : forall G a, G "admin_cfg" = F "admin_cfg" -> G "admin-pin" = Some (mkF default_pin a) -> (a 1 = None \/ a 0 = Some [3] /\ a 1 = Some [3]) -> img G).
  { intros G a Hc Hp Ha. split; [eapply cfg_same; eauto|]. right. destruct Ha as [Ha|(Ha & Hb)]; [left|right]; unfold half_pin, new_pin, fattr, fdata; rewrite Hp; repeat split; try assumption. discriminate. }
  assert (O1 : F1 "admin_cfg" = F "admin_cfg") by (apply fwrite_other; discriminate).
  assert (IC : img (fcreate F "admin-pin")).
  { unfold fcreate. destruct (F "admin-pin") eqn:E; [exact HF|]. split; [apply (cfg_same F); [apply fset_other; discriminate|exact HC]|]. right. left. unfold half_pin, fattr. rewrite fset_same. split; [discriminate|reflexivity]. }
  assert (LC : Forall img (lcreate F L "admin-pin")) by (unfold lcreate; destruct (F "admin-pin"); [exact HL|apply Forall_cons; assumption]).
  apply wp_bind, wp_write_file.
  2: { intros N Y'. cbn [negb]. apply wp_ret, wp_ret. cbn [e_fs e_log]. split; [reflexivity|]. split; [exact HF|]. split; [exact HL|]. split; [reflexivity|]. intros E. elim N. apply (H1 E). }
  2: { intros N Y'. cbn [negb]. apply wp_ret, wp_ret. cbn [e_fs e_log]. split; [reflexivity|]. split; [exact IC|]. split; [exact LC|]. split; [apply fcreate_other; discriminate|]. intros E. elim N. apply (H1 E). }
  fold F1. intros Y2 H2. cbn [negb].
  assert (I1 : img F1) by (eapply PI; eauto). assert (L1 : Forall img (F1 :: lcreate F L "admin-pin")) by (apply Forall_cons; assumption). clearbody F1.
  set (F2 := fsetattr F1 "admin-pin" 0 [3]).
  assert (O2 : F2 "admin_cfg" = F "admin_cfg") by (unfold F2; rewrite fsetattr_other by discriminate; exact O1).
  assert (E2 : F2 "admin-pin" = Some (mkF default_pin (aset at1 0 [3]))) by (unfold F2, fsetattr; rewrite E1, fset_same; reflexivity).
  assert (I2 : img F2) by (eapply PI; [exact O2|exact E2|]; cbn; tauto).
  apply wp_bind. unfold RETRY_ATTR. apply wp_write_attr.
  2: { intros [N|N] Y' _; [|congruence]. cbn [negb]. apply wp_ret, wp_ret. cbn [e_fs e_log]. split; [reflexivity|]. split; [exact I1|]. split; [exact L1|]. split; [exact O1|]. intros E. elim N. apply H2, (H1 E). }
  fold F2. intros _ Y3 H3. cbn [negb]. assert (L2 : Forall img (F2 :: F1 :: lcreate F L "admin-pin")) by (apply Forall_cons; assumption). clearbody F2.
  set (F3 := fsetattr F2 "admin-pin" 1 [3]).
  assert (O3 : F3 "admin_cfg" = F "admin_cfg") by (unfold F3; rewrite fsetattr_other by discriminate; exact O2).
  assert (E3 : F3 "admin-pin" = Some (mkF default_pin (aset (aset at1 0 [3]) 1 [3]))) by (unfold F3, fsetattr; rewrite E2, fset_same; reflexivity).
  assert (I3 : img F3) by (eapply PI; [exact O3|exact E3|]; cbn; tauto).
  assert (N3 : new_pin F3) by (unfold new_pin, fdata, fattr; rewrite E3; repeat split).
  apply wp_bind. unfold DEFAULT_RETRY_ATTR. apply wp_write_attr.
  2: { intros [N|N] Y' _; [|congruence]. cbn [negb]. apply wp_ret, wp_ret. cbn [e_fs e_log]. split; [reflexivity|]. split; [exact I2|]. split; [exact L2|]. split; [exact O2|]. intros E. elim N. apply H3, H2, (H1 E). }
  fold F3. intros _ Y4 H4. cbn [negb]. apply wp_ret, wp_ret. cbn [e_fs e_log]. split; [reflexivity|]. split; [exact I3|]. split; [apply Forall_cons; assumption|]. split; [exact O3|]. intros _. split; [reflexivity|]. left. exact N3.
Qed.

Lemma attempt (x : X) F flt : img F ->
  let '(o, s, e) := booting x F flt in img (e_fs e) /\ Forall img (e_log e) /\
    (flt = [] -> o = Ret true /\ new_config (e_fs e) /\ cfg_of (fst s) = (true, true, true) /\ (new_pin (e_fs e) \/ half_pin F /\ half_pin (e_fs e))).
Proof.
  intros HF. unfold booting.
  assert (W : wp (admin_install false) (fun o s e => img (e_fs e) /\ Forall img (e_log e) /\
    (flt = [] -> o = Ret true /\ new_config (e_fs e) /\ cfg_of (fst s) = (true, true, true) /\ (new_pin (e_fs e) \/ half_pin F /\ half_pin (e_fs e)))) (admin_boot, x) (start F flt [] [])).
  2: { unfold wp in W. destruct (admin_install false (admin_boot, x) (start F flt [] [])) as [[o s] e]. exact W. }
  unfold admin_install, start. apply wp_bind. unfold upd_a at 1. apply wp_modify. apply wp_bind, wp_bind, wp_get_file_size. intros Y1 r H1 Hr. apply wp_ret. change CFG_FILE with "admin_cfg" in *. cbn [fst snd].
  pose proof HF as (HC & HP).
  assert (HL : Forall img [F]) by (apply Forall_cons; [exact HF|apply Forall_nil]).
  assert (REST : forall s0 (G : fs) L Y, cfg_of (fst s0) = (true, true, true) -> new_config G -> G "admin-pin" = F "admin-pin" -> img G -> Forall img L -> (flt = [] -> Y = []) ->
    wp (create <- (a <- pin_get_size admin_pin ;; ret (match a with None => true | _ => false end)) ;;
      if negb create then ret true else r <- pin_create admin_pin default_pin 3 ;; ret (negb (r <? 0)))
     (fun o s e => img (e_fs e) /\ Forall img (e_log e) /\
    (flt = [] -> o = Ret true /\ new_config (e_fs e) /\ cfg_of (fst s) = (true, true, true) /\ (new_pin (e_fs e) \/ half_pin F /\ half_pin (e_fs e)))) (s0 : St) (mkE G L Y [] [] [])).
  { intros s0 G L Y Hs Hc Hp HG HGL HY. eapply wp_mono; [apply (pin_part s0 G L Y HG HGL)|]. cbv beta. intros o s e (-> & A & B & C & D). split; [exact A|]. split; [exact B|]. intros E. destruct (D (HY E)) as (D1 & D2). split; [exact D1|].
    split; [unfold new_config, fdata in *; rewrite C; exact Hc|]. split; [exact Hs|]. destruct D2 as [D2|(D2 & D3)]; [left; exact D2|right; split; [|exact D3]]. revert D2. apply half_same. symmetry. exact Hp. }
  destruct (negb _) eqn:EB.
  - apply wp_bind, wp_bind. unfold upd_a. apply wp_modify. apply wp_bind, wp_get. cbn [fst snd]. change (cfg_byte (set_cfg 7 (admin_poweroff admin_boot))) with 7.
    set (F1 := fwrite F "admin_cfg" [7] 0 true).
    assert (N1 : new_config F1) by apply fdata_fwrite_trunc. assert (O1 : F1 "admin-pin" = F "admin-pin") by (apply fwrite_other; discriminate).
    assert (I1 : img F1) by (split; [right; right; exact N1|eapply pin_same; eauto]).
    assert (IC : img (fcreate F "admin_cfg")).
    { split; [|eapply pin_same; [apply fcreate_other; discriminate|exact HP]]. unfold fcreate. destruct (F "admin_cfg") eqn:E; [exact HC|]. right. left. unfold fdata. rewrite fset_same. reflexivity. }
    assert (LC : Forall img (lcreate F [F] "admin_cfg")) by (unfold lcreate; destruct (F "admin_cfg"); [exact HL|apply Forall_cons; assumption]).
    apply wp_write_file.
    + fold F1. intros Y2 H2. cbn [negb]. apply REST; [reflexivity|exact N1|exact O1|exact I1|apply Forall_cons; assumption|]. intros E. apply H2, (H1 E).
    + intros N Y2. cbn [negb]. apply wp_ret. cbn [e_fs e_log]. split; [exact HF|]. split; [exact HL|]. intros E. elim N. apply (H1 E).
    + intros N Y2. cbn [negb]. apply wp_ret. cbn [e_fs e_log]. split; [exact IC|]. split; [exact LC|]. intros E. elim N. apply (H1 E).
  - apply negb_false_iff in EB. destruct r as [n|]; [|discriminate]. apply Z.eqb_eq in EB. subst n. destruct Hr as [Hr|Hr]; [discriminate|].
    assert (N1 : new_config F).
    { unfold fsize in Hr. destruct HC as [HC|[HC|HC]]; [rewrite HC in Hr; discriminate| |exact HC]. unfold fdata in HC. destruct (F "admin_cfg") as [f|]; [|discriminate]. injection HC as HC. rewrite HC in Hr. discriminate. }
    assert (RD : fread F "admin_cfg" 0 1 = Some [7]).
    { unfold new_config, fdata in N1. unfold fread. destruct (F "admin_cfg") as [f|]; [|discriminate]. injection N1 as N1. rewrite N1. reflexivity. }
    apply wp_bind, wp_bind, wp_read_file. intros Y2 q H2 Hq. destruct q as [d|].
    + destruct Hq as [Hq|Hq]; [discriminate|]. rewrite RD in Hq. injection Hq as ->. apply wp_bind. unfold upd_a. apply wp_modify. apply wp_ret. cbn [negb].
      apply REST; [reflexivity|exact N1|reflexivity|exact HF|exact HL|]. intros E. apply H2, (H1 E).
    + apply wp_ret. cbn [negb]. apply wp_ret. cbn [e_fs e_log]. split; [exact HF|]. split; [exact HL|]. intros E. destruct (H1 E) as (E1 & _). destruct (H2 E1) as (_ & Q). rewrite RD in Q. discriminate.
Qed.
Lemma interrupted_img (x : X) F G : F "admin_cfg" = None -> F "admin-pin" = None -> interrupted x F G -> img G.
Proof.
  intros H1 H2 HI. induction HI as [|G flt n HI IH]; [split; left; assumption|]. pose proof (attempt x G flt IH) as W.
  destruct (booting x G flt) as [[o s] e]. destruct W as (W1 & W2 & _). destruct (nth_in_or_default n (e_log e) (e_fs e)) as [Hi| ->]; [|exact W1]. rewrite Forall_forall in W2. auto.
Qed.
End Boot.
(** C62.  However often the first installation is interrupted, after an undisturbed boot the configuration is that of a new device.  The PIN is
    123456 with three attempts, unless the power was lost between the creation of its file and the last of the updates that fill it: then it
    stays as it was.  (The full statement has no exception.) *)
Theorem C62_admin_partial : forall {X} (x : X) F G, F "admin_cfg" = None -> F "admin-pin" = None -> interrupted x F G -> forall x' : X,
  let '(o, s, e) := booting x' G [] in
  o = Ret true /\ new_config (e_fs e) /\ cfg_of (fst s) = (true, true, true) /\ (new_pin (e_fs e) \/ half_pin G /\ half_pin (e_fs e)).
Proof.
  intros X x F G H1 H2 HI x'. pose proof (attempt x' G [] (interrupted_img x F G H1 H2 HI)) as W. destruct (booting x' G []) as [[o s] e]. apply W, eq_refl.
Qed.
Print Assumptions C62_admin_partial.

(** ** With such a PIN file nothing is possible any more except the factory reset *)
Section Dead.
Context {X : Type}.
Variable ext : Z -> capdu -> M X Z.
Variable inst : Z -> M X bool.
Variable ro : X -> Z.
Variable usage : Z * Z.
Definition dead (s : St (X := X)) (e : env) : Prop := a_ok (fst s) = false /\ bare (e_fs e) /\ Forall bare (e_log e).
Definition free (c : capdu) : Prop := In (c_ins c) [0xA4; 0x31; 0x32; 0x14].
Lemma size_keep (Q : out (option Z) -> St (X := X) -> env -> Prop) s F L Y R T O p : (forall Y' r, Q (Ret r) s (mkE F L Y' R T O)) -> wp (get_file_size p) Q s (mkE F L Y R T O).
Proof. intros H. apply wp_get_file_size. intros; apply H. Qed.
Lemma wp_gd (b : bool) sw (Q : out unit -> St (X := X) -> env -> Prop) s e : (if b then Q (Ret tt) s e else Q (Exc sw) s e) -> wp (guard b sw) Q s e.
Proof. destruct b; intros H; exact H. Qed.
Lemma retries_none (s : St (X := X)) F L Y R T O : bare F ->
  wp (pin_get_retries admin_pin) (fun o s' e => (exists v, o = Ret v /\ (v = 0 \/ v = PIN_IO_FAIL)) /\ s' = s /\ exists Y', e = mkE F L Y' R T O) s (mkE F L Y R T O).
Proof.
  intros HF. unfold pin_get_retries, pin_get_attr, pin_get_size. apply wp_bind, size_keep. intros Y1 r.
  assert (K : wp (a <- read_attr (pin_path admin_pin) RETRY_ATTR ;; match a with None => ret PIN_IO_FAIL | Some v => ret (attr1 v) end)
    (fun o s' e => (exists v, o = Ret v /\ (v = 0 \/ v = PIN_IO_FAIL)) /\ s' = s /\ exists Y', e = mkE F L Y' R T O) s (mkE F L Y1 R T O)).
  { apply wp_bind, wp_read_attr. intros Y2 q _ Hq. assert (q = None) as -> by (destruct Hq as [Hq|Hq]; [exact Hq|]; rewrite Hq; apply HF). apply wp_ret. split; [eexists; split; [reflexivity|auto]|split; [reflexivity|eexists; reflexivity]]. }
  destruct r as [[|z|z]|]; [apply wp_ret; split; [eexists; split; [reflexivity|auto]|split; [reflexivity|eexists; reflexivity]]|exact K..].
Qed.
Lemma dead_body nfc c s F L Y R T O : c_ins c <> 0x50 -> a_ok (fst s) = false -> bare F -> Forall bare L ->
  wp (admin_body ext inst ro usage nfc c) (fun o s' e => dead s' e /\ (free c \/ o = Fail \/ (exists w, o = Exc w /\ w <> 0x9000) \/ o = UB)) s (mkE F L Y R T O).
Proof.
  intros N50 Hs HF HL. assert (D : forall Y' R' T' O', dead s (mkE F L Y' R' T' O')) by (intros; split; [exact Hs|split; assumption]).
  unfold admin_body. 
  destruct (Z.eqb_spec (c_ins c) 0xA4) as [E|_]; [assert (free c) by (unfold free; rewrite E; cbn; tauto)|].
  { apply wp_bind, wp_gd. destruct (_ && _); [apply wp_ret; split; [apply D|left; assumption]|split; [apply D|left; assumption]]. }
  destruct (Z.eqb_spec (c_ins c) 0x31) as [E|_]; [assert (free c) by (unfold free; rewrite E; cbn; tauto)|].
  { apply wp_bind, wp_gd. destruct (_ && _); [apply wp_ret; split; [apply D|left; assumption]|split; [apply D|left; assumption]]. }
  destruct (Z.eqb_spec (c_ins c) 0x32) as [E|_]; [assert (free c) by (unfold free; rewrite E; cbn; tauto)|].
  { apply wp_bind, wp_gd. destruct (_ && _); [|split; [apply D|left; assumption]]. destruct (_ =? 0); [|apply wp_ret; split; [apply D|left; assumption]].
    unfold admin_read_sn. apply wp_bind, wp_gd. destruct (_ && _); [|split; [apply D|left; assumption]]. apply wp_bind, wp_gd. destruct (negb _); [|split; [apply D|left; assumption]].
    apply wp_bind. unfold fill_sn. apply wp_bind, wp_read_file. intros Y1 r _ _. apply wp_ret. apply wp_bind, wp_set_out. apply wp_ret. split; [apply D|left; assumption]. }
  destruct (Z.eqb_spec (c_ins c) 0x14) as [E|_]; [assert (free c) by (unfold free; rewrite E; cbn; tauto); apply wp_ret; split; [apply D|left; assumption]|].
  destruct (Z.eqb_spec (c_ins c) 0x50) as [E|_]; [contradiction|].
  destruct (Z.eqb_spec (c_ins c) 0x20) as [_|_].
  - unfold admin_verify. apply wp_bind, wp_gd. destruct (_ && _); [|split; [apply D|right; right; left; eexists; split; [reflexivity|discriminate]]].
    destruct (c_lc c =? 0).
    + apply wp_bind, wp_get. rewrite Hs. apply wp_bind. eapply wp_mono; [apply retries_none, HF|]. cbv beta. intros o s' e ((v & -> & Hv) & -> & (Y' & ->)).
      destruct Hv as [->| ->]; [change (0 <? 0) with false; cbv iota; apply wp_except; split; [apply D|right; right; left; eexists; split; [reflexivity|discriminate]]|change (PIN_IO_FAIL <? 0) with true; cbv iota; apply wp_fail; split; [apply D|right; left; reflexivity]].
    + apply wp_bind. unfold pin_verify, pin_verify_gen. apply wp_bind, wp_modify.
      assert (D' : forall Y' R' T' O', dead (setv false s) (mkE F L Y' R' T' O')) by (intros; split; [reflexivity|split; assumption]).
      destruct (_ || _). { apply wp_ret. change (PIN_LENGTH_INVALID =? PIN_IO_FAIL) with false. cbv iota. apply wp_except. split; [apply D'|right; right; left; eexists; split; [reflexivity|discriminate]]. }
      apply wp_bind, wp_read_attr. intros Y2 q _ Hq. assert (q = None) as -> by (destruct Hq as [Hq|Hq]; [exact Hq|]; rewrite Hq; apply HF). apply wp_ret. apply wp_fail. split; [apply D'|right; left; reflexivity].
  - apply wp_bind, wp_get. apply wp_bind, wp_gd. rewrite Hs. split; [apply D|right; right; left; eexists; split; [reflexivity|discriminate]].
Qed.
Lemma bare_boot x F : bare F -> bare (d_fs (boot x F)) /\ a_ok (d_ram (boot (X := X) x F)) = false.
Proof.
  intros HF. unfold boot.
  assert (W : wp (admin_install false) (fun _ (s : admin * X) e => bare (e_fs e) /\ a_ok (fst s) = false) (admin_boot, x) (start F [] [] [])).
  2: { unfold wp in W. destruct (admin_install false (admin_boot, x) (start F [] [] [])) as [[o s] e]. exact W. }
  unfold admin_install, start. apply wp_bind. unfold upd_a at 1. apply wp_modify.
  assert (REST : forall (s0 : admin * X) (G : fs) L, a_ok (fst s0) = false -> bare G ->
    wp (create <- (a <- pin_get_size admin_pin ;; ret (match a with None => true | _ => false end)) ;;
      if negb create then ret true else r <- pin_create admin_pin default_pin 3 ;; ret (negb (r <? 0)))
     (fun _ (s : admin * X) e => bare (e_fs e) /\ a_ok (fst s) = false) (s0 : St) (mkE G L [] [] [] [])).
  { intros s0 G L Hs HG. apply wp_bind, wp_bind. unfold pin_get_size. apply wp_get_file_size. intros Y1 r H1 _. apply wp_ret. destruct (H1 eq_refl) as (_ & ->). pose proof HG as (HN & _). change (pin_path admin_pin) with "admin-pin". unfold fsize.
    destruct (G "admin-pin"); [|contradiction]. cbn [negb]. apply wp_ret. split; assumption. }
  assert (OT : forall G, G "admin-pin" = F "admin-pin" -> bare G) by (intros G E; unfold bare, fattr in *; rewrite E; exact HF).
  apply wp_bind, wp_bind, wp_get_file_size. intros Y1 r H1 _. apply wp_ret. destruct (H1 eq_refl) as (-> & _). destruct (negb _).
  - apply wp_bind, wp_bind. unfold upd_a. apply wp_modify. apply wp_bind, wp_get. apply wp_write_file; [|intros N; elim N; reflexivity..]. intros Y2 H2. rewrite (H2 eq_refl). cbn [negb]. apply REST; [reflexivity|]. apply OT, fwrite_other. discriminate.
  - apply wp_bind, wp_bind, wp_read_file. intros Y2 q H2 _. destruct (H2 eq_refl) as (-> & _). destruct q as [d|].
    + apply wp_bind. unfold upd_a. apply wp_modify. apply wp_ret. cbn [negb]. apply REST; [reflexivity|apply OT; reflexivity].
    + apply wp_ret. cbn [negb]. apply wp_ret. split; [exact HF|reflexivity].
Qed.
Lemma dead_run nfc c flt tch d : c_ins c <> 0x50 -> a_ok (d_ram d) = false -> bare (d_fs d) ->
  let '(r, s, e) := run ext inst ro usage c nfc flt tch d in dead s e /\ forall x, r = Some x -> r_sw x = 0x9000 -> free c.
Proof.
  intros Hc Hs HF. unfold run, run_apdu, start. cbn [e_fs e_log e_flt e_rnd e_tch].
  pose proof (dead_body nfc c (d_ram d, d_x d) (d_fs d) [d_fs d] flt [] tch [] Hc Hs HF (Forall_cons _ HF (Forall_nil _))) as W. unfold wp in W.
  destruct (admin_body ext inst ro usage nfc c (d_ram d, d_x d) _) as [[o s] e]. destruct W as (W1 & W2). 
  destruct W2 as [W2|[->|[(w & -> & Hw)| ->]]]; [destruct o; split; auto|..]; (split; [exact W1|]); intros x E; try discriminate; injection E as <-; cbn [r_sw]; intros E; [discriminate|contradiction].
Qed.
(** C62.  Such a power loss leaves a device on which (until a factory reset, INS 50) the PIN is never accepted and no command that needs it works,
    whatever is done, however often it is restarted. *)
Theorem C62_admin_refuted :
  (forall x : X, exists G, interrupted x fs_empty G /\ bare G) /\
  (forall x G tr d, bare G -> hist ext inst ro usage (boot x G) tr d ->
     (forall c nfc flt tch n r, In (Do c nfc flt tch, r) tr \/ In (Cut c nfc flt tch n, r) tr -> c_ins c <> 0x50) ->
     forall c nfc flt tch r, In (Do c nfc flt tch, Some r) tr -> r_sw r = 0x9000 -> In (c_ins c) [0xA4; 0x31; 0x32; 0x14]).
Proof.
  split.
  - intros x. eexists. split; [eapply (I_more _ _ _ [] 2); apply I_none|]. vm_compute. split; [discriminate|reflexivity].
  - intros x G tr d HG Hh Hno. destruct (bare_boot x G HG) as (HB & HA). revert HB HA. induction Hh as [|d0 ev o d1 tr d2 Hok Hst Hh IH]; intros HB HA c nfc flt tch r Hin Hr; [destruct Hin|].
    assert (NX : (forall c nfc flt tch n r, In (Do c nfc flt tch, r) tr \/ In (Cut c nfc flt tch n, r) tr -> c_ins c <> 0x50)) by (intros c' nfc' flt' tch' n' r' [H|H]; eapply Hno with (n := n'); [left|right]; right; exact H).
    assert (KEEP : a_ok (d_ram d1) = false /\ bare (d_fs d1) /\ forall c nfc flt tch r, ev = Do c nfc flt tch -> o = Some r -> r_sw r = 0x9000 -> free c).
    { destruct ev as [c' nfc' flt' tch'|c' nfc' flt' tch' n'| |x' F']; cbn [step] in Hst.
      - assert (NC : c_ins c' <> 0x50) by (eapply (Hno c' nfc' flt' tch' 0%nat); left; left; reflexivity). pose proof (dead_run nfc' c' flt' tch' d0 NC HA HB) as W.
        destruct (run ext inst ro usage c' nfc' flt' tch' d0) as [[[y|] s] e]; [|discriminate]. injection Hst as <- <-. destruct W as ((W1 & W2 & _) & W3). split; [exact W1|]. split; [exact W2|].
        intros c2 nfc2 flt2 tch2 r2 E1 E2 E3. injection E1 as <- _ _ _. injection E2 as <-. eapply W3; [reflexivity|exact E3].
      - assert (NC : c_ins c' <> 0x50) by (eapply (Hno c' nfc' flt' tch' n'); right; left; reflexivity). pose proof (dead_run nfc' c' flt' tch' d0 NC HA HB) as W.
        destruct (run ext inst ro usage c' nfc' flt' tch' d0) as [[y s] e]. injection Hst as <- <-. destruct W as ((W1 & W2 & W4) & _).
        assert (HN : bare (nth n' (e_log e) (e_fs e))) by (destruct (nth_in_or_default n' (e_log e) (e_fs e)) as [Hi| ->]; [rewrite Forall_forall in W4; auto|exact W2]).
        destruct (bare_boot (snd s) _ HN) as (B1 & B2). split; [exact B2|]. split; [exact B1|]. intros; discriminate.
      - injection Hst as <- <-. split; [reflexivity|]. split; [exact HB|]. intros; discriminate.
      - injection Hst as <- <-. split; [exact HA|]. split; [|intros; discriminate]. cbn [d_fs]. unfold ev_ok, agree in Hok. unfold bare, fattr in *. rewrite Hok by (left; reflexivity). exact HB. }
    destruct KEEP as (K1 & K2 & K3). destruct Hin as [E|Hin]; [injection E as -> ->; eapply K3; eauto|]. eapply IH; eauto.
Qed.
End Dead.
Print Assumptions C62_admin_refuted.

(** The two halves of a new PIN *)
Example C62_admin_ex : (exists G, interrupted tt fs_empty G /\ half_pin G /\ fattr G "admin-pin" 0 = Some [3]) /\ exists G, interrupted tt fs_empty G /\ new_pin G.
Proof.
  split; eexists; (split; [eapply (I_more _ _ _ [] _); apply I_none|]); [instantiate (1 := 1%nat)|instantiate (1 := 0%nat)]; vm_compute; repeat split; discriminate.
Qed.
