(** C62 for the NDEF tag: power loss during the first installation. *)
From Verif Require Import Sys Apdu Applet Ndef PropNdef.
Open Scope string_scope. Open Scope list_scope. Open Scope Z_scope.

(** ** Specification *)
(** One boot with storage errors [flt] *)
Definition booting (F : fs) (flt : list fault) : out bool * ndef * env := ndef_install getn setn false ndef_boot (start F flt [] []).
(** The contents of a new tag: the link to canokeys.org in a file of 1024 bytes *)
Definition new_message : bytes := [0x00; 0x11; 0xD1; 0x01; 0x0D; 0x55; 0x04; 99; 97; 110; 111; 107; 101; 121; 115; 46; 111; 114; 103] ++ repeat 0 1005.
Definition new_tag (G : fs) : Prop := fdata G "E103" = Some (cc false) /\ fdata G "NDEF" = Some new_message.
(** The storage [F] after any number of boots, each of them interrupted: there may be storage errors (but not when the sizes of the two files
    are looked up, to see whether there is an installation), and the power fails when the [n]-th last update is current. *)
Inductive interrupted (F : fs) : fs -> Prop :=
  | I_none : interrupted F F
  | I_more G flt n : interrupted F G -> interrupted F (let '(_, _, e) := booting G ([FNone; FNone] ++ flt) in nth n (e_log e) (e_fs e)).

(** ** Proof *)
Definition img (G : fs) : Prop := G "E103" = None \/ fdata G "E103" = Some [] \/ new_tag G.
Lemma img_same F G : G "E103" = F "E103" -> G "NDEF" = F "NDEF" -> img F -> img G.
Proof. unfold img, new_tag, fdata. intros -> ->. auto. Qed.
Lemma img_early F G : G "E103" = F "E103" -> F "E103" = None \/ fdata F "E103" = Some [] -> img G.
Proof. unfold img, fdata. intros ->. tauto. Qed.
Lemma wp_trunc {S} p n (Q : out bool -> S -> env -> Prop) (s : S) F L X R T O f : F p = Some f ->
  (let G := fset F p (Some (mkF (firstn (Z.to_nat n) (f_data f) ++ zeros (n - zlen (f_data f))) (f_attr f))) in
   forall X', (X = [] -> X' = []) -> Q (Ret true) s (mkE G (G :: L) X' R T O)) ->
  (X <> [] -> forall X', Q (Ret false) s (mkE F L X' R T O)) ->
  wp (truncate_file p n) Q s (mkE F L X R T O).
Proof.
  intros E H1 H2. unfold wp, truncate_file, pop_fault, commit in *. cbn [e_fs e_log e_flt e_rnd e_tch e_out].
  destruct X as [|[] X]; cbn [e_fs e_log e_flt e_rnd e_tch e_out]; rewrite ?E; cbn [e_fs e_log e_flt e_rnd e_tch e_out]; rewrite ?E; cbn [e_fs e_log e_flt e_rnd e_tch e_out].
  all: try (apply H1; auto; discriminate). all: apply H2; discriminate.
Qed.

Lemma fresh_part s F X : (F "E103" = None \/ fdata F "E103" = Some []) -> nd_cc s = cc false ->
  wp (ok <- ndef_create_init_ndef ;; if negb ok then ret false else s <- get ;; write_file CC_FILE (nd_cc (getn s)) 0 true)
     (fun o s' e => img (e_fs e) /\ Forall img (e_log e) /\ (X = [] -> o = Ret true /\ new_tag (e_fs e) /\ nd_cc s' = cc false)) s (mkE F [F] X [] [] []).
Proof.
  intros HF Hs. assert (I0 : forall G, G "E103" = F "E103" -> img G) by (intros G HG; eapply img_early; eauto).
  unfold ndef_create_init_ndef. apply wp_bind, wp_bind. unfold NDEF_FILE.
  assert (IC : img (fcreate F "NDEF")) by (apply I0, fcreate_other; discriminate).
  assert (LC : Forall img (lcreate F [F] "NDEF")).
  { unfold lcreate. destruct (F "NDEF"); repeat (apply Forall_cons; [first [exact IC | apply I0; reflexivity]|]); apply Forall_nil. }
  apply wp_write_file.
  2: { intros N X'. apply wp_ret. cbn [negb]. apply wp_ret. split; [apply I0; reflexivity|]. split; [apply Forall_cons; [apply I0; reflexivity|apply Forall_nil]|]. contradiction. }
  2: { intros N X'. apply wp_ret. cbn [negb]. apply wp_ret. split; [exact IC|]. split; [exact LC|]. contradiction. }
  intros X1 H1. cbn [negb]. set (F1 := fwrite F "NDEF" init_data 0 true).
  assert (O1 : F1 "E103" = F "E103") by (apply fwrite_other; discriminate).
  assert (D1 : fdata F1 "NDEF" = Some init_data) by apply fdata_fwrite_trunc.
  unfold fdata in D1. destruct (F1 "NDEF") as [f|] eqn:E1; [|discriminate]. injection D1 as D1.
  assert (L1 : Forall img (F1 :: lcreate F [F] "NDEF")) by (apply Forall_cons; [apply I0, O1|exact LC]).
  eapply wp_trunc; [exact E1| |].
  2: { intros N X'. cbn [negb]. apply wp_ret. split; [apply I0, O1|]. split; [exact L1|]. intros E. elim N. auto. }
  rewrite D1. change (firstn _ init_data ++ _) with new_message. cbv zeta. set (F2 := fset F1 "NDEF" _). intros X2 H2. cbn [negb].
  assert (O2 : F2 "E103" = F "E103") by (unfold F2; rewrite fset_other by discriminate; exact O1).
  assert (D2 : fdata F2 "NDEF" = Some new_message) by (unfold F2, fdata; rewrite fset_same; reflexivity). clearbody F2.
  apply wp_bind, wp_get. unfold getn, CC_FILE. rewrite Hs.
  assert (L2 : Forall img (F2 :: F1 :: lcreate F [F] "NDEF")) by (apply Forall_cons; [apply I0, O2|exact L1]).
  assert (IC2 : img (fcreate F2 "E103")).
  { unfold fcreate. destruct (F2 "E103") eqn:E; [apply I0; congruence|]. right. left. unfold fdata. rewrite fset_same. reflexivity. }
  assert (LC2 : Forall img (lcreate F2 (F2 :: F1 :: lcreate F [F] "NDEF") "E103")).
  { unfold lcreate at 1. destruct (F2 "E103"); [exact L2|apply Forall_cons; assumption]. }
  assert (N2 : new_tag (fwrite F2 "E103" (cc false) 0 true)).
  { split; [apply fdata_fwrite_trunc|]. unfold fdata. rewrite fwrite_other by discriminate. exact D2. }
  apply wp_write_file.
  - intros X3 H3. cbn [e_fs e_log]. split; [right; right; exact N2|]. split; [apply Forall_cons; [right; right; exact N2|exact LC2]|]. auto.
  - intros N X'. cbn [e_fs e_log]. split; [apply I0, O2|]. split; [exact L2|]. intros E. elim N. auto.
  - intros N X'. cbn [e_fs e_log]. split; [exact IC2|]. split; [exact LC2|]. intros E. elim N. auto.
Qed.
Lemma attempt F flt : img F -> (flt = [] \/ exists r, flt = [FNone; FNone] ++ r) ->
  let '(o, s, e) := booting F flt in img (e_fs e) /\ Forall img (e_log e) /\ (flt = [] -> o = Ret true /\ new_tag (e_fs e) /\ nd_cc s = cc false).
Proof.
  intros HF Hf. unfold booting.
  assert (W : wp (ndef_install getn setn false) (fun o s e => img (e_fs e) /\ Forall img (e_log e) /\ (flt = [] -> o = Ret true /\ new_tag (e_fs e) /\ nd_cc s = cc false)) ndef_boot (start F flt [] [])).
  2: { unfold wp in W. destruct (ndef_install getn setn false ndef_boot (start F flt [] [])) as [[o s] e]. exact W. }
  unfold ndef_install, start. apply wp_bind. unfold upd_n at 1. apply wp_modify. apply wp_bind.
  assert (FR : forall X (Q : out bool -> ndef -> env -> Prop), (X = [] <-> flt = []) \/ flt <> [] -> F "E103" = None \/ fdata F "E103" = Some [] ->
     (forall o s e, img (e_fs e) /\ Forall img (e_log e) /\ (X = [] -> o = Ret true /\ new_tag (e_fs e) /\ nd_cc s = cc false) -> Q o s e) ->
     wp (upd_n getn setn (fun n => mkNd default_cc (nd_sel n)) ;;; ok <- ndef_create_init_ndef ;; if negb ok then ret false else s <- get ;; write_file CC_FILE (nd_cc (getn s)) 0 true)
        Q (setn (ndef_poweroff (getn ndef_boot)) ndef_boot) (mkE F [F] X [] [] [])).
  { intros X Q HX HF' HQ. apply wp_bind. unfold upd_n. apply wp_modify. eapply wp_mono; [apply fresh_part; [exact HF'|reflexivity]|]. intros o s e H. apply HQ, H. }
  apply wp_bind. unfold wp at 1, get_file_size, pop_fault. cbn [e_flt e_fs e_log e_rnd e_tch e_out].
  assert (HX : exists X, (let '(x, e) := match flt with [] => (FNone, mkE F [F] flt [] [] []) | x :: r => (x, mkE F [F] r [] [] []) end in (x, e)) = (FNone, mkE F [F] X [] [] []) /\
     ((flt = [] /\ X = []) \/ exists r, X = FNone :: r /\ flt <> [])).
  { destruct Hf as [->|(r & ->)]; [exists []; auto|]. exists (FNone :: r). split; [reflexivity|]. right. exists r. split; [reflexivity|discriminate]. }
  destruct HX as (X & EX & HX). destruct (match flt with [] => _ | _ :: _ => _ end) as [x e0]. injection EX as -> ->. cbn [e_fs].
  unfold CC_FILE at 1. destruct HF as [HF|[HF|(HF & HF2)]].
  - rewrite HF. cbn [negb]. apply wp_ret. apply FR; [destruct HX as [(? & ?)|(? & ? & ?)]; [left; tauto|right; assumption]|left; exact HF|].
    intros o s e (A & B & C). split; [exact A|]. split; [exact B|]. intros E. apply C. destruct HX as [(? & ?)|(? & ? & ?)]; [assumption|contradiction].
  - pose proof HF as HF0. unfold fdata in HF. destruct (F "E103") as [f|] eqn:EF; [|discriminate]. injection HF as HF. rewrite HF. cbn [negb zlen length Z.of_nat Z.eqb CC_LENGTH]. apply wp_ret.
    apply FR; [destruct HX as [(? & ?)|(? & ? & ?)]; [left; tauto|right; assumption]|right; exact HF0|].
    intros o s e (A & B & C). split; [exact A|]. split; [exact B|]. intros E. apply C. destruct HX as [(? & ?)|(? & ? & ?)]; [assumption|contradiction].
  - assert (HI : img F) by (right; right; split; assumption). pose proof HF as HF0. unfold fdata in HF, HF2. destruct (F "E103") as [f|] eqn:EF; [|discriminate]. injection HF as HF. destruct (F "NDEF") as [g|] eqn:EG; [|discriminate]. injection HF2 as HF2.
    rewrite HF. change (negb (zlen (cc false) =? CC_LENGTH)) with false. cbv iota. apply wp_bind. unfold wp at 1, get_file_size, pop_fault. cbn [e_flt e_fs e_log e_rnd e_tch e_out].
    assert (HX2 : exists X2, (match X with [] => (FNone, mkE F [F] X [] [] []) | x :: r => (x, mkE F [F] r [] [] []) end) = (FNone, mkE F [F] X2 [] [] []) /\ (flt = [] -> X2 = [])).
    { destruct HX as [(? & ->)|(r & -> & N)]; [exists []; auto|]. exists r. split; [reflexivity|]. intros E. contradiction. }
    destruct HX2 as (X2 & -> & HX2). cbn [e_fs]. unfold NDEF_FILE at 1. rewrite EG, HF2. apply wp_ret. change (zlen new_message <=? 0) with false. cbv iota.
    assert (LI : Forall img [F]) by (apply Forall_cons; [exact HI|apply Forall_nil]).
    apply wp_bind, wp_read_file. intros X3 r H3 Hr. destruct r as [d|].
    + apply wp_bind. unfold upd_n. apply wp_modify. apply wp_ret. split; [exact HI|]. split; [exact LI|]. intros E. split; [reflexivity|]. split; [split; [exact HF0|unfold fdata; cbn [e_fs]; rewrite EG; congruence]|].
      destruct Hr as [Hr|Hr]; [discriminate|]. unfold fread, CC_FILE in Hr. rewrite EF, HF in Hr. injection Hr as ->. vm_compute. reflexivity.
    + apply wp_ret. split; [exact HI|]. split; [exact LI|]. intros E. destruct (H3 (HX2 E)) as (_ & Q). unfold fread, CC_FILE in Q. rewrite EF in Q. discriminate.
Qed.
Lemma interrupted_img F G : F "E103" = None -> interrupted F G -> img G.
Proof.
  intros H HI. induction HI as [|G flt n HI IH]; [left; exact H|]. pose proof (attempt G ([FNone; FNone] ++ flt) IH (or_intror (ex_intro _ flt eq_refl))) as W.
  destruct (booting G ([FNone; FNone] ++ flt)) as [[o s] e]. destruct W as (W1 & W2 & _). destruct (nth_in_or_default n (e_log e) (e_fs e)) as [Hi| ->]; [|exact W1]. rewrite Forall_forall in W2. auto.
Qed.
(** C62.  However often the first installation of the tag is interrupted, after an undisturbed boot it is the new tag, not write protected. *)
Theorem C62_ndef : forall F G, F "E103" = None -> interrupted F G ->
  let '(o, s, e) := booting G [] in o = Ret true /\ new_tag (e_fs e) /\ nd_cc s = cc false.
Proof.
  intros F G H HI. pose proof (attempt G [] (interrupted_img F G H HI) (or_introl eq_refl)) as W. destruct (booting G []) as [[o s] e]. apply W, eq_refl.
Qed.
Print Assumptions C62_ndef.

(** Interrupted after the first write: the message is there, but not its padding, nor the capability container. *)
Example C62_ndef_ex : exists G, interrupted fs_empty G /\ G "E103" = None /\ fdata G "NDEF" = Some (firstn 19 new_message).
Proof. eexists. split; [eapply (I_more _ _ [FEarly] 0); apply I_none|]. split; vm_compute; reflexivity. Qed.
