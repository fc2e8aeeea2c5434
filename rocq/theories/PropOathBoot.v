(** C96 for OATH: what switching the device on does to the stored credentials. *)
From Verif Require Import Sys Apdu Applet Pass Oath OathProofs OathCmds OathEff OathSpec OathPres OathHist OathStep OathFacts OathEx PropOath Frame PropPass.
Open Scope string_scope. Open Scope list_scope. Open Scope Z_scope.

(** Installing the touch slots leaves the credentials alone, whatever storage errors occur. *)
Lemma pass_other s F L X R T O : let '(_, _, e') := pass_install o_slots oset_slots false s (mkE F L X R T O) in e_fs e' "oath" = F "oath".
Proof.
  change (wp (pass_install o_slots oset_slots false) (fun _ _ e' => e_fs e' "oath" = F "oath") s (mkE F L X R T O)).
  assert (W : forall d o t, fwrite F PASS_FILE d o t "oath" = F "oath" /\ fcreate F PASS_FILE "oath" = F "oath").
  { intros d o t. unfold fwrite, fcreate. destruct (F PASS_FILE) eqn:E; rewrite ?E, ?fset_same; repeat rewrite fset_other by discriminate; auto. }
  unfold pass_install. cbn [orb]. apply wp_bind, wp_get_file_size; intros X1 r _ _. destruct (negb _).
  - apply wp_bind, wp_modify. unfold save_slots. apply wp_bind. unfold get, wp at 1. apply wp_write_file; intros; cbn [e_fs]; first [reflexivity|apply (proj2 (W [] 0 true))|apply W].
  - apply wp_bind, wp_read_file. intros X2 [d|] _ _; cbn; reflexivity.
Qed.
(** C96.  On a device whose store of OATH credentials exists, switching on leaves it as it is (credentials, access key, serial number), unless
    the first access fails.  (If it fails: C68_read_error_at_boot_refuted.) *)
Theorem C96_oath_kept : forall F flt rnd, F "oath" <> None -> hd FNone flt = FNone -> d_fs (oboot_flt F flt rnd) "oath" = F "oath".
Proof.
  intros F flt rnd HF Hf. unfold oboot_flt, bind at 1. unfold oath_install, bind, modify, ret, get_file_size, pop_fault, start. cbn [e_flt e_fs]. unfold OATH_FILE.
  destruct (F "oath") as [f|] eqn:E; [|elim HF; reflexivity].
  destruct flt as [|[| |] flt]; try discriminate Hf; cbn [e_fs e_flt e_log e_rnd e_tch e_out]; rewrite ?E;
    match goal with |- context [pass_install _ _ _ ?s (mkE F ?L ?X ?R ?T ?O)] => pose proof (pass_other s F L X R T O) as H; destruct (pass_install o_slots oset_slots false s (mkE F L X R T O)) as [[o1 s1] e1] end; cbn [d_fs]; congruence.
Qed.
Print Assumptions C96_oath_kept.
Example C96_oath_case : d_fs dev0 "oath" <> None /\ map cred_of (the_records (oboot_flt (d_fs dev0) [FNone; FEarly] [])) = [mkCred nA kH 0; mkCred nB kT 1].
Proof. split; [vm_compute; discriminate|vm_compute; reflexivity]. Qed.

(** C96 for the touch slots.  On a device with the file of the slots, switching on leaves the storage as it is, unless one of the first two
    accesses (the sizes of the OATH file and of this one) fails. *)
Theorem C96_pass_kept : forall F flt rnd d, F "oath" <> None -> fdata F "pass" = Some d -> zlen d = 142 -> nth 0 flt FNone = FNone -> nth 1 flt FNone = FNone ->
  d_fs (oboot_flt F flt rnd) = F.
Proof.
  intros F flt rnd d HF HD Ld Hf Hg.
  assert (V : wp (oath_install false ;;; pass_install o_slots oset_slots false) (fun _ _ e => e_fs e = F) oath_boot (start F flt rnd [])).
  { assert (SZ : forall p v (X : list fault) s, fdata F p = Some v -> hd FNone X = FNone -> get_file_size p s (mkE F [F] X rnd [] []) = (Ret (Some (zlen v)), s, mkE F [F] (tl X) rnd [] []) :> out (option Z) * oath * env).
    { intros p v X s Hp HX. unfold get_file_size, pop_fault. cbn [e_flt]. unfold fdata in Hp. destruct (F p) as [f|] eqn:E; [|discriminate]. injection Hp as <-. destruct X as [|[| |] X]; try discriminate HX; cbn; rewrite E; reflexivity. }
    assert (H1 : hd FNone flt = FNone) by (destruct flt; exact Hf).
    assert (H2 : hd FNone (tl flt) = FNone) by (destruct flt as [|y [|z flt]]; exact Hg).
    assert (HO : exists v, fdata F "oath" = Some v) by (unfold fdata; destruct (F "oath"); [eauto|elim HF; reflexivity]). destruct HO as (v & HO).
    apply wp_bind. unfold oath_install, start. apply wp_bind, wp_modify. apply wp_bind. unfold wp at 1. change OATH_FILE with "oath". rewrite (SZ _ _ _ _ HO H1). apply wp_ret.
    unfold pass_install. cbn [orb]. apply wp_bind. unfold wp at 1. change PASS_FILE with "pass". rewrite (SZ _ _ _ _ HD H2). rewrite Ld. change (negb (142 =? SLOTS_SIZE)) with false. cbv iota.
    apply wp_bind, wp_read_file. intros X' [r|] _ _; reflexivity. }
  unfold oboot_flt. unfold wp in V. destruct ((oath_install false ;;; pass_install o_slots oset_slots false) oath_boot (start F flt rnd [])) as [[o s'] e']. exact V.
Qed.
Print Assumptions C96_pass_kept.
(** If the second one fails, both slots are turned off for good, whatever they were to type. *)
Theorem C96_pass_error_refuted : forall F y rnd, F "oath" <> None -> y <> FNone ->
  fdata (d_fs (oboot_flt F [FNone; y] rnd)) "pass" = Some (repeat 0 142).
Proof.
  intros F y rnd HF Hy.
  assert (V : wp (oath_install false ;;; pass_install o_slots oset_slots false) (fun _ _ e => fdata (e_fs e) "pass" = Some (repeat 0 142)) oath_boot (start F [FNone; y] rnd [])).
  { apply wp_bind. unfold oath_install, start. apply wp_bind, wp_modify. apply wp_bind. unfold wp at 1, get_file_size at 1, pop_fault. cbn [e_flt e_fs e_log e_rnd e_tch e_out]. change OATH_FILE with "oath".
    destruct (F "oath") as [f|]; [|elim HF; reflexivity]. apply wp_ret. unfold pass_install. cbn [orb]. apply wp_bind. unfold wp at 1, get_file_size at 1, pop_fault. cbn [e_flt e_fs e_log e_rnd e_tch e_out].
    destruct y; [elim Hy; reflexivity| |]; cbn [negb]; apply wp_bind, wp_modify; unfold save_slots; apply wp_bind; unfold get, wp at 1; (apply wp_write_file; [|intros N; elim N; reflexivity|intros N; elim N; reflexivity]);
      intros X' _; cbn [e_fs]; apply (fdata_fwrite_trunc F "pass"). }
  unfold oboot_flt. unfold wp in V. destruct ((oath_install false ;;; pass_install o_slots oset_slots false) oath_boot (start F [FNone; y] rnd [])) as [[o s'] e']. exact V.
Qed.
Print Assumptions C96_pass_error_refuted.
Example C96_pass_case : d_fs dev0 "oath" <> None /\ match fdata (d_fs dev0) "pass" with Some d => zlen d = 142 | None => False end.
Proof. split; [vm_compute; discriminate|vm_compute; reflexivity]. Qed.
