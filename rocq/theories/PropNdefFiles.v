(** C97 for the NDEF tag: the applet touches only its own files. *)
From Verif Require Import Sys Apdu Applet Frame Ndef PropNdef.
Open Scope string_scope. Open Scope list_scope. Open Scope Z_scope.

(** Everything in the storage that is not one of the two files of the tag is as in [F]. *)
Definition others (F G : fs) : Prop := forall p, ~ In p ["E103"; "NDEF"] -> G p = F p.
Lemma others_indep F p : In p ["E103"; "NDEF"] -> indep (others F) p.
Proof. intros Hp G x HG q Hq. rewrite fset_other by (intros ->; contradiction). apply HG, Hq. Qed.
Ltac fin := apply others_indep; cbn; tauto.
Ltac frq := repeat first [ frame1 | apply fr_modify; intros ? _; exact Logic.I | apply fr_write_file; fin | apply fr_truncate_file; fin ].
Notation T := (fun _ : ndef => True).
Lemma install_files F b : frame T (others F) (ndef_install getn setn b).
Proof. unfold ndef_install, ndef_create_init_ndef, upd_n. frq. Qed.
Lemma act_others a flt d : let '(_, _, e) := act_run a flt d in others (n_fs d) (e_fs e) /\ Forall (others (n_fs d)) (e_log e).
Proof.
  assert (W : forall m, frame T (others (n_fs d)) m -> let '(_, _, e) := run_apdu m (n_ram d) (start (n_fs d) flt [] []) in others (n_fs d) (e_fs e) /\ Forall (others (n_fs d)) (e_log e)).
  { intros m Hm. pose proof (frame_apdu T (others (n_fs d)) m (n_ram d) (n_fs d) flt [] [] Hm Logic.I (fun p _ => eq_refl)) as W. destruct (run_apdu _ _ _) as [[r s'] e']. apply W. }
  unfold act_run. destruct a as [c buf|c|]; apply W.
  - unfold ndef_body, ndef_select, ndef_read_binary, ndef_update, upd_n. frq.
  - unfold ndef_toggle_read_only, upd_n. frq.
  - apply fr_bind; [apply install_files|intros []; [apply fr_ret|apply fr_fail]].
Qed.
Lemma boot_others F : others F (n_fs (nboot F)).
Proof.
  unfold nboot. pose proof (frame_run T (others F) (ndef_install getn setn false) ndef_boot F [] [] [] (install_files F false) Logic.I (fun p _ => eq_refl)) as W.
  destruct (ndef_install _ _ _ _ _) as [[o s] e]. apply W.
Qed.
(** C97.  No command of the tag, write protection command, factory reset of the tag, power loss at any point or boot after it, with whatever
    storage errors during the command, changes a file of another applet. *)
Theorem C97_ndef d ev o d' p : step d ev = Some (o, d') -> ~ In p ["E103"; "NDEF"] -> n_fs d' p = n_fs d p.
Proof.
  intros Hs Hp. destruct ev as [a flt|a flt n|]; cbn [step] in Hs.
  - pose proof (act_others a flt d) as W. destruct (act_run a flt d) as [[[r|] s] e]; [|discriminate]. injection Hs as _ <-. apply W, Hp.
  - pose proof (act_others a flt d) as W. destruct (act_run a flt d) as [[r s] e]. destruct W as (W1 & W2). injection Hs as _ <-. rewrite (boot_others _ p Hp).
    assert (H : forall L n, Forall (others (n_fs d)) L -> others (n_fs d) (nth n L (e_fs e))) by (intros L k HL; revert k; induction HL; intros [|k]; cbn; auto). apply H; assumption.
  - injection Hs as _ <-. reflexivity.
Qed.
Print Assumptions C97_ndef.
(** The factory reset writes the files of the tag and leaves another applet's. *)
Example C97_ndef_case : let d := mkNdev ndef_boot (fset fs_empty "piv-pin" (Some (mkF [1; 2; 3] no_attr))) in
  match step d (Do Reset []) with
  | Some (_, d') => fdata (n_fs d') "piv-pin" = Some [1; 2; 3] /\ n_fs d "NDEF" = None /\ n_fs d' "NDEF" <> None
  | None => False
  end.
Proof. vm_compute. repeat split. discriminate. Qed.
