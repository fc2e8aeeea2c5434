(** C97 for FIDO: the applet touches only its own files. *)
From Verif Require Import CtapSpec CtapFrame CtapExec CtapRel CtapCred CtapToy CtapStore PropCtapPin PropCtapToken PropCtapCred PropCtapReset PropCtapBlob PropCtapCrash.
Open Scope string_scope. Open Scope list_scope. Open Scope Z_scope.

(** ** Specification *)
(** The files of the FIDO applet *)
Definition fido_file (p : path) : Prop := In p ["ctap_cert"; "ctap_dc"; "ctap_dm"; "ctap_lb"; "ctap_lbt"].
(** Everything else in the storage is as in [F]. *)
Definition others (F G : fs) : Prop := forall p, ~ fido_file p -> G p = F p.

(** ** Proof *)
Section Files.
Variable K : fcrypto.
Lemma others_indep F p : fido_file p -> indep (others F) p.
Proof. intros Hp G y HG q Hq. rewrite fset_other by (intros ->; contradiction). apply HG, Hq. Qed.
Lemma own_file p : In p [CTAP_CERT_FILE; DC_FILE; DC_META_FILE; LB_FILE; LB_FILE_TMP] -> fido_file p.
Proof. exact (fun H => H). Qed.
Ltac mine := apply others_indep, own_file; cbn; tauto.
Lemma install_others b F : keep anyst (others F) (others F) (ctap_install K b).
Proof.
  unfold ctap_install, cp_initialize, cp_regenerate, cp_reset_token. 
  repeat first [
    match goal with
    | |- keep _ _ _ (must (write_attr _ _ _)) => apply kp_must, kp_write_attr; [exact (fun _ h => h)|mine]
    | |- keep _ _ _ (must (write_file _ _ _ _)) => apply kp_must, kp_write_file; [exact (fun _ h => h)|mine]
    | |- keep _ _ _ (random_buffer _) => apply kp_random
    | |- keep _ _ _ (modify _) => apply kp_modify; intros ? ?; exact Logic.I
    | |- keep _ _ _ (ret _) => apply kp_ret
    | |- keep _ _ _ (get_file_size _) => apply kp_size
    | |- keep _ _ _ (got (read_attr _ _)) => apply kp_got, kp_read_attr
    | |- keep _ _ _ (match ?x with _ => _ end) => destruct x
    | |- keep _ _ _ (bind _ _) => apply kp_bind; [|intros ?]
    end].
Qed.
Lemma exec_others d x : let '(_, _, e) := exec K d x in others (d_fs d) (e_fs e) /\ Forall (others (d_fs d)) (e_log e).
Proof.
  set (F := d_fs d). apply (exec_keep K (others F) (others F) (fun _ h => h)); [mine|mine|mine| | | |intros p _; reflexivity|].
  - apply kp_rename_at; [exact (fun _ h => h)|]. intros G f HG Hf q Hq. rewrite !fset_other by (intros ->; apply Hq, own_file; cbn; tauto). apply HG, Hq.
  - intros a v _ _ _. apply kp_write_attr; [exact (fun _ h => h)|mine].
  - intros c. apply kp_write_file; [exact (fun _ h => h)|mine].
  - unfold left_out. destruct (x_op x) as [q|da|p1 da| |da|da|da] eqn:Ex; try exact Logic.I; [|apply install_others]. destruct q as [p|p| | |p| |p| |p| ]; cbn [is_pin CtapFrame.is_reset orb]; try exact Logic.I.
    + unfold cbor_cmd, cp_observer. apply kp_bind; [apply kp_modify; intros; exact Logic.I|intros _]. apply kp_pin; try (intros; exact Logic.I); intros v; (apply kp_write_attr; [exact (fun _ h => h)|mine]).
    + unfold cbor_cmd, ctap_reset_data, cp_observer. apply kp_bind; [apply kp_modify; intros ? H; exact H|intros _]. apply kp_bind; [|intros _; apply kp_ret]. apply kp_bind; [apply kp_guard|intros _]. apply install_others.
Qed.
Lemma boot_others F flt rnd : others F (d_fs (boot K F flt rnd)).
Proof.
  unfold boot. pose proof (kp_run anyst (others F) (others F) (fun _ h => h) (ctap_install K false) ctap_boot F flt rnd [] (install_others false F) Logic.I (fun p _ => eq_refl)) as W.
  destruct (ctap_install K false ctap_boot _) as [[o s] e]. apply W.
Qed.
(** C97.  No FIDO command (CTAP2, U2F, vendor commands and resets), with whatever storage errors, no power loss at any point, and no boot
    after it changes a file of another applet. *)
Theorem C97_fido d v o d' p : (forall F, v <> Other F) -> step K d v = Some (o, d') -> ~ In p ["ctap_cert"; "ctap_dc"; "ctap_dm"; "ctap_lb"; "ctap_lbt"] -> d_fs d' p = d_fs d p.
Proof.
  intros Hv Hs Hp. destruct v as [x|x n flt rnd|F]; [| |elim (Hv F); reflexivity]; cbn [step] in Hs; pose proof (exec_others d x) as W; destruct (exec K d x) as [[[a|] s] e]; destruct W as (W1 & W2); try discriminate Hs; injection Hs as _ <-.
  - apply W1, Hp.
  - rewrite (boot_others _ flt rnd p Hp). apply (Forall_nth_default (others (d_fs d))); assumption.
  - rewrite (boot_others _ flt rnd p Hp). apply (Forall_nth_default (others (d_fs d))); assumption.
Qed.
End Files.
Print Assumptions C97_fido.
(** A registration on a device with another applet's file changes the storage, but not that file. *)
Example C97_fido_case : let d := mkD (d_ram fresh_dev) (fset (d_fs fresh_dev) "piv-pin" (Some (mkF [1; 2; 3] no_attr))) in
  match step toyf d (Do (make53 20002 7 2)) with
  | Some (_, d') => fdata (d_fs d') "piv-pin" = Some [1; 2; 3] /\ shown_at (d_fs d) 0 = None /\ shown_at (d_fs d') 0 <> None
  | None => False
  end.
Proof. vm_compute. repeat split. discriminate. Qed.
