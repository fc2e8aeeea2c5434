(** C97 for OpenPGP: the applet touches only its own files. *)
From Verif Require Import Sys Apdu Applet Frame Pin PinProofs Tlv Key PropKey Pgp PgpSpec PgpFlags PropPgpAccess.
Open Scope string_scope. Open Scope list_scope. Open Scope Z_scope.

(** ** Specification *)
(** Everything in the storage that is not one of the OpenPGP files (their names begin with "pgp-") is as in [F]. *)
Definition others (F G : fs) : Prop := forall p, ~ In p pgp_files -> G p = F p.
Example pgp_files_names : Forall (fun p => String.prefix "pgp-" p = true) pgp_files.
Proof. repeat constructor. Qed.

(** ** Proof *)
Lemma others_indep F p : In p pgp_files -> indep (others F) p.
Proof. intros Hp G x HG q Hq. rewrite fset_other by (intros ->; contradiction). apply HG, Hq. Qed.
Ltac fin A := apply A; first [assumption|cbn; tauto].
Lemma key_file b p : get_key_path b = Some p -> In p pgp_files.
Proof. unfold get_key_path. repeat match goal with |- context [b =? ?n] => destruct (b =? n) end; intros H; try discriminate H; injection H as <-; cbn; tauto. Qed.
Lemma cert_file b p : cert_path b = Some p -> In p pgp_files.
Proof. unfold cert_path. repeat match goal with |- context [b =? ?n] => destruct (b =? n) end; intros H; try discriminate H; injection H as <-; cbn; tauto. Qed.
Lemma update_file (P : fs -> Prop) p setv buf len : indep P (pin_path p) -> frame (fun _ : pgp => True) P (pin_update p setv buf len).
Proof. intros A. unfold pin_update. repeat first [frame1 | apply fr_modify; intros ? _; exact Logic.I]. Qed.
Ltac frq A := repeat first
  [ match goal with
    | |- frame _ _ (match get_key_path ?t with _ => _ end) =>
        let p := fresh "p" in let E := fresh "E" in destruct (get_key_path t) as [p|] eqn:E; [apply key_file in E|]
    | |- frame _ _ (match cert_path ?t with _ => _ end) =>
        let p := fresh "p" in let E := fresh "E" in destruct (cert_path t) as [p|] eqn:E; [apply cert_file in E|]
    | |- frame _ _ (pin_update _ _ _ _) => apply update_file, A; cbn; tauto
    end
  | frame1 | apply fr_modify; intros ? _; exact Logic.I
  | apply fr_write_file; fin A | apply fr_append_file; fin A
  | apply fr_write_attr; fin A].
Section Files.
Variable K : crypto.
Notation T := (fun _ : pgp => True).
Lemma install_files P b : (forall p, In p pgp_files -> indep P p) -> frame T P (pgp_install b).
Proof. intros A. unfold pgp_install; pgp_unfold. frq A. Qed.
Lemma body_files P nfc t1 t2 junk c tail : (forall p, In p pgp_files -> indep P p) -> frame T P (pgp_body K nfc t1 t2 junk c tail).
Proof.
  intros A. unfold pgp_body. cbv zeta. apply fr_bind; [apply fr_guard|intros _]. apply fr_bind; [unfold selection; pgp_unfold; frq A|intros _].
  apply fr_bind; [apply fr_read_attr|intros [t|]]; [|apply fr_except]. apply fr_bind; [apply fr_guard|intros _].
  destruct (c_ins c =? 0xA4). { unfold pgp_select; pgp_unfold; frq A. }
  destruct (c_ins c =? 0x44). { apply fr_bind; [apply fr_guard|intros _]. unfold pgp_activate; pgp_unfold; frq A. all: try (apply install_files, A). }
  destruct (c_ins c =? 0xCA). { unfold pgp_get_data; pgp_unfold; frq A. }
  destruct (c_ins c =? 0xA5). { unfold pgp_select_data; pgp_unfold; frq A. }
  destruct (c_ins c =? 0xCC). { unfold pgp_get_next_data; pgp_unfold; frq A. }
  destruct (c_ins c =? 0x20). { unfold pgp_verify, verify_with; pgp_unfold; frq A. }
  destruct (c_ins c =? 0x24). { unfold pgp_change_reference_data; pgp_unfold; frq A. }
  destruct (c_ins c =? 0x2C). { unfold pgp_reset_retry_counter; pgp_unfold; frq A. }
  destruct (c_ins c =? 0xDA). { unfold pgp_put_data; pgp_unfold; frq A. }
  destruct (c_ins c =? 0xDB). { unfold pgp_import; pgp_unfold; frq A. }
  destruct (c_ins c =? 0x47). { unfold pgp_generate; pgp_unfold; frq A. }
  destruct (c_ins c =? 0x2A). { destruct (_ && _); [unfold pgp_sign_or_auth|destruct (_ && _); [unfold pgp_decipher|apply fr_except]]; pgp_unfold; frq A. }
  destruct (c_ins c =? 0x88). { unfold pgp_sign_or_auth; pgp_unfold; frq A. }
  destruct (c_ins c =? 0x84). { unfold pgp_get_challenge; pgp_unfold; frq A. }
  destruct (c_ins c =? 0xE6). { unfold pgp_terminate; pgp_unfold; frq A. }
  apply fr_except.
Qed.
Lemma nth_others (L : list fs) n F G : others F G -> Forall (others F) L -> others F (nth n L G).
Proof. intros H HL. revert n. induction HL; intros [|n]; cbn; auto. Qed.
Lemma inst_others b s F flt : let '(_, _, e) := installed b s F flt in others F (e_fs e) /\ Forall (others F) (e_log e).
Proof.
  pose proof (frame_run T (others F) (pgp_install b) s F flt [] [] (install_files _ b (others_indep _)) Logic.I (fun p _ => eq_refl)) as W.
  unfold installed. destruct (pgp_install _ _ _) as [[o s'] e]. apply W.
Qed.
Lemma boot_others F flt : others F (d_fs (boot F flt)).
Proof. unfold boot. pose proof (inst_others false pgp_boot F flt) as W. destruct (installed _ _ _ _) as [[o s] e]. apply W. Qed.
Lemma exec_others d x : let '(_, _, e) := exec K d x in others (d_fs d) (e_fs e) /\ Forall (others (d_fs d)) (e_log e).
Proof.
  pose proof (frame_apdu T (others (d_fs d)) _ (d_ram d) (d_fs d) (x_flt x) (x_rnd x) (x_tch x) (body_files _ (x_nfc x) (x_t1 x) (x_t2 x) (x_junk x) (x_apdu x) (x_tail x) (others_indep (d_fs d))) Logic.I (fun p _ => eq_refl)) as W.
  unfold exec. destruct (run_apdu _ _ _) as [[r s'] e']. apply W.
Qed.
(** C97.  No OpenPGP command, reset by the administrator, power loss at any point or boot, with whatever storage errors, changes a file of
    another applet. *)
Theorem C97_pgp d v o d' p : (forall F, v <> Other F) -> step K d v = Some (o, d') -> ~ In p pgp_files -> d_fs d' p = d_fs d p.
Proof.
  intros Hv Hs Hp. destruct v as [x|x n flt| |flt|flt n flt'|F]; [| | | | |elim (Hv F); reflexivity]; cbn [step] in Hs.
  - pose proof (exec_others d x) as W. destruct (exec K d x) as [[[a|] s] e]; [|discriminate]. injection Hs as _ <-. apply W, Hp.
  - pose proof (exec_others d x) as W. destruct (exec K d x) as [[a s] e]. injection Hs as _ <-. rewrite (boot_others _ flt p Hp). apply nth_others; [apply W|apply W|exact Hp].
  - injection Hs as _ <-. reflexivity.
  - pose proof (inst_others true (d_ram d) (d_fs d) flt) as W. destruct (installed _ _ _ _) as [[a s] e]. injection Hs as _ <-. apply W, Hp.
  - pose proof (inst_others true (d_ram d) (d_fs d) flt) as W. destruct (installed _ _ _ _) as [[a s] e]. injection Hs as _ <-. rewrite (boot_others _ flt' p Hp). apply nth_others; [apply W|apply W|exact Hp].
Qed.
End Files.
Print Assumptions C97_pgp.
(** A device on which PUT DATA changes the storage *)
Example C97_pgp_case : exists tr d, since_boot toy tr d /\ changes toy d (plain put_name) /\ ~ In "piv-pin" pgp_files.
Proof. destruct C37_ex as (tr & d & H1 & _ & H2). exists tr, d. split; [exact H1|]. split; [exact H2|]. cbn. intuition discriminate. Qed.
