(** C97 for PIV: the applet touches only its own files. *)
From Verif Require Import Sys Apdu Applet Frame Pin PinProofs PinWp Tlv Key PropKey Piv PivSpec PropPivGa PivFrame PropPivAuth PropPivPin PivPins PropPivPuk.
Open Scope string_scope. Open Scope list_scope. Open Scope Z_scope.

(** ** Specification *)
(** Everything in the storage that is not one of the PIV files (their names begin with "piv-") is as in [F]. *)
Definition others (F G : fs) : Prop := forall p, ~ In p piv_files -> G p = F p.
Example piv_files_names : Forall (fun p => String.prefix "piv-" p = true) piv_files.
Proof. repeat constructor. Qed.

(** ** Proof *)
Lemma others_indep F p : In p piv_files -> indep (others F) p.
Proof. intros Hp G x HG q Hq. rewrite fset_other by (intros ->; contradiction). apply HG, Hq. Qed.
Lemma obj_file p : In p piv_objects -> In p piv_files.
Proof. intros H. apply in_or_app. left. exact H. Qed.
Lemma key_file id p : key_slot id = Some p -> In p piv_files.
Proof.
  unfold key_slot, get_key_path, CARD_ADMIN_KEY_PATH.
  repeat match goal with |- context [id =? ?n] => destruct (id =? n) end; intros H; try discriminate H; injection H as <-; cbn; tauto.
Qed.
Ltac fin A := apply A; first [assumption|apply obj_file; assumption|cbn; tauto].
Ltac frq A := repeat first
  [ match goal with
    | |- frame _ _ (bind get _) => apply fr_get_bind; intros ? ?
    | |- frame _ _ (match get_object_path_by_tag ?t with _ => _ end) =>
        let p := fresh "p" in let E := fresh "E" in destruct (get_object_path_by_tag t) as [p|] eqn:E; [apply tag_obj in E|]
    | |- frame _ _ (match key_slot ?t with _ => _ end) =>
        let p := fresh "p" in let E := fresh "E" in destruct (key_slot t) as [p|] eqn:E; [apply key_file in E|]
    | |- frame _ _ (if String.eqb (v_path ?s) "" then _ else _) => destruct (String.eqb_spec (v_path s) "")
    | H : objpath ?s, N : v_path ?s <> "" |- frame _ _ (append_file (v_path ?s) _) => apply fr_append_file, A, obj_file; destruct H; [contradiction|assumption]
    end
  | frame1 | apply fr_modify; setp
  | apply fr_write_file; fin A
  | apply fr_write_attr; fin A].
Section Files.
Variable K : crypto.
Lemma install_files P b : (forall p, In p piv_files -> indep P p) -> frame objpath P (piv_install b).
Proof. intros A. unfold piv_install; piv_unfold. frq A. Qed.
Lemma body_files P nfc t1 t2 c tail : (forall p, In p piv_files -> indep P p) -> frame objpath P (piv_body K nfc t1 t2 c tail).
Proof.
  intros A. unfold piv_body.
  apply fr_bind; [apply fr_guard|intros _]. apply fr_bind; [destruct (_ =? _); frq A|intros _]. apply fr_bind; [destruct (_ =? _); frq A|intros _].
  destruct (c_ins c =? 0xA4); [unfold piv_select; frq A|].
  destruct (c_ins c =? 0xCB). { unfold piv_get_data, piv_get_large_data; piv_unfold. frq A. }
  destruct (c_ins c =? 0xC0); [unfold piv_get_data_response; piv_unfold; frq A|].
  destruct (c_ins c =? 0x20). { unfold piv_verify; piv_unfold; frq A. }
  destruct (c_ins c =? 0x24). { unfold piv_change_reference_data; piv_unfold; destruct (c_p2 c =? 0x80); frq A. }
  destruct (c_ins c =? 0x2C). { unfold piv_reset_retry_counter; piv_unfold; frq A. }
  destruct (c_ins c =? 0x87).
  { unfold piv_general_authenticate, ga_internal, ga_external_request, ga_external_response, ga_mutual_request, ga_mutual_response, ga_ecdh,
      piv_security_status_check, piv_touch; piv_unfold. cbv zeta. frq A. }
  destruct (c_ins c =? 0xDB). { unfold piv_put_data, admin_only; piv_unfold. frq A. }
  destruct (c_ins c =? 0x47). { unfold piv_generate, admin_only; piv_unfold. frq A. }
  destruct (c_ins c =? 0xFF); [unfold piv_set_management_key, admin_only; piv_unfold; frq A|].
  destruct (c_ins c =? 0xFB). { unfold piv_reset; piv_unfold; frq A. apply fr_ignore, install_files, A. }
  destruct (c_ins c =? 0xFE). { unfold piv_import, admin_only; piv_unfold. frq A. }
  destruct (c_ins c =? 0xFD); [unfold piv_get_version; piv_unfold; frq A|].
  destruct (c_ins c =? 0xF8); [unfold piv_get_serial; piv_unfold; frq A|].
  destruct (c_ins c =? 0xF7); [unfold piv_get_metadata; piv_unfold; frq A|].
  destruct (c_ins c =? 0xEE). { unfold piv_algorithm_extension, admin_only; piv_unfold. frq A. }
  apply fr_except.
Qed.
Lemma boot_others F flt rnd : others F (d_fs (boot F flt rnd)).
Proof.
  unfold boot, installed. pose proof (frame_run objpath (others F) (piv_install false) piv_boot F flt rnd [] (install_files _ false (others_indep F)) (or_introl eq_refl) (fun p _ => eq_refl)) as W.
  destruct (piv_install _ _ _) as [[o s] e]. apply W.
Qed.
Lemma exec_others d x : objpath (d_ram d) -> let '(_, _, e) := exec K d x in others (d_fs d) (e_fs e) /\ Forall (others (d_fs d)) (e_log e).
Proof.
  intros H. pose proof (frame_apdu objpath (others (d_fs d)) _ (d_ram d) (d_fs d) (x_flt x) (x_rnd x) (x_tch x) (body_files _ (x_nfc x) (x_t1 x) (x_t2 x) (x_apdu x) (x_tail x) (others_indep (d_fs d))) H (fun p _ => eq_refl)) as W.
  unfold exec. destruct (run_apdu _ _ _) as [[r s'] e']. apply W.
Qed.
Lemma inst_others d flt rnd : objpath (d_ram d) -> let '(_, _, e) := installed true (d_ram d) (d_fs d) flt rnd in others (d_fs d) (e_fs e) /\ Forall (others (d_fs d)) (e_log e).
Proof.
  intros H. pose proof (frame_run objpath (others (d_fs d)) (piv_install true) (d_ram d) (d_fs d) flt rnd [] (install_files _ true (others_indep _)) H (fun p _ => eq_refl)) as W.
  unfold installed. destruct (piv_install _ _ _) as [[o s] e]. apply W.
Qed.
Lemma nth_others (L : list fs) n F G : others F G -> Forall (others F) L -> others F (nth n L G).
Proof. intros H HL. revert n. induction HL; intros [|n]; cbn; auto. Qed.
(** C97.  Whatever happened since the device was switched on: no PIV command, reset by the administrator, power loss at any point or boot,
    with whatever storage errors, changes a file of another applet. *)
Theorem C97_piv tr d v o d' p : since_boot K tr d -> (forall F, v <> Other F) -> step K d v = Some (o, d') -> ~ In p piv_files -> d_fs d' p = d_fs d p.
Proof.
  intros Hb Hv Hs Hp. assert (Ho : objpath (d_ram d)) by (eapply since_obj; exact Hb).
  destruct v as [x|x n flt rnd| |flt rnd|flt rnd n flt' rnd'|F]; [| | | | |elim (Hv F); reflexivity]; cbn [step] in Hs.
  - pose proof (exec_others d x Ho) as W. destruct (exec K d x) as [[[a|] s] e]; [|discriminate]. injection Hs as _ <-. apply W, Hp.
  - pose proof (exec_others d x Ho) as W. destruct (exec K d x) as [[a s] e]. injection Hs as _ <-. rewrite (boot_others _ flt rnd p Hp). apply nth_others; [apply W|apply W|exact Hp].
  - injection Hs as _ <-. reflexivity.
  - pose proof (inst_others d flt rnd Ho) as W. destruct (installed _ _ _ _ _) as [[a s] e]. injection Hs as _ <-. apply W, Hp.
  - pose proof (inst_others d flt rnd Ho) as W. destruct (installed _ _ _ _ _) as [[a s] e]. injection Hs as _ <-. rewrite (boot_others _ flt' rnd' p Hp). apply nth_others; [apply W|apply W|exact Hp].
Qed.
End Files.
Print Assumptions C97_piv.
(** A device on which PUT DATA changes the storage *)
Example C97_piv_case : exists tr d, since_boot toy tr d /\ changes toy d (plain put_data) /\ ~ In "ctap_dc" piv_files.
Proof. destruct C29_ex as (tr & d & H1 & _ & H2 & _). exists tr, d. split; [exact H1|]. split; [exact H2|]. cbn. intuition discriminate. Qed.
