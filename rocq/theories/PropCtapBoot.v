(** C96 for FIDO: what switching the device on does to the stored data. *)
From Verif Require Import CtapSpec CtapFrame CtapExec CtapRel CtapCred CtapToy CtapStore PropCtapCrash PropCtapOwn PropCtapKept.
Open Scope string_scope. Open Scope list_scope. Open Scope Z_scope.

(** C96.  On an installed device ([ctap_lb] is the file written last by the installation) switching on changes nothing in the storage and
    writes nothing, unless the first access fails.  (If it fails: C95_boot_error_refuted.) *)
Theorem C96_ctap_kept : forall K F flt rnd, F "ctap_lb" <> None -> hd FNone flt = FNone ->
  let '(_, _, e) := ctap_install K false ctap_boot (start F flt rnd []) in e_fs e = F /\ e_log e = [F].
Proof.
  intros K F flt rnd HF Hf.
  assert (V : wp (ctap_install K false) (fun _ _ e => e_fs e = F /\ e_log e = [F]) ctap_boot (start F flt rnd [])).
  { unfold ctap_install. apply wp_bind, wp_modify. apply wp_bind, wp_modify. apply wp_bind. set (s0 := set_last _ _). clearbody s0.
    apply wp_mono with (Q := fun o _ e => e_fs e = F /\ e_log e = [F] /\ e_flt e = flt /\ match o with Ret _ => True | _ => False end).
    - unfold cp_initialize, cp_regenerate, cp_reset_token. apply wp_bind, wp_bind. unfold wp at 1, random_buffer. apply wp_modify. apply wp_bind. unfold wp at 1, random_buffer. apply wp_modify. cbn. auto.
    - intros [u|w| |] s e (H1 & HL & H2 & H3); try destruct H3. destruct e as [G L X R T O]. cbn [e_fs e_flt e_log] in *. subst G X L. apply wp_bind.
      assert (S : get_file_size LB_FILE s (mkE F [F] flt R T O) = (Ret (match F LB_FILE with Some f => Some (zlen (f_data f)) | None => None end), s, mkE F [F] (tl flt) R T O)).
      { unfold get_file_size, pop_fault. cbn [e_flt]. destruct flt as [|[| |] flt]; try discriminate Hf; cbn; destruct (F LB_FILE); reflexivity. }
      unfold wp at 1. rewrite S. change "ctap_lb" with LB_FILE in HF. destruct (F LB_FILE) as [f|]; [|elim HF; reflexivity].
      apply wp_bind. unfold got. apply wp_bind. apply wp_read_attr. intros X2 r2 _ _. destruct r2; [apply wp_ret; apply wp_modify; cbn; auto|cbn; auto]. }
  unfold wp in V. destruct (ctap_install K false ctap_boot _) as [[o s] e]. exact V.
Qed.
Print Assumptions C96_ctap_kept.
(** A device with a resident credential *)
Example C96_ctap_case : exists tr d r, hist toyf fresh_dev tr d /\ d_fs d "ctap_lb" <> None /\ shown_at (d_fs d) 0 = Some r.
Proof.
  destruct (play_case toyf fresh_dev h53 (fun _ d => match d_fs d "ctap_lb" with Some _ => true | None => false end && match shown_at (d_fs d) 0 with Some _ => true | None => false end)) as (tr & d & H1 & H2 & _); [vm_compute; reflexivity|].
  destruct (shown_at (d_fs d) 0) as [r|] eqn:E; [|rewrite andb_false_r in H2; discriminate]. exists tr, d, r. split; [exact H1|]. split; [|exact E]. destruct (d_fs d "ctap_lb"); discriminate.
Qed.
