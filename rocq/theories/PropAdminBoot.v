(** C96 for the administrator's applet: what switching the device on does to the stored PIN and configuration. *)
From Verif Require Import Sys Apdu Applet Pin PinProofs Admin PropAdmin PropAdminInstall.
Open Scope string_scope. Open Scope list_scope. Open Scope Z_scope.

(** C96.  On a device with a configuration and a PIN, switching on without storage errors changes nothing in the storage and writes
    nothing; the configuration in force is the stored one. *)
Theorem C96_admin_kept : forall X (x : X) F c, fdata F "admin_cfg" = Some [c] -> F "admin-pin" <> None ->
  let '(o, s, e) := booting x F [] in o = Ret true /\ e_fs e = F /\ e_log e = [F] /\ fst s = set_cfg c (admin_poweroff admin_boot).
Proof.
  intros X x F c HC HP. unfold booting, admin_install, upd_a, bind, modify, ret, get, get_file_size, read_file, pin_get_size, get_file_size, pop_fault, start. cbn [e_flt e_fs].
  unfold fdata, CFG_FILE in *. destruct (F "admin_cfg") as [f|] eqn:E; [|discriminate]. injection HC as HC. rewrite HC. change (zlen [c] =? 1) with true. cbn [negb e_flt e_fs]. rewrite ?E, ?HC. change (slice 0 1 [c]) with [c]. cbn [e_flt e_fs nth].
  change (pin_path admin_pin) with "admin-pin". destruct (F "admin-pin") as [g|] eqn:E2; [|elim HP; reflexivity]. cbn. rewrite ?E2. cbn. auto.
Qed.
Print Assumptions C96_admin_kept.

Lemma pin_anew {X} (s : @St X) F L R T O : wp (pin_create admin_pin default_pin 3) (fun o _ e => o = Ret 0 /\ new_pin (e_fs e)) s (mkE F L [] R T O).
Proof.
  unfold pin_create, RETRY_ATTR, DEFAULT_RETRY_ATTR. change (pin_path admin_pin) with "admin-pin". apply wp_bind, wp_write_file; [|intros N; elim N; reflexivity|intros N; elim N; reflexivity].
  intros X1 H1. rewrite (H1 eq_refl). clear H1 X1. cbn [negb].
  assert (N1 : fwrite F "admin-pin" default_pin 0 true "admin-pin" <> None).
  { intros E. pose proof (fdata_fwrite_trunc F "admin-pin" default_pin) as W. unfold fdata in W. rewrite E in W. discriminate. }
  pose proof (fdata_fwrite_trunc F "admin-pin" default_pin) as D1. set (F1 := fwrite F _ _ _ _) in *. clearbody F1.
  apply wp_bind, wp_write_attr; [|intros [N|N]; [elim N; reflexivity|congruence]]. intros _ X1 H1. rewrite (H1 eq_refl). clear H1 X1. cbn [negb].
  assert (N2 : fsetattr F1 "admin-pin" 0 [3] "admin-pin" <> None) by (unfold fsetattr; destruct (F1 "admin-pin"); [rewrite fset_same; discriminate|congruence]).
  apply wp_bind, wp_write_attr; [|intros [N|N]; [elim N; reflexivity|congruence]]. intros _ X1 H1. cbn [negb]. apply wp_ret. split; [reflexivity|]. cbn [e_fs].
  split; [rewrite !fdata_fsetattr; exact D1|]. rewrite !fattr_fsetattr by assumption. split; reflexivity.
Qed.
(** A storage error in the query for the PIN's file: the administrator's PIN is "123456" again with three attempts, whatever it was and
    however many attempts were left. *)
Theorem C96_admin_error_refuted : forall X (x : X) F c y, fdata F "admin_cfg" = Some [c] -> y <> FNone ->
  let '(o, _, e) := booting x F [FNone; FNone; y] in o = Ret true /\ new_pin (e_fs e).
Proof.
  intros X x F c y HC Hy.
  assert (V : wp (admin_install false) (fun o _ e => o = Ret true /\ new_pin (e_fs e)) (admin_boot, x) (start F [FNone; FNone; y] [] [])).
  { unfold fdata in HC. change "admin_cfg" with CFG_FILE in HC. destruct (F CFG_FILE) as [f|] eqn:E; [|discriminate]. injection HC as HC.
    unfold admin_install, upd_a, start. apply wp_bind, wp_modify. apply wp_bind, wp_bind. unfold wp at 1, get_file_size at 1, pop_fault. cbn [e_flt e_fs e_log e_rnd e_tch e_out]. rewrite E, HC. apply wp_ret.
    change (negb (zlen [c] =? 1)) with false. cbv iota. apply wp_bind, wp_bind. unfold wp at 1, read_file at 1, pop_fault. cbn [e_flt e_fs e_log e_rnd e_tch e_out]. rewrite E. apply wp_bind, wp_modify, wp_ret.
    cbn [negb]. apply wp_bind, wp_bind. unfold wp at 1, pin_get_size, get_file_size, pop_fault. cbn [e_flt e_fs e_log e_rnd e_tch e_out].
    destruct y; [elim Hy; reflexivity| |]; apply wp_ret; cbn [negb]; apply wp_bind; (eapply wp_mono; [apply pin_anew|]); intros o s' e' (-> & W); apply wp_ret; split; try reflexivity; exact W. }
  unfold booting. unfold wp in V. destruct (admin_install false _ _) as [[o s'] e']. exact V.
Qed.
Print Assumptions C96_admin_error_refuted.

(** A device with another PIN, one attempt left *)
Definition with_admin_pin : fs := fun p =>
  if String.eqb p "admin_cfg" then Some (mkF [3] (fun _ => None)) else
  if String.eqb p "admin-pin" then Some (mkF [57; 57; 57; 57; 57; 57; 57] (fun a => if a =? 0 then Some [1] else if a =? 1 then Some [3] else None)) else None.
Example C96_admin_case : fdata with_admin_pin "admin_cfg" = Some [3] /\ with_admin_pin "admin-pin" <> None /\
  fdata (e_fs (snd (booting tt with_admin_pin [FNone; FNone; FEarly]))) "admin-pin" = Some [49; 50; 51; 52; 53; 54].
Proof. split; [reflexivity|]. split; [discriminate|]. vm_compute. reflexivity. Qed.
