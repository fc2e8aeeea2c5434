(** C96 for the NDEF tag: what switching the device on does to the stored message. *)
From Verif Require Import Sys Apdu Applet Ndef PropNdef PropNdefInstall.
Open Scope string_scope. Open Scope list_scope. Open Scope Z_scope.

(** C96.  On a device with a capability container and a message, switching on changes nothing in the storage and writes nothing, unless one
    of the first two accesses fails. *)
Theorem C96_ndef_kept : forall F flt c d, fdata F "E103" = Some c -> zlen c = 15 -> fdata F "NDEF" = Some d -> d <> [] -> nth 0 flt FNone = FNone -> nth 1 flt FNone = FNone ->
  let '(_, _, e) := booting F flt in e_fs e = F /\ e_log e = [F].
Proof.
  intros F flt c d HC Lc HD Nd Hf Hg. assert (V : wp (ndef_install getn setn false) (fun _ _ e => e_fs e = F /\ e_log e = [F]) ndef_boot (start F flt [] [])).
  { assert (SZ : forall p v (X : list fault) s, fdata F p = Some v -> hd FNone X = FNone -> get_file_size p s (mkE F [F] X [] [] []) = (Ret (Some (zlen v)), s, mkE F [F] (tl X) [] [] []) :> out (option Z) * ndef * env).
    { intros p v X s Hp HX. unfold get_file_size, pop_fault. cbn [e_flt]. unfold fdata in Hp. destruct (F p) as [f|] eqn:E; [|discriminate]. injection Hp as <-. destruct X as [|[| |] X]; try discriminate HX; cbn; rewrite E; reflexivity. }
    assert (H1 : hd FNone flt = FNone) by (destruct flt; exact Hf).
    assert (H2 : hd FNone (tl flt) = FNone) by (destruct flt as [|y [|z flt]]; exact Hg).
    unfold ndef_install, start. apply wp_bind. unfold upd_n at 1. apply wp_modify. apply wp_bind, wp_bind. unfold wp at 1. change CC_FILE with "E103". change NDEF_FILE with "NDEF". rewrite (SZ _ _ _ _ HC H1). rewrite Lc. change (negb (15 =? CC_LENGTH)) with false. cbv iota.
    apply wp_bind. unfold wp at 1. rewrite (SZ _ _ _ _ HD H2). apply wp_ret.
    assert (E : (zlen d <=? 0) = false) by (destruct d; [congruence|]; unfold zlen; cbn [length]; lia). rewrite E.
    apply wp_bind, wp_read_file. intros X' [r|] _ _; [unfold upd_n; apply wp_bind, wp_modify|]; apply wp_ret; auto. }
  unfold booting. unfold wp in V. destruct (ndef_install _ _ _ _ _) as [[o s'] e']. exact V.
Qed.
Print Assumptions C96_ndef_kept.

(** A storage error in the first access: the message is replaced by that of a new tag, whatever it was, and a tag set to read-only can be
    written again. *)
Theorem C96_ndef_error_refuted : forall F y, y <> FNone -> let '(o, _, e) := booting F [y] in o = Ret true /\ new_tag (e_fs e).
Proof.
  intros F y Hy. assert (V : wp (ndef_install getn setn false) (fun o _ e => o = Ret true /\ new_tag (e_fs e)) ndef_boot (start F [y] [] [])).
  { unfold ndef_install, start. apply wp_bind. unfold upd_n at 1. apply wp_modify. apply wp_bind, wp_bind.
    assert (S : forall s, get_file_size CC_FILE s (mkE F [F] [y] [] [] []) = (Ret None, s, mkE F [F] [] [] [] []) :> out (option Z) * ndef * env) by (intros s; destruct y; [elim Hy; reflexivity|reflexivity|reflexivity]).
    unfold wp at 1. rewrite S. cbn [negb]. apply wp_ret. unfold upd_n. apply wp_bind, wp_modify. apply wp_bind. unfold ndef_create_init_ndef. change CC_FILE with "E103". change NDEF_FILE with "NDEF".
    apply wp_bind, wp_write_file; [|intros N; elim N; reflexivity|intros N; elim N; reflexivity]. intros X1 H1. rewrite (H1 eq_refl). clear H1 X1. cbn [negb].
    pose proof (fdata_fwrite_trunc F "NDEF" init_data) as D1. set (F1 := fwrite F _ _ _ _) in *. clearbody F1. unfold fdata in D1. destruct (F1 "NDEF") as [f|] eqn:E1; [|discriminate]. injection D1 as D1.
    assert (T : forall s, truncate_file "NDEF" NDEF_FILE_MAX_LENGTH s (mkE F1 (F1 :: lcreate F [F] "NDEF") [] [] [] []) = 
      (Ret true, s, let G := fset F1 "NDEF" (Some (mkF (firstn (Z.to_nat NDEF_FILE_MAX_LENGTH) (f_data f) ++ zeros (NDEF_FILE_MAX_LENGTH - zlen (f_data f))) (f_attr f))) in mkE G (G :: F1 :: lcreate F [F] "NDEF") [] [] [] []) :> out bool * ndef * env).
    { intros s. unfold truncate_file, pop_fault. cbn [e_flt e_fs]. rewrite E1. cbn [e_fs]. rewrite E1. reflexivity. }
    unfold wp at 1. rewrite T. cbv zeta. cbn [negb].
    set (G := fset F1 _ _). assert (DG : fdata G "NDEF" = Some new_message) by (unfold G, fdata; rewrite fset_same; cbn [f_data]; rewrite D1; vm_compute; reflexivity). clearbody G.
    apply wp_bind. unfold wp at 1, get. apply wp_write_file; [|intros N; elim N; reflexivity|intros N; elim N; reflexivity]. intros X1 _. split; [reflexivity|]. cbn [e_fs]. split; [apply fdata_fwrite_trunc|].
    unfold fdata in *. rewrite fwrite_other by discriminate. exact DG. }
  unfold booting. unfold wp in V. destruct (ndef_install _ _ _ _ _) as [[o s'] e']. exact V.
Qed.
Print Assumptions C96_ndef_error_refuted.

(** A read-only tag with another message *)
Definition with_message : fs := fun p =>
  if String.eqb p "E103" then Some (mkF (cc true) (fun _ => None)) else
  if String.eqb p "NDEF" then Some (mkF ([0; 3; 0xD0; 0; 0] ++ repeat 0 1019) (fun _ => None)) else None.
Example C96_ndef_case : fdata with_message "E103" = Some (cc true) /\ zlen (cc true) = 15 /\
  fdata (e_fs (snd (booting with_message [FEarly]))) "E103" = Some (cc false) /\ fdata (e_fs (snd (booting with_message []))) "E103" = Some (cc true).
Proof. vm_compute. repeat split. Qed.
