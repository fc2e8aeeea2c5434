(** C96 for PIV: what switching the device on does to the stored data. *)
From Verif Require Import Sys Apdu Applet Frame Pin Key Piv PivSpec Script PropPivInstall.
Open Scope string_scope. Open Scope list_scope. Open Scope Z_scope.

(** C96.  On a card that was installed before ([piv-alg] is the file written last by the installation) switching on changes nothing in the
    storage and writes nothing, whatever storage errors occur after the first access. *)
Theorem C96_piv_kept : forall F flt rnd, F "piv-alg" <> None -> hd FNone flt = FNone ->
  let '(o, _, e) := installed false piv_boot F flt rnd in e_fs e = F /\ e_log e = [F] /\ (flt = [] -> o = Ret tt).
Proof.
  intros F flt rnd HF Hf. unfold installed, piv_install, bind, modify, ret, get_file_size, got, read_file, pop_fault, start. unfold bind. cbn [e_flt e_fs]. unfold ALGORITHM_EXT_CONFIG_PATH in *.
  destruct (F "piv-alg") as [f|] eqn:E; [|elim HF; reflexivity].
  destruct flt as [|[| |] flt]; try discriminate Hf; cbn [e_fs e_flt]; rewrite ?E.
  - cbn [e_fs e_flt]. rewrite E. destruct (zlen (f_data f) <? 0); cbn; auto.
  - cbn [e_flt e_fs]. destruct flt as [|[| |] flt]; cbn [e_fs]; rewrite ?E; try destruct (zlen (f_data f) <? 0); cbn; (split; [reflexivity|]; split; [reflexivity|discriminate]).
Qed.
Print Assumptions C96_piv_kept.

(** A storage error in the first access: it is taken for a card that was never installed.  Keys, certificates, data objects, PIN, PUK and
    management key are replaced by those of a new card, whatever they were. *)
Theorem C96_piv_error_refuted : forall F x rnd, x <> FNone ->
  let '(o, _, e) := installed false piv_boot F [x] rnd in o = Ret tt /\ new_card (e_fs e).
Proof.
  intros F x rnd Hx. unfold installed.
  set (Q := fun (o : out unit) (_ : piv) e => o = Ret tt /\ new_card (e_fs e)).
  assert (HI : wp (piv_install true) Q piv_boot (mkE F [F] [] rnd [] [])).
  { unfold wp. rewrite install_eq. change (wp (script None items finish) Q (piv_poweroff piv_boot) (mkE F [F] [] rnd [] [])).
    apply script_wp; [apply items_ok| |intros X' R' L' F' N; elim N; reflexivity].
    intros X' R' L' HX' _. rewrite (HX' eq_refl). clear HX' X'. pose proof (items_new rnd F) as HC. set (F1 := effs items rnd F) in *. clearbody F1.
    unfold finish. apply wp_bind, wp_get_file_size. intros X2 r HX2 _. destruct (HX2 eq_refl) as (-> & _).
    destruct (match r with Some n => n =? 7 | None => false end); [apply wp_ret; split; [reflexivity|exact HC]|].
    apply wp_bind, wp_modify. unfold must, ALGORITHM_EXT_CONFIG_PATH. apply wp_bind, wp_write_file.
    - intros X3 _. apply wp_ret. split; [reflexivity|]. cbn [e_fs]. unfold fwrite, fcreate. destruct (F1 "piv-alg") eqn:E; rewrite ?E, ?fset_same; repeat (apply new_card_other; [reflexivity|]); exact HC.
    - intros N. elim N. reflexivity.
    - intros N. elim N. reflexivity. }
  assert (W : piv_install false piv_boot (start F [x] rnd []) = piv_install true piv_boot (mkE F [F] [] rnd [] [])).
  { unfold piv_install, bind at 1, modify at 1, start. symmetry. unfold bind at 1, modify at 1. symmetry.
    unfold bind at 1. symmetry. unfold bind at 1. symmetry. unfold bind at 1, get_file_size at 1, pop_fault. cbn [e_flt]. destruct x; [elim Hx; reflexivity|reflexivity|reflexivity]. }
  rewrite W. unfold wp in HI. destruct (piv_install true _ _) as [[o s] e]. exact HI.
Qed.
Print Assumptions C96_piv_error_refuted.

(** A card with another PIN: switched on without an error it keeps it; after an error it has "123456" again. *)
Definition with_pin : fs := fun p =>
  if String.eqb p "piv-alg" then Some (mkF default_ext (fun _ => None)) else
  if String.eqb p "piv-pin" then Some (mkF [57; 57; 57; 57; 57; 57; 0xFF; 0xFF] (fun a => if (a =? 0) || (a =? 1) then Some [3] else None)) else None.
Example C96_piv_case : with_pin "piv-alg" <> None /\
  fdata (d_fs (boot with_pin [] [])) "piv-pin" = Some [57; 57; 57; 57; 57; 57; 0xFF; 0xFF] /\
  fdata (d_fs (boot with_pin [FEarly] [])) "piv-pin" = Some [49; 50; 51; 52; 53; 54; 0xFF; 0xFF].
Proof. split; [discriminate|]. vm_compute. split; reflexivity. Qed.
