(** C96 for OpenPGP: what switching the device on does to the stored data. *)
From Verif Require Import Sys Apdu Applet Frame Pin PinProofs Tlv Key PropKey Pgp PgpSpec PgpFlags PropPgpAccess PropPgpCount PropPgpTouch PropPgpEnd.
Open Scope string_scope. Open Scope list_scope. Open Scope Z_scope.

(** C96.  On a card that was installed before, switching on changes nothing in the storage and writes nothing, unless the first access
    fails. *)
Theorem C96_pgp_kept : forall F flt, F "pgp-data" <> None -> hd FNone flt = FNone ->
  let '(o, _, e) := installed false pgp_boot F flt in o = Ret tt /\ e_fs e = F /\ e_log e = [F].
Proof.
  intros F flt HF Hf. unfold installed, pgp_install, bind, modify, ret, get_file_size, pop_fault, start. cbn [e_flt e_fs]. unfold DATA_PATH.
  destruct (F "pgp-data") as [f|] eqn:E; [|elim HF; reflexivity].
  destruct flt as [|[| |] flt]; try discriminate Hf; cbn [e_fs e_flt]; rewrite ?E; auto.
Qed.
Print Assumptions C96_pgp_kept.

(** A storage error in the first access: it is taken for a card that was never installed.  Keys, certificates, data objects and all
    passwords are replaced by the factory settings, whatever they were; a terminated card is in use again. *)
Theorem C96_pgp_error_refuted : forall F x, x <> FNone ->
  let '(o, _, e) := installed false pgp_boot F [x] in o = Ret tt /\ factory (e_fs e).
Proof.
  intros F x Hx. unfold installed.
  set (Q := fun (o : out unit) (_ : pgp) e => o = Ret tt /\ factory (e_fs e)).
  assert (HI : wp (pgp_install true) Q pgp_boot (mkE F [F] [] [] [] [])).
  { apply (install_ok F _ []); [auto|constructor; [right; reflexivity|constructor]|..].
    - intros F' L' X' s' HF _. split; [reflexivity|exact HF].
    - intros F' L' X' s' N. elim N. reflexivity. }
  assert (W : pgp_install false pgp_boot (start F [x] [] []) = pgp_install true pgp_boot (mkE F [F] [] [] [] [])).
  { unfold pgp_install, bind at 1, modify at 1, start. symmetry. unfold bind at 1, modify at 1. symmetry.
    unfold bind at 1. symmetry. unfold bind at 1. symmetry. unfold bind at 1, get_file_size at 1, pop_fault. cbn [e_flt]. destruct x; [elim Hx; reflexivity|reflexivity|reflexivity]. }
  rewrite W. unfold wp in HI. destruct (pgp_install true _ _) as [[o s] e]. exact HI.
Qed.
Print Assumptions C96_pgp_error_refuted.

(** A card with another PW1: switched on without an error it keeps it; after an error it has "123456" again. *)
Definition with_pw1 : fs := fun p =>
  if String.eqb p "pgp-data" then Some (mkF [] (fun a => if a =? 0xFC then Some [0] else None)) else
  if String.eqb p "pgp-pw1" then Some (mkF [57; 57; 57; 57; 57; 57] (fun a => if (a =? 0) || (a =? 1) then Some [3] else None)) else None.
Example C96_pgp_case : with_pw1 "pgp-data" <> None /\
  fdata (d_fs (boot with_pw1 [])) "pgp-pw1" = Some [57; 57; 57; 57; 57; 57] /\
  fdata (d_fs (boot with_pw1 [FEarly])) "pgp-pw1" = Some [0x31; 0x32; 0x33; 0x34; 0x35; 0x36].
Proof. split; [discriminate|]. vm_compute. split; reflexivity. Qed.
