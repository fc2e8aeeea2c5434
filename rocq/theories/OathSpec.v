(** The OATH applet as its users see it: a device that is booted, receives commands, is touched, is
    configured, loses power at any moment; and the vocabulary in which its properties are stated. *)
From Verif Require Import Sys Apdu Applet Pass Oath.
Open Scope string_scope. Open Scope list_scope. Open Scope Z_scope.

Definition digest_ok (n : Z) (f : bytes -> bytes -> bytes) : Prop :=
  forall k m, zlen (f k m) = n /\ all_bytes (f k m).

(** The device: the applet's RAM and the flash storage. *)
Record dev := mkDev { d_ram : oath; d_fs : fs }.

(** What may happen to the device.  [flt] are the storage errors met (none: []), [rnd] the random bytes
    drawn, [tch] the results of the waits for a touch.  In the [Cut...] events power is lost before the end:
    the storage is left as it was after the [n]-th write and the device boots again. *)
Inductive event :=
| Cmd (nfc : bool) (c : capdu) (flt : list fault) (rnd : bytes) (tch : list Z)
| Touch (kind : Z) (flt : list fault)                       (* keyboard touch: 1 short, 2 long *)
| Conf (c : capdu) (flt : list fault)                       (* admin applet: write touch-slot configuration *)
| PowerOff                                                  (* applet deselected / card reset *)
| CutCmd (nfc : bool) (c : capdu) (flt : list fault) (rnd : bytes) (tch : list Z) (n : nat)
| CutTouch (kind : Z) (flt : list fault) (n : nat)
| CutConf (c : capdu) (flt : list fault) (n : nat).

Inductive obs := Resp (r : rapdu) | Typed (t : option bytes) | Nothing.

(** src/applets.c:11-19: the two installations the OATH applet depends on, on a freshly powered device *)
Definition oboot (F : fs) (rnd : bytes) : dev :=
  match (oath_install false ;;; pass_install o_slots oset_slots false) oath_boot (start F [] rnd []) with
  | (_, s, e) => mkDev s (e_fs e)
  end.

Section Dev.
Variables hmac_sha1 hmac_sha256 hmac_sha512 : bytes -> bytes -> bytes.
Variable junk : bytes.

Definition cmd_run nfc c flt rnd tch (d : dev) : option rapdu * oath * env :=
  oath_process_apdu hmac_sha1 hmac_sha256 hmac_sha512 junk nfc c (d_ram d) (start (d_fs d) flt rnd tch).
Definition touch_run kind flt (d : dev) : out (option bytes) * oath * env :=
  pass_handle_touch hmac_sha1 hmac_sha256 hmac_sha512 junk kind (d_ram d) (start (d_fs d) flt [] []).
Definition conf_run c flt (d : dev) : option rapdu * oath * env :=
  run_apdu (pass_write_config o_slots oset_slots c) (d_ram d) (start (d_fs d) flt [] []).
Definition after_cut (e : env) (n : nat) : dev := oboot (nth n (e_log e) (e_fs e)) [].

(** One event; [None]: undefined behaviour. *)
Definition step (d : dev) (ev : event) : option (obs * dev) :=
  match ev with
  | Cmd nfc c flt rnd tch =>
    match cmd_run nfc c flt rnd tch d with
    | (Some r, s, e) => Some (Resp r, mkDev s (e_fs e))
    | _ => None
    end
  | Touch kind flt =>
    match touch_run kind flt d with
    | (Ret t, s, e) => Some (Typed t, mkDev s (e_fs e))
    | _ => None
    end
  | Conf c flt =>
    match conf_run c flt d with
    | (Some r, s, e) => Some (Resp r, mkDev s (e_fs e))
    | _ => None
    end
  | PowerOff => Some (Nothing, mkDev (oath_poweroff (d_ram d)) (d_fs d))
  | CutCmd nfc c flt rnd tch n => let '(_, _, e) := cmd_run nfc c flt rnd tch d in Some (Nothing, after_cut e n)
  | CutTouch kind flt n => let '(_, _, e) := touch_run kind flt d in Some (Nothing, after_cut e n)
  | CutConf c flt n => let '(_, _, e) := conf_run c flt d in Some (Nothing, after_cut e n)
  end.

(** A history with what was observed. *)
Inductive hist : dev -> list (event * obs) -> dev -> Prop :=
| hist_nil d : hist d [] d
| hist_cons d ev o d1 tr d2 : step d ev = Some (o, d1) -> hist d1 tr d2 -> hist d ((ev, o) :: tr) d2.
End Dev.

(** Command data are bytes. *)
Definition ev_ok (ev : event) : Prop :=
  match ev with
  | Cmd _ c _ rnd _ | CutCmd _ c _ rnd _ _ => all_bytes (c_data c) /\ all_bytes rnd
  | Conf c _ | CutConf c _ _ => all_bytes (c_data c)
  | _ => True
  end.
(** No storage error happens during the event. *)
Definition ev_nofault (ev : event) : Prop :=
  match ev with
  | Cmd _ _ flt _ _ | CutCmd _ _ flt _ _ _ | Touch _ flt | CutTouch _ flt _ | Conf _ flt | CutConf _ flt _ => flt = []
  | PowerOff => True
  end.
Definition tr_ok (tr : list (event * obs)) : Prop := Forall (fun x => ev_ok (fst x)) tr.
Definition tr_nofault (tr : list (event * obs)) : Prop := Forall (fun x => ev_nofault (fst x)) tr.

(** ** The credential store seen from outside *)
Record cred := mkCred { cr_name : bytes; cr_key : bytes; cr_prop : Z }.
(** cr_key: type and algorithm byte, number of digits, secret *)

(** Layout of a stored credential (include/oath.h:53-63) *)
Definition cred_of (r : bytes) : cred :=
  mkCred (slice 1 (nth 0 r 0) r) (slice 66 (nth 65 r 0) r) (nth 132 r 0).
Definition ctr_of (r : bytes) : Z := be (slice 133 8 r).
Definition used (r : bytes) : bool := negb (nth 0 r 0 =? 0).
(** The storage holds the records [rs], in slot order. *)
Definition records (F : fs) (rs : list bytes) : Prop :=
  fdata F "oath" = Some (concat rs) /\ Forall (fun r => zlen r = 141) rs.
(** The credentials held by the device, in slot order. *)
Definition holds (d : dev) (A : list cred) : Prop :=
  exists rs, records (d_fs d) rs /\ A = map cred_of (filter used rs).
(** The device holds credential [x] with moving factor (HOTP) or last challenge (TOTP) [v]. *)
Definition holds_ctr (d : dev) (x : cred) (v : Z) : Prop :=
  exists rs r, records (d_fs d) rs /\ In r (filter used rs) /\ cred_of r = x /\ ctr_of r = v.

(** Names in commands: tag 71, length, name. *)
Definition arg1 (c : capdu) : bytes := slice 2 (nth 1 (c_data c) 0) (c_data c).
Definition arg2 (c : capdu) : bytes := (* second name, after the first *)
  let o := 2 + nth 1 (c_data c) 0 in slice (o + 2) (nth (Z.to_nat (o + 1)) (c_data c) 0) (c_data c).
(** The credential described by PUT data: 71 len name 73 len key [78 property] [7A 4 counter] *)
Definition put_cred (c : capdu) : cred :=
  let d := c_data c in
  let o := 2 + nth 1 d 0 in
  let kl := nth (Z.to_nat (o + 1)) d 0 in
  let p := o + 2 + kl in
  mkCred (arg1 c) (slice (o + 2) kl d) (if nth (Z.to_nat p) d 0 =? 0x78 then nth (Z.to_nat (p + 1)) d 0 else 0).

Definition rename_in (old new : bytes) (x : cred) : cred :=
  if beqb (cr_name x) old then mkCred new (cr_key x) (cr_prop x) else x.
Definition not_named (n : bytes) (x : cred) : bool := negb (beqb (cr_name x) n).
(** Effect on the store of a command that was carried out. *)
Definition apply_cmd (c : capdu) (A : list cred) : list cred :=
  if c_ins c =? 0x01 then put_cred c :: A
  else if c_ins c =? 0x02 then filter (not_named (arg1 c)) A
  else if c_ins c =? 0x05 then map (rename_in (arg1 c) (arg2 c)) A
  else A.
(** The store expected after a history, from the commands and the status words alone.  A command cut by a
    power loss may or may not have been carried out. *)
Inductive expected : list cred -> list (event * obs) -> list cred -> Prop :=
| ex_nil A : expected A [] A
| ex_done A nfc c flt rnd tch r tr A' : r_sw r = 0x9000 -> expected (apply_cmd c A) tr A' ->
    expected A ((Cmd nfc c flt rnd tch, Resp r) :: tr) A'
| ex_refused A nfc c flt rnd tch r tr A' : r_sw r <> 0x9000 -> expected A tr A' ->
    expected A ((Cmd nfc c flt rnd tch, Resp r) :: tr) A'
| ex_cut A nfc c flt rnd tch n o tr A' : expected (apply_cmd c A) tr A' ->
    expected A ((CutCmd nfc c flt rnd tch n, o) :: tr) A'
| ex_other A ev o tr A' : (forall nfc c flt rnd tch, ev <> Cmd nfc c flt rnd tch) -> expected A tr A' ->
    expected A ((ev, o) :: tr) A'.

(** Following one credential through a history by its name: renamed when RENAME succeeds; no longer followed
    ([None]) once it is deleted, or when a RENAME or DELETE of it is cut by a power loss. *)
Fixpoint follow (t : bytes) (tr : list (event * obs)) : option bytes :=
  match tr with
  | [] => Some t
  | (Cmd _ c _ _ _, Resp r) :: tr =>
    if (c_ins c =? 0x02) && beqb (arg1 c) t && (r_sw r =? 0x9000) then None
    else if (c_ins c =? 0x05) && beqb (arg1 c) t && (r_sw r =? 0x9000) then follow (arg2 c) tr
    else follow t tr
  | (CutCmd _ c _ _ _ _, _) :: tr =>
    if ((c_ins c =? 0x02) || (c_ins c =? 0x05)) && beqb (arg1 c) t then None else follow t tr
  | _ :: tr => follow t tr
  end.

(** ** Codes (RFC 4226, RFC 6238) *)
Section Codes.
Variables hmac_sha1 hmac_sha256 hmac_sha512 : bytes -> bytes -> bytes.
Definition alg (x : cred) : Z := Z.land (nth 0 (cr_key x) 0) 0x0F.
Definition is_hotp (x : cred) : Prop := Z.land (nth 0 (cr_key x) 0) 0xF0 = 0x10.
Definition is_totp (x : cred) : Prop := Z.land (nth 0 (cr_key x) 0) 0xF0 = 0x20.
Definition ndigits (x : cred) : Z := nth 1 (cr_key x) 0.
Definition secret (x : cred) : bytes := skipn 2 (cr_key x).
Definition mac (x : cred) (m : bytes) : bytes :=
  if alg x =? 1 then hmac_sha1 (secret x) m else if alg x =? 2 then hmac_sha256 (secret x) m else hmac_sha512 (secret x) m.
(** RFC 4226 section 5.3: the 31-bit integer at the offset given by the low four bits of the last byte *)
Definition dt (h : bytes) : Z := be (slice (last h 0 mod 16) 4 h) mod 2 ^ 31.
(** Response to CALCULATE: full digest (P2 = 0) or truncated (P2 = 1) *)
Definition code_resp (trunc : bool) (x : cred) (m : bytes) : bytes :=
  if trunc then [0x76; 5; ndigits x] ++ to_be 4 (dt (mac x m))
  else [0x75; 1 + zlen (mac x m); ndigits x] ++ mac x m.
End Codes.

(** A LIST entry *)
Definition list_entry (x : cred) : bytes := [0x72; zlen (cr_name x) + 1; nth 0 (cr_key x) 0] ++ cr_name x.
