(** Model of applets/admin/admin.c: the administrator's applet (build without FUZZ, weak vendor functions). *)
From Verif Require Export Applet Pin.
Open Scope string_scope. Open Scope list_scope. Open Scope Z_scope.

Definition SN_FILE : path := "sn".                      (* admin.c:14-16 *)
Definition CFG_FILE : path := "admin_cfg".
(** admin.c:18 *)
Definition admin_pin : pin_t := mkPin "admin-pin" 6 PIN_MAX_LENGTH.
Definition default_pin : bytes := [49; 50; 51; 52; 53; 54].   (* "123456" *)
Definition RESET_DATA : bytes := [82; 69; 83; 69; 84].        (* "RESET" *)

(** admin.c:18, 22: [pin.is_validated] and [current_config] *)
Record admin := mkA { a_ok : bool; a_led : bool; a_ndef : bool; a_web : bool }.
(** statics at power-on *)
Definition admin_boot : admin := mkA false false false false.
(** include/admin.h:37-41: one packed byte, bits from the lowest *)
Definition cfg_byte (a : admin) : Z := Z.b2z (a_led a) + 2 * Z.b2z (a_ndef a) + 4 * Z.b2z (a_web a).
Definition set_cfg (b : Z) (a : admin) : admin := mkA (a_ok a) (Z.testbit b 0) (Z.testbit b 1) (Z.testbit b 2).
Definition set_ok (v : bool) (a : admin) : admin := mkA v (a_led a) (a_ndef a) (a_web a).

(** The other applets' variables have type [X]; ADMIN reaches them through
    - [ext ins c]: the command functions of other applets called at admin.c:249, 252, 267, 276, 279, 297, 300;
    - [inst ins]: their [*_install(1)], named by the ADMIN instruction that resets them (admin.c:255-273);
    - [ro x]: [ndef_get_read_only()] (admin.c:144);
    - [usage]: [get_fs_usage()] and [get_fs_size()] (admin.c:157-158). *)
Section Admin.
Context {X : Type}.
Variable ext : Z -> capdu -> M X Z.
Variable inst : Z -> M X bool.
Variable ro : X -> Z.
Variable usage : Z * Z.
Definition St : Type := (admin * X)%type.
Definition zoom {A} (m : M X A) : M St A := fun s e =>
  match m (snd s) e with (o, x', e') => (o, (fst s, x'), e') end.
Definition upd_a (f : admin -> admin) : M St unit := modify (fun s : St => (f (fst s), snd s)).
Definition setv (b : bool) (s : St) : St := (set_ok b (fst s), snd s).

(** admin.c:61 [admin_poweroff] *)
Definition admin_poweroff (a : admin) : admin := set_ok false a.

(** admin.c:63-75 [admin_install]; [false] = -1 *)
Definition admin_install (reset : bool) : M St bool :=
  upd_a admin_poweroff ;;;
  fresh <- (if reset then ret true else
            a <- get_file_size CFG_FILE ;; ret (negb (match a with Some n => n =? 1 | None => false end))) ;;
  ok <- (if fresh then
           upd_a (set_cfg 7) ;;;
           s <- get ;; write_file CFG_FILE [cfg_byte (fst s)] 0 true
         else
           r <- read_file CFG_FILE 0 1 ;;
           match r with
           | None => ret false
           | Some d => upd_a (fun a => set_cfg (nth 0 d (cfg_byte a)) a) ;;; ret true
           end) ;;
  if negb ok then ret false else
  create <- (if reset then ret true else a <- pin_get_size admin_pin ;; ret (match a with None => true | _ => false end)) ;;
  if negb create then ret true else
  r <- pin_create admin_pin default_pin 3 ;;
  ret (negb (r <? 0)).

(** admin.c:77-92 [admin_verify]; the length argument of [pin_verify] is a uint8_t *)
Definition admin_verify (c : capdu) : M St Z :=
  guard ((c_p1 c =? 0) && (c_p2 c =? 0)) SW_WRONG_P1P2 ;;;
  if c_lc c =? 0 then
    s <- get ;;
    if a_ok (fst s) then ret SW_NO_ERROR else
    r <- pin_get_retries admin_pin ;;
    if r <? 0 then fail else except (SW_PIN_RETRIES + r)
  else
    r <- pin_verify admin_pin setv (c_data c) (u8 (c_lc c)) ;;
    let '(err, ctr) := r in
    if err =? PIN_IO_FAIL then fail else
    if err =? PIN_LENGTH_INVALID then except SW_WRONG_LENGTH else
    ctr <- need ctr ;;
    if ctr =? 0 then except SW_AUTHENTICATION_BLOCKED else
    if err =? PIN_AUTH_FAIL then except (SW_PIN_RETRIES + ctr) else
    ret SW_NO_ERROR.

(** admin.c:94-100 [admin_change_pin] *)
Definition admin_change_pin (c : capdu) : M St Z :=
  guard ((c_p1 c =? 0) && (c_p2 c =? 0)) SW_WRONG_P1P2 ;;;
  err <- pin_update admin_pin setv (c_data c) (u8 (c_lc c)) ;;
  if err =? PIN_IO_FAIL then fail else
  if err =? PIN_LENGTH_INVALID then except SW_WRONG_LENGTH else
  ret SW_NO_ERROR.

(** admin.c:102-107 [admin_write_sn] *)
Definition admin_write_sn (c : capdu) : M St Z :=
  guard ((c_p1 c =? 0) && (c_p2 c =? 0)) SW_WRONG_P1P2 ;;;
  guard (c_lc c =? 4) SW_WRONG_LENGTH ;;;
  a <- get_file_size SN_FILE ;;
  guard (match a with Some _ => false | None => true end) SW_CONDITIONS_NOT_SATISFIED ;;;
  ok <- write_file SN_FILE (c_data c) 0 true ;;
  if ok then ret SW_NO_ERROR else fail.

(** admin.c:196-199 [fill_sn] *)
Definition fill_sn {S} : M S bytes :=
  r <- read_file SN_FILE 0 4 ;;
  ret (match r with Some d => if zlen d =? 4 then d else zeros 4 | None => zeros 4 end).

(** admin.c:109-117 [admin_read_sn] *)
Definition admin_read_sn (c : capdu) : M St Z :=
  guard ((c_p1 c =? 0) && (c_p2 c =? 0)) SW_WRONG_P1P2 ;;;
  guard (negb (c_le c <? 4)) SW_WRONG_LENGTH ;;;
  d <- fill_sn ;;
  set_out d ;;; ret SW_NO_ERROR.

(** admin.c:119-136 [admin_config]; the LED is not modelled *)
Definition admin_config (c : capdu) : M St Z :=
  let b := Z.odd (c_p2 c) in
  (if c_p1 c =? 1 then upd_a (fun a => mkA (a_ok a) b (a_ndef a) (a_web a))
   else if c_p1 c =? 4 then upd_a (fun a => mkA (a_ok a) (a_led a) b (a_web a))
   else if c_p1 c =? 5 then upd_a (fun a => mkA (a_ok a) (a_led a) (a_ndef a) b)
   else except SW_WRONG_P1P2) ;;;
  s <- get ;;
  ok <- write_file CFG_FILE [cfg_byte (fst s)] 0 true ;;
  if ok then ret SW_NO_ERROR else fail.

(** admin.c:138-151 [admin_read_config] *)
Definition admin_read_config (c : capdu) : M St Z :=
  guard ((c_p1 c =? 0) && (c_p2 c =? 0)) SW_WRONG_P1P2 ;;;
  guard (negb (c_le c <? 5)) SW_WRONG_LENGTH ;;;
  s <- get ;;
  set_out [Z.b2z (a_led (fst s)); 0; ro (snd s); Z.b2z (a_ndef (fst s)); Z.b2z (a_web (fst s)); 0] ;;; ret SW_NO_ERROR.

(** admin.c:153-162 [admin_flash_usage] *)
Definition admin_flash_usage (c : capdu) : M St Z :=
  guard ((c_p1 c =? 0) && (c_p2 c =? 0)) SW_WRONG_P1P2 ;;;
  guard (negb (c_le c <? 2)) SW_WRONG_LENGTH ;;;
  set_out [u8 (fst usage); u8 (snd usage)] ;;; ret SW_NO_ERROR.

(** a called function whose negative result is passed on *)
Definition must (m : M St bool) : M St unit := ok <- m ;; if ok then ret tt else fail.

(** admin.c:164-194 [admin_factory_reset]; [strong_user_presence_test] is one answer of the touch oracle (see Device.v) *)
Definition admin_factory_reset (nfc : bool) (c : capdu) : M St Z :=
  guard (c_p1 c =? 0) SW_WRONG_P1P2 ;;;
  guard (c_lc c =? 5) SW_WRONG_LENGTH ;;;
  guard (beqb (c_data c) RESET_DATA) SW_WRONG_DATA ;;;
  r <- pin_get_retries admin_pin ;;
  guard (negb (0 <? r)) SW_CONDITIONS_NOT_SATISFIED ;;;
  guard (negb nfc) SW_CONDITIONS_NOT_SATISFIED ;;;
  t <- wait_touch ;;
  guard (t =? USER_PRESENCE_OK) SW_SECURITY_STATUS_NOT_SATISFIED ;;;
  must (zoom (inst 0x03)) ;;;
  must (zoom (inst 0x04)) ;;;
  must (zoom (inst 0x05)) ;;;
  must (zoom (inst 0x09)) ;;;
  must (zoom (inst 0x07)) ;;;
  must (zoom (inst 0x13)) ;;;
  must (admin_install true) ;;;
  ret SW_NO_ERROR.

(** admin.c:201-312 [admin_process_apdu], after "LL = 0; SW = 9000"; READ VERSION, READ SN with P1 = 1, NFC ENABLE and
    VENDOR SPECIFIC end in the weak functions of admin.c:24-53, which do nothing *)
Definition admin_body (nfc : bool) (c : capdu) : M St Z :=
  let i := c_ins c in
  if i =? 0xA4 then guard ((c_p1 c =? 4) && (c_p2 c =? 0)) SW_WRONG_P1P2 ;;; ret SW_NO_ERROR
  else if i =? 0x31 then guard ((c_p1 c <=? 1) && (c_p2 c =? 0)) SW_WRONG_P1P2 ;;; ret SW_NO_ERROR
  else if i =? 0x32 then
    guard ((c_p1 c <=? 1) && (c_p2 c =? 0)) SW_WRONG_P1P2 ;;;
    if c_p1 c =? 0 then admin_read_sn c else ret SW_NO_ERROR
  else if i =? 0x14 then ret SW_NO_ERROR
  else if i =? 0x50 then admin_factory_reset nfc c
  else if i =? 0x20 then admin_verify c
  else
  s <- get ;;
  guard (a_ok (fst s)) SW_SECURITY_STATUS_NOT_SATISFIED ;;;
  if (i =? 0x01) || (i =? 0x02) || (i =? 0x08) || (i =? 0x11) || (i =? 0x12) || (i =? 0x43) || (i =? 0x44) then zoom (ext i c)
  else if (i =? 0x03) || (i =? 0x04) || (i =? 0x05) || (i =? 0x07) || (i =? 0x13) || (i =? 0x09) then
    must (zoom (inst i)) ;;; ret SW_NO_ERROR
  else if i =? 0x21 then admin_change_pin c
  else if i =? 0x30 then admin_write_sn c
  else if i =? 0x40 then admin_config c
  else if i =? 0x41 then admin_flash_usage c
  else if i =? 0x42 then admin_read_config c
  else if i =? 0xFF then ret SW_NO_ERROR
  else except SW_INS_NOT_SUPPORTED.
End Admin.
