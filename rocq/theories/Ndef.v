(** Model of applets/ndef/ndef.c: the NFC forum type 4 tag. *)
From Verif Require Export Applet.
Open Scope string_scope. Open Scope list_scope. Open Scope Z_scope.

Definition CC_FILE : path := "E103".                 (* ndef.c:5-9 *)
Definition NDEF_FILE : path := "NDEF".
Definition NDEF_FILE_MAX_LENGTH := 1024.
Definition CC_LENGTH := 15.
Definition SW_FILE_NOT_FOUND := 0x6A82.              (* include/apdu.h:38 *)

(** ndef.c:12-24 *)
Definition default_cc : bytes := [0x00; 0x0F; 0x20; 0x04; 0x00; 0x04; 0x00; 0x04; 0x06; 0x00; 0x01; 0x04; 0x00; 0x00; 0x00].
(** ndef.c:53: the 19 bytes "\x00\x11\xD1\x01\x0D\x55\x04" "canokeys.org" *)
Definition init_data : bytes :=
  [0x00; 0x11; 0xD1; 0x01; 0x0D; 0x55; 0x04; 99; 97; 110; 111; 107; 101; 121; 115; 46; 111; 114; 103].

(** ndef.c:29 *)
Inductive sel := SelNone | SelCC | SelNDEF.
(** ndef.c:11, 29 *)
Record ndef := mkNd { nd_cc : bytes; nd_sel : sel }.
Definition cc_r (n : ndef) : Z := nth 13 (nd_cc n) 0.   (* ndef.c:26-27 *)
Definition cc_w (n : ndef) : Z := nth 14 (nd_cc n) 0.
(** statics at power-on *)
Definition ndef_boot : ndef := mkNd (zeros 15) SelNone.

(** The functions are given for any state holding the applet's variables, since ADMIN calls them too. *)
Section Ndef.
Context {S : Type}.
Variable getn : S -> ndef.
Variable setn : ndef -> S -> S.
Definition upd_n (f : ndef -> ndef) : M S unit := modify (fun s => setn (f (getn s)) s).

(** ndef.c:31 [ndef_poweroff] *)
Definition ndef_poweroff (n : ndef) : ndef := mkNd (nd_cc n) SelNone.
(** ndef.c:33-35 [ndef_get_read_only] *)
Definition ndef_get_read_only (n : ndef) : Z := if cc_w n =? 0xFF then 1 else 0.

(** ndef.c:37-50 [ndef_toggle_read_only] *)
Definition ndef_toggle_read_only (c : capdu) : M S Z :=
  w <- (if c_p1 c =? 0 then ret 0 else if c_p1 c =? 1 then ret 0xFF else except SW_WRONG_P1P2) ;;
  upd_n (fun n => mkNd (splice (nd_cc n) 14 [w]) (nd_sel n)) ;;;
  s <- get ;;
  ok <- write_file CC_FILE (nd_cc (getn s)) 0 true ;;
  if ok then ret SW_NO_ERROR else fail.

(** ndef.c:52-57 [ndef_create_init_ndef]; the errors of littlefs are all below -1, so "< -1" is "failed" *)
Definition ndef_create_init_ndef : M S bool :=
  ok <- write_file NDEF_FILE init_data 0 true ;;
  if negb ok then ret false else truncate_file NDEF_FILE NDEF_FILE_MAX_LENGTH.

(** ndef.c:59-70 [ndef_install]; [false] = -1 *)
Definition ndef_install (reset : bool) : M S bool :=
  upd_n ndef_poweroff ;;;
  fresh <- (if reset then ret true else
            a <- get_file_size CC_FILE ;;
            if negb (match a with Some n => n =? CC_LENGTH | None => false end) then ret true else
            b <- get_file_size NDEF_FILE ;;
            ret (match b with Some n => n <=? 0 | None => true end)) ;;
  if fresh then
    upd_n (fun n => mkNd default_cc (nd_sel n)) ;;;
    ok <- ndef_create_init_ndef ;;
    if negb ok then ret false else
    s <- get ;;
    write_file CC_FILE (nd_cc (getn s)) 0 true
  else
    r <- read_file CC_FILE 0 CC_LENGTH ;;
    match r with
    | None => ret false
    | Some d => upd_n (fun n => mkNd (overlay d (nd_cc n)) (nd_sel n)) ;;; ret true
    end.

(** ndef.c:72-83 [ndef_select] *)
Definition ndef_select (c : capdu) : M S Z :=
  if (c_p1 c =? 4) && (c_p2 c =? 0) then ret SW_NO_ERROR else
  guard ((c_p1 c =? 0) && (c_p2 c =? 0x0C)) SW_WRONG_P1P2 ;;;
  guard (negb (c_lc c <? 2)) SW_WRONG_LENGTH ;;;
  a <- need (rd (c_data c) 0) ;;
  b <- need (rd (c_data c) 1) ;;
  if (a =? 0xE1) && (b =? 0x03) then upd_n (fun n => mkNd (nd_cc n) SelCC) ;;; ret SW_NO_ERROR
  else if (a =? 0) && (b =? 1) then upd_n (fun n => mkNd (nd_cc n) SelNDEF) ;;; ret SW_NO_ERROR
  else except SW_FILE_NOT_FOUND.

Definition offset_of (c : capdu) : Z := u16 (c_p1 c * 256 + c_p2 c).    (* ndef.c:86, 109 *)

(** read_file(name, RDATA, offset, LE); LL = LE: a short read leaves old bytes of the response buffer [buf] *)
Definition read_range (buf : bytes) (p : path) (off le : Z) : M S Z :=
  r <- read_file p off le ;;
  match r with
  | None => fail
  | Some d => set_out (slice 0 le (overlay d buf)) ;;; ret SW_NO_ERROR
  end.

(** ndef.c:85-106 [ndef_read_binary]; [buf] is what RDATA holds before *)
Definition ndef_read_binary (buf : bytes) (c : capdu) : M S Z :=
  let off := offset_of c in
  guard (negb (NDEF_FILE_MAX_LENGTH <? off)) SW_WRONG_LENGTH ;;;
  guard (negb (NDEF_FILE_MAX_LENGTH <? c_le c)) SW_WRONG_LENGTH ;;;
  s <- get ;;
  match nd_sel (getn s) with
  | SelCC =>
    guard (negb (CC_LENGTH <? off + c_le c)) SW_WRONG_LENGTH ;;;
    read_range buf CC_FILE off (c_le c)
  | SelNDEF =>
    guard (cc_r (getn s) =? 0) SW_SECURITY_STATUS_NOT_SATISFIED ;;;
    guard (negb (NDEF_FILE_MAX_LENGTH <? off + c_le c)) SW_WRONG_LENGTH ;;;
    read_range buf NDEF_FILE off (c_le c)
  | SelNone => except SW_CONDITIONS_NOT_SATISFIED
  end.

(** ndef.c:108-126 [ndef_update] *)
Definition ndef_update (c : capdu) : M S Z :=
  let off := offset_of c in
  guard (negb (NDEF_FILE_MAX_LENGTH <? off)) SW_WRONG_LENGTH ;;;
  guard (negb (NDEF_FILE_MAX_LENGTH <? c_lc c)) SW_WRONG_LENGTH ;;;
  s <- get ;;
  match nd_sel (getn s) with
  | SelCC => except SW_CONDITIONS_NOT_SATISFIED
  | SelNDEF =>
    guard (cc_w (getn s) =? 0) SW_SECURITY_STATUS_NOT_SATISFIED ;;;
    guard (negb (NDEF_FILE_MAX_LENGTH <? off + c_lc c)) SW_WRONG_LENGTH ;;;
    ok <- write_file NDEF_FILE (c_data c) off false ;;
    if ok then ret SW_NO_ERROR else fail
  | SelNone => except SW_CONDITIONS_NOT_SATISFIED
  end.

(** ndef.c:128-148 [ndef_process_apdu], after "LL = 0; SW = 9000" *)
Definition ndef_body (buf : bytes) (c : capdu) : M S Z :=
  if c_ins c =? 0xA4 then ndef_select c
  else if c_ins c =? 0xB0 then ndef_read_binary buf c
  else if c_ins c =? 0xD6 then ndef_update c
  else except SW_INS_NOT_SUPPORTED.
End Ndef.
