(** Model of applets/pass/pass.c: the two keyboard-touch slots.  (The part which computes OATH codes on
    touch is in Oath.v.) *)
From Verif Require Export Applet.
Open Scope string_scope. Open Scope list_scope. Open Scope Z_scope.

Definition PASS_FILE : path := "pass".                       (* pass.c:8 *)
Definition PASS_MAX_PASSWORD_LENGTH := 32.                   (* include/pass.h:7 *)
Definition PASS_SLOT_OFF := 0.                               (* include/pass.h:9-13 *)
Definition PASS_SLOT_OATH := 1.
Definition PASS_SLOT_STATIC := 2.

(** applets/pass/pass.c:12-26 [pass_slot_t].  [sl_u] are the 69 bytes of the union (the longer member:
    4 + 1 + 64).  The enum is assumed to be stored in one byte (short enums, as on the ARM target). *)
Record slot := mkSlot { sl_type : Z; sl_u : bytes; sl_enter : Z }.
Definition sl_password_len (s : slot) : Z := nth 0 (sl_u s) 0.
Definition sl_password (s : slot) : bytes := slice 1 32 (sl_u s).
Definition le4 (l : bytes) : Z :=
  nth 0 l 0 + 256 * nth 1 l 0 + 65536 * nth 2 l 0 + 16777216 * nth 3 l 0.
Definition to_le4 (z : Z) : bytes := [z mod 256; (z / 256) mod 256; (z / 65536) mod 256; (z / 16777216) mod 256].
Definition sl_oath_offset (s : slot) : Z := le4 (sl_u s).
Definition sl_name_len (s : slot) : Z := nth 4 (sl_u s) 0.
Definition sl_name (s : slot) : bytes := slice 5 64 (sl_u s).

Definition slot_zero : slot := mkSlot 0 (zeros 69) 0.
Definition slots := (slot * slot)%type.                      (* pass.c:28: short, long *)

Definition slot_bytes (s : slot) : bytes := [sl_type s] ++ sl_u s ++ [sl_enter s].
Definition slots_bytes (sl : slots) : bytes := slot_bytes (fst sl) ++ slot_bytes (snd sl).
Definition SLOTS_SIZE := 142.
Definition slot_of (d : bytes) : slot := mkSlot (nth 0 d 0) (slice 1 69 d) (nth 70 d 0).
Definition slots_of (d : bytes) : slots := (slot_of (slice 0 71 d), slot_of (slice 71 71 d)).

Section Pass.
Context {S : Type}.
Variable getsl : S -> slots.
Variable setsl : slots -> S -> S.

Definition save_slots : M S bool :=
  s <- get ;; write_file PASS_FILE (slots_bytes (getsl s)) 0 true.

(** pass.c:30-39 [pass_install] *)
Definition pass_install (reset : bool) : M S bool :=
  sz <- (if reset then ret None else get_file_size PASS_FILE) ;;
  if reset || negb (match sz with Some n => n =? SLOTS_SIZE | None => false end) then
    modify (setsl (slot_zero, slot_zero)) ;;; save_slots
  else
    r <- read_file PASS_FILE 0 SLOTS_SIZE ;;
    match r with
    | None => ret false
    | Some d => s <- get ;; modify (setsl (slots_of (overlay d (slots_bytes (getsl s))))) ;;; ret true
    end.

(** pass.c:46-78 [dump_slot] *)
Definition dump_slot (s : slot) : bytes :=
  if sl_type s =? PASS_SLOT_OFF then [sl_type s]
  else if sl_type s =? PASS_SLOT_STATIC then [sl_type s; sl_enter s]
  else if sl_type s =? PASS_SLOT_OATH
       then [sl_type s; sl_name_len s] ++ slice 5 (sl_name_len s) (sl_u s) ++ [sl_enter s]
  else [].

(** pass.c:80-88 [pass_read_config] *)
Definition pass_read_config : M S Z :=
  s <- get ;; set_out (dump_slot (fst (getsl s)) ++ dump_slot (snd (getsl s))) ;;; ret SW_NO_ERROR.

Definition upd_slot (i : Z) (f : slot -> slot) (sl : slots) : slots :=
  if i =? 0 then (f (fst sl), snd sl) else (fst sl, f (snd sl)).

(** pass.c:96-123 [pass_write_config] *)
Definition pass_write_config (c : capdu) : M S Z :=
  let d := c_data c in
  guard ((c_p1 c =? 1) || (c_p1 c =? 2)) SW_WRONG_P1P2 ;;;
  guard (negb (c_lc c <? 1)) SW_WRONG_LENGTH ;;;
  t <- need (rd d 0) ;;
  (if t =? PASS_SLOT_OFF then guard (c_lc c =? 1) SW_WRONG_LENGTH
   else if t =? PASS_SLOT_STATIC then
     guard (negb (c_lc c <? 3)) SW_WRONG_LENGTH ;;;
     n <- need (rd d 1) ;;
     guard (negb (PASS_MAX_PASSWORD_LENGTH <? n)) SW_WRONG_LENGTH ;;;
     guard (c_lc c =? 3 + n) SW_WRONG_LENGTH ;;;
     pw <- need (sub d 2 n) ;;
     en <- need (rd d (2 + n)) ;;
     modify (fun s => setsl (upd_slot (c_p1 c - 1)
                (fun sl => mkSlot (sl_type sl) (splice (sl_u sl) 0 (n :: pw)) en) (getsl s)) s)
   else except SW_WRONG_DATA) ;;;
  modify (fun s => setsl (upd_slot (c_p1 c - 1) (fun sl => mkSlot t (sl_u sl) (sl_enter sl)) (getsl s)) s) ;;;
  ok <- save_slots ;;
  if ok then ret SW_NO_ERROR else fail.

(** pass.c:125-134 [pass_update_oath] *)
Definition pass_update_oath (i : Z) (file_offset : Z) (name : bytes) (with_enter : Z) : M S bool :=
  modify (fun s => setsl (upd_slot i (fun sl =>
     mkSlot PASS_SLOT_OATH (splice (sl_u sl) 0 (to_le4 file_offset ++ [zlen name] ++ name)) with_enter) (getsl s)) s) ;;;
  save_slots.

(** pass.c:136-146 [pass_delete_oath] *)
Definition pass_delete_oath (file_offset : Z) : M S bool :=
  s <- get ;;
  let '(a, b) := getsl s in
  if (sl_type a =? PASS_SLOT_OATH) && (sl_oath_offset a =? file_offset) then
    modify (setsl (mkSlot PASS_SLOT_OFF (sl_u a) (sl_enter a), b)) ;;; save_slots
  else if (sl_type b =? PASS_SLOT_OATH) && (sl_oath_offset b =? file_offset) then
    modify (setsl (a, mkSlot PASS_SLOT_OFF (sl_u b) (sl_enter b))) ;;; save_slots
  else ret true.
End Pass.
