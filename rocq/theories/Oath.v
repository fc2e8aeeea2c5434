(** Model of applets/oath/oath.c: the OATH (HOTP/TOTP) applet, and of the OATH part of
    applets/pass/pass.c. *)
From Verif Require Export Applet Pass.
Open Scope string_scope. Open Scope list_scope. Open Scope Z_scope.

Definition OATH_FILE : path := "oath".       (* oath.c:13 *)
Definition MAX_RECORDS := 100.               (* oath.c:14 *)
(** include/oath.h:7-57 *)
Definition ATTR_KEY := 2.
Definition ATTR_HANDLE := 3.
Definition OATH_TAG_NAME := 0x71.
Definition OATH_TAG_NAME_LIST := 0x72.
Definition OATH_TAG_KEY := 0x73.
Definition OATH_TAG_CHALLENGE := 0x74.
Definition OATH_TAG_FULL_RESPONSE := 0x75.
Definition OATH_TAG_RESPONSE := 0x76.
Definition OATH_TAG_NO_RESP := 0x77.
Definition OATH_TAG_PROPERTY := 0x78.
Definition OATH_TAG_VERSION := 0x79.
Definition OATH_TAG_COUNTER := 0x7A.
Definition OATH_TAG_ALGORITHM := 0x7B.
Definition OATH_TAG_REQ_TOUCH := 0x7C.
Definition OATH_INS_PUT := 0x01.
Definition OATH_INS_DELETE := 0x02.
Definition OATH_INS_SET_CODE := 0x03.
Definition OATH_INS_RENAME := 0x05.
Definition OATH_INS_LIST := 0xA1.
Definition OATH_INS_CALCULATE := 0xA2.
Definition OATH_INS_VALIDATE := 0xA3.
Definition OATH_INS_SELECT := 0xA4.
Definition OATH_INS_SEND_REMAINING := 0xA5.
Definition OATH_INS_SET_DEFAULT := 0x55.
Definition OATH_ALG_SHA1 := 1.
Definition OATH_ALG_SHA256 := 2.
Definition OATH_ALG_SHA512 := 3.
Definition OATH_TYPE_HOTP := 0x10.
Definition OATH_TYPE_TOTP := 0x20.
Definition MAX_NAME_LEN := 64.
Definition MAX_KEY_LEN := 66.
Definition MAX_CHALLENGE_LEN := 8.
Definition HANDLE_LEN := 8.
Definition KEY_LEN := 16.

(** include/oath.h:53-63 [OATH_RECORD], 141 packed bytes; a record is its bytes. *)
Definition REC := 141.
Definition r_name_len (r : bytes) : Z := nth 0 r 0.
Definition r_name_buf (r : bytes) : bytes := slice 1 64 r.
Definition r_key_len (r : bytes) : Z := nth 65 r 0.
Definition r_key (r : bytes) : bytes := slice 66 66 r.
Definition r_prop (r : bytes) : Z := nth 132 r 0.
Definition r_chal (r : bytes) : bytes := slice 133 8 r.
(** memcpy(.., record.name, record.name_len): undefined when longer than the array *)
Definition r_name (r : bytes) : option bytes := sub (r_name_buf r) 0 (r_name_len r).
(** record->key + 2, record->key_len - 2 *)
Definition r_secret (r : bytes) : option bytes := sub (r_key r) 2 (r_key_len r - 2).
Definition r_algbyte (r : bytes) : Z := nth 66 r 0.     (* key[0] *)
Definition r_digits (r : bytes) : Z := nth 67 r 0.      (* key[1] *)
Definition r_type (r : bytes) : Z := Z.land (r_algbyte r) 0xF0.
Definition r_alg (r : bytes) : Z := Z.land (r_algbyte r) 0x0F.
Definition r_inc (r : bytes) : bool := negb (Z.land (r_prop r) 1 =? 0).
Definition r_touch (r : bytes) : bool := negb (Z.land (r_prop r) 2 =? 0).
(** record.name_len == name_len && memcmp(record.name, name, name_len) == 0 *)
Definition r_named (r name : bytes) : bool :=
  (r_name_len r =? zlen name) && beqb (slice 1 (zlen name) r) name.

Inductive remaining := REMAINING_NONE | REMAINING_CALC_FULL | REMAINING_CALC_TRUNC | REMAINING_LIST.
Definition remaining_eqb (a b : remaining) : bool :=
  match a, b with
  | REMAINING_NONE, REMAINING_NONE | REMAINING_CALC_FULL, REMAINING_CALC_FULL
  | REMAINING_CALC_TRUNC, REMAINING_CALC_TRUNC | REMAINING_LIST, REMAINING_LIST => true
  | _, _ => false
  end.

(** oath.c:16-23 and the function statics at 522-523; the touch slots of pass.c:28. *)
Record oath := mkO {
  o_rem : remaining; o_chal : bytes; o_idx : Z; o_valid : bool;
  o_clen : Z; o_cbuf : bytes;       (* challenge_len, challenge of oath_calculate_all *)
  o_slots : slots }.
Definition oset_rem x s := mkO x (o_chal s) (o_idx s) (o_valid s) (o_clen s) (o_cbuf s) (o_slots s).
Definition oset_chal x s := mkO (o_rem s) x (o_idx s) (o_valid s) (o_clen s) (o_cbuf s) (o_slots s).
Definition oset_idx x s := mkO (o_rem s) (o_chal s) x (o_valid s) (o_clen s) (o_cbuf s) (o_slots s).
Definition oset_valid x s := mkO (o_rem s) (o_chal s) (o_idx s) x (o_clen s) (o_cbuf s) (o_slots s).
Definition oset_call n c s := mkO (o_rem s) (o_chal s) (o_idx s) (o_valid s) n c (o_slots s).
Definition oset_slots x s := mkO (o_rem s) (o_chal s) (o_idx s) (o_valid s) (o_clen s) (o_cbuf s) x.

(** oath.c:25-28 [oath_poweroff] *)
Definition oath_poweroff (s : oath) : oath := oset_valid false (oset_rem REMAINING_NONE s).

(** Static initial values. *)
Definition oath_boot : oath := mkO REMAINING_NONE (zeros 8) 0 false 0 (zeros 8) (slot_zero, slot_zero).

Definition Mo := M oath.

(** oath.c:30-39 [oath_install]; [false]: -1 returned *)
Definition oath_install (reset : bool) : Mo bool :=
  modify oath_poweroff ;;;
  sz <- (if reset then ret None else get_file_size OATH_FILE) ;;
  match sz with
  | Some _ => ret true
  | None =>
    ok <- write_file OATH_FILE [] 0 true ;;
    if negb ok then ret false else
    ok <- write_attr OATH_FILE ATTR_KEY [] ;;
    if negb ok then ret false else
    h <- random_buffer HANDLE_LEN ;;
    write_attr OATH_FILE ATTR_HANDLE h
  end.

Section Oath.
(** canokey-crypto: key, message -> digest *)
Variables hmac_sha1 hmac_sha256 hmac_sha512 : bytes -> bytes -> bytes.
(** previous content of the stack variable [record] *)
Variable junk : bytes.

(** An attribute read into an [n]-byte buffer, cut to [n]; a shorter one is padded here with zeros where the
    C code keeps the previous content of the buffer (the lengths written by this applet are exact). *)
Definition attr_buf (n : Z) (v : bytes) : bytes := slice 0 n (v ++ zeros n).

(** oath.c:41-67 [oath_select] *)
Definition oath_select (c : capdu) : Mo Z :=
  guard (c_p2 c =? 0) SW_WRONG_P1P2 ;;;
  h <- read_attr OATH_FILE ATTR_HANDLE ;;
  match h with
  | None => fail
  | Some hv =>
    let resp := [OATH_TAG_VERSION; 3; 6; 0; 0; OATH_TAG_NAME; HANDLE_LEN] ++ attr_buf HANDLE_LEN hv in
    set_out resp ;;;
    k <- read_attr OATH_FILE ATTR_KEY ;;
    match k with
    | None => fail
    | Some kv =>
      if zlen kv =? 0 then modify (oset_valid true) ;;; ret SW_NO_ERROR
      else
        ch <- random_buffer MAX_CHALLENGE_LEN ;;
        modify (oset_chal ch) ;;;
        set_out (resp ++ [OATH_TAG_CHALLENGE; 8] ++ ch ++ [OATH_TAG_ALGORITHM; 1; OATH_ALG_SHA1]) ;;;
        ret SW_NO_ERROR
    end
  end.

(** oath.c:70-116, the parser of [oath_put]: name, key, property, challenge *)
Definition parse_put (d : bytes) : out (bytes * bytes * Z * bytes) :=
  let lc := zlen d in
  _ <~ oguard (negb (lc <? 2)) SW_WRONG_LENGTH ;;
  t <~ oneed (rd d 0) ;;
  _ <~ oguard (t =? OATH_TAG_NAME) SW_WRONG_DATA ;;
  nl <~ oneed (rd d 1) ;;
  _ <~ oguard (negb ((MAX_NAME_LEN <? nl) || (nl =? 0))) SW_WRONG_DATA ;;
  let off := 2 + nl in
  _ <~ oguard (negb (lc <=? off + 4)) SW_WRONG_LENGTH ;;
  t <~ oneed (rd d off) ;;
  _ <~ oguard (t =? OATH_TAG_KEY) SW_WRONG_DATA ;;
  kl <~ oneed (rd d (off + 1)) ;;
  let koff := off + 2 in
  _ <~ oguard (negb ((MAX_KEY_LEN <? kl) || (kl <=? 2))) SW_WRONG_DATA ;;
  alg <~ oneed (rd d koff) ;;
  _ <~ oguard ((Z.land alg 0xF0 =? OATH_TYPE_HOTP) || (Z.land alg 0xF0 =? OATH_TYPE_TOTP)) SW_WRONG_DATA ;;
  _ <~ oguard ((Z.land alg 0x0F =? OATH_ALG_SHA1) || (Z.land alg 0x0F =? OATH_ALG_SHA256)
               || (Z.land alg 0x0F =? OATH_ALG_SHA512)) SW_WRONG_DATA ;;
  digits <~ oneed (rd d (koff + 1)) ;;
  _ <~ oguard (negb ((digits <? 4) || (8 <? digits))) SW_WRONG_DATA ;;
  let off := koff + kl in
  (* optional property *)
  po <~ (if off <? lc then
           t <~ oneed (rd d off) ;;
           if t =? OATH_TAG_PROPERTY then
             _ <~ oguard (negb (lc <=? off + 1)) SW_WRONG_LENGTH ;;
             p <~ oneed (rd d (off + 1)) ;;
             _ <~ oguard (Z.land p 0xFC =? 0) SW_WRONG_DATA ;;
             Ret (p, off + 2)
           else Ret (0, off)
         else Ret (0, off)) ;;
  let '(prop, off) := po in
  (* optional counter *)
  co <~ (if off <? lc then
           t <~ oneed (rd d off) ;;
           if t =? OATH_TAG_COUNTER then
             _ <~ oguard (negb (lc <=? off + 1)) SW_WRONG_LENGTH ;;
             n <~ oneed (rd d (off + 1)) ;;
             _ <~ oguard (n =? 4) SW_WRONG_DATA ;;
             _ <~ oguard (Z.land alg 0xF0 =? OATH_TYPE_HOTP) SW_WRONG_DATA ;;
             _ <~ oguard (negb (lc <? off + 2 + 4)) SW_WRONG_LENGTH ;;
             ctr <~ oneed (sub d (off + 2) 4) ;;
             Ret (zeros 4 ++ ctr, off + 6)
           else Ret (zeros 8, off)
         else Ret (zeros 8, off)) ;;
  let '(chal, off) := co in
  _ <~ oguard (lc =? off) SW_WRONG_LENGTH ;;
  name <~ oneed (sub d 2 nl) ;;
  key <~ oneed (sub d koff kl) ;;
  Ret (name, key, prop, chal).

(** read_file(OATH_FILE, &record, i * sizeof(OATH_RECORD), sizeof(OATH_RECORD)), -1 on error *)
Definition rd_rec (off : Z) (rec : bytes) : Mo bytes :=
  r <- read_file OATH_FILE off REC ;;
  match r with None => fail | Some d => ret (overlay d rec) end.

(** const int size = get_file_size(OATH_FILE); if (size < 0) return -1; n_records = size / 141 *)
Definition n_records : Mo Z :=
  sz <- get_file_size OATH_FILE ;;
  match sz with None => fail | Some n => ret (n / REC) end.

(** oath.c:124-133, the loop of [oath_put]; [k] iterations left *)
Fixpoint put_loop (k : nat) (i n : Z) (rec : bytes) (unocc : Z) (name : bytes) : Mo (bytes * Z) :=
  match k with
  | O => ret (rec, unocc)
  | Datatypes.S k' =>
    rec <- rd_rec (i * REC) rec ;;
    guard (negb (r_named rec name)) SW_CONDITIONS_NOT_SATISFIED ;;;
    let unocc := if (r_name_len rec =? 0) && (unocc =? n) then i else unocc in
    put_loop k' (i + 1) n rec unocc name
  end.

(** oath.c:139-144: the fields of the record overwritten by PUT *)
Definition fill_record (rec name key : bytes) (prop : Z) (chal : bytes) : bytes :=
  let r := splice rec 0 (zlen name :: name) in
  let r := splice r 65 (zlen key :: key) in
  splice r 132 (prop :: chal).

(** oath.c:69-146 [oath_put] *)
Definition oath_put (c : capdu) : Mo Z :=
  guard ((c_p1 c =? 0) && (c_p2 c =? 0)) SW_WRONG_P1P2 ;;;
  x <- lift (parse_put (c_data c)) ;;
  let '(name, key, prop, chal) := x in
  n <- n_records ;;
  y <- put_loop (Z.to_nat n) 0 n junk n name ;;
  let '(rec, unocc) := y in
  guard (negb ((unocc =? n) && (MAX_RECORDS <=? unocc))) SW_NOT_ENOUGH_SPACE ;;;
  ok <- write_file OATH_FILE (fill_record rec name key prop chal) (unocc * REC) false ;;
  if ok then ret SW_NO_ERROR else fail.

(** oath.c:151-158 (DELETE), 415-422 (SET DEFAULT), 445-451 (CALCULATE): tag 71, length, name; [minlc] is
    the smallest accepted LC.  Returns the name. *)
Definition parse_name (minlc : Z) (d : bytes) : out bytes :=
  let lc := zlen d in
  _ <~ oguard (negb (lc <? minlc)) SW_WRONG_LENGTH ;;
  t <~ oneed (rd d 0) ;;
  _ <~ oguard (t =? OATH_TAG_NAME) SW_WRONG_DATA ;;
  nl <~ oneed (rd d 1) ;;
  _ <~ oguard (negb ((MAX_NAME_LEN <? nl) || (nl =? 0))) SW_WRONG_DATA ;;
  _ <~ oguard (negb (lc <? 2 + nl)) SW_WRONG_LENGTH ;;
  oneed (sub d 2 nl).

(** The search loops at oath.c:165-172, 431-436, 460-465: first record with this name; yields its index
    ([i + k] when there is none) and the record variable. *)
Fixpoint find_loop (k : nat) (i : Z) (rec : bytes) (name : bytes) : Mo (Z * bytes) :=
  match k with
  | O => ret (i, rec)
  | Datatypes.S k' =>
    rec <- rd_rec (i * REC) rec ;;
    if r_named rec name then ret (i, rec) else find_loop k' (i + 1) rec name
  end.

(** oath.c:148-174 [oath_delete] *)
Definition oath_delete (c : capdu) : Mo Z :=
  guard ((c_p1 c =? 0) && (c_p2 c =? 0)) SW_WRONG_P1P2 ;;;
  name <- lift (parse_name 2 (c_data c)) ;;
  n <- n_records ;;
  y <- find_loop (Z.to_nat n) 0 junk name ;;
  let '(i, rec) := y in
  guard (negb (i =? n)) SW_DATA_INVALID ;;;
  ok <- pass_delete_oath o_slots oset_slots (i * REC) ;;
  if negb ok then fail else
  ok <- write_file OATH_FILE (splice rec 0 [0]) (i * REC) false ;;
  if ok then ret SW_NO_ERROR else fail.

(** oath.c:179-192, the parser of [oath_rename] *)
Definition parse_rename (d : bytes) : out (bytes * bytes) :=
  let lc := zlen d in
  _ <~ oguard (negb (lc <=? 2)) SW_WRONG_LENGTH ;;
  t <~ oneed (rd d 0) ;;
  _ <~ oguard (t =? OATH_TAG_NAME) SW_WRONG_DATA ;;
  nl <~ oneed (rd d 1) ;;
  _ <~ oguard (negb ((MAX_NAME_LEN <? nl) || (nl =? 0))) SW_WRONG_DATA ;;
  let off := 2 + nl in
  _ <~ oguard (negb (lc <=? off + 2)) SW_WRONG_LENGTH ;;
  t <~ oneed (rd d off) ;;
  _ <~ oguard (t =? OATH_TAG_NAME) SW_WRONG_DATA ;;
  ml <~ oneed (rd d (off + 1)) ;;
  _ <~ oguard (negb ((MAX_NAME_LEN <? ml) || (ml =? 0))) SW_WRONG_DATA ;;
  _ <~ oguard (negb (lc <? off + 2 + ml)) SW_WRONG_LENGTH ;;
  old <~ oneed (sub d 2 nl) ;;
  new <~ oneed (sub d (off + 2) ml) ;;
  Ret (old, new).

(** oath.c:200-208, the loop of [oath_rename]: index of the old name ([n]: none) *)
Fixpoint rename_loop (k : nat) (i n : Z) (rec : bytes) (idx : Z) (old new : bytes) : Mo (bytes * Z) :=
  match k with
  | O => ret (rec, idx)
  | Datatypes.S k' =>
    rec <- rd_rec (i * REC) rec ;;
    let idx := if (idx =? n) && r_named rec old then i else idx in
    guard (negb (r_named rec new)) SW_CONDITIONS_NOT_SATISFIED ;;;
    rename_loop k' (i + 1) n rec idx old new
  end.

(** oath.c:176-216 [oath_rename] *)
Definition oath_rename (c : capdu) : Mo Z :=
  guard ((c_p1 c =? 0) && (c_p2 c =? 0)) SW_WRONG_P1P2 ;;;
  x <- lift (parse_rename (c_data c)) ;;
  let '(old, new) := x in
  n <- n_records ;;
  y <- rename_loop (Z.to_nat n) 0 n junk n old new ;;
  let '(rec, idx) := y in
  guard (negb (idx =? n)) SW_DATA_INVALID ;;;
  rec <- rd_rec (idx * REC) rec ;;
  ok <- write_file OATH_FILE (splice rec 0 (zlen new :: new)) (idx * REC) false ;;
  if ok then ret SW_NO_ERROR else fail.

(** oath.c:221-246, the parser of [oath_set_code]: [None] = clear the code; otherwise key (without its
    algorithm byte), challenge, response *)
Definition parse_set_code (d : bytes) : out (option (bytes * bytes * bytes)) :=
  let lc := zlen d in
  if lc =? 0 then Ret None else
  _ <~ oguard (negb (lc <? 2)) SW_WRONG_LENGTH ;;
  t <~ oneed (rd d 0) ;;
  _ <~ oguard (t =? OATH_TAG_KEY) SW_WRONG_DATA ;;
  kl <~ oneed (rd d 1) ;;
  if kl =? 0 then Ret None else
  _ <~ oguard (kl =? KEY_LEN + 1) SW_WRONG_DATA ;;
  let off := 2 + kl in
  _ <~ oguard (negb (lc <=? off + 2)) SW_WRONG_LENGTH ;;
  t <~ oneed (rd d off) ;;
  _ <~ oguard (t =? OATH_TAG_CHALLENGE) SW_WRONG_DATA ;;
  cl <~ oneed (rd d (off + 1)) ;;
  let coff := off + 2 in
  let off := coff + cl in
  _ <~ oguard (negb (lc <=? off + 2)) SW_WRONG_LENGTH ;;
  t <~ oneed (rd d off) ;;
  _ <~ oguard (t =? OATH_TAG_FULL_RESPONSE) SW_WRONG_DATA ;;
  rl <~ oneed (rd d (off + 1)) ;;
  _ <~ oguard (rl =? 20) SW_WRONG_DATA ;;
  _ <~ oguard (lc =? off + 2 + rl) SW_WRONG_LENGTH ;;
  key <~ oneed (sub d 3 KEY_LEN) ;;
  chal <~ oneed (sub d coff cl) ;;
  resp <~ oneed (sub d (off + 2) 20) ;;
  Ret (Some (key, chal, resp)).

(** oath.c:218-256 [oath_set_code] *)
Definition oath_set_code (c : capdu) : Mo Z :=
  guard ((c_p1 c =? 0) && (c_p2 c =? 0)) SW_WRONG_P1P2 ;;;
  x <- lift (parse_set_code (c_data c)) ;;
  match x with
  | None =>
    modify (oset_valid true) ;;;
    ok <- write_attr OATH_FILE ATTR_KEY [] ;;
    if ok then ret SW_NO_ERROR else fail
  | Some (key, chal, resp) =>
    guard (beqb (hmac_sha1 key chal) resp) SW_DATA_INVALID ;;;
    modify (oset_valid false) ;;;
    ok <- write_attr OATH_FILE ATTR_KEY key ;;
    if ok then ret SW_NO_ERROR else fail
  end.

(** oath.c:261-274, the parser of [oath_validate]: response, challenge *)
Definition parse_validate (d : bytes) : out (bytes * bytes) :=
  let lc := zlen d in
  _ <~ oguard (negb (lc <=? 2)) SW_WRONG_LENGTH ;;
  t <~ oneed (rd d 0) ;;
  _ <~ oguard (t =? OATH_TAG_FULL_RESPONSE) SW_WRONG_DATA ;;
  rl <~ oneed (rd d 1) ;;
  _ <~ oguard (rl =? 20) SW_WRONG_DATA ;;
  _ <~ oguard (negb (lc <=? 22 + 2)) SW_WRONG_LENGTH ;;
  t <~ oneed (rd d 22) ;;
  _ <~ oguard (t =? OATH_TAG_CHALLENGE) SW_WRONG_DATA ;;
  cl <~ oneed (rd d 23) ;;
  _ <~ oguard (lc =? 24 + cl) SW_WRONG_LENGTH ;;
  resp <~ oneed (sub d 2 20) ;;
  chal <~ oneed (sub d 24 cl) ;;
  Ret (resp, chal).

(** oath.c:258-295 [oath_validate] *)
Definition oath_validate (c : capdu) : Mo Z :=
  guard ((c_p1 c =? 0) && (c_p2 c =? 0)) SW_WRONG_P1P2 ;;;
  x <- lift (parse_validate (c_data c)) ;;
  let '(resp, chal) := x in
  k <- read_attr OATH_FILE ATTR_KEY ;;
  match k with
  | None => fail
  | Some kv =>
    guard (negb (zlen kv =? 0)) SW_DATA_INVALID ;;;
    let key := attr_buf KEY_LEN kv in
    s <- get ;;
    modify (oset_valid (beqb (hmac_sha1 key (o_chal s)) resp)) ;;;
    guard (beqb (hmac_sha1 key (o_chal s)) resp) SW_WRONG_DATA ;;;
    set_out ([OATH_TAG_FULL_RESPONSE; 20] ++ hmac_sha1 key chal) ;;;
    ret SW_NO_ERROR
  end.

(** oath.c:307-322, the loop of [oath_list]: [k] is the number of records left (record_idx is
    a uint8_t, so this is exact up to 255 records; MAX_RECORDS is 100); [acc] is
    RDATA[0..off).  Yields SW and the response. *)
Fixpoint list_loop (k : nat) (rec : bytes) (acc : bytes) (le : Z) : Mo (Z * bytes) :=
  match k with
  | O => ret (SW_NO_ERROR, acc)
  | Datatypes.S k' =>
    s <- get ;;
    rec <- rd_rec (o_idx s * REC) rec ;;
    if le <? zlen acc + 3 + r_name_len rec then ret (0x61FF, acc) else
    modify (oset_idx (u8 (o_idx s + 1))) ;;;
    if r_name_len rec =? 0 then list_loop k' rec acc le
    else
      name <- need (r_name rec) ;;
      list_loop k' rec (acc ++ [OATH_TAG_NAME_LIST; u8 (r_name_len rec + 1); r_algbyte rec] ++ name) le
  end.

(** oath.c:297-329 [oath_list] *)
Definition oath_list (c : capdu) : Mo Z :=
  guard ((c_p1 c =? 0) && (c_p2 c =? 0)) SW_WRONG_P1P2 ;;;
  modify (oset_rem REMAINING_LIST) ;;;
  n <- n_records ;;
  s <- get ;;
  x <- list_loop (Z.to_nat (n - o_idx s)) junk [] (c_le c) ;;
  let '(sw, acc) := x in
  s <- get ;;
  (if n <=? o_idx s then modify (oset_rem REMAINING_NONE) else ret tt) ;;;
  set_out acc ;;;
  ret sw.

(** oath.c:331-334 [oath_update_challenge_field]; its result is ignored by every caller *)
Definition oath_update_challenge_field (rec : bytes) (file_offset : Z) : Mo bool :=
  write_file OATH_FILE (r_chal rec) (file_offset + 133) false.

(** memcmp(a, b, 8) > 0: unsigned lexicographic order *)
Fixpoint bgtb (a b : bytes) : bool :=
  match a, b with
  | x :: a', y :: b' => if x =? y then bgtb a' b' else y <? x
  | _, _ => false
  end.

(** oath.c:336-346 [oath_enforce_increasing]: [None] = a negative value; otherwise the record *)
Definition oath_enforce_increasing (rec : bytes) (file_offset : Z) (chal : bytes) : Mo (option bytes) :=
  if r_inc rec then
    if negb (zlen chal =? 8) then ret None else
    if bgtb (r_chal rec) chal then ret None else
    let rec := splice rec 133 chal in
    oath_update_challenge_field rec file_offset ;;;
    ret (Some rec)
  else ret (Some rec).

(** oath.c:348-355 [oath_increase_counter]: from the last byte, increment with carry; [None] on overflow
    of all eight bytes *)
Fixpoint incr_rev (l : bytes) : option bytes :=
  match l with
  | [] => None
  | b :: r => if u8 (b + 1) =? 0 then option_map (cons 0) (incr_rev r) else Some (u8 (b + 1) :: r)
  end.
Definition oath_increase_counter (rec : bytes) : option bytes :=
  match incr_rev (rev (r_chal rec)) with
  | None => None
  | Some c => Some (splice rec 133 (rev c))
  end.

(** oath.c:359-369, the digest selected by the algorithm *)
Definition oath_hmac (rec chal : bytes) : option bytes :=
  match r_secret rec with
  | None => None
  | Some key =>
    Some (if r_alg rec =? OATH_ALG_SHA1 then hmac_sha1 key chal
          else if r_alg rec =? OATH_ALG_SHA256 then hmac_sha256 key chal
          else hmac_sha512 key chal)
  end.

(** oath.c:374-376 and the memcpy(.., 4) of the callers: the four bytes at the dynamic offset *)
Definition oath_trunc (digest : bytes) : option bytes :=
  match rd digest (zlen digest - 1) with
  | None => None
  | Some l => match sub digest (Z.land l 0xF) 4 with
              | Some (b0 :: r) => Some (Z.land b0 0x7F :: r)
              | _ => None
              end
  end.

(** oath.c:379-409 [oath_calculate_by_offset]: code bytes and number of digits; [inl] = negative result *)
Definition oath_calculate_by_offset (file_offset : Z) : Mo (Z + bytes * Z) :=
  if negb (file_offset mod REC =? 0) then ret (inl (-2)) else
  sz <- get_file_size OATH_FILE ;;
  match sz with
  | None => ret (inl (-2))
  | Some size =>
    if size <=? file_offset then ret (inl (-2)) else
    r <- read_file OATH_FILE file_offset REC ;;
    match r with
    | None => ret (inl (-1))
    | Some d =>
      let rec := overlay d junk in
      if r_name_len rec =? 0 then ret (inl (-2)) else
      if r_type rec =? OATH_TYPE_TOTP then ret (inl (-1)) else
      if negb (r_type rec =? OATH_TYPE_HOTP) then ret (inl (-1)) else
      match oath_increase_counter rec with
      | None => ret (inl (-1))
      | Some rec =>
        oath_update_challenge_field rec file_offset ;;;
        h <- need (oath_hmac rec (r_chal rec)) ;;
        code <- need (oath_trunc h) ;;
        ret (inr (code, r_digits rec))
      end
    end
  end.

(** oath.c:411-440 [oath_set_default] *)
Definition oath_set_default (c : capdu) : Mo Z :=
  guard ((c_p1 c =? 1) || (c_p1 c =? 2)) SW_WRONG_P1P2 ;;;
  guard ((c_p2 c =? 0) || (c_p2 c =? 1)) SW_WRONG_P1P2 ;;;
  name <- lift (parse_name 2 (c_data c)) ;;
  n <- n_records ;;
  y <- find_loop (Z.to_nat n) 0 junk name ;;
  let '(i, rec) := y in
  guard (negb (i =? n)) SW_DATA_INVALID ;;;
  guard (negb (r_type rec =? OATH_TYPE_TOTP)) SW_CONDITIONS_NOT_SATISFIED ;;;
  nm <- need (r_name rec) ;;
  ok <- pass_update_oath o_slots oset_slots (c_p1 c - 1) (i * REC) nm (c_p2 c) ;;
  if ok then ret SW_NO_ERROR else fail.

(** oath.c:482-491: the challenge in a CALCULATE command, after the name *)
Definition parse_challenge (d : bytes) (off : Z) : out bytes :=
  let lc := zlen d in
  _ <~ oguard (negb (lc <=? off + 1)) SW_WRONG_LENGTH ;;
  t <~ oneed (rd d off) ;;
  _ <~ oguard (t =? OATH_TAG_CHALLENGE) SW_WRONG_DATA ;;
  cl <~ oneed (rd d (off + 1)) ;;
  _ <~ oguard (negb ((MAX_CHALLENGE_LEN <? cl) || (cl =? 0))) SW_WRONG_DATA ;;
  _ <~ oguard (negb (lc <? off + 2 + cl)) SW_WRONG_LENGTH ;;
  oneed (sub d (off + 2) cl).

(** oath.c:505-516, 582-596: the answer for one record, truncated (P2 = 1) or full *)
Definition answer (trunc : bool) (rec chal : bytes) : option bytes :=
  match oath_hmac rec chal with
  | None => None
  | Some h =>
    if trunc then
      match oath_trunc h with Some b => Some ([OATH_TAG_RESPONSE; 5; r_digits rec] ++ b) | None => None end
    else Some ([OATH_TAG_FULL_RESPONSE; u8 (1 + zlen h); r_digits rec] ++ h)
  end.

(** oath.c:442-519 [oath_calculate]; [nfc] is is_nfc() *)
Definition oath_calculate (nfc : bool) (c : capdu) : Mo Z :=
  let d := c_data c in
  guard ((c_p1 c =? 0) && ((c_p2 c =? 0) || (c_p2 c =? 1))) SW_WRONG_P1P2 ;;;
  name <- lift (parse_name 3 d) ;;
  let off := 2 + zlen name in
  n <- n_records ;;
  y <- find_loop (Z.to_nat n) 0 junk name ;;
  let '(i, rec) := y in
  guard (negb (i =? n)) SW_DATA_INVALID ;;;
  (if r_touch rec && negb nfc then
     t <- wait_touch ;;
     guard (negb ((t =? USER_PRESENCE_CANCEL) || (t =? USER_PRESENCE_TIMEOUT))) SW_SECURITY_STATUS_NOT_SATISFIED
   else ret tt) ;;;
  y <- (if r_type rec =? OATH_TYPE_TOTP then
          chal <- lift (parse_challenge d off) ;;
          r <- oath_enforce_increasing rec (i * REC) chal ;;
          match r with
          | None => except SW_SECURITY_STATUS_NOT_SATISFIED
          | Some rec => ret (rec, chal)
          end
        else if r_type rec =? OATH_TYPE_HOTP then
          match oath_increase_counter rec with
          | None => except SW_CONDITIONS_NOT_SATISFIED
          | Some rec => oath_update_challenge_field rec (i * REC) ;;; ret (rec, r_chal rec)
          end
        else fail) ;;
  let '(rec, chal) := y in
  a <- need (answer (c_p2 c =? 1) rec chal) ;;
  set_out a ;;;
  ret SW_NO_ERROR.

(** oath.c:550-597, the loop of [oath_calculate_all] *)
Fixpoint calc_loop (k : nat) (rec acc : bytes) (le : Z) : Mo (Z * bytes) :=
  match k with
  | O => ret (SW_NO_ERROR, acc)
  | Datatypes.S k' =>
    s <- get ;;
    let fo := o_idx s * REC in
    let trunc := remaining_eqb (o_rem s) REMAINING_CALC_TRUNC in
    rec <- rd_rec fo rec ;;
    if le <? 2 + r_name_len rec + 2 + 1 + (if trunc then 4 else 64) + zlen acc then ret (0x61FF, acc) else
    modify (oset_idx (u8 (o_idx s + 1))) ;;;
    if r_name_len rec =? 0 then calc_loop k' rec acc le else
    name <- need (r_name rec) ;;
    let acc := acc ++ [OATH_TAG_NAME; r_name_len rec] ++ name in
    if r_type rec =? OATH_TYPE_HOTP then calc_loop k' rec (acc ++ [OATH_TAG_NO_RESP; 1; r_digits rec]) le else
    if r_touch rec then calc_loop k' rec (acc ++ [OATH_TAG_REQ_TOUCH; 1; r_digits rec]) le else
    let chal := slice 0 (o_clen s) (o_cbuf s) in
    r <- oath_enforce_increasing rec fo chal ;;
    match r with
    | None => except SW_SECURITY_STATUS_NOT_SATISFIED
    | Some rec => a <- need (answer trunc rec chal) ;; calc_loop k' rec (acc ++ a) le
    end
  end.

(** oath.c:521-604 [oath_calculate_all] *)
Definition oath_calculate_all (c : capdu) : Mo Z :=
  guard ((c_p2 c =? 0) || (c_p2 c =? 1)) SW_WRONG_P1P2 ;;;
  sz <- get_file_size OATH_FILE ;;
  match sz with
  | None => fail
  | Some size =>
    let n := size / REC in
    s <- get ;;
    (if o_idx s =? 0 then
       let d := c_data c in
       guard (negb (zlen d <=? 1)) SW_WRONG_LENGTH ;;;
       t <- need (rd d 0) ;;
       guard (t =? OATH_TAG_CHALLENGE) SW_WRONG_DATA ;;;
       cl <- need (rd d 1) ;;
       modify (oset_call cl (o_cbuf s)) ;;;
       (if (MAX_CHALLENGE_LEN <? cl) || (cl =? 0)
        then modify (oset_call 0 (o_cbuf s)) ;;; except SW_WRONG_DATA else ret tt) ;;;
       guard (negb (zlen d <? 2 + cl)) SW_WRONG_LENGTH ;;;
       chal <- need (sub d 2 cl) ;;
       modify (oset_call cl (splice (o_cbuf s) 0 chal)) ;;;
       modify (oset_rem (if c_p2 c =? 1 then REMAINING_CALC_TRUNC else REMAINING_CALC_FULL))
     else ret tt) ;;;
    x <- calc_loop (Z.to_nat (n - o_idx s)) junk [] (c_le c) ;;
    let '(sw, acc) := x in
    s <- get ;;
    (if n <=? o_idx s then modify (oset_rem REMAINING_NONE) else ret tt) ;;;
    set_out acc ;;;
    ret sw
  end.

(** oath.c:606-610 [oath_send_remaining] *)
Definition oath_send_remaining (c : capdu) : Mo Z :=
  s <- get ;;
  match o_rem s with
  | REMAINING_LIST => oath_list c
  | REMAINING_CALC_FULL | REMAINING_CALC_TRUNC => oath_calculate_all c
  | REMAINING_NONE => except SW_CONDITIONS_NOT_SATISFIED
  end.

(** oath.c:613-665 [oath_process_apdu], after "LL = 0; SW = 9000" (see [run_apdu]) *)
Definition oath_body (nfc : bool) (c : capdu) : Mo Z :=
  s <- get ;;
  let ins := c_ins c in
  guard (o_valid s || (ins =? OATH_INS_SELECT) || (ins =? OATH_INS_VALIDATE)) SW_SECURITY_STATUS_NOT_SATISFIED ;;;
  if ins =? OATH_INS_PUT then oath_put c
  else if ins =? OATH_INS_DELETE then oath_delete c
  else if ins =? OATH_INS_SET_CODE then oath_set_code c
  else if ins =? OATH_INS_RENAME then oath_rename c
  else if ins =? OATH_INS_LIST then modify (oset_idx 0) ;;; oath_list c
  else if ins =? OATH_INS_CALCULATE then oath_calculate nfc c
  else if ins =? OATH_INS_VALIDATE then oath_validate c
  else if ins =? OATH_INS_SELECT then
    if c_p1 c =? 4 then oath_select c
    else if c_p1 c =? 0 then
      guard (o_valid s) SW_SECURITY_STATUS_NOT_SATISFIED ;;;
      modify (oset_idx 0) ;;; oath_calculate_all c
    else except SW_WRONG_P1P2
  else if ins =? OATH_INS_SEND_REMAINING then oath_send_remaining c
  else if ins =? OATH_INS_SET_DEFAULT then oath_set_default c
  else except SW_INS_NOT_SUPPORTED.

Definition oath_process_apdu (nfc : bool) (c : capdu) : oath -> env -> option rapdu * oath * env :=
  run_apdu (oath_body nfc c).

(** pass.c:155-158 [oath_process_offset]: decimal digits, most significant first *)
Fixpoint digits_of (k : nat) (z : Z) : bytes :=
  match k with O => [] | Datatypes.S k' => digits_of k' (z / 10) ++ [z mod 10 + 48] end.

(** pass.c:148-192 [pass_handle_touch]: the text typed ([Some []] = nothing), [None] = -1.
    TOUCH_SHORT = 1, TOUCH_LONG = 2 (include/device.h).  More digits than the caller's buffer holds
    (kbdhid.c, PASS_MAX_PASSWORD_LENGTH + 2 bytes) would be undefined behaviour. *)
Definition pass_handle_touch (touch_type : Z) : Mo (option bytes) :=
  s <- get ;;
  if negb ((touch_type =? 1) || (touch_type =? 2)) then ret None else
  let sl := if touch_type =? 1 then fst (o_slots s) else snd (o_slots s) in
  let fin (t : bytes) : Mo (option bytes) := ret (Some (t ++ (if negb (sl_enter sl =? 0) then [13] else []))) in
  if sl_type sl =? PASS_SLOT_OFF then ret (Some [])
  else if sl_type sl =? PASS_SLOT_OATH then
    r <- oath_calculate_by_offset (sl_oath_offset sl) ;;
    match r with
    | inl _ => ret None
    | inr (code, n) => if 33 <? n then ub else fin (digits_of (Z.to_nat n) (be code))
    end
  else if sl_type sl =? PASS_SLOT_STATIC then
    pw <- need (sub (sl_password sl) 0 (sl_password_len sl)) ;; fin pw
  else ret None.
End Oath.
