(** Model of applets/piv/piv.c (build without FUZZ and TEST). *)
From Verif Require Export Applet Pin Key.
From Verif Require Admin.
Open Scope string_scope. Open Scope list_scope. Open Scope Z_scope.

Definition SW_ERROR_WHILE_RECEIVING := 0x6600.          (* include/apdu.h:45 *)
(** piv.c:41-62 *)
Definition ALG_DEFAULT := 0x00.
Definition ALG_TDEA_3KEY := 0x03.
Definition ALG_RSA_2048 := 0x07.
Definition ALG_ECC_256 := 0x11.
Definition ALG_ECC_384 := 0x14.
Definition TAG_PIN_KEY_DEFAULT := 0x81.                 (* piv.c:30 *)
(** piv.c:72-74 *)
Definition AUTH_STATE_NONE := 0.
Definition AUTH_STATE_EXTERNAL := 1.
Definition AUTH_STATE_MUTUAL := 2.
(** piv.c:31-40 *)
Definition CARD_ADMIN_KEY_PATH : path := "piv-admk".
Definition ALGORITHM_EXT_CONFIG_PATH : path := "piv-alg".
(** piv.c:89-95 *)
Definition DEFAULT_MGMT_KEY : bytes := [1; 2; 3; 4; 5; 6; 7; 8; 1; 2; 3; 4; 5; 6; 7; 8; 1; 2; 3; 4; 5; 6; 7; 8].
Definition DEFAULT_PIN : bytes := [49; 50; 51; 52; 53; 54; 0xFF; 0xFF].
Definition DEFAULT_PUK : bytes := [49; 50; 51; 52; 53; 54; 55; 56].
Definition rid : bytes := [0xA0; 0x00; 0x00; 0x03; 0x08].
Definition pix : bytes := [0x00; 0x00; 0x10; 0x00; 0x01; 0x00].
(** piv.c:105-106 *)
Definition pin : pin_t := mkPin "piv-pin" 8 8.
Definition puk : pin_t := mkPin "piv-puk" 8 8.

(** piv.c:96-106, the static variables.  [v_chal]: the first 8 bytes of auth_ctx after the state byte; the other 8 are never
    anything but zero, and never read.  [v_path]: piv_do_path, [""] = none.  [v_alg]: the 7 bytes of alg_ext_cfg. *)
Record piv := mkP {
  v_state : Z; v_chal : bytes; v_admin : bool; v_used : bool; v_path : path; v_write : Z; v_read : Z;
  v_touch : Z; v_alg : bytes; v_pin : bool; v_puk : bool }.
Definition UINT32_MAX := 4294967295.
(** Values at power-up.  [v_write] and [v_read] are 0 until piv_install. *)
Definition piv_boot : piv := mkP 0 (zeros 8) false false "" 0 0 UINT32_MAX (zeros 7) false false.

Definition set_auth (st : Z) (ch : bytes) (s : piv) : piv :=
  mkP st ch (v_admin s) (v_used s) (v_path s) (v_write s) (v_read s) (v_touch s) (v_alg s) (v_pin s) (v_puk s).
Definition set_admin (b : bool) (s : piv) : piv :=
  mkP (v_state s) (v_chal s) b (v_used s) (v_path s) (v_write s) (v_read s) (v_touch s) (v_alg s) (v_pin s) (v_puk s).
Definition set_used (b : bool) (s : piv) : piv :=
  mkP (v_state s) (v_chal s) (v_admin s) b (v_path s) (v_write s) (v_read s) (v_touch s) (v_alg s) (v_pin s) (v_puk s).
Definition set_path (p : path) (s : piv) : piv :=
  mkP (v_state s) (v_chal s) (v_admin s) (v_used s) p (v_write s) (v_read s) (v_touch s) (v_alg s) (v_pin s) (v_puk s).
Definition set_write (n : Z) (s : piv) : piv :=
  mkP (v_state s) (v_chal s) (v_admin s) (v_used s) (v_path s) n (v_read s) (v_touch s) (v_alg s) (v_pin s) (v_puk s).
Definition set_read (n : Z) (s : piv) : piv :=
  mkP (v_state s) (v_chal s) (v_admin s) (v_used s) (v_path s) (v_write s) n (v_touch s) (v_alg s) (v_pin s) (v_puk s).
Definition set_last (n : Z) (s : piv) : piv :=
  mkP (v_state s) (v_chal s) (v_admin s) (v_used s) (v_path s) (v_write s) (v_read s) n (v_alg s) (v_pin s) (v_puk s).
Definition set_alg (d : bytes) (s : piv) : piv :=
  mkP (v_state s) (v_chal s) (v_admin s) (v_used s) (v_path s) (v_write s) (v_read s) (v_touch s) d (v_pin s) (v_puk s).
Definition setpin (b : bool) (s : piv) : piv :=
  mkP (v_state s) (v_chal s) (v_admin s) (v_used s) (v_path s) (v_write s) (v_read s) (v_touch s) (v_alg s) b (v_puk s).
Definition setpuk (b : bool) (s : piv) : piv :=
  mkP (v_state s) (v_chal s) (v_admin s) (v_used s) (v_path s) (v_write s) (v_read s) (v_touch s) (v_alg s) (v_pin s) b.

(** piv.c:108-111 *)
Definition authenticate_reset : piv -> piv := set_auth AUTH_STATE_NONE (zeros 8).

(** piv.c:192-200 *)
Definition piv_poweroff (s : piv) : piv :=
  mkP (v_state s) (v_chal s) false false "" (-1) (-1) (v_touch s) (v_alg s) false false.

(** "if (call < 0) return -1" *)
Definition must (m : M piv bool) : M piv unit := ok <- m ;; if ok then ret tt else fail.
Definition mustz (m : M piv Z) : M piv unit := r <- m ;; if r <? 0 then fail else ret tt.
Definition got {A} (m : M piv (option A)) : M piv A := r <- m ;; match r with Some a => ret a | None => fail end.

(** piv.c:113-121 *)
Definition create_key (p : path) (usage policy : Z) : M piv bool :=
  ck_write_key p (mkKey (mkMeta KEY_TYPE_PKC_END KEY_ORIGIN_NOT_PRESENT usage policy TOUCH_POLICY_NEVER) (zeros KEY_SIZE)).

(** piv.c:123-146 *)
Definition algo_id_to_key_type (alg : bytes) (id : Z) : Z :=
  if id =? ALG_ECC_256 then SECP256R1
  else if id =? ALG_ECC_384 then SECP384R1
  else if id =? ALG_RSA_2048 then RSA2048
  else if (id =? ALG_DEFAULT) || (id =? ALG_TDEA_3KEY) then TDEA
  else if nth 0 alg 0 =? 0 then KEY_TYPE_PKC_END
  else if id =? nth 1 alg 0 then ED25519
  else if id =? nth 2 alg 0 then RSA3072
  else if id =? nth 3 alg 0 then RSA4096
  else if id =? nth 4 alg 0 then X25519
  else if id =? nth 5 alg 0 then SECP256K1
  else if id =? nth 6 alg 0 then SM2
  else KEY_TYPE_PKC_END.
(** piv.c:148-174 *)
Definition key_type_to_algo_id (alg : bytes) (t : Z) : Z :=
  if t =? SECP256R1 then ALG_ECC_256
  else if t =? SECP384R1 then ALG_ECC_384
  else if t =? RSA2048 then ALG_RSA_2048
  else if t =? ED25519 then nth 1 alg 0
  else if t =? X25519 then nth 4 alg 0
  else if t =? SECP256K1 then nth 5 alg 0
  else if t =? SM2 then nth 6 alg 0
  else if t =? RSA3072 then nth 2 alg 0
  else if t =? RSA4096 then nth 3 alg 0
  else if t =? TDEA then ALG_TDEA_3KEY
  else ALG_DEFAULT.

(** piv.c:176-190; [true] = 0 returned (allowed) *)
Definition piv_security_status_check (policy : Z) : M piv bool :=
  s <- get ;;
  let no := if policy =? PIN_POLICY_NEVER then false
            else if policy =? PIN_POLICY_ALWAYS then negb (v_pin s) || v_used s
            else negb (v_pin s) in
  if no then ret false else modify (set_used true) ;;; ret true.

(** piv.c:219-228 *)
Definition ccc_tpl (r : bytes) : bytes :=
  [0x53; 0x33; 0xf0; 0x15] ++ r ++
  [0xf1; 0x01; 0x21; 0xf2; 0x01; 0x21; 0xf3; 0x00; 0xf4; 0x01; 0x00; 0xf5; 0x01; 0x10; 0xf6; 0x00; 0xf7;
   0x00; 0xfa; 0x00; 0xfb; 0x00; 0xfc; 0x00; 0xfd; 0x00; 0xfe; 0x00].
Definition chuid_tpl (r : bytes) : bytes :=
  [0x53; 0x3b; 0x30; 0x19; 0xd4; 0xe7; 0x39; 0xda; 0x73; 0x9c; 0xed; 0x39; 0xce; 0x73; 0x9d; 0x83;
   0x68; 0x58; 0x21; 0x08; 0x42; 0x10; 0x84; 0x21; 0xc8; 0x42; 0x10; 0xc3; 0xeb; 0x34; 0x10] ++ r ++
  [0x35; 0x08; 0x32; 0x30; 0x35; 0x30; 0x30; 0x31; 0x30; 0x31; 0x3e; 0x00; 0xfe; 0x00].
(** piv.c:259-265 *)
Definition DEFAULT_ALG : bytes := [1; 0xE0; 0x05; 0x16; 0xE1; 0x53; 0x54].

(** piv.c:202-269; [Fail] = -1 *)
Definition piv_install (reset : bool) : M piv unit :=
  modify piv_poweroff ;;;
  old <- (if reset then ret false else r <- get_file_size ALGORITHM_EXT_CONFIG_PATH ;; ret (match r with Some _ => true | None => false end)) ;;
  if old then
    d <- got (read_file ALGORITHM_EXT_CONFIG_PATH 0 7) ;;
    modify (fun s => set_alg (overlay d (v_alg s)) s)
  else
  must (write_file "piv-pauc" [] 0 true) ;;;
  must (write_file "piv-sigc" [] 0 true) ;;;
  must (write_file "piv-mntc" [] 0 true) ;;;
  must (write_file "piv-cauc" [] 0 true) ;;;
  must (write_file "piv-82c" [] 0 true) ;;;
  must (write_file "piv-83c" [] 0 true) ;;;
  must (write_file "piv-pi" [] 0 true) ;;;
  must (write_file "piv-fig" [] 0 true) ;;;
  must (write_file "piv-face" [] 0 true) ;;;
  r <- random_buffer 21 ;;
  must (write_file "piv-ccc" (ccc_tpl r) 0 true) ;;;
  r <- random_buffer 16 ;;
  must (write_file "piv-chu" (chuid_tpl r) 0 true) ;;;
  must (create_key "piv-pauk" SIGN PIN_POLICY_ONCE) ;;;
  must (create_key "piv-sigk" SIGN PIN_POLICY_ONCE) ;;;
  must (create_key "piv-mntk" KEY_AGREEMENT PIN_POLICY_ONCE) ;;;
  must (create_key "piv-cauk" SIGN PIN_POLICY_NEVER) ;;;
  must (create_key "piv-82" KEY_AGREEMENT PIN_POLICY_ONCE) ;;;
  must (create_key "piv-83" KEY_AGREEMENT PIN_POLICY_ONCE) ;;;
  must (ck_write_key CARD_ADMIN_KEY_PATH
    (mkKey (mkMeta TDEA KEY_ORIGIN_GENERATED ENCRYPT PIN_POLICY_NEVER TOUCH_POLICY_NEVER) (overlay DEFAULT_MGMT_KEY (zeros KEY_SIZE)))) ;;;
  must (write_attr CARD_ADMIN_KEY_PATH TAG_PIN_KEY_DEFAULT [1]) ;;;
  mustz (pin_create pin DEFAULT_PIN 3) ;;;
  must (write_attr (pin_path pin) TAG_PIN_KEY_DEFAULT [1]) ;;;
  mustz (pin_create puk DEFAULT_PUK 3) ;;;
  must (write_attr (pin_path puk) TAG_PIN_KEY_DEFAULT [1]) ;;;
  r <- get_file_size ALGORITHM_EXT_CONFIG_PATH ;;
  if match r with Some n => n =? 7 | None => false end then ret tt else
  modify (set_alg DEFAULT_ALG) ;;;
  must (write_file ALGORITHM_EXT_CONFIG_PATH DEFAULT_ALG 0 true).

(** piv.c:271-299 *)
Definition get_object_path_by_tag (tag : Z) : option path :=
  if tag =? 0x05 then Some "piv-pauc"
  else if tag =? 0x0A then Some "piv-sigc"
  else if tag =? 0x0B then Some "piv-mntc"
  else if tag =? 0x01 then Some "piv-cauc"
  else if tag =? 0x0D then Some "piv-82c"
  else if tag =? 0x0E then Some "piv-83c"
  else if tag =? 0x02 then Some "piv-chu"
  else if tag =? 0x07 then Some "piv-ccc"
  else if tag =? 0x09 then Some "piv-pi"
  else if tag =? 0x03 then Some "piv-fig"
  else if tag =? 0x08 then Some "piv-face"
  else None.
(** piv.c:301-323 *)
Definition get_capacity_by_tag (tag : Z) : Z :=
  if (tag =? 0x05) || (tag =? 0x0A) || (tag =? 0x0B) || (tag =? 0x01) || (tag =? 0x0D) || (tag =? 0x0E) then 3000
  else if tag =? 0x02 then 2916
  else if tag =? 0x07 then 287
  else if tag =? 0x09 then 245
  else if (tag =? 0x03) || (tag =? 0x08) then 512
  else 0.

(** piv.c:325-350 *)
Definition piv_select (c : capdu) : M piv Z :=
  guard ((c_p1 c =? 0x04) && (c_p2 c =? 0x00)) SW_WRONG_P1P2 ;;;
  modify (fun s => authenticate_reset (set_admin false (set_used false (setpin false (setpuk false (set_write (-1) (set_read (-1) s))))))) ;;;
  set_out ([0x61; 6 + 6 + 5; 0x4F; 6] ++ pix ++ [0x79; 2 + 5; 0x4F; 5] ++ rid) ;;;
  ret SW_NO_ERROR.

(** the status word of a partial answer, piv.c:366-369 and 439-442 (the int is stored in 16 bits) *)
Definition sw_more (remains : Z) : Z := if remains >? 0xFF then 0x61FF else u16 (0x6100 + remains).

(** piv.c:352-372 *)
Definition piv_get_large_data (c : capdu) (p : path) (size : Z) : M piv Z :=
  d <- got (read_file p 0 (c_le c)) ;;
  set_out d ;;;
  let remains := size - zlen d in
  if remains =? 0 then ret SW_NO_ERROR
  else modify (fun s => set_path p (set_read (zlen d) s)) ;;; ret (sw_more remains).

(** piv.c:385-420 *)
Definition piv_get_data (c : capdu) : M piv Z :=
  guard ((c_p1 c =? 0x3F) && (c_p2 c =? 0xFF)) SW_WRONG_P1P2 ;;;
  guard (negb (c_lc c <? 2)) SW_WRONG_LENGTH ;;;
  d0 <- need (rd (c_data c) 0) ;;
  guard (d0 =? 0x5C) SW_WRONG_DATA ;;;
  d1 <- need (rd (c_data c) 1) ;;
  guard (d1 + 2 =? c_lc c) SW_WRONG_LENGTH ;;;
  if d1 =? 1 then
    d2 <- need (rd (c_data c) 2) ;;
    guard (d2 =? 0x7E) SW_FILE_NOT_FOUND ;;;
    set_out ([0x7E; 5 + 5 + 6 + 2; 0x4F; 5 + 6] ++ rid ++ pix ++ [0x5F; 0x2F; 2; 0x40; 0x10]) ;;;
    ret SW_NO_ERROR
  else if d1 =? 3 then
    d2 <- need (rd (c_data c) 2) ;;
    d3 <- need (rd (c_data c) 3) ;;
    guard ((c_lc c =? 5) && (d2 =? 0x5F) && (d3 =? 0xC1)) SW_FILE_NOT_FOUND ;;;
    d4 <- need (rd (c_data c) 4) ;;
    s <- get ;;
    guard (negb (((d4 =? 0x09) || (d4 =? 0x03) || (d4 =? 0x08)) && negb (v_pin s))) SW_SECURITY_STATUS_NOT_SATISFIED ;;;
    match get_object_path_by_tag d4 with
    | None => except SW_FILE_NOT_FOUND
    | Some p =>
      size <- got (get_file_size p) ;;
      guard (negb (size =? 0)) SW_FILE_NOT_FOUND ;;;
      piv_get_large_data c p size
    end
  else except SW_FILE_NOT_FOUND.

(** piv.c:422-445 *)
Definition piv_get_data_response (c : capdu) : M piv Z :=
  s <- get ;;
  guard (negb (v_read s =? -1)) SW_CONDITIONS_NOT_SATISFIED ;;;
  if String.eqb (v_path s) "" then fail else
  size <- got (get_file_size (v_path s)) ;;
  d <- got (read_file (v_path s) (v_read s) (c_le c)) ;;
  set_out d ;;;
  modify (set_read (v_read s + zlen d)) ;;;
  let remains := size - (v_read s + zlen d) in
  if remains =? 0 then modify (fun s => set_path "" (set_read (-1) s)) ;;; ret SW_NO_ERROR
  else ret (sw_more remains).

(** What the commands do with the result of [pin_verify], piv.c:465-467, 485-487, 502-504; [ctr] is an uninitialised variable
    when nothing was stored in it. *)
Definition verified (r : Z * option Z) : M piv unit :=
  let '(err, ctr) := r in
  if err =? PIN_IO_FAIL then fail else
  ctr <- need ctr ;;
  if ctr =? 0 then except SW_AUTHENTICATION_BLOCKED else
  if err =? PIN_AUTH_FAIL then except (SW_PIN_RETRIES + ctr) else ret tt.

(** piv.c:447-470 *)
Definition piv_verify (c : capdu) : M piv Z :=
  guard ((c_p1 c =? 0x00) || (c_p1 c =? 0xFF)) SW_WRONG_P1P2 ;;;
  guard (c_p2 c =? 0x80) SW_REFERENCE_DATA_NOT_FOUND ;;;
  if c_p1 c =? 0xFF then
    guard (c_lc c =? 0) SW_WRONG_LENGTH ;;;
    modify (fun s => set_used false (setpin false s)) ;;; ret SW_NO_ERROR
  else if c_lc c =? 0 then
    s <- get ;;
    if v_pin s then ret SW_NO_ERROR else
    r <- pin_get_retries pin ;;
    if r <? 0 then fail else except (SW_PIN_RETRIES + r)
  else
  guard (c_lc c =? 8) SW_WRONG_LENGTH ;;;
  r <- pin_verify pin setpin (c_data c) 8 ;;
  verified r ;;;
  modify (set_used false) ;;; ret SW_NO_ERROR.

(** piv.c:472-494 *)
Definition piv_change_reference_data (c : capdu) : M piv Z :=
  guard (c_p1 c =? 0) SW_WRONG_P1P2 ;;;
  guard ((c_p2 c =? 0x80) || (c_p2 c =? 0x81)) SW_REFERENCE_DATA_NOT_FOUND ;;;
  let p := if c_p2 c =? 0x80 then pin else puk in
  let setp := if c_p2 c =? 0x80 then setpin else setpuk in
  let dflt := if c_p2 c =? 0x80 then DEFAULT_PIN else DEFAULT_PUK in
  guard (c_lc c =? 16) SW_WRONG_LENGTH ;;;
  r <- pin_verify p setp (c_data c) 8 ;;
  verified r ;;;
  err <- pin_update p setp (drop 8 (c_data c)) 8 ;;
  if err =? PIN_IO_FAIL then fail else
  if err =? PIN_LENGTH_INVALID then except SW_WRONG_LENGTH else
  must (write_attr (pin_path p) TAG_PIN_KEY_DEFAULT [Z.b2z (beqb (slice 8 8 (c_data c)) dflt)]) ;;;
  ret SW_NO_ERROR.

(** piv.c:496-509 *)
Definition piv_reset_retry_counter (c : capdu) : M piv Z :=
  guard (c_p1 c =? 0) SW_WRONG_P1P2 ;;;
  guard (c_p2 c =? 0x80) SW_REFERENCE_DATA_NOT_FOUND ;;;
  guard (c_lc c =? 16) SW_WRONG_LENGTH ;;;
  r <- pin_verify puk setpuk (c_data c) 8 ;;
  verified r ;;;
  err <- pin_update pin setpin (drop 8 (c_data c)) 8 ;;
  if err =? PIN_IO_FAIL then fail else
  if err =? PIN_LENGTH_INVALID then except SW_WRONG_LENGTH else ret SW_NO_ERROR.

(** piv.c:511-530 *)
Definition get_key_path (id : Z) : option path :=
  if id =? 0x9A then Some "piv-pauk"
  else if id =? 0x9B then Some CARD_ADMIN_KEY_PATH
  else if id =? 0x9C then Some "piv-sigk"
  else if id =? 0x9D then Some "piv-mntk"
  else if id =? 0x9E then Some "piv-cauk"
  else if id =? 0x82 then Some "piv-82"
  else if id =? 0x83 then Some "piv-83"
  else None.

(** ** GENERAL AUTHENTICATE *)
(** piv.c:559 [pos] and [len] of the four tags 80 (witness), 81 (challenge), 82 (response), 85 (exponentiation) *)
Record tpl := mkT { t_w : Z * Z; t_c : Z * Z; t_r : Z * Z; t_x : Z * Z }.
Definition no_tpl : tpl := mkT (0, 0) (0, 0) (0, 0) (0, 0).
Definition put_tpl (tag : Z) (v : Z * Z) (t : tpl) : tpl :=
  if tag =? 0x80 then mkT v (t_c t) (t_r t) (t_x t)
  else if tag =? 0x81 then mkT (t_w t) v (t_r t) (t_x t)
  else if tag =? 0x82 then mkT (t_w t) (t_c t) v (t_x t)
  else mkT (t_w t) (t_c t) (t_r t) v.
(** piv.c:565-574.  dat_pos is a uint16_t; it does not exceed LC, so it never wraps. *)
Fixpoint ga_elements (fuel : nat) (buf : bytes) (p lc : Z) (t : tpl) : out tpl :=
  match fuel with
  | O => Ret t
  | S fuel =>
    if negb (p <? lc) then Ret t else
    tag <~ oneed (rd buf p) ;;
    _ <~ oguard ((tag =? 0x80) || (tag =? 0x81) || (tag =? 0x82) || (tag =? 0x85)) SW_WRONG_DATA ;;
    r <~ tlv_at buf (p + 1) lc SW_WRONG_LENGTH ;;
    ga_elements fuel buf (snd r + fst r) lc (put_tpl tag (snd r, fst r) t)
  end.
(** piv.c:559-574 *)
Definition ga_template (buf : bytes) (lc : Z) : out tpl :=
  r <~ tlv_at buf 1 lc SW_WRONG_LENGTH ;;
  ga_elements (Z.to_nat lc) buf (snd r) lc no_tpl.

Section GA.
Variable K : crypto.
(** the command was received over NFC; the tick when it is processed; the tick after a touch *)
Variable nfc : bool.
Variables tick1 tick2 : Z.

(** piv.c:76-87 *)
Definition piv_touch (cached : bool) : M piv unit :=
  if nfc then ret tt else
  s <- get ;;
  if cached && (tick1 >? v_touch s) && (tick1 - v_touch s <? 15000) then ret tt else
  r <- wait_touch ;;
  if (r =? USER_PRESENCE_CANCEL) || (r =? USER_PRESENCE_TIMEOUT) then except SW_ERROR_WHILE_RECEIVING else
  modify (set_last tick2).

Definition tdes (k : ckey) (block : bytes) : option bytes := tdes_enc K (slice 0 24 (k_data k)) block.
(** a fallible computation *)
Definition opt {A} (o : option A) : M piv A := match o with Some a => ret a | None => fail end.

(** piv.c:592-660, case 1.  [buf] is the whole buffer that DATA points to; the first LC bytes are the command's. *)
Definition ga_internal (p : path) (m : meta) (buf : bytes) (t : tpl) : M piv Z :=
  modify authenticate_reset ;;;
  ok <- piv_security_status_check (m_pin m) ;;
  guard ok SW_SECURITY_STATUS_NOT_SATISFIED ;;;
  let ty := m_type m in
  let '(pos, len) := t_c t in
  guard (negb ((IS_SHORT_WEIERSTRASS ty && (len >? PRIVATE_KEY_LENGTH ty)) || (IS_RSA ty && negb (len =? PUBLIC_KEY_LENGTH ty)))) SW_WRONG_LENGTH ;;;
  k <- got (ck_read_key p) ;;
  let ty := m_type (k_meta k) in
  if IS_RSA ty then
    d <- need (sub buf pos (PUBLIC_KEY_LENGTH ty)) ;;
    sig <- opt (rsa_private K (k_data k) d) ;;
    let n := SIGNATURE_LENGTH ty in
    set_out ([0x7C; 0x82; hi (n + 4); lo (n + 4); 0x82; 0x82; hi n; lo n] ++ sig) ;;; ret SW_NO_ERROR
  else if IS_ECC ty then
    let n := PRIVATE_KEY_LENGTH ty in
    d <- (if IS_SHORT_WEIERSTRASS ty then
            d <- need (sub buf pos len) ;;
            if n <? len then ub                    (* memmove to before the data, memzero of a huge size *)
            else if zlen buf <? pos + n then ub    (* memmove beyond the buffer *)
            else ret (zeros (n - len) ++ d)
          else need (sub buf pos n)) ;;
    sig <- opt (ck_sign K k d) ;;
    let sig := if IS_SHORT_WEIERSTRASS ty then ecdsa_sig2ansi K sig else sig in
    set_out ([0x7C; u8 (zlen sig + 2); 0x82; u8 (zlen sig)] ++ sig) ;;; ret SW_NO_ERROR
  else fail.

(** piv.c:668-692, case 2 *)
Definition ga_external_request (p : path) (p2 : Z) : M piv Z :=
  modify (fun s => set_admin false (authenticate_reset s)) ;;;
  guard (p2 =? 0x9B) SW_SECURITY_STATUS_NOT_SATISFIED ;;;
  r <- random_buffer 8 ;;
  set_out ([0x7C; 10; 0x81; 8] ++ r) ;;;
  modify (fun s => set_auth AUTH_STATE_EXTERNAL (v_chal s) s) ;;;
  k <- got (ck_read_key p) ;;
  x <- opt (tdes k r) ;;
  modify (fun s => set_auth (v_state s) x s) ;;; ret SW_NO_ERROR.

(** piv.c:699-711, case 3 *)
Definition ga_external_response (p2 : Z) (buf : bytes) (t : tpl) : M piv Z :=
  s <- get ;;
  d <- need (sub buf (fst (t_r t)) (Z.min 8 (snd (t_r t)))) ;;
  if negb (v_state s =? AUTH_STATE_EXTERNAL) || negb (p2 =? 0x9B) || negb (snd (t_r t) =? 8) || negb (beqb (v_chal s) d) then
    modify authenticate_reset ;;; except SW_SECURITY_STATUS_NOT_SATISFIED
  else modify (fun s => set_admin true (authenticate_reset s)) ;;; ret SW_NO_ERROR.

(** piv.c:718-742, case 4.  When the key cannot be read the answer has the buffer's old bytes instead of the witness. *)
Definition ga_mutual_request (p : path) (p2 : Z) (buf : bytes) : M piv Z :=
  modify (fun s => set_admin false (authenticate_reset s)) ;;;
  guard (p2 =? 0x9B) SW_SECURITY_STATUS_NOT_SATISFIED ;;;
  r <- random_buffer 8 ;;
  modify (set_auth AUTH_STATE_MUTUAL r) ;;;
  set_out ([0x7C; 10; 0x80; 8] ++ slice 4 8 buf) ;;;
  k <- got (ck_read_key p) ;;
  x <- opt (tdes k r) ;;
  set_out ([0x7C; 10; 0x80; 8] ++ x) ;;; ret SW_NO_ERROR.

(** piv.c:750-782, case 5.  The values start at offset 4 or later, so writing the header of the answer first does no harm. *)
Definition ga_mutual_response (p : path) (p2 : Z) (buf : bytes) (t : tpl) : M piv Z :=
  s <- get ;;
  d <- need (sub buf (fst (t_w t)) (Z.min 8 (snd (t_w t)))) ;;
  if negb (v_state s =? AUTH_STATE_MUTUAL) || negb (p2 =? 0x9B) || negb (snd (t_w t) =? 8) || negb (beqb (v_chal s) d) then
    modify authenticate_reset ;;; except SW_SECURITY_STATUS_NOT_SATISFIED
  else if negb (snd (t_c t) =? 8) then modify authenticate_reset ;;; except SW_WRONG_LENGTH
  else
    set_out ([0x7C; 10; 0x82; 8] ++ slice 4 8 buf) ;;;
    k <- got (ck_read_key p) ;;
    ch <- need (sub buf (fst (t_c t)) 8) ;;
    x <- opt (tdes k ch) ;;
    set_out ([0x7C; 10; 0x82; 8] ++ x) ;;;
    modify (fun s => set_admin true (authenticate_reset s)) ;;; ret SW_NO_ERROR.

(** piv.c:789-818, case 6 *)
Definition ga_ecdh (p : path) (m : meta) (buf : bytes) (t : tpl) : M piv Z :=
  modify authenticate_reset ;;;
  ok <- piv_security_status_check (m_pin m) ;;
  guard ok SW_SECURITY_STATUS_NOT_SATISFIED ;;;
  let ty := m_type m in
  let '(pos, len) := t_x t in
  guard (len =? PUBLIC_KEY_LENGTH ty + (if IS_SHORT_WEIERSTRASS ty then 1 else 0)) SW_WRONG_DATA ;;;
  k <- got (ck_read_key p) ;;
  let ty := m_type (k_meta k) in
  d <- need (sub buf (pos + (if IS_SHORT_WEIERSTRASS ty then 1 else 0)) (PUBLIC_KEY_LENGTH ty)) ;;
  x <- opt (ecdh K ty (slice O_PRI (PRIVATE_KEY_LENGTH ty) (k_data k)) d) ;;
  let n := PRIVATE_KEY_LENGTH ty in
  set_out ([0x7C; u8 (n + 2); 0x82; u8 n] ++ x) ;;; ret SW_NO_ERROR.

(** piv.c:532-829 *)
Definition piv_general_authenticate (c : capdu) (tail : bytes) : M piv Z :=
  let buf := c_data c ++ tail in
  guard (negb (c_lc c =? 0)) SW_WRONG_LENGTH ;;;
  b <- need (rd buf 0) ;;
  guard (b =? 0x7C) SW_WRONG_DATA ;;;
  match get_key_path (c_p2 c) with
  | None => except SW_WRONG_P1P2
  | Some p =>
    guard (negb ((c_p2 c =? 0x9B) && negb (c_p1 c =? ALG_DEFAULT) && negb (c_p1 c =? ALG_TDEA_3KEY))) SW_WRONG_P1P2 ;;;
    m <- got (ck_read_key_metadata p) ;;
    guard (negb (m_type m =? KEY_TYPE_PKC_END)) SW_CONDITIONS_NOT_SATISFIED ;;;
    s <- get ;;
    guard (algo_id_to_key_type (v_alg s) (c_p1 c) =? m_type m) SW_WRONG_P1P2 ;;;
    t <- lift (ga_template buf (c_lc c)) ;;
    (if (m_touch m =? TOUCH_POLICY_CACHED) || (m_touch m =? TOUCH_POLICY_ALWAYS)
     then piv_touch (m_touch m =? TOUCH_POLICY_CACHED) else ret tt) ;;;
    let has x := fst x >? 0 in
    let nonempty x := snd x >? 0 in
    let empty x := snd x =? 0 in
    if negb (has (t_w t)) && has (t_c t) && nonempty (t_c t) && has (t_r t) && empty (t_r t) then ga_internal p m buf t
    else if has (t_c t) && empty (t_c t) then ga_external_request p (c_p2 c)
    else if has (t_r t) && nonempty (t_r t) then ga_external_response (c_p2 c) buf t
    else if has (t_w t) && empty (t_w t) then ga_mutual_request p (c_p2 c) buf
    else if has (t_w t) && nonempty (t_w t) && has (t_c t) && nonempty (t_c t) then ga_mutual_response p (c_p2 c) buf t
    else if has (t_r t) && empty (t_r t) && has (t_x t) && nonempty (t_x t) then ga_ecdh p m buf t
    else modify authenticate_reset ;;; except SW_WRONG_DATA
  end.

(** ** The administrative commands *)
Definition admin_only : M piv unit := s <- get ;; guard (v_admin s) SW_SECURITY_STATUS_NOT_SATISFIED.

(** piv.c:831-877 *)
Definition piv_put_data (c : capdu) : M piv Z :=
  admin_only ;;;
  guard ((c_p1 c =? 0x3F) && (c_p2 c =? 0xFF)) SW_WRONG_P1P2 ;;;
  s <- get ;;
  let chained := Z.testbit (c_cla c) 4 in
  if v_write s =? -1 then
    guard (negb (c_lc c <? 5)) SW_WRONG_LENGTH ;;;
    let size := c_lc c - 5 in
    guard (nth 0 (c_data c) 0 =? 0x5C) SW_WRONG_DATA ;;;
    guard ((nth 1 (c_data c) 0 =? 3) && (nth 2 (c_data c) 0 =? 0x5F) && (nth 3 (c_data c) 0 =? 0xC1)) SW_FILE_NOT_FOUND ;;;
    let max_len := get_capacity_by_tag (nth 4 (c_data c) 0) in
    match get_object_path_by_tag (nth 4 (c_data c) 0) with
    | None => except SW_FILE_NOT_FOUND
    | Some p =>
      guard (negb (size >? max_len)) SW_WRONG_LENGTH ;;;
      must (write_file p (drop 5 (c_data c)) 0 true) ;;;
      (if chained && (size <? max_len) then modify (fun s => set_path p (set_write (max_len - size) s)) else ret tt) ;;;
      ret SW_NO_ERROR
    end
  else
    if String.eqb (v_path s) "" then fail else
    if c_lc c >? v_write s then modify (fun s => set_path "" (set_write (-1) s)) ;;; except SW_WRONG_LENGTH else
    modify (set_write (v_write s - c_lc c)) ;;;
    must (append_file (v_path s) (c_data c)) ;;;
    (if chained then ret tt else modify (fun s => set_path "" (set_write (-1) s))) ;;;
    ret SW_NO_ERROR.

(** the slot of an asymmetric key, piv.c:892-896 and 949-953 *)
Definition key_slot (p2 : Z) : option path := if p2 =? 0x9B then None else get_key_path p2.

(** piv.c:879-922 *)
Definition piv_generate (c : capdu) (tail : bytes) : M piv Z :=
  admin_only ;;;
  guard (negb (c_lc c <? 5)) SW_WRONG_LENGTH ;;;
  let buf := c_data c ++ tail in
  guard ((c_p1 c =? 0) && (nth 0 buf 0 =? 0xAC) && (nth 2 buf 0 =? 0x80) && (nth 3 buf 0 =? 0x01)) SW_WRONG_DATA ;;;
  match key_slot (c_p2 c) with
  | None => except SW_WRONG_P1P2
  | Some p =>
    k <- got (ck_read_key p) ;;
    s <- get ;;
    let ty := algo_id_to_key_type (v_alg s) (nth 4 buf 0) in
    guard (negb (ty =? KEY_TYPE_PKC_END)) SW_WRONG_DATA ;;;
    k <- got (ck_generate_key K (set_type ty k)) ;;
    k <- lift (match ck_parse_piv_policies (Z.to_nat (c_lc c)) k buf 5 (c_lc c) with Exc _ => Exc SW_WRONG_DATA | x => x end) ;;
    must (ck_write_key p k) ;;;
    match ck_encode_public_key K k with
    | None => fail
    | Some d => set_out ([0x7F; 0x49] ++ d) ;;; ret SW_NO_ERROR
    end
  end.

(** piv.c:924-935 *)
Definition piv_set_management_key (c : capdu) : M piv Z :=
  guard ((c_p1 c =? 0xFF) && (c_p2 c =? 0xFF)) SW_WRONG_P1P2 ;;;
  guard (c_lc c =? 27) SW_WRONG_LENGTH ;;;
  guard ((nth 0 (c_data c) 0 =? 0x03) && (nth 1 (c_data c) 0 =? 0x9B) && (nth 2 (c_data c) 0 =? 24)) SW_WRONG_DATA ;;;
  admin_only ;;;
  must (write_file CARD_ADMIN_KEY_PATH (drop 3 (c_data c)) 0 true) ;;;
  must (write_attr CARD_ADMIN_KEY_PATH TAG_PIN_KEY_DEFAULT [Z.b2z (beqb (drop 3 (c_data c)) DEFAULT_MGMT_KEY)]) ;;;
  ret SW_NO_ERROR.

(** a call whose negative result is ignored *)
Definition ignore (m : M piv unit) : M piv unit := fun s e =>
  match m s e with (Fail, s', e') => (Ret tt, s', e') | x => x end.

(** piv.c:937-943 *)
Definition piv_reset (c : capdu) : M piv Z :=
  guard ((c_p1 c =? 0) && (c_p2 c =? 0)) SW_WRONG_P1P2 ;;;
  guard (c_lc c =? 0) SW_WRONG_LENGTH ;;;
  r <- pin_get_retries pin ;;
  guard (negb (r >? 0)) SW_SECURITY_STATUS_NOT_SATISFIED ;;;
  r <- pin_get_retries puk ;;
  guard (negb (r >? 0)) SW_SECURITY_STATUS_NOT_SATISFIED ;;;
  ignore (piv_install true) ;;; ret SW_NO_ERROR.

(** piv.c:945-980 *)
Definition piv_import (c : capdu) (tail : bytes) : M piv Z :=
  admin_only ;;;
  match key_slot (c_p2 c) with
  | None => except SW_WRONG_P1P2
  | Some p =>
    k <- got (ck_read_key p) ;;
    s <- get ;;
    let ty := algo_id_to_key_type (v_alg s) (c_p1 c) in
    guard (negb (ty =? KEY_TYPE_PKC_END)) SW_WRONG_P1P2 ;;;
    k <- lift (match ck_parse_piv K (set_type ty k) (c_data c ++ tail) (c_lc c) with
               | Exc e => Exc (if e =? KEY_ERR_LENGTH then SW_WRONG_LENGTH else if e =? KEY_ERR_DATA then SW_WRONG_DATA else SW_UNABLE_TO_PROCESS)
               | x => x end) ;;
    must (ck_write_key p k) ;;; ret SW_NO_ERROR
  end.

(** piv.c:982-1069 *)
Definition piv_get_metadata (c : capdu) : M piv Z :=
  guard (c_p1 c =? 0) SW_WRONG_P1P2 ;;;
  guard (c_lc c =? 0) SW_WRONG_LENGTH ;;;
  let id := c_p2 c in
  if (id =? 0x80) || (id =? 0x81) then
    let p := if id =? 0x80 then pin else puk in
    dv <- got (read_attr (pin_path p) TAG_PIN_KEY_DEFAULT) ;;
    dr <- pin_get_default_retries p ;;
    r <- pin_get_retries p ;;
    if r <? 0 then fail else
    set_out [0x01; 0x01; 0xFF; 0x05; 0x01; attr1 dv; 0x06; 0x02; u8 dr; u8 r] ;;; ret SW_NO_ERROR
  else if id =? 0x9B then
    dv <- got (read_attr CARD_ADMIN_KEY_PATH TAG_PIN_KEY_DEFAULT) ;;
    set_out [0x01; 0x01; 0x03; 0x02; 0x02; 0x00; 0x01; 0x05; 0x01; attr1 dv] ;;; ret SW_NO_ERROR
  else match key_slot id with
  | None => except SW_REFERENCE_DATA_NOT_FOUND
  | Some p =>
    k <- got (ck_read_key p) ;;
    guard (negb (m_type (k_meta k) =? KEY_TYPE_PKC_END)) SW_REFERENCE_DATA_NOT_FOUND ;;;
    s <- get ;;
    match ck_encode_public_key K k with
    | None => fail
    | Some d =>
      set_out ([0x01; 0x01; key_type_to_algo_id (v_alg s) (m_type (k_meta k)); 0x02; 0x02; m_pin (k_meta k); m_touch (k_meta k);
                0x03; 0x01; m_origin (k_meta k); 0x04] ++ d) ;;; ret SW_NO_ERROR
    end
  end.

(** piv.c:1071-1087 *)
Definition no_args (c : capdu) : M piv unit :=
  guard ((c_p1 c =? 0) && (c_p2 c =? 0)) SW_WRONG_P1P2 ;;; guard (c_lc c =? 0) SW_WRONG_LENGTH.
Definition piv_get_version (c : capdu) : M piv Z := no_args c ;;; set_out [5; 7; 0] ;;; ret SW_NO_ERROR.
Definition piv_get_serial (c : capdu) : M piv Z := no_args c ;;; d <- Admin.fill_sn ;; set_out d ;;; ret SW_NO_ERROR.

(** piv.c:1089-1110.  Reading an incomplete file leaves old bytes of the buffer in the answer (here: the command's, zeros). *)
Definition piv_algorithm_extension (c : capdu) : M piv Z :=
  admin_only ;;;
  guard ((c_p1 c =? 1) || (c_p1 c =? 2)) SW_WRONG_P1P2 ;;;
  guard (c_p2 c =? 0) SW_WRONG_P1P2 ;;;
  if c_p1 c =? 1 then
    d <- got (read_file ALGORITHM_EXT_CONFIG_PATH 0 7) ;;
    set_out (firstn 7 (overlay d (c_data c ++ zeros 7))) ;;; ret SW_NO_ERROR
  else
    guard (c_lc c =? 7) SW_WRONG_LENGTH ;;;
    guard ((nth 0 (c_data c) 0 =? 0) || (nth 0 (c_data c) 0 =? 1)) SW_WRONG_DATA ;;;
    must (write_file ALGORITHM_EXT_CONFIG_PATH (c_data c) 0 true) ;;;
    modify (set_alg (c_data c)) ;;; ret SW_NO_ERROR.

(** piv.c:1112-1178, after "LL = 0; SW = 9000" *)
Definition piv_body (c : capdu) (tail : bytes) : M piv Z :=
  let i := c_ins c in
  guard ((c_cla c =? 0) || ((c_cla c =? 0x10) && (i =? 0xDB))) SW_CLA_NOT_SUPPORTED ;;;
  (if i =? 0xDB then ret tt else modify (set_write (-1))) ;;;
  (if i =? 0xC0 then ret tt else modify (set_read (-1))) ;;;
  if i =? 0xA4 then piv_select c
  else if i =? 0xCB then piv_get_data c
  else if i =? 0xC0 then piv_get_data_response c
  else if i =? 0x20 then piv_verify c
  else if i =? 0x24 then piv_change_reference_data c
  else if i =? 0x2C then piv_reset_retry_counter c
  else if i =? 0x87 then piv_general_authenticate c tail
  else if i =? 0xDB then piv_put_data c
  else if i =? 0x47 then piv_generate c tail
  else if i =? 0xFF then piv_set_management_key c
  else if i =? 0xFB then piv_reset c
  else if i =? 0xFE then piv_import c tail
  else if i =? 0xFD then piv_get_version c
  else if i =? 0xF8 then piv_get_serial c
  else if i =? 0xF7 then piv_get_metadata c
  else if i =? 0xEE then piv_algorithm_extension c
  else except SW_INS_NOT_SUPPORTED.
End GA.
