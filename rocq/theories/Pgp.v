(** Model of applets/openpgp/openpgp.c and applets/openpgp/key.c (build without FUZZ).  Blinking and debug output are left out. *)
From Verif Require Export Applet Pin Key.
From Verif Require Admin.
Open Scope string_scope. Open Scope list_scope. Open Scope Z_scope.

Definition SW_ERROR_WHILE_RECEIVING := 0x6600.          (* include/apdu.h:45 *)
Definition SW_FILE_NOT_FOUND := 0x6A82.                 (* include/apdu.h:38 *)
(** openpgp.c:14-20 *)
Definition DATA_PATH : path := "pgp-data".
Definition SIG_KEY_PATH : path := "pgp-sigk".
Definition DEC_KEY_PATH : path := "pgp-deck".
Definition AUT_KEY_PATH : path := "pgp-autk".
Definition SIG_CERT_PATH : path := "pgp-sigc".
Definition DEC_CERT_PATH : path := "pgp-decc".
Definition AUT_CERT_PATH : path := "pgp-autc".
(** openpgp.c:22-32 *)
Definition MAX_LOGIN_LENGTH := 63.
Definition MAX_URL_LENGTH := 255.
Definition MAX_NAME_LENGTH := 39.
Definition MAX_LANG_LENGTH := 8.
Definition MAX_SEX_LENGTH := 1.
Definition MAX_PIN_LENGTH := 64.
Definition MAX_CERT_LENGTH := 0x480.
(** openpgp.c:34-38: attributes of DATA_PATH *)
Definition ATTR_CA1_FP := 0xFF.
Definition ATTR_CA2_FP := 0xFE.
Definition ATTR_CA3_FP := 0xFD.
Definition ATTR_TERMINATED := 0xFC.
Definition ATTR_TOUCH_CACHE_TIME := 0xFB.
(** include/openpgp.h:23-61 (used as attribute numbers, two-byte tags by their low byte) *)
Definition TAG_LOGIN := 0x5E.
Definition TAG_NAME := 0x5B.
Definition LO_TAG_LANG := 0x2D.
Definition LO_TAG_SEX := 0x35.
Definition TAG_PW_STATUS := 0xC4.
Definition TAG_DIGITAL_SIG_COUNTER := 0x93.
(** openpgp.c:40-42 *)
Definition STATE_NORMAL := 0.
Definition STATE_SELECT_DATA := 1.
Definition STATE_GET_CERT_DATA := 2.
(** applets/openpgp/key.c:5-6, key.h:7-9 *)
Definition ATTR_FINGERPRINT := 0x00.
Definition ATTR_DATETIME := 0x01.
Definition KEY_FINGERPRINT_LENGTH := 20.
Definition KEY_DATETIME_LENGTH := 4.
Definition MAX_ATTR_LENGTH := 13.
(** openpgp.c:45-48 *)
Definition ALGO_ID_RSA := 0x01.
Definition ALGO_ID_ECDH := 0x12.
Definition ALGO_ID_ECDSA := 0x13.
Definition ALGO_ID_ED25519 := 0x16.
(** openpgp.c:50-61, each row without its padding; the order of the key types is that of Key.v *)
Definition algo_attr : list bytes :=
  [ [9; 0x00; 0x2A; 0x86; 0x48; 0xCE; 0x3D; 0x03; 0x01; 0x07];
    [6; 0x00; 0x2B; 0x81; 0x04; 0x00; 0x0A];
    [6; 0x00; 0x2B; 0x81; 0x04; 0x00; 0x22];
    [6; 0x00; 0x2B; 0x81; 0x04; 0x00; 0x23];
    [11; 0x00; 0x06; 0x08; 0x2A; 0x81; 0x1C; 0xCF; 0x55; 0x01; 0x82; 0x2D];
    [10; ALGO_ID_ED25519; 0x2B; 0x06; 0x01; 0x04; 0x01; 0xDA; 0x47; 0x0F; 0x01];
    [11; ALGO_ID_ECDH; 0x2B; 0x06; 0x01; 0x04; 0x01; 0x97; 0x55; 0x01; 0x05; 0x01];
    [6; ALGO_ID_RSA; 0x08; 0x00; 0x00; 0x20; 0x02];
    [6; ALGO_ID_RSA; 0x0C; 0x00; 0x00; 0x20; 0x02];
    [6; ALGO_ID_RSA; 0x10; 0x00; 0x00; 0x20; 0x02] ].
(** openpgp.c:64-93 *)
Definition aid_head : bytes := [0xD2; 0x76; 0x00; 0x01; 0x24; 0x01].
Definition aid_with (sn : bytes) : bytes := aid_head ++ [0x03; 0x04; 0xf1; 0xd0] ++ sn ++ [0x00; 0x00].
Definition historical_bytes : bytes := [0x00; 0x31; 0xC5; 0x73; 0xC0; 0x01; 0x40; 0x05; 0x90; 0x00].
Definition extended_length_info : bytes := [0x02; 0x02; hi APDU_BUFFER_SIZE; lo APDU_BUFFER_SIZE; 0x02; 0x02; hi APDU_BUFFER_SIZE; lo APDU_BUFFER_SIZE].
Definition extended_capabilities : bytes :=
  [0x74; 0x00; hi APDU_BUFFER_SIZE; lo APDU_BUFFER_SIZE; hi MAX_CERT_LENGTH; lo MAX_CERT_LENGTH; 0x00; 0xFF; 0x00; 0x00].
(** openpgp.c:97-99 *)
Definition pw1 : pin_t := mkPin "pgp-pw1" 6 MAX_PIN_LENGTH.
Definition pw3 : pin_t := mkPin "pgp-pw3" 8 MAX_PIN_LENGTH.
Definition rc : pin_t := mkPin "pgp-rc" 8 MAX_PIN_LENGTH.
Definition PW_RETRY_COUNTER_DEFAULT := 3.               (* openpgp.c:109 *)

(** openpgp.c:96-101, the static variables; the two bits of pw1_mode are two fields. *)
Record pgp := mkG {
  g_81 : bool; g_82 : bool; g_occ : Z; g_state : Z; g_pw1 : bool; g_pw3 : bool; g_rc : bool; g_cache : Z; g_last : Z }.
Definition UINT32_MAX := 4294967295.
Definition pgp_boot : pgp := mkG false false 0 STATE_NORMAL false false false 0 UINT32_MAX.
Definition set81 (b : bool) (s : pgp) : pgp := mkG b (g_82 s) (g_occ s) (g_state s) (g_pw1 s) (g_pw3 s) (g_rc s) (g_cache s) (g_last s).
Definition set82 (b : bool) (s : pgp) : pgp := mkG (g_81 s) b (g_occ s) (g_state s) (g_pw1 s) (g_pw3 s) (g_rc s) (g_cache s) (g_last s).
Definition set_occ (n : Z) (s : pgp) : pgp := mkG (g_81 s) (g_82 s) n (g_state s) (g_pw1 s) (g_pw3 s) (g_rc s) (g_cache s) (g_last s).
Definition set_state (n : Z) (s : pgp) : pgp := mkG (g_81 s) (g_82 s) (g_occ s) n (g_pw1 s) (g_pw3 s) (g_rc s) (g_cache s) (g_last s).
Definition setpw1 (b : bool) (s : pgp) : pgp := mkG (g_81 s) (g_82 s) (g_occ s) (g_state s) b (g_pw3 s) (g_rc s) (g_cache s) (g_last s).
Definition setpw3 (b : bool) (s : pgp) : pgp := mkG (g_81 s) (g_82 s) (g_occ s) (g_state s) (g_pw1 s) b (g_rc s) (g_cache s) (g_last s).
Definition setrc (b : bool) (s : pgp) : pgp := mkG (g_81 s) (g_82 s) (g_occ s) (g_state s) (g_pw1 s) (g_pw3 s) b (g_cache s) (g_last s).
Definition set_cache (n : Z) (s : pgp) : pgp := mkG (g_81 s) (g_82 s) (g_occ s) (g_state s) (g_pw1 s) (g_pw3 s) (g_rc s) n (g_last s).
Definition set_last (n : Z) (s : pgp) : pgp := mkG (g_81 s) (g_82 s) (g_occ s) (g_state s) (g_pw1 s) (g_pw3 s) (g_rc s) (g_cache s) n.

(** openpgp.c:185-190 *)
Definition pgp_poweroff (s : pgp) : pgp :=
  mkG false false (g_occ s) STATE_NORMAL false false (g_rc s) (g_cache s) (g_last s).

(** "if (call < 0) return -1" *)
Definition must (m : M pgp bool) : M pgp unit := ok <- m ;; if ok then ret tt else fail.
Definition mustz (m : M pgp Z) : M pgp unit := r <- m ;; if r <? 0 then fail else ret tt.
Definition got {A} (m : M pgp (option A)) : M pgp A := r <- m ;; match r with Some a => ret a | None => fail end.
Definition opt {A} (o : option A) : M pgp A := match o with Some a => ret a | None => fail end.

(** A stored attribute copied to the response, with [len] = the length returned.  Every writer keeps within [max]; were a longer
    attribute stored, the code would count bytes it did not copy (here: undefined behaviour). *)
Definition attr_upto (p : path) (a max : Z) : M pgp bytes :=
  v <- got (read_attr p a) ;; if zlen v <=? max then ret v else ub.
(** A stored attribute read into a variable of [n] bytes (littlefs fills up with zeros) *)
Definition attr_exact (p : path) (a n : Z) : M pgp bytes :=
  v <- got (read_attr p a) ;; ret (firstn (Z.to_nat n) (v ++ zeros n)).

(** openpgp.c:135-146 *)
Definition get_key_path (tag : Z) : option path :=
  if tag =? 0xB6 then Some SIG_KEY_PATH else if tag =? 0xB8 then Some DEC_KEY_PATH else if tag =? 0xA4 then Some AUT_KEY_PATH else None.
(** openpgp.c:148-152 *)
Definition reset_sig_counter : M pgp unit := must (write_attr DATA_PATH TAG_DIGITAL_SIG_COUNTER (zeros 3)).
(** openpgp.c:154-166.  A type beyond the table would be read outside it. *)
Definition fill_attr (m : meta) : M pgp bytes :=
  row <- need (nth_error algo_attr (Z.to_nat (m_type m))) ;;
  match row with
  | n :: _ :: oid =>
      if IS_SHORT_WEIERSTRASS (m_type m) then
        if m_usage m =? SIGN then ret (n :: ALGO_ID_ECDSA :: oid)
        else if m_usage m =? ENCRYPT then ret (n :: ALGO_ID_ECDH :: oid)
        else fail
      else ret row
  | _ => ub                                            (* no row is that short *)
  end.
(** openpgp.c:118-120, 168-183; -1 as the byte 0xFF *)
Definition UIF_PERMANENTLY := 2.
Definition get_touch_policy (t : Z) : Z :=
  if t =? TOUCH_POLICY_DEFAULT then 0 else if t =? TOUCH_POLICY_CACHED then 1 else if t =? TOUCH_POLICY_PERMANENT then 2 else 0xFF.
Definition UIF_TO_TOUCH_POLICY (n : Z) : Z :=
  nth (Z.to_nat n) [TOUCH_POLICY_DEFAULT; TOUCH_POLICY_CACHED; TOUCH_POLICY_PERMANENT] 0.

(** openpgp.c:209-227: a key slot at installation *)
Definition empty_key (usage : Z) : ckey := mkKey (mkMeta RSA2048 KEY_ORIGIN_NOT_PRESENT usage 0 0) (zeros KEY_SIZE).
Definition install_key (p : path) (usage : Z) : M pgp unit :=
  must (ck_write_key p (empty_key usage)) ;;;
  must (write_attr p ATTR_FINGERPRINT (zeros 20)) ;;;
  must (write_attr p ATTR_DATETIME (zeros 4)).
Definition DEFAULT_PW1 : bytes := [49; 50; 51; 52; 53; 54].
Definition DEFAULT_PW3 : bytes := [49; 50; 51; 52; 53; 54; 55; 56].
(** openpgp.c:192-254; [Fail] = -1 *)
Definition pgp_install (reset : bool) : M pgp unit :=
  modify pgp_poweroff ;;;
  old <- (if reset then ret false else r <- get_file_size DATA_PATH ;; ret (match r with Some _ => true | None => false end)) ;;
  if old then ret tt else
  must (write_file DATA_PATH [] 0 true) ;;;
  must (write_attr DATA_PATH ATTR_TERMINATED [1]) ;;;
  must (write_attr DATA_PATH TAG_LOGIN []) ;;;
  must (write_attr DATA_PATH TAG_NAME []) ;;;
  must (write_attr DATA_PATH LO_TAG_LANG []) ;;;
  must (write_attr DATA_PATH LO_TAG_SEX [0x39]) ;;;
  must (write_attr DATA_PATH TAG_PW_STATUS [0x00]) ;;;
  install_key SIG_KEY_PATH SIGN ;;;
  install_key DEC_KEY_PATH ENCRYPT ;;;
  install_key AUT_KEY_PATH SIGN ;;;
  must (write_attr DATA_PATH ATTR_CA1_FP (zeros 20)) ;;;
  must (write_attr DATA_PATH ATTR_CA2_FP (zeros 20)) ;;;
  must (write_attr DATA_PATH ATTR_CA3_FP (zeros 20)) ;;;
  modify (set_cache 0) ;;;
  must (write_attr DATA_PATH ATTR_TOUCH_CACHE_TIME [0]) ;;;
  reset_sig_counter ;;;
  must (write_file SIG_CERT_PATH [] 0 true) ;;;
  must (write_file DEC_CERT_PATH [] 0 true) ;;;
  must (write_file AUT_CERT_PATH [] 0 true) ;;;
  mustz (pin_create pw1 DEFAULT_PW1 PW_RETRY_COUNTER_DEFAULT) ;;;
  mustz (pin_create pw3 DEFAULT_PW3 PW_RETRY_COUNTER_DEFAULT) ;;;
  mustz (pin_create rc [] PW_RETRY_COUNTER_DEFAULT) ;;;
  must (write_attr DATA_PATH ATTR_TERMINATED [0]).

(** openpgp.c:256-261 *)
Definition pgp_select (c : capdu) : M pgp Z :=
  guard ((c_p1 c =? 0x04) && (c_p2 c =? 0)) SW_WRONG_P1P2 ;;;
  guard (beqb (c_data c) aid_head) SW_FILE_NOT_FOUND ;;;
  v <- got (read_attr DATA_PATH ATTR_TOUCH_CACHE_TIME) ;;
  modify (set_cache (attr1 v)) ;;; ret SW_NO_ERROR.

(** openpgp.c:476-487 *)
Definition cert_path (n : Z) : option path :=
  if n =? 0 then Some SIG_CERT_PATH else if n =? 1 then Some DEC_CERT_PATH else if n =? 2 then Some AUT_CERT_PATH else None.
(** openpgp.c:382-394, 501-515: the PW status bytes *)
Definition retries_byte (p : pin_t) : M pgp Z := r <- pin_get_retries p ;; if r <? 0 then fail else ret (u8 r).
Definition pw_status_bytes : M pgp bytes :=
  v <- got (read_attr DATA_PATH TAG_PW_STATUS) ;;
  a <- retries_byte pw1 ;;
  b <- retries_byte rc ;;
  c <- retries_byte pw3 ;;
  ret [attr1 v; MAX_PIN_LENGTH; MAX_PIN_LENGTH; MAX_PIN_LENGTH; a; b; c].
(** openpgp.c:529-567 *)
Definition algo_info (tag algo id : Z) : bytes :=
  match nth_error algo_attr (Z.to_nat algo) with Some (n :: _ :: oid) => tag :: n :: id :: oid | _ => [] end.
Definition algorithm_information : bytes :=
  flat_map (fun x => algo_info 0xC1 (fst x) (snd x))
    [(RSA2048, ALGO_ID_RSA); (RSA3072, ALGO_ID_RSA); (RSA4096, ALGO_ID_RSA); (SECP256R1, ALGO_ID_ECDSA); (SECP256K1, ALGO_ID_ECDSA);
     (SECP384R1, ALGO_ID_ECDSA); (SECP521R1, ALGO_ID_ECDSA); (ED25519, ALGO_ID_ED25519); (SM2, ALGO_ID_ECDSA)] ++
  flat_map (fun x => algo_info 0xC2 (fst x) (snd x))
    [(RSA2048, ALGO_ID_RSA); (RSA3072, ALGO_ID_RSA); (RSA4096, ALGO_ID_RSA); (SECP256R1, ALGO_ID_ECDH); (SECP256K1, ALGO_ID_ECDH);
     (SECP384R1, ALGO_ID_ECDH); (SECP521R1, ALGO_ID_ECDH); (X25519, ALGO_ID_ECDH); (SM2, ALGO_ID_ECDH)] ++
  flat_map (fun x => algo_info 0xC3 (fst x) (snd x))
    [(RSA2048, ALGO_ID_RSA); (RSA3072, ALGO_ID_RSA); (RSA4096, ALGO_ID_RSA); (SECP256R1, ALGO_ID_ECDSA); (SECP256K1, ALGO_ID_ECDSA);
     (SECP384R1, ALGO_ID_ECDSA); (SECP521R1, ALGO_ID_ECDSA); (ED25519, ALGO_ID_ED25519); (SM2, ALGO_ID_ECDSA)].
Definition out_ok (d : bytes) : M pgp Z := set_out d ;;; ret SW_NO_ERROR.

(** openpgp.c:298-322: tag 65 *)
Definition cardholder_related_data : M pgp bytes :=
  name <- attr_upto DATA_PATH TAG_NAME MAX_NAME_LENGTH ;;
  lang <- attr_upto DATA_PATH LO_TAG_LANG MAX_LANG_LENGTH ;;
  sex <- attr_upto DATA_PATH LO_TAG_SEX MAX_SEX_LENGTH ;;
  let body := [0x5B; zlen name] ++ name ++ [0x5F; 0x2D; zlen lang] ++ lang ++ [0x5F; 0x35; zlen sex] ++ sex in
  ret ([0x65; u8 (zlen body)] ++ body).
(** openpgp.c:365-454: the part of tag 73 after the extended capabilities *)
Definition discretionary_data (ms md ma : meta) : M pgp bytes :=
  a1 <- fill_attr ms ;;
  a2 <- fill_attr md ;;
  a3 <- fill_attr ma ;;
  pw <- pw_status_bytes ;;
  f1 <- attr_upto SIG_KEY_PATH ATTR_FINGERPRINT KEY_FINGERPRINT_LENGTH ;;
  f2 <- attr_upto DEC_KEY_PATH ATTR_FINGERPRINT KEY_FINGERPRINT_LENGTH ;;
  f3 <- attr_upto AUT_KEY_PATH ATTR_FINGERPRINT KEY_FINGERPRINT_LENGTH ;;
  c1 <- attr_upto DATA_PATH ATTR_CA1_FP KEY_FINGERPRINT_LENGTH ;;
  c2 <- attr_upto DATA_PATH ATTR_CA2_FP KEY_FINGERPRINT_LENGTH ;;
  c3 <- attr_upto DATA_PATH ATTR_CA3_FP KEY_FINGERPRINT_LENGTH ;;
  d1 <- attr_upto SIG_KEY_PATH ATTR_DATETIME KEY_DATETIME_LENGTH ;;
  d2 <- attr_upto DEC_KEY_PATH ATTR_DATETIME KEY_DATETIME_LENGTH ;;
  d3 <- attr_upto AUT_KEY_PATH ATTR_DATETIME KEY_DATETIME_LENGTH ;;
  ret ([0xC1] ++ a1 ++ [0xC2] ++ a2 ++ [0xC3] ++ a3 ++ [0xC4; 7] ++ pw ++
       [0xC5; 60] ++ f1 ++ f2 ++ f3 ++ [0xC6; 60] ++ c1 ++ c2 ++ c3 ++ [0xCD; 12] ++ d1 ++ d2 ++ d3 ++
       [0xDE; 6; 1; m_origin ms; 2; m_origin md; 3; m_origin ma] ++
       [0xD6; 2; get_touch_policy (m_touch ms); 0x20; 0xD7; 2; get_touch_policy (m_touch md); 0x20; 0xD8; 2; get_touch_policy (m_touch ma); 0x20]).
(** openpgp.c:324-464: tag 6E *)
Definition application_related_data (ms md ma : meta) : M pgp bytes :=
  sn <- Admin.fill_sn ;;
  d <- discretionary_data ms md ma ;;
  let ddo := [0xC0; 10] ++ extended_capabilities ++ d in
  let body := [0x4F; 16] ++ aid_with sn ++ [0x5F; 0x52; 10] ++ historical_bytes ++ [0x7F; 0x66; 8] ++ extended_length_info ++
              [0x7F; 0x74; 0x03; 0x81; 0x01; 0x20] ++ [0x73; 0x82; hi (zlen ddo); lo (zlen ddo)] ++ ddo in
  ret ([0x6E; 0x82; hi (zlen body); lo (zlen body)] ++ body).

(** openpgp.c:263-582 *)
Definition pgp_get_data (c : capdu) : M pgp Z :=
  guard (c_lc c =? 0) SW_WRONG_LENGTH ;;;
  let tag := Z.lor (c_p1 c * 256) (c_p2 c) in
  ms <- got (ck_read_key_metadata SIG_KEY_PATH) ;;
  md <- got (ck_read_key_metadata DEC_KEY_PATH) ;;
  ma <- got (ck_read_key_metadata AUT_KEY_PATH) ;;
  if tag =? 0x4F then sn <- Admin.fill_sn ;; out_ok (aid_with sn)
  else if tag =? 0x5E then d <- attr_upto DATA_PATH TAG_LOGIN MAX_LOGIN_LENGTH ;; out_ok d
  else if tag =? 0x5F50 then d <- got (read_file DATA_PATH 0 MAX_URL_LENGTH) ;; out_ok d
  else if tag =? 0x5F52 then out_ok historical_bytes
  else if tag =? 0x65 then d <- cardholder_related_data ;; out_ok d
  else if tag =? 0x6E then d <- application_related_data ms md ma ;; out_ok d
  else if tag =? 0x7A then d <- attr_exact DATA_PATH TAG_DIGITAL_SIG_COUNTER 3 ;; out_ok ([0x7A; 5; 0x93; 3] ++ d)
  else if tag =? 0x7F21 then
    s <- get ;;
    match cert_path (g_occ s) with
    | Some p => d <- got (read_file p 0 MAX_CERT_LENGTH) ;; out_ok d
    | None => except SW_REFERENCE_DATA_NOT_FOUND
    end
  else if tag =? 0x7F66 then out_ok extended_length_info
  else if tag =? 0x7F74 then out_ok [0x81; 0x01; 0x20]
  else if tag =? 0xC4 then d <- pw_status_bytes ;; out_ok d
  else if tag =? 0xDE then out_ok [1; m_origin ms; 2; m_origin md; 3; m_origin ma]
  else if tag =? 0xFA then out_ok algorithm_information
  else if tag =? 0x0102 then s <- get ;; out_ok [g_cache s]
  else except SW_REFERENCE_DATA_NOT_FOUND.

(** openpgp.c:612-625, 587-598: the three ways to name a password *)
Definition verify_pin (p : pin_t) (setv : bool -> pgp -> pgp) (c : capdu) (on : pgp -> pgp) : M pgp Z :=
  r <- pin_verify p setv (c_data c) (u8 (c_lc c)) ;;
  let '(err, ctr) := r in
  if err =? PIN_IO_FAIL then fail else
  guard (negb (err =? PIN_LENGTH_INVALID)) SW_WRONG_LENGTH ;;;
  guard (negb (match ctr with Some n => n | None => 0 end =? 0)) SW_AUTHENTICATION_BLOCKED ;;;    (* written whenever we get here *)
  guard (negb (err =? PIN_AUTH_FAIL)) SW_SECURITY_STATUS_NOT_SATISFIED ;;;
  modify on ;;; ret SW_NO_ERROR.
Definition verify_with (p : pin_t) (setv : bool -> pgp -> pgp) (isv : pgp -> bool) (c : capdu) (on : pgp -> pgp) : M pgp Z :=
  if c_p1 c =? 0xFF then modify (setv false) ;;; ret SW_NO_ERROR
  else if c_lc c =? 0 then
    s <- get ;;
    if isv s then ret SW_NO_ERROR else
    r <- pin_get_retries p ;;
    if r <? 0 then fail else except (SW_PIN_RETRIES + r)
  else verify_pin p setv c on.
(** openpgp.c:584-625 *)
Definition pgp_verify (c : capdu) : M pgp Z :=
  guard ((c_p1 c =? 0) || (c_p1 c =? 0xFF)) SW_WRONG_P1P2 ;;;
  if c_p2 c =? 0x81 then modify (set81 false) ;;; verify_with pw1 setpw1 g_pw1 c (set81 true)
  else if c_p2 c =? 0x82 then modify (set82 false) ;;; verify_with pw1 setpw1 g_pw1 c (set82 true)
  else if c_p2 c =? 0x83 then verify_with pw3 setpw3 g_pw3 c (fun s => s)
  else except SW_WRONG_P1P2.

Section Cmd.
Variable K : crypto.
Variable nfc : bool.          (* is_nfc() *)
Variable tick1 tick2 : Z.     (* the two readings of the clock in OPENPGP_TOUCH *)
Variable junk : Z.            (* what an uninitialised uint8_t on the stack holds *)

(** A negative [get_file_size] (all error codes of littlefs lie in -84 .. -2); converted to uint8_t it exceeds every allowed length *)
Definition NEG := -5.
(** openpgp.c:640-645, 661-665: verification of a password at the beginning of the data.  [size]: pin_get_size.  When the length is
    refused, ctr is not written. *)
Definition verify_prefix (p : pin_t) (setv : bool -> pgp -> pgp) (c : capdu) (size : Z) : M pgp unit :=
  r <- pin_verify p setv (c_data c) (u8 (if c_lc c <? size then c_lc c else size)) ;;
  let '(err, ctr) := r in
  if err =? PIN_IO_FAIL then fail else
  guard (negb (match ctr with Some n => n | None => junk end =? 0)) SW_AUTHENTICATION_BLOCKED ;;;
  guard (negb (err =? PIN_AUTH_FAIL)) SW_SECURITY_STATUS_NOT_SATISFIED.
(** openpgp.c:646-649, 672-676: the new password is what follows.  A negative offset points before the buffer. *)
Definition update_rest (p : pin_t) (setv : bool -> pgp -> pgp) (c : capdu) (tail : bytes) (off : Z) : M pgp Z :=
  guard (negb (c_lc c <? off)) SW_WRONG_LENGTH ;;;
  let len := u8 (c_lc c - off) in
  (if off <? 0 then if (len <? pin_min p) || (pin_max p <? len) then ret tt else ub else ret tt) ;;;
  err <- pin_update p setv (drop off (c_data c ++ tail)) len ;;
  if err =? PIN_IO_FAIL then fail else
  guard (negb (err =? PIN_LENGTH_INVALID)) SW_WRONG_LENGTH ;;; ret SW_NO_ERROR.
(** openpgp.c:627-652 *)
Definition change_with (p : pin_t) (setv : bool -> pgp -> pgp) (c : capdu) (tail : bytes) : M pgp Z :=
  r <- pin_get_size p ;;
  let size := match r with Some n => n | None => NEG end in
  verify_prefix p setv c size ;;;
  update_rest p setv c tail size.
Definition pgp_change_reference_data (c : capdu) (tail : bytes) : M pgp Z :=
  guard (c_p1 c =? 0) SW_WRONG_P1P2 ;;;
  if c_p2 c =? 0x81 then modify (set81 false) ;;; modify (set82 false) ;;; change_with pw1 setpw1 c tail
  else if c_p2 c =? 0x83 then change_with pw3 setpw3 c tail
  else except SW_WRONG_P1P2.

(** openpgp.c:111-116 *)
Definition assert_admin : M pgp unit := s <- get ;; guard (g_pw3 s) SW_SECURITY_STATUS_NOT_SATISFIED.

(** openpgp.c:654-679 *)
Definition pgp_reset_retry_counter (c : capdu) (tail : bytes) : M pgp Z :=
  guard (((c_p1 c =? 0) || (c_p1 c =? 2)) && (c_p2 c =? 0x81)) SW_WRONG_P1P2 ;;;
  off <- (if c_p1 c =? 0 then
            r <- pin_get_size rc ;;
            let size := match r with Some n => n | None => NEG end in
            guard (negb (size =? 0)) SW_SECURITY_STATUS_NOT_SATISFIED ;;;
            verify_prefix rc setrc c size ;;; ret size
          else assert_admin ;;; ret 0) ;;
  update_rest pw1 setpw1 c tail off.

(** openpgp.c:681-723 *)
Definition pgp_generate (c : capdu) (tail : bytes) : M pgp Z :=
  guard (c_p2 c =? 0) SW_WRONG_P1P2 ;;;
  guard ((c_lc c =? 2) || (c_lc c =? 5)) SW_WRONG_LENGTH ;;;
  b <- need (rd (c_data c) 0) ;;
  match get_key_path b with
  | None => except SW_WRONG_DATA
  | Some p =>
    k <- got (ck_read_key p) ;;
    k <- (if c_p1 c =? 0x80 then
            k <- got (ck_generate_key K k) ;;
            must (ck_write_key p k) ;;; ret k
          else if c_p1 c =? 0x81 then
            guard (negb (m_origin (k_meta k) =? KEY_ORIGIN_NOT_PRESENT)) SW_REFERENCE_DATA_NOT_FOUND ;;; ret k
          else except SW_WRONG_P1P2) ;;
    d <- opt (ck_encode_public_key K k) ;;
    set_out ([0x7F; 0x49] ++ d) ;;;
    (if (c_p1 c =? 0x80) && String.eqb p SIG_KEY_PATH then reset_sig_counter else ret tt) ;;;
    ret SW_NO_ERROR
  end.

(** openpgp.c:122-133 *)
Definition pgp_touch : M pgp unit :=
  if nfc then ret tt else
  s <- get ;;
  if (tick1 >? g_last s) && (tick1 - g_last s <? g_cache s * 1000) then ret tt else
  r <- wait_touch ;;
  if (r =? USER_PRESENCE_CANCEL) || (r =? USER_PRESENCE_TIMEOUT) then except SW_ERROR_WHILE_RECEIVING else
  modify (set_last tick2).
Definition touch_if (m : meta) : M pgp unit :=
  if (m_touch m =? TOUCH_POLICY_CACHED) || (m_touch m =? TOUCH_POLICY_PERMANENT) then pgp_touch else ret tt.

(** openpgp.c:792-793: the three bytes of the counter, from the last one on *)
Definition incr3 (d : bytes) : bytes :=
  match d with
  | [a; b; c] =>
      let c := u8 (c + 1) in
      if negb (c =? 0) then [a; b; c] else
      let b := u8 (b + 1) in
      if negb (b =? 0) then [a; b; c] else [u8 (a + 1); b; c]
  | _ => d
  end.
(** openpgp.c:786-798 *)
Definition count_signature : M pgp unit :=
  ctr <- attr_exact DATA_PATH TAG_DIGITAL_SIG_COUNTER 3 ;;
  must (write_attr DATA_PATH TAG_DIGITAL_SIG_COUNTER (incr3 ctr)).
(** openpgp.c:725-801.  The padded digest is written over the command; the signature over both: see Key.v for ck_sign. *)
Definition pgp_sign_or_auth (c : capdu) (is_sign : bool) : M pgp Z :=
  s <- get ;;
  guard (if is_sign then g_81 s else g_82 s) SW_SECURITY_STATUS_NOT_SATISFIED ;;;
  (if is_sign then
     v <- got (read_attr DATA_PATH TAG_PW_STATUS) ;;
     if attr1 v =? 0 then modify (set81 false) else ret tt
   else ret tt) ;;;
  let p := if is_sign then SIG_KEY_PATH else AUT_KEY_PATH in
  m <- got (ck_read_key_metadata p) ;;
  touch_if m ;;;
  guard (negb (m_origin m =? KEY_ORIGIN_NOT_PRESENT)) SW_REFERENCE_DATA_NOT_FOUND ;;;
  guard (negb (Z.land (m_usage m) SIGN =? 0)) SW_CONDITIONS_NOT_SATISFIED ;;;
  input <- (if IS_RSA (m_type m) then
              guard (negb (c_lc c >? PUBLIC_KEY_LENGTH (m_type m) * 2 / 5)) SW_WRONG_LENGTH ;;; ret (c_data c)
            else if IS_SHORT_WEIERSTRASS (m_type m) then
              guard (negb (c_lc c >? PRIVATE_KEY_LENGTH (m_type m))) SW_WRONG_LENGTH ;;;
              ret (zeros (PRIVATE_KEY_LENGTH (m_type m) - c_lc c) ++ c_data c)
            else ret (c_data c)) ;;
  k <- got (ck_read_key p) ;;
  sig <- opt (ck_sign K k input) ;;
  set_out sig ;;;
  (if is_sign then count_signature else ret tt) ;;;
  ret SW_NO_ERROR.

(** openpgp.c:819-826, 836-843, 853-860: a length that must cover exactly what is left *)
Definition tlv_rest (buf : bytes) (p lc : Z) : out (Z * Z) :=
  match tlv_get_length_safe (drop p buf) (lc - p) with
  | Tlv v false (Some size) => if v =? lc - p - size then Ret (v, p + size) else Exc 0
  | TlvUB => UB
  | _ => Exc 0
  end.
(** openpgp.c:803-881: offset of the public key; [Exc] = -1 *)
Definition parse_ecc_key_tlv (buf : bytes) (lc t : Z) : out Z :=
  _ <~ oguard (negb (lc <? 1)) 0 ;;
  b <~ oneed (rd buf 0) ;;
  _ <~ oguard (b =? 0xA6) 0 ;;
  r <~ tlv_rest buf 1 lc ;;
  let p := snd r in
  _ <~ oguard (negb (lc - p <? 2)) 0 ;;
  a <~ oneed (rd buf p) ;;
  b <~ oneed (rd buf (p + 1)) ;;
  _ <~ oguard ((a =? 0x7F) && (b =? 0x49)) 0 ;;
  r <~ tlv_rest buf (p + 2) lc ;;
  let p := snd r in
  _ <~ oguard (negb (lc - p <? 1)) 0 ;;
  b <~ oneed (rd buf p) ;;
  _ <~ oguard (b =? 0x86) 0 ;;
  r <~ tlv_rest buf (p + 1) lc ;;
  let '(length, p) := r in
  if IS_SHORT_WEIERSTRASS t then
    _ <~ oguard (length =? PUBLIC_KEY_LENGTH t + 1) 0 ;;
    b <~ oneed (rd buf p) ;;
    _ <~ oguard (b =? 0x04) 0 ;; Ret (p + 1)
  else _ <~ oguard (length =? PUBLIC_KEY_LENGTH t) 0 ;; Ret p.

(** openpgp.c:883-964.  (The key type is that of the second reading; the length of the answer is that of the private key.) *)
Definition pgp_decipher (c : capdu) (tail : bytes) : M pgp Z :=
  s <- get ;;
  guard (g_82 s) SW_SECURITY_STATUS_NOT_SATISFIED ;;;
  m <- got (ck_read_key_metadata DEC_KEY_PATH) ;;
  touch_if m ;;;
  guard (negb (m_origin m =? KEY_ORIGIN_NOT_PRESENT)) SW_REFERENCE_DATA_NOT_FOUND ;;;
  guard (negb (Z.land (m_usage m) ENCRYPT =? 0)) SW_CONDITIONS_NOT_SATISFIED ;;;
  k <- got (ck_read_key DEC_KEY_PATH) ;;
  let t := m_type (k_meta k) in
  let buf := c_data c ++ tail in
  if IS_RSA t then
    guard (negb (c_lc c <? PUBLIC_KEY_LENGTH t + 1)) SW_WRONG_LENGTH ;;;
    b <- need (rd buf 0) ;;
    guard (b =? 0) SW_WRONG_DATA ;;;
    x <- need (sub buf 1 (PUBLIC_KEY_LENGTH t)) ;;
    match rsa_decrypt K (k_data k) x with
    | inl d => out_ok d
    | inr true => except SW_WRONG_DATA
    | inr false => fail
    end
  else if IS_ECC t then
    guard (negb (c_lc c <? 8)) SW_WRONG_LENGTH ;;;
    match parse_ecc_key_tlv buf (c_lc c) t with
    | Ret off =>
        x <- need (sub buf off (PUBLIC_KEY_LENGTH t)) ;;
        d <- opt (ecdh K t (slice O_PRI (PRIVATE_KEY_LENGTH t) (k_data k)) x) ;;
        out_ok d
    | UB => ub
    | _ => except SW_WRONG_DATA
    end
  else fail.

(** openpgp.c:1017-1049: the key type with these algorithm attributes; [Exc] = EXCEPT *)
Fixpoint find_type (rows : list bytes) (t : Z) (d : bytes) : out Z :=
  match rows with
  | [] => Exc SW_WRONG_DATA
  | row :: rest =>
      if zlen d =? nth 0 row 0 then
        if nth 0 d 0 =? ALGO_ID_RSA then
          if negb (nth 2 d 0 =? 0) then Exc SW_WRONG_DATA
          else if nth 1 d 0 =? 0x08 then Ret RSA2048
          else if nth 1 d 0 =? 0x0C then Ret RSA3072
          else if nth 1 d 0 =? 0x10 then Ret RSA4096
          else Exc SW_WRONG_DATA
        else if beqb (skipn 2 row) (skipn 1 d) then Ret t
        else find_type rest (t + 1) d
      else find_type rest (t + 1) d
  end.
(** openpgp.c:1014-1080 *)
Definition put_algorithm (c : capdu) (p : path) (is_dec : bool) : M pgp Z :=
  guard ((1 <=? c_lc c) && (c_lc c <=? MAX_ATTR_LENGTH)) SW_WRONG_LENGTH ;;;
  t <- lift (find_type algo_attr 0 (c_data c)) ;;
  m <- got (ck_read_key_metadata p) ;;
  if t =? m_type m then ret SW_NO_ERROR else
  guard (negb (t =? (if is_dec then ED25519 else X25519))) SW_WRONG_DATA ;;;
  must (ck_write_key_metadata p (mkMeta t KEY_ORIGIN_NOT_PRESENT (m_usage m) (m_pin m) (m_touch m))) ;;;
  ret SW_NO_ERROR.
(** openpgp.c:1145-1169 *)
Definition put_uif (c : capdu) (tail : bytes) (p : path) : M pgp Z :=
  m <- got (ck_read_key_metadata p) ;;
  guard (negb (get_touch_policy (m_touch m) =? UIF_PERMANENTLY)) SW_CONDITIONS_NOT_SATISFIED ;;;
  b <- need (rd (c_data c ++ tail) 0) ;;
  guard (negb (b >? UIF_PERMANENTLY)) SW_WRONG_DATA ;;;
  must (ck_write_key_metadata p (mkMeta (m_type m) (m_origin m) (m_usage m) (m_pin m) (UIF_TO_TOUCH_POLICY b))) ;;;
  ret SW_NO_ERROR.
Definition put_attr (c : capdu) (p : path) (a : Z) (ok : bool) : M pgp Z :=
  guard ok SW_WRONG_LENGTH ;;; must (write_attr p a (c_data c)) ;;; ret SW_NO_ERROR.
(** openpgp.c:1133-1143 *)
Definition put_resetting_code (c : capdu) (tail : bytes) : M pgp Z :=
  guard (negb (((c_lc c >? 0) && (c_lc c <? pin_min rc)) || (c_lc c >? pin_max rc))) SW_WRONG_LENGTH ;;;
  if c_lc c =? 0 then mustz (pin_clear rc) ;;; ret SW_NO_ERROR else
  err <- pin_update rc setrc (c_data c ++ tail) (u8 (c_lc c)) ;;
  if err =? PIN_IO_FAIL then fail else
  guard (negb (err =? PIN_LENGTH_INVALID)) SW_WRONG_LENGTH ;;; ret SW_NO_ERROR.
(** openpgp.c:966-1181 *)
Definition pgp_put_data (c : capdu) (tail : bytes) : M pgp Z :=
  assert_admin ;;;
  let tag := Z.lor (c_p1 c * 256) (c_p2 c) in
  let lc := c_lc c in
  if tag =? 0x5B then put_attr c DATA_PATH TAG_NAME (negb (lc >? MAX_NAME_LENGTH))
  else if tag =? 0x5E then put_attr c DATA_PATH TAG_LOGIN (negb (lc >? MAX_LOGIN_LENGTH))
  else if tag =? 0x5F2D then put_attr c DATA_PATH LO_TAG_LANG (negb (lc >? MAX_LANG_LENGTH))
  else if tag =? 0x5F35 then put_attr c DATA_PATH LO_TAG_SEX (negb (lc >? MAX_SEX_LENGTH))
  else if tag =? 0x5F50 then
    guard (negb (lc >? MAX_URL_LENGTH)) SW_WRONG_LENGTH ;;; must (write_file DATA_PATH (c_data c) 0 true) ;;; ret SW_NO_ERROR
  else if tag =? 0x7F21 then
    guard (negb (lc >? MAX_CERT_LENGTH)) SW_WRONG_LENGTH ;;;
    s <- get ;;
    match cert_path (g_occ s) with
    | Some p => must (write_file p (c_data c) 0 true) ;;; modify (set_occ 0) ;;; ret SW_NO_ERROR
    | None => except SW_REFERENCE_DATA_NOT_FOUND
    end
  else if tag =? 0xC1 then put_algorithm c SIG_KEY_PATH false
  else if tag =? 0xC2 then put_algorithm c DEC_KEY_PATH true
  else if tag =? 0xC3 then put_algorithm c AUT_KEY_PATH false
  else if tag =? 0xC4 then
    guard (lc =? 1) SW_WRONG_LENGTH ;;;
    guard ((nth 0 (c_data c) 0 =? 0) || (nth 0 (c_data c) 0 =? 1)) SW_WRONG_DATA ;;;
    must (write_attr DATA_PATH TAG_PW_STATUS (c_data c)) ;;; ret SW_NO_ERROR
  else if tag =? 0xC7 then put_attr c SIG_KEY_PATH ATTR_FINGERPRINT (lc =? KEY_FINGERPRINT_LENGTH)
  else if tag =? 0xC8 then put_attr c DEC_KEY_PATH ATTR_FINGERPRINT (lc =? KEY_FINGERPRINT_LENGTH)
  else if tag =? 0xC9 then put_attr c AUT_KEY_PATH ATTR_FINGERPRINT (lc =? KEY_FINGERPRINT_LENGTH)
  else if tag =? 0xCA then put_attr c DATA_PATH ATTR_CA1_FP (lc =? KEY_FINGERPRINT_LENGTH)
  else if tag =? 0xCB then put_attr c DATA_PATH ATTR_CA2_FP (lc =? KEY_FINGERPRINT_LENGTH)
  else if tag =? 0xCC then put_attr c DATA_PATH ATTR_CA3_FP (lc =? KEY_FINGERPRINT_LENGTH)
  else if tag =? 0xCE then put_attr c SIG_KEY_PATH ATTR_DATETIME (lc =? KEY_DATETIME_LENGTH)
  else if tag =? 0xCF then put_attr c DEC_KEY_PATH ATTR_DATETIME (lc =? KEY_DATETIME_LENGTH)
  else if tag =? 0xD0 then put_attr c AUT_KEY_PATH ATTR_DATETIME (lc =? KEY_DATETIME_LENGTH)
  else if tag =? 0xD3 then put_resetting_code c tail
  else if tag =? 0xD6 then guard (lc =? 2) SW_WRONG_LENGTH ;;; put_uif c tail SIG_KEY_PATH
  else if tag =? 0xD7 then guard (lc =? 2) SW_WRONG_LENGTH ;;; put_uif c tail DEC_KEY_PATH
  else if tag =? 0xD8 then put_uif c tail AUT_KEY_PATH
  else if tag =? 0x0102 then
    guard (lc =? 1) SW_WRONG_LENGTH ;;;
    let b := nth 0 (c_data c) 0 in
    modify (set_cache b) ;;; must (write_attr DATA_PATH ATTR_TOUCH_CACHE_TIME [b]) ;;; ret SW_NO_ERROR
  else except SW_WRONG_P1P2.

(** openpgp.c:1183-1236.  The length left may be negative; as size_t it is huge. *)
Definition pgp_import (c : capdu) (tail : bytes) : M pgp Z :=
  assert_admin ;;;
  guard ((c_p1 c =? 0x3F) && (c_p2 c =? 0xFF)) SW_WRONG_P1P2 ;;;
  guard (negb (c_lc c <? 2)) SW_WRONG_LENGTH ;;;
  let buf := c_data c ++ tail in
  b <- need (rd buf 0) ;;
  guard (b =? 0x4D) SW_WRONG_DATA ;;;
  match tlv_get_length_safe (drop 1 buf) (c_lc c - 1) with
  | TlvUB => ub
  | Tlv len false (Some size) =>
    guard (negb (len <? 2)) SW_WRONG_DATA ;;;
    guard (len + size + 1 =? c_lc c) SW_WRONG_LENGTH ;;;
    let p := 1 + size in
    key_ref <- need (rd buf p) ;;
    match get_key_path key_ref with
    | None => except SW_WRONG_DATA
    | Some kp =>
      b <- need (rd buf (p + 1)) ;;
      guard ((b =? 0) || (b =? 3)) SW_WRONG_DATA ;;;
      let p := p + 1 + b + 1 in
      m <- got (ck_read_key_metadata kp) ;;
      let left := c_lc c - p in
      match ck_parse_openpgp K (mkKey m []) (drop p buf) (if left <? 0 then left + 4294967296 else left) with
      | UB => ub
      | Ret k =>
          must (ck_write_key kp k) ;;;
          (if key_ref =? 0xB6 then reset_sig_counter else ret tt) ;;; ret SW_NO_ERROR
      | Exc e => except (if e =? KEY_ERR_LENGTH then SW_WRONG_LENGTH else if e =? KEY_ERR_DATA then SW_WRONG_DATA else SW_UNABLE_TO_PROCESS)
      | Fail => except SW_UNABLE_TO_PROCESS
      end
    end
  | _ => except SW_WRONG_DATA
  end.

(** openpgp.c:1238-1246 *)
Definition pgp_select_data (c : capdu) : M pgp Z :=
  modify (set_occ 0) ;;;
  guard (negb (c_p1 c >? 2) && (c_p2 c =? 0x04)) SW_WRONG_P1P2 ;;;
  guard (c_lc c =? 6) SW_WRONG_LENGTH ;;;
  guard (beqb (c_data c) [0x60; 0x04; 0x5C; 0x02; 0x7F; 0x21]) SW_WRONG_DATA ;;;
  modify (set_occ (c_p1 c)) ;;; ret SW_NO_ERROR.
(** openpgp.c:1248-1263 *)
Definition pgp_get_next_data (c : capdu) : M pgp Z :=
  guard ((c_p1 c =? 0x7F) && (c_p2 c =? 0x21)) SW_WRONG_P1P2 ;;;
  guard (negb (c_lc c >? 0)) SW_WRONG_LENGTH ;;;
  modify (fun s => set_occ (u8 (g_occ s + 1)) s) ;;;
  s <- get ;;
  let p := if g_occ s =? 1 then Some DEC_CERT_PATH else if g_occ s =? 2 then Some AUT_CERT_PATH else None in
  match p with
  | Some p => d <- got (read_file p 0 MAX_CERT_LENGTH) ;; out_ok d
  | None => except SW_REFERENCE_DATA_NOT_FOUND
  end.
(** openpgp.c:1265-1273 *)
Definition pgp_terminate (c : capdu) : M pgp Z :=
  guard ((c_p1 c =? 0) && (c_p2 c =? 0)) SW_WRONG_P1P2 ;;;
  r <- pin_get_retries pw3 ;;
  if r <? 0 then fail else
  (if r >? 0 then assert_admin else ret tt) ;;;
  must (write_attr DATA_PATH ATTR_TERMINATED [1]) ;;; ret SW_NO_ERROR.
(** openpgp.c:1275-1278 *)
Definition pgp_activate (c : capdu) : M pgp Z :=
  guard ((c_p1 c =? 0) && (c_p2 c =? 0)) SW_WRONG_P1P2 ;;; pgp_install true ;;; ret SW_NO_ERROR.
(** openpgp.c:1280-1286 *)
Definition pgp_get_challenge (c : capdu) : M pgp Z :=
  guard ((c_p1 c =? 0) && (c_p2 c =? 0)) SW_WRONG_P1P2 ;;;
  guard (negb (c_le c >? APDU_BUFFER_SIZE)) SW_WRONG_LENGTH ;;;
  d <- random_buffer (c_le c) ;; out_ok d.

(** openpgp.c:1293-1313: the state of certificate selection *)
Definition is_cert (c : capdu) : bool := (c_p1 c =? 0x7F) && (c_p2 c =? 0x21).
Definition selection (c : capdu) : M pgp unit :=
  s <- get ;;
  let i := c_ins c in
  if i =? 0xA5 then modify (set_state STATE_SELECT_DATA)
  else if g_state s =? STATE_NORMAL then
    guard (negb (i =? 0xCC)) SW_CONDITIONS_NOT_SATISFIED ;;;
    (if (i =? 0xCA) && is_cert c then modify (set_state STATE_GET_CERT_DATA) else ret tt)
  else if g_state s =? STATE_SELECT_DATA then
    guard (negb (i =? 0xCC)) SW_CONDITIONS_NOT_SATISFIED ;;;
    (if (i =? 0xCA) && is_cert c then modify (set_state STATE_GET_CERT_DATA)
     else (if negb (i =? 0xDA) || negb (is_cert c) then modify (set_occ 0) else ret tt) ;;; modify (set_state STATE_NORMAL))
  else if i =? 0xCC then ret tt
  else modify (set_occ 0) ;;; modify (set_state STATE_NORMAL).

(** openpgp.c:1288-1386, without the first lines and the last (see [run_apdu]) *)
Definition pgp_body (c : capdu) (tail : bytes) : M pgp Z :=
  let i := c_ins c in
  guard (c_cla c =? 0) SW_CLA_NOT_SUPPORTED ;;;
  selection c ;;;
  t <- read_attr DATA_PATH ATTR_TERMINATED ;;
  match t with
  | None => except SW_UNABLE_TO_PROCESS
  | Some v =>
    let terminated := attr1 v in
    guard (negb ((terminated =? 1) && negb (i =? 0x44) && negb (i =? 0xA4))) SW_TERMINATED ;;;
    if i =? 0xA4 then pgp_select c
    else if i =? 0x44 then guard (negb (terminated =? 0)) SW_CONDITIONS_NOT_SATISFIED ;;; pgp_activate c
    else if i =? 0xCA then pgp_get_data c
    else if i =? 0xA5 then pgp_select_data c
    else if i =? 0xCC then pgp_get_next_data c
    else if i =? 0x20 then pgp_verify c
    else if i =? 0x24 then pgp_change_reference_data c tail
    else if i =? 0x2C then pgp_reset_retry_counter c tail
    else if i =? 0xDA then pgp_put_data c tail
    else if i =? 0xDB then pgp_import c tail
    else if i =? 0x47 then pgp_generate c tail
    else if i =? 0x2A then
      if (c_p1 c =? 0x9E) && (c_p2 c =? 0x9A) then pgp_sign_or_auth c true
      else if (c_p1 c =? 0x80) && (c_p2 c =? 0x86) then pgp_decipher c tail
      else except SW_WRONG_P1P2
    else if i =? 0x88 then pgp_sign_or_auth c false
    else if i =? 0x84 then pgp_get_challenge c
    else if i =? 0xE6 then pgp_terminate c
    else except SW_INS_NOT_SUPPORTED
  end.
End Cmd.
