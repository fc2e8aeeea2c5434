(** Model of applets/ctap/ctap.c, secret.c and u2f.c (build without FUZZ): the FIDO applet.  Requests come as the records that
    ctap-parser.c fills in (see [creq]); responses are CBOR items and their encoding.  Keep-alive messages, blinking and debug output are
    left out; the wait for a touch is one answer of the environment.  The global [current_cmd_src], which makes a second interface wait
    while a command runs, is left out: commands are executed one at a time. *)
From Verif Require Export Applet Apdu.
From Coq Require Import Ascii.
Open Scope string_scope. Open Scope list_scope. Open Scope Z_scope.

(** ** CBOR items and their encoding by tinycbor (shortest heads, definite lengths; numbers below 2^32) *)
Inductive cbor :=
  | CInt (z : Z) | CBytes (b : bytes) | CText (b : bytes) | CBool (b : bool)
  | CArr (l : list cbor) | CMap (l : list (cbor * cbor))
  | CRaw (b : bytes).      (* bytes that the code writes itself *)
Definition chars (s : string) : bytes := map (fun c => Z.of_nat (nat_of_ascii c)) (list_ascii_of_string s).
Definition txt (s : string) : cbor := CText (chars s).
(** tinycbor's encode_number *)
Definition cbor_head (major n : Z) : bytes :=
  if n <? 24 then [major * 32 + n]
  else if n <? 256 then [major * 32 + 24; n]
  else if n <? 65536 then (major * 32 + 25) :: to_be 2 n
  else (major * 32 + 26) :: to_be 4 n.
Fixpoint enc (v : cbor) : bytes :=
  match v with
  | CInt z => if z <? 0 then cbor_head 1 (-1 - z) else cbor_head 0 z
  | CBytes b => cbor_head 2 (zlen b) ++ b
  | CText b => cbor_head 3 (zlen b) ++ b
  | CBool b => [if b then 0xF5 else 0xF4]
  | CArr l => cbor_head 4 (zlen l) ++ (fix go l := match l with [] => [] | x :: r => enc x ++ go r end) l
  | CMap l => cbor_head 5 (zlen l) ++ (fix go l := match l with [] => [] | (k, x) :: r => enc k ++ enc x ++ go r end) l
  | CRaw b => b
  end.

(** ** Constants *)
(** ctap-internal.h:15-27 *)
Definition CTAP_CERT_FILE : path := "ctap_cert".
Definition KEY_ATTR := 0x00.
Definition SIGN_CTR_ATTR := 0x01.
Definition PIN_ATTR := 0x02.
Definition PIN_CTR_ATTR := 0x03.
Definition KH_KEY_ATTR := 0x04.
Definition HE_KEY_ATTR := 0x05.
Definition SM2_ATTR := 0x06.
Definition DC_FILE : path := "ctap_dc".
Definition DC_GENERAL_ATTR := 0x00.
Definition DC_META_FILE : path := "ctap_dm".
Definition LB_FILE : path := "ctap_lb".
Definition LB_FILE_TMP : path := "ctap_lbt".
(** ctap-errors.h:5-56 *)
Definition ERR_PARAMETER := 0x02.
Definition ERR_LENGTH := 0x03.
Definition ERR_SEQ := 0x04.
Definition ERR_CBOR := 0x12.
Definition ERR_MISSING := 0x14.
Definition ERR_LIMIT := 0x15.
Definition ERR_EXCLUDED := 0x19.
Definition ERR_DENIED := 0x27.
Definition ERR_FULL := 0x28.
Definition ERR_UNSUPPORTED_OPTION := 0x2B.
Definition ERR_INVALID_OPTION := 0x2C.
Definition ERR_CANCEL := 0x2D.
Definition ERR_NO_CREDENTIALS := 0x2E.
Definition ERR_USER_TIMEOUT := 0x2F.
Definition ERR_NOT_ALLOWED := 0x30.
Definition ERR_PIN_INVALID := 0x31.
Definition ERR_PIN_BLOCKED := 0x32.
Definition ERR_PIN_AUTH_INVALID := 0x33.
Definition ERR_PIN_AUTH_BLOCKED := 0x34.
Definition ERR_PIN_NOT_SET := 0x35.
Definition ERR_PUAT_REQUIRED := 0x36.
Definition ERR_PIN_POLICY := 0x37.
Definition ERR_INTEGRITY := 0x3D.
Definition ERR_UNHANDLED := 0xF1.
(** ctap-internal.h:30-43 *)
Definition CTAP_MAKE_CREDENTIAL := 0x01.
Definition CTAP_GET_ASSERTION := 0x02.
Definition CTAP_GET_INFO := 0x04.
Definition CTAP_CLIENT_PIN := 0x06.
Definition CTAP_RESET := 0x07.
Definition CTAP_GET_NEXT_ASSERTION := 0x08.
Definition CTAP_CREDENTIAL_MANAGEMENT := 0x0A.
Definition CTAP_SELECTION := 0x0B.
Definition CTAP_LARGE_BLOBS := 0x0C.
Definition CTAP_INVALID_CMD := 0xFF.
(** ctap-internal.h:76-84, 152-157, 194-230; cose-key.h:19-21 *)
Definition FLAGS_UP := 1.
Definition FLAGS_UV := 4.
Definition FLAGS_AT := 64.
Definition FLAGS_ED := 128.
Definition PERM_MC := 0x01.
Definition PERM_GA := 0x02.
Definition PERM_CM := 0x04.
Definition PERM_LBW := 0x10.
Definition MAX_DC_NUM := 64.
Definition ALG_ES256 := -7.
Definition ALG_EDDSA := -8.
(** ctap-internal.h:232-267: sizes of the packed records on the device (32-bit size_t) *)
Definition ID_SIZE := 70.
Definition USER_SIZE := 195.
Definition DC_SIZE := 300.
Definition META_SIZE := 76.
(** Little-endian numbers in the packed records *)
Definition le (l : bytes) : Z := be (rev l).
Definition to_le (n : nat) (z : Z) : bytes := rev (to_be n z).
Definition s32 (z : Z) : Z := if z <? 2147483648 then z else z - 4294967296.
(** read_attr and read_file into a buffer of [n] bytes: longer data are cut, shorter ones padded with zeros (lfs_getattr) *)
Definition attr_buf (n : Z) (v : bytes) : bytes := firstn (Z.to_nat n) (v ++ zeros n).

(** ** Cryptography (external, canokey-crypto) *)
Inductive ktype := KP256 | KEd25519 | KSm2.
Record fcrypto := mkFC {
  f_sha : bytes -> bytes;                          (* sha256_raw *)
  f_hmac : bytes -> bytes -> bytes;                (* hmac_sha256: key, message *)
  f_gen : bytes -> bytes * bytes;                  (* ecc_generate(SECP256R1) from the randomness it took: private, public *)
  f_ecdh : bytes -> bytes -> option bytes;         (* ecdh(SECP256R1): private, public; the x coordinate *)
  f_aes_enc : bytes -> bytes -> bytes -> option bytes;   (* block_cipher_enc with AES-256-CBC: key, iv, data *)
  f_aes_dec : bytes -> bytes -> bytes -> option bytes;
  f_pub : ktype -> bytes -> option bytes;          (* ecc_complete_key *)
  f_sign : ktype -> bytes -> bytes -> option bytes (* hash, ecc_sign, encoding of secret.c:343-392: private key, message *)
}.

(** ** Requests, as ctap-parser.c leaves them for ctap.c (ctap-internal.h:291-366) *)
(** Options: 0 false, 1 true, 2 absent *)
Record mcreq := mkMc {
  mc_cdh : bytes; mc_rp : bytes; mc_rphash : bytes; mc_user : bytes; mc_alg : Z; mc_excl : list bytes;
  mc_rk : Z; mc_uvopt : Z; mc_upopt : Z; mc_param : option bytes; mc_proto : option Z;
  mc_hs : bool; mc_lbk : bool; mc_cp : Z; mc_blob : option bytes }.
Record hsreq := mkHs { hs_key : bytes; hs_salt : bytes; hs_auth : bytes; hs_proto : Z }.
Record gareq := mkGa {
  ga_rphash : bytes; ga_cdh : bytes; ga_allow : list bytes; ga_rk : Z; ga_uvopt : Z; ga_upopt : Z;
  ga_param : option bytes; ga_proto : option Z; ga_hs : option hsreq; ga_blob : bool }.
Record cpreq := mkCp {
  cp_sub : Z; cp_proto : Z; cp_key : bytes; cp_param : bytes; cp_new : bytes; cp_hash : bytes; cp_perm : Z; cp_rp : option bytes }.
Record cmreq := mkCm {
  cm_sub : Z; cm_raw : bytes; cm_rphash : bytes; cm_id : bytes; cm_user : bytes; cm_proto : Z; cm_param : bytes }.
Record lbreq := mkLb {
  lb_get : option Z; lb_set : bytes; lb_off : Z; lb_len : Z; lb_param : option bytes; lb_proto : option Z }.

(** ** The memory of the applet *)
(** secret.c:17-24 *)
Record tok := mkT {
  t_token : bytes; t_ka : bytes * bytes; t_perm : Z; t_rp : option bytes; t_use : bool; t_uv : bool; t_up : bool; t_end : Z }.
(** ctap.c:757-760: the static variables of ctap_get_assertion; the agreed key and the salts are kept in [g_req] *)
Record gast := mkG { g_req : gareq; g_list : list Z; g_n : Z; g_ctr : Z; g_uv : bool; g_up : bool; g_timer : Z }.
(** ctap.c:1642, 1651-1652: those of ctap_credential_management *)
Record cmst := mkCs { s_last : Z; s_idx : Z; s_nrp : Z; s_slots : Z }.
(** ctap.c:60-64, 2006 *)
Record ctap := mkC {
  c_cpc : Z; c_last : Z; c_sm2 : bytes; c_tok : tok; c_ga : gast; c_cm : cmst; c_next : Z; c_len : Z }.
Definition ctap_boot : ctap :=
  mkC 0 0 (zeros 9) (mkT (zeros 32) (zeros 32, zeros 64) 0 None false false false 0)
    (mkG (mkGa (zeros 32) (zeros 32) [] 0 0 0 None None None false) (zeros 64) 0 0 false false 0) (mkCs 0 0 0 0) 0 0.
Definition set_cpc (z : Z) (s : ctap) := mkC z (c_last s) (c_sm2 s) (c_tok s) (c_ga s) (c_cm s) (c_next s) (c_len s).
Definition set_last (z : Z) (s : ctap) := mkC (c_cpc s) z (c_sm2 s) (c_tok s) (c_ga s) (c_cm s) (c_next s) (c_len s).
Definition set_sm2 (z : bytes) (s : ctap) := mkC (c_cpc s) (c_last s) z (c_tok s) (c_ga s) (c_cm s) (c_next s) (c_len s).
Definition set_tok (f : tok -> tok) (s : ctap) := mkC (c_cpc s) (c_last s) (c_sm2 s) (f (c_tok s)) (c_ga s) (c_cm s) (c_next s) (c_len s).
Definition set_ga (f : gast -> gast) (s : ctap) := mkC (c_cpc s) (c_last s) (c_sm2 s) (c_tok s) (f (c_ga s)) (c_cm s) (c_next s) (c_len s).
Definition set_cm (f : cmst -> cmst) (s : ctap) := mkC (c_cpc s) (c_last s) (c_sm2 s) (c_tok s) (c_ga s) (f (c_cm s)) (c_next s) (c_len s).
Definition set_lb (n l : Z) (s : ctap) := mkC (c_cpc s) (c_last s) (c_sm2 s) (c_tok s) (c_ga s) (c_cm s) n l.
Definition tk_perm (z : Z) (t : tok) := mkT (t_token t) (t_ka t) z (t_rp t) (t_use t) (t_uv t) (t_up t) (t_end t).
Definition tk_rp (r : option bytes) (t : tok) := mkT (t_token t) (t_ka t) (t_perm t) r (t_use t) (t_uv t) (t_up t) (t_end t).
Definition tk_uv (b : bool) (t : tok) := mkT (t_token t) (t_ka t) (t_perm t) (t_rp t) (t_use t) b (t_up t) (t_end t).
Definition tk_up (b : bool) (t : tok) := mkT (t_token t) (t_ka t) (t_perm t) (t_rp t) (t_use t) (t_uv t) b (t_end t).
Definition tk_end (z : Z) (t : tok) := mkT (t_token t) (t_ka t) (t_perm t) (t_rp t) (t_use t) (t_uv t) (t_up t) z.
Definition tk_ka (k : bytes * bytes) (t : tok) := mkT (t_token t) k (t_perm t) (t_rp t) (t_use t) (t_uv t) (t_up t) (t_end t).
Definition tk_token (k : bytes) (t : tok) := mkT k (t_ka t) (t_perm t) (t_rp t) (t_use t) (t_uv t) (t_up t) (t_end t).
Definition gs_ctr (z : Z) (g : gast) := mkG (g_req g) (g_list g) (g_n g) z (g_uv g) (g_up g) (g_timer g).
Definition gs_req (q : gareq) (g : gast) := mkG q (g_list g) (g_n g) (g_ctr g) (g_uv g) (g_up g) (g_timer g).
Definition gs_uv (b : bool) (g : gast) := mkG (g_req g) (g_list g) (g_n g) (g_ctr g) b (g_up g) (g_timer g).
Definition gs_up (b : bool) (g : gast) := mkG (g_req g) (g_list g) (g_n g) (g_ctr g) (g_uv g) b (g_timer g).
Definition gs_list (l : list Z) (n : Z) (g : gast) := mkG (g_req g) l n (g_ctr g) (g_uv g) (g_up g) (g_timer g).
Definition gs_n (n : Z) (g : gast) := mkG (g_req g) (g_list g) n (g_ctr g) (g_uv g) (g_up g) (g_timer g).
Definition gs_timer (z : Z) (g : gast) := mkG (g_req g) (g_list g) (g_n g) (g_ctr g) (g_uv g) (g_up g) z.
Definition cs_last (z : Z) (c : cmst) := mkCs z (s_idx c) (s_nrp c) (s_slots c).
Definition cs_idx (z : Z) (c : cmst) := mkCs (s_last c) z (s_nrp c) (s_slots c).
Definition cs_nrp (z : Z) (c : cmst) := mkCs (s_last c) (s_idx c) z (s_slots c).
Definition cs_slots (z : Z) (c : cmst) := mkCs (s_last c) (s_idx c) (s_nrp c) z.

Definition Mc := M ctap.
(** "if (… < 0) return CTAP2_ERR_UNHANDLED_REQUEST;" *)
Definition must (m : Mc bool) : Mc unit := b <- m ;; guard b ERR_UNHANDLED.
Definition got {A} (m : Mc (option A)) : Mc A := r <- m ;; match r with Some a => ret a | None => except ERR_UNHANDLED end.
Definition gets {A} (f : ctap -> A) : Mc A := s <- get ;; ret (f s).
(** Reading the [i]-th record of a file of records; a short read would leave the (uninitialised) rest of the buffer *)
Definition read_rec (p : path) (size i : Z) : Mc bytes :=
  d <- got (read_file p (i * size) size) ;; if zlen d =? size then ret d else ub.
Definition count_recs (p : path) (size : Z) : Mc Z := z <- got (get_file_size p) ;; ret (z / size).

(** ** Credential ids (ctap-internal.h:239-244): tag 16, nonce 16, discoverable flag, credProtect, rp id hash 32, algorithm 4 *)
Definition id_tag (i : bytes) : bytes := slice 0 16 i.
Definition id_nonce (i : bytes) : bytes := slice 16 18 i.
Definition id_rp (i : bytes) : bytes := slice 34 32 i.
Definition id_alg (i : bytes) : Z := s32 (le (slice 66 4 i)).
Definition id_dc (i : bytes) : Z := nth 32 i 0.
Definition id_cp (i : bytes) : Z := nth 33 i 0.
(** Discoverable credentials (ctap-internal.h:246-253) *)
Definition dc_id (d : bytes) : bytes := slice 0 70 d.
Definition dc_user (d : bytes) : bytes := slice 70 195 d.
Definition dc_deleted (d : bytes) : bool := negb (nth 265 d 0 =? 0).
Definition dc_lbk (d : bytes) : Z := nth 266 d 0.
Definition dc_blob_len (d : bytes) : Z := nth 267 d 0.
Definition dc_blob (d : bytes) : bytes := slice 268 32 d.
Definition dc_make (id user : bytes) (deleted : bool) (lbk blen : Z) (blob : bytes) : bytes :=
  id ++ user ++ [if deleted then 1 else 0; lbk; blen] ++ blob.
Definition dc_delete (d : bytes) : bytes := splice d 265 [1].
(** User entities (ctap-internal.h:232-237) *)
Definition u_id (u : bytes) : bytes := slice 0 64 u.
Definition u_size (u : bytes) : Z := nth 64 u 0.
Fixpoint until0 (l : bytes) : bytes := match l with [] => [] | x :: r => if x =? 0 then [] else x :: until0 r end.
Definition u_name (u : bytes) : bytes := until0 (slice 65 65 u).
Definition u_display (u : bytes) : bytes := until0 (slice 130 65 u).
(** rp metadata (ctap-internal.h:262-267) *)
Definition m_hash (m : bytes) : bytes := slice 0 32 m.
Definition m_rpid (m : bytes) : bytes := slice 32 32 m.
Definition m_len (m : bytes) : Z := le (slice 64 4 m).
Definition m_slots (m : bytes) : Z := le (slice 68 8 m).
Definition meta_make (hash rpid : bytes) (len slots : Z) : bytes := hash ++ rpid ++ to_le 4 len ++ to_le 8 slots.
(** ctap-internal.h:255-260: numbers, index, flags (bit 0 pending_add, bit 1 pending_delete) *)
Definition ga_numbers (a : bytes) : Z := nth 0 a 0.
Definition ga_index (a : bytes) : Z := nth 1 a 0.
Definition ga_flags (a : bytes) : Z := nth 2 a 0.
Definition read_general : Mc bytes := a <- got (read_attr DC_FILE DC_GENERAL_ATTR) ;; ret (attr_buf 3 a).

Section Ctap.
Variable K : fcrypto.
Variable nfc : bool.
Variables t1 t2 : Z.          (* device_get_tick() at the beginning of the command, and later in it *)
Variable junk : bytes.        (* uninitialised stack of ctap_make_credential *)

(** ** secret.c *)
(** secret.c:29-34 *)
Definition cp_begin_using (present : bool) : Mc unit :=
  modify (set_tok (fun t => mkT (t_token t) (t_ka t) (t_perm t) (t_rp t) true true present (u32 (t2 + 30000)))).
(** secret.c:72-78 *)
Definition tok_stop (t : tok) : tok := mkT (t_token t) (t_ka t) 0 None false false false (t_end t).
(** secret.c:37-43 *)
Definition cp_observer : Mc unit :=
  modify (set_tok (fun t => if negb (t_use t) then t else if t_end t <? t1 then tok_stop t else t)).
(** secret.c:46-55 *)
Definition cp_user_present : Mc bool := gets (fun s => t_use (c_tok s) && t_up (c_tok s)).
Definition cp_user_verified : Mc bool := gets (fun s => t_use (c_tok s) && t_uv (c_tok s)).
(** secret.c:58-70: clearUserPresentFlag, clearUserVerifiedFlag, clearPinUvAuthTokenPermissionsExceptLbw *)
Definition cp_clear_flags : Mc unit :=
  modify (set_tok (fun t => if t_use t then tk_perm (Z.land (t_perm t) (255 - PERM_LBW)) (tk_uv false (tk_up false t)) else t)).
(** secret.c:98-109 *)
Definition cp_regenerate : Mc unit := r <- random_buffer 32 ;; modify (set_tok (tk_ka (f_gen K r))).
Definition cp_reset_token : Mc unit := r <- random_buffer 32 ;; modify (set_tok (fun t => tok_stop (tk_token r t))).
(** secret.c:93-96 *)
Definition cp_initialize : Mc unit := cp_regenerate ;;; cp_reset_token.
(** secret.c:82-91 *)
Definition cp2_kdf (z : bytes) : bytes :=
  let prk := f_hmac K (zeros 32) z in
  f_hmac K prk (chars "CTAP2 HMAC key" ++ [1]) ++ f_hmac K prk (chars "CTAP2 AES key" ++ [1]).
(** secret.c:115-125; a failure is answered with its return value, 1 *)
Definition cp_decapsulate (pub : bytes) (proto : Z) : Mc bytes :=
  s <- get ;;
  match f_ecdh K (fst (t_ka (c_tok s))) pub with
  | None => except 1
  | Some z => ret (if proto =? 1 then f_sha K z else cp2_kdf z)
  end.
(** secret.c:127-147 *)
Definition cp_encrypt (key d : bytes) (proto : Z) : Mc (option bytes) :=
  if proto =? 1 then ret (f_aes_enc K key (zeros 16) d)
  else iv <- random_buffer 16 ;; ret (option_map (fun c => if proto =? 2 then iv ++ c else c) (f_aes_enc K (skipn 32 key) iv d)).
(** secret.c:153-171 *)
Definition cp_decrypt (key d : bytes) (proto : Z) : option bytes :=
  if proto =? 1 then f_aes_dec K key (zeros 16) d
  else if zlen d <? 16 then None else f_aes_dec K (skipn 32 key) (firstn 16 d) (skipn 16 d).
(** secret.c:173-182; [sig] is the contents of a 32-byte buffer *)
Definition cp_verify (key msg sig : bytes) (proto : Z) : bool :=
  let n := if proto =? 1 then 16%nat else 32%nat in
  beqb (firstn n (f_hmac K key msg)) (firstn n (attr_buf 32 sig)).
(** secret.c:184-188 *)
Definition cp_verify_token (msg sig : bytes) (proto : Z) : Mc bool :=
  s <- get ;;
  if negb (t_use (c_tok s)) then ret false else
  modify (set_tok (tk_end (u32 (t2 + 30000)))) ;;; ret (cp_verify (t_token (c_tok s)) msg sig proto).
(** secret.c:190-210 *)
Definition cp_set_permission (p : Z) : Mc unit := modify (set_tok (fun t => tk_perm (Z.lor (t_perm t) p) t)).
Definition cp_has_permission (p : Z) : Mc bool := gets (fun s => negb (Z.land (t_perm (c_tok s)) p =? 0)).
Definition cp_has_rp : Mc bool := gets (fun s => match t_rp (c_tok s) with Some _ => true | None => false end).
Definition cp_verify_rp (h : bytes) : Mc bool := gets (fun s => match t_rp (c_tok s) with Some r => beqb r h | None => true end).
Definition cp_associate_rp (h : bytes) : Mc unit := modify (set_tok (tk_rp (Some h))).
(** secret.c:212-222 *)
Definition sm2_enabled (a : bytes) : bool := negb (nth 0 a 0 =? 0).
Definition sm2_curve (a : bytes) : Z := s32 (le (slice 1 4 a)).
Definition sm2_algo (a : bytes) : Z := s32 (le (slice 5 4 a)).
Definition cose_alg_to_key_type (alg : Z) : Mc (option ktype) := gets (fun s =>
  if alg =? ALG_ES256 then Some KP256 else if alg =? ALG_EDDSA then Some KEd25519
  else if sm2_enabled (c_sm2 s) && (alg =? sm2_algo (c_sm2 s)) then Some KSm2 else None).
(** secret.c:224-240 *)
Definition read_key32 (a : Z) : Mc (option bytes) := r <- read_attr CTAP_CERT_FILE a ;; ret (option_map (attr_buf 32) r).
(** secret.c:242-249; a failure is CTAP2_ERR_UNHANDLED_REQUEST in the callers (ctap.c:263-266) *)
Definition increase_counter : Mc Z :=
  v <- got (read_attr CTAP_CERT_FILE SIGN_CTR_ATTR) ;;
  let c := u32 (le (attr_buf 4 v) + 1) in
  must (write_attr CTAP_CERT_FILE SIGN_CTR_ATTR (to_le 4 c)) ;;;
  ret c.
(** secret.c:267-281 *)
Definition protect_ok (id : bytes) (with_list uv : bool) : bool :=
  if id_cp id =? 2 then uv || with_list else if id_cp id =? 3 then uv else true.
(** secret.c:251-265, 299-301.  The loop draws until the derived private key is good; it is bounded here, and reaching the bound
    (64 bad keys in a row) is an undefined outcome. *)
Fixpoint derive (fuel : nat) (kt : ktype) (kh rp : bytes) (alg dc cp : Z) : Mc (bytes * bytes) :=
  match fuel with
  | O => ub
  | S n =>
      r <- random_buffer 16 ;;
      let nonce := r ++ [dc; cp] in
      let pri := f_hmac K kh nonce in
      let tag := firstn 16 (f_hmac K pri rp) in
      match f_pub K kt pri with
      | Some pub => ret (tag ++ nonce ++ rp ++ to_le 4 alg, pub)
      | None => derive n kt kh rp alg dc cp
      end
  end.
(** secret.c:283-310 *)
Definition generate_key_handle (rp : bytes) (alg dc cp : Z) : Mc (option (bytes * bytes)) :=
  kt <- cose_alg_to_key_type alg ;;
  match kt with
  | None => ret None
  | Some kt => kh <- read_key32 KH_KEY_ATTR ;;
      match kh with None => ret None | Some kh => r <- derive 64 kt kh rp alg dc cp ;; ret (Some r) end
  end.
(** secret.c:312-332: [None] an error, [Some None] not one of ours, [Some (Some pri)] the private key *)
Definition verify_key_handle (id : bytes) : Mc (option (option bytes)) :=
  kh <- read_key32 KH_KEY_ATTR ;;
  ret (option_map (fun kh =>
    let pri := f_hmac K kh (id_nonce id) in
    if beqb (firstn 16 (f_hmac K pri (id_rp id))) (id_tag id) then Some pri else None) kh).
(** secret.c:334-341 *)
Definition sign_with_device_key (msg : bytes) : Mc (option bytes) :=
  k <- read_key32 KEY_ATTR ;; ret (match k with Some k => f_sign K KP256 k msg | None => None end).
(** secret.c:343-392 *)
Definition sign_with_private_key (alg : Z) (pri msg : bytes) : Mc (option bytes) :=
  kt <- cose_alg_to_key_type alg ;; ret (match kt with Some kt => f_sign K kt pri msg | None => None end).
(** secret.c:396-399 *)
Definition has_pin : Mc bool := r <- read_attr CTAP_CERT_FILE PIN_ATTR ;; ret (match r with Some [] => false | _ => true end).
(** secret.c:401-412 (never called with length 0) *)
Definition set_pin (pin : bytes) : Mc unit :=
  must (write_attr CTAP_CERT_FILE PIN_ATTR (firstn 16 (f_sha K pin))) ;;;
  must (write_attr CTAP_CERT_FILE PIN_CTR_ATTR [8]).
(** secret.c:414-420 *)
Definition verify_pin_hash (h : bytes) : Mc bool :=
  v <- got (read_attr CTAP_CERT_FILE PIN_ATTR) ;; ret (beqb (attr_buf 16 v) (firstn 16 h)).
(** secret.c:422-429 *)
Definition get_pin_retries : Mc (option Z) := r <- read_attr CTAP_CERT_FILE PIN_CTR_ATTR ;; ret (option_map (fun v => nth 0 v 0) r).
Definition set_pin_retries (n : Z) : Mc unit := must (write_attr CTAP_CERT_FILE PIN_CTR_ATTR [u8 n]).
(** secret.c:431-446, [len] 32 or 64 (the output is [len] bytes then) *)
Definition hmac_secret_output (he nonce salt : bytes) (len : Z) (uv : bool) : bytes :=
  let k := if uv then map (fun b => 255 - b) he else he in
  let cr := f_hmac K k (firstn 16 nonce) in
  f_hmac K cr (slice 0 32 salt) ++ (if len =? 64 then f_hmac K cr (slice 32 32 salt) else []).
(** secret.c:448-462 *)
Definition large_blob_key (he nonce : bytes) : bytes :=
  let b i := nth i he 0 in
  let b0 := Z.lxor (b 0%nat) (b 1%nat) in
  let b1 := Z.lxor (b 1%nat) (b 2%nat) in
  let k := [b0; b1] ++ slice 2 28 he ++ [Z.lxor (b 30%nat) b0; Z.lxor (b 31%nat) (b 3%nat)] in
  f_hmac K k (firstn 16 nonce).
(** "ret = make_large_blob_key(…); CHECK_CBOR_RET(ret);" *)
Definition make_large_blob_key (nonce : bytes) : Mc bytes :=
  he <- read_key32 HE_KEY_ATTR ;; match he with Some he => ret (large_blob_key he nonce) | None => except ERR_CBOR end.

(** ** ctap.c *)
(** ctap.c:39-48 *)
Definition WAIT (timeout : Z) : Mc unit :=
  if nfc then ret tt else
  r <- wait_touch ;;
  if r =? USER_PRESENCE_CANCEL then except ERR_CANCEL else if r =? USER_PRESENCE_TIMEOUT then except timeout else ret tt.
(** ctap.c:66-94 *)
Definition ctap_install (reset : bool) : Mc unit :=
  modify (set_cpc 3) ;;;
  modify (set_last CTAP_INVALID_CMD) ;;;
  cp_initialize ;;;
  sz <- (if reset then ret None else get_file_size LB_FILE) ;;
  match sz with
  | Some _ => a <- got (read_attr CTAP_CERT_FILE SM2_ATTR) ;; modify (set_sm2 (attr_buf 9 a))
  | None =>
      must (write_file DC_FILE [] 0 true) ;;;
      must (write_attr DC_FILE DC_GENERAL_ATTR [0; 0; 0]) ;;;
      must (write_file DC_META_FILE [] 0 true) ;;;
      must (write_file CTAP_CERT_FILE [] 0 false) ;;;
      must (write_attr CTAP_CERT_FILE SIGN_CTR_ATTR [0; 0; 0; 0]) ;;;
      must (write_attr CTAP_CERT_FILE PIN_ATTR []) ;;;
      kh <- random_buffer 32 ;;
      must (write_attr CTAP_CERT_FILE KH_KEY_ATTR kh) ;;;
      he <- random_buffer 32 ;;
      must (write_attr CTAP_CERT_FILE HE_KEY_ATTR he) ;;;
      must (write_file LB_FILE [0x80; 0x76; 0xbe; 0x8b; 0x52; 0x8d; 0x00; 0x75; 0xf7; 0xaa; 0xe9; 0x8d; 0x6f; 0xa5; 0x7a; 0x6d; 0x3c] 0 true)
  end.
(** ctap.c:1997-2003 *)
Definition ctap_reset_data : Mc unit := guard (t1 <=? 10000) ERR_NOT_ALLOWED ;;; ctap_install true.

(** ctap.c:126-159: the item that the buffer of 80 bytes takes; if it is too small, CHECK_CBOR_RET returns 0x12, which the callers take
    for the length of the key, the 18 bytes of which are then the first ones of the raw public key *)
Definition ec_key (pub : bytes) (alg crv : Z) : cbor :=
  CMap [(CInt 1, CInt 2); (CInt 3, CInt alg); (CInt (-1), CInt crv); (CInt (-2), CBytes (slice 0 32 pub)); (CInt (-3), CBytes (slice 32 32 pub))].
Definition ecdsa_cose_key (pub : bytes) (alg crv : Z) : bytes :=
  let b := enc (ec_key pub alg crv) in if zlen b <=? 80 then b else firstn 18 pub.
(** ctap.c:161-190 *)
Definition ed_key (pub : bytes) : cbor :=
  CMap [(CInt 1, CInt 1); (CInt 3, CInt ALG_EDDSA); (CInt (-1), CInt 6); (CInt (-2), CBytes (slice 0 32 pub))].
Definition ed25519_cose_key (pub : bytes) : bytes := enc (ed_key pub).

(** ctap.c:215-227 *)
Fixpoint drop_slot (n : nat) (i idx : Z) : Mc unit :=
  match n with
  | O => ret tt
  | S n' =>
      m <- read_rec DC_META_FILE META_SIZE i ;;
      if Z.testbit (m_slots m) idx
      then must (write_file DC_META_FILE (meta_make (m_hash m) (m_rpid m) (m_len m) (Z.land (m_slots m) (Z.lnot (2 ^ idx)))) (i * META_SIZE) false)
      else drop_slot n' (i + 1) idx
  end.
(** ctap.c:192-236 *)
Definition consistency_check : Mc unit :=
  a <- read_general ;;
  if Z.land (ga_flags a) 3 =? 0 then ret tt else
  let idx := ga_index a in
  sz <- get_file_size DC_FILE ;;
  (match sz with
   | Some z => if (idx + 1) * DC_SIZE <=? z then
       d <- read_rec DC_FILE DC_SIZE idx ;;
       if dc_deleted d then ret tt else must (write_file DC_FILE (dc_delete d) (idx * DC_SIZE) false)
     else ret tt
   | None => ret tt end) ;;;
  n <- count_recs DC_META_FILE META_SIZE ;;
  drop_slot (Z.to_nat n) 0 idx ;;;
  let numbers := if Z.testbit (ga_flags a) 1 then u8 (ga_numbers a - 1) else ga_numbers a in
  must (write_attr DC_FILE DC_GENERAL_ATTR [numbers; idx; Z.land (ga_flags a) 252]).

(** ctap.c:238-308.  [at_]: algorithm, discoverable flag, credProtect of the credential to create.  Result: the data and, in the former
    case, the credential id. *)
Definition aaguid : bytes := [0x24; 0x4e; 0xb2; 0x9e; 0xe0; 0x90; 0x4e; 0x49; 0x81; 0xfe; 0x1f; 0x20; 0xf8; 0xd3; 0xb8; 0xf4].
Definition make_auth_data (rp : bytes) (flags : Z) (ext : bytes) (at_ : option (Z * Z * Z)) : Mc (bytes * bytes) :=
  c <- increase_counter ;;
  let head := rp ++ [flags] ++ to_be 4 c in
  match at_ with
  | None => ret (head ++ ext, [])
  | Some (alg, dc, cp) =>
      let cp := if cp =? 0 then 1 else cp in
      r <- generate_key_handle rp alg dc cp ;;
      match r with
      | None => except ERR_UNHANDLED
      | Some (id, pub) =>
          s <- get ;;
          key <- (if alg =? ALG_ES256 then ret (ecdsa_cose_key pub ALG_ES256 1)
                  else if alg =? ALG_EDDSA then ret (ed25519_cose_key pub)
                  else if alg =? sm2_algo (c_sm2 s) then ret (ecdsa_cose_key pub alg (sm2_curve (c_sm2 s)))
                  else except ERR_UNHANDLED) ;;
          guard (125 + zlen key + zlen ext <=? 343) ERR_LIMIT ;;;
          ret (head ++ aaguid ++ [0; 70] ++ id ++ key ++ ext, id)
      end
  end.

(** ** authenticatorMakeCredential (ctap.c:310-753) *)
Definition present {A} (o : option A) : bool := match o with Some _ => true | None => false end.
(** ctap.c:323-345 and 797-818: an empty pinUvAuthParam asks for a touch *)
Definition touch_probe (param : option bytes) : Mc unit :=
  match param with
  | Some [] => WAIT ERR_DENIED ;;; p <- has_pin ;; except (if p then ERR_PIN_INVALID else ERR_PIN_NOT_SET)
  | _ => ret tt
  end.
(** ctap.c:415-442 *)
Definition mc_token (q : mcreq) (sig : bytes) : Mc bool :=
  s <- get ;; guard (negb (c_cpc s =? 0)) ERR_PIN_AUTH_BLOCKED ;;;
  ok <- cp_verify_token (mc_cdh q) sig (match mc_proto q with Some p => p | None => 0 end) ;; guard ok ERR_PIN_AUTH_INVALID ;;;
  ok <- cp_has_permission PERM_MC ;; guard ok ERR_PIN_AUTH_INVALID ;;;
  ok <- cp_verify_rp (mc_rphash q) ;; guard ok ERR_PIN_AUTH_INVALID ;;;
  ok <- cp_user_verified ;; guard ok ERR_PIN_AUTH_INVALID ;;;
  cp_associate_rp (mc_rphash q) ;;;
  ret true.
(** ctap.c:341-446: the "uv" bit *)
Definition mc_auth (q : mcreq) : Mc bool :=
  guard (negb (present (mc_param q)) || present (mc_proto q)) ERR_MISSING ;;;
  guard (present (mc_param q) || negb (mc_uvopt q =? 1)) ERR_INVALID_OPTION ;;;
  guard (negb (mc_upopt q =? 0)) ERR_INVALID_OPTION ;;;
  p <- has_pin ;;
  guard (negb (p && negb (present (mc_param q)) && (mc_rk q =? 1))) ERR_PUAT_REQUIRED ;;;
  if negb (mc_rk q =? 1) && negb (present (mc_param q)) then ret false else
  p <- has_pin ;;
  match mc_param q with Some sig => if p then mc_token q sig else ret false | None => ret false end.
(** ctap-parser.c:208-226 [parse_credential_descriptor] puts an id into the buffer that holds the one before: a longer one is refused
    (and the buffer stays), a shorter one gets a zero behind it *)
Definition load_id (buf id : bytes) : bytes :=
  if zlen id <? ID_SIZE then overlay (id ++ [0]) buf else if zlen id =? ID_SIZE then overlay id buf else buf.
(** ctap.c:451-494 *)
Fixpoint exclude (q : mcreq) (uv : bool) (l : list bytes) (buf : bytes) : Mc unit :=
  match l with
  | [] => ret tt
  | i :: r =>
      let id := load_id buf i in
      if negb (beqb (id_rp id) (mc_rphash q)) then exclude q uv r id else
      v <- verify_key_handle id ;;
      match v with
      | None => except ERR_UNHANDLED
      | Some None => exclude q uv r id
      | Some (Some _) =>
          if negb (id_cp id =? 3) || uv then
            up <- (if present (mc_param q) then cp_user_present else ret false) ;;
            (if up : bool then ret tt else WAIT ERR_EXCLUDED) ;;;
            except ERR_EXCLUDED
          else exclude q uv r id
      end
  end.
(** ctap.c:500-508 and 1010-1017 *)
Definition ask_presence (param : bool) : Mc unit :=
  if param then up <- cp_user_present ;; (if up : bool then ret tt else WAIT ERR_DENIED) else WAIT ERR_DENIED.
(** ctap.c:519-555 *)
Definition mc_ext (q : mcreq) : bytes :=
  let items :=
    (match mc_blob q with Some b => [(txt "credBlob", CBool ((zlen b <=? 32) && (mc_rk q =? 1)))] | None => [] end) ++
    (if mc_cp q =? 0 then [] else [(txt "credProtect", CInt (mc_cp q))]) ++
    (if mc_hs q then [(txt "hmac-secret", CBool true)] else []) in
  match items with [] => [] | _ => enc (CMap items) end.
(** ctap.c:597-612: the slot of the same account, or the number of records; the first deleted one; the record last read *)
Fixpoint find_slot (n : nat) (pos fd : Z) (rp user buf : bytes) : Mc (Z * Z * bytes) :=
  match n with
  | O => ret (pos, fd, buf)
  | S n' =>
      d <- read_rec DC_FILE DC_SIZE pos ;;
      if dc_deleted d then find_slot n' (pos + 1) (if fd =? MAX_DC_NUM then pos else fd) rp user d
      else if beqb rp (id_rp (dc_id d)) && (u_size user =? u_size (dc_user d)) &&
              beqb (slice 0 (u_size user) (u_id user)) (slice 0 (u_size user) (u_id (dc_user d)))
           then ret (pos, fd, d)
           else find_slot n' (pos + 1) fd rp user d
  end.
(** ctap.c:648-656: the metadata of the rp ([Some slots]) or the number of records; the first deleted one *)
Fixpoint find_meta (n : nat) (pos fd : Z) (rp : bytes) : Mc (Z * Z * option Z) :=
  match n with
  | O => ret (pos, fd, None)
  | S n' =>
      m <- read_rec DC_META_FILE META_SIZE pos ;;
      if m_slots m =? 0 then find_meta n' (pos + 1) (if fd =? MAX_DC_NUM then pos else fd) rp
      else if beqb rp (m_hash m) then ret (pos, fd, Some (m_slots m))
      else find_meta n' (pos + 1) fd rp
  end.
(** ctap.c:592-676 *)
Definition mc_store (q : mcreq) (id : bytes) : Mc unit :=
  n <- count_recs DC_FILE DC_SIZE ;;
  r <- find_slot (Z.to_nat n) 0 MAX_DC_NUM (mc_rphash q) (mc_user q) (zeros DC_SIZE) ;;
  let '(pos, fd, old) := r in
  let pos := if (pos =? n) && negb (fd =? MAX_DC_NUM) then fd else pos in
  guard (pos <? MAX_DC_NUM) ERR_FULL ;;;
  let blob := match mc_blob q with Some b => if zlen b <=? 32 then b else [] | None => [] end in
  let dc := dc_make id (mc_user q) false (if mc_lbk q then 1 else 0) (zlen blob) (overlay blob (dc_blob old)) in
  a <- read_general ;;
  let fl := Z.lor (ga_flags a) 1 in
  must (write_attr DC_FILE DC_GENERAL_ATTR [ga_numbers a; pos; fl]) ;;;
  must (write_file DC_FILE dc (pos * DC_SIZE) false) ;;;
  m <- count_recs DC_META_FILE META_SIZE ;;
  r <- find_meta (Z.to_nat m) 0 MAX_DC_NUM (mc_rphash q) ;;
  let '(mpos, mfd, slots) := r in
  let mpos := if present slots then mpos else if mfd =? MAX_DC_NUM then mpos else mfd in
  let slots := match slots with Some s => s | None => 0 end in
  must (write_file DC_META_FILE
    (meta_make (mc_rphash q) (attr_buf 32 (mc_rp q)) (zlen (mc_rp q)) (Z.lor slots (2 ^ pos))) (mpos * META_SIZE) false) ;;;
  must (write_attr DC_FILE DC_GENERAL_ATTR [u8 (ga_numbers a + 1); pos; Z.land fl 254]).
(** ctap.c:694-733.  get_cert (secret.c:394) writes at most 1152 bytes behind the encoder's back: that they fit is checked in
    [process_cbor]. *)
Definition mc_att (q : mcreq) (ad : bytes) : Mc cbor :=
  sig <- sign_with_device_key (ad ++ mc_cdh q) ;;
  match sig with
  | None => except ERR_UNHANDLED
  | Some sig =>
      cert <- got (read_file CTAP_CERT_FILE 0 1152) ;;
      ret (CMap [(txt "alg", CInt ALG_ES256); (txt "sig", CBytes sig);
                 (txt "x5c", CArr [CRaw ([0x59; zlen cert / 256; zlen cert mod 256] ++ cert)])])
  end.
Definition ctap_make_credential (p : Z + mcreq) : Mc cbor :=
  match p with
  | inl err => except err
  | inr q =>
      consistency_check ;;;
      touch_probe (mc_param q) ;;;
      uv <- mc_auth q ;;
      exclude q uv (mc_excl q) (attr_buf ID_SIZE junk) ;;;
      ask_presence (present (mc_param q)) ;;;
      cp_clear_flags ;;;
      guard (negb (mc_lbk q) || (mc_rk q =? 1)) ERR_INVALID_OPTION ;;;
      let ext := mc_ext q in
      let flags := FLAGS_AT + (match ext with [] => 0 | _ => FLAGS_ED end) + (if uv : bool then FLAGS_UV else 0) + FLAGS_UP in
      r <- make_auth_data (mc_rphash q) flags ext (Some (mc_alg q, if mc_rk q =? 1 then 1 else 0, mc_cp q)) ;;
      let '(ad, id) := r in
      (if mc_rk q =? 1 then mc_store q id else ret tt) ;;;
      att <- mc_att q ad ;;
      lbk <- (if mc_lbk q then k <- make_large_blob_key (id_nonce id) ;; ret [(CInt 5, CBytes k)] else ret []) ;;
      ret (CMap ([(CInt 1, txt "packed"); (CInt 2, CBytes ad); (CInt 3, att)] ++ lbk))
  end.

(** ** authenticatorGetAssertion and authenticatorGetNextAssertion (ctap.c:755-1223) *)
(** ctap.c:855-881 *)
Definition ga_token (q : gareq) (sig : bytes) : Mc unit :=
  s <- get ;; guard (negb (c_cpc s =? 0)) ERR_PIN_AUTH_BLOCKED ;;;
  ok <- cp_verify_token (ga_cdh q) sig (match ga_proto q with Some p => p | None => 0 end) ;; guard ok ERR_PIN_AUTH_INVALID ;;;
  modify (set_ga (gs_uv true)) ;;;
  ok <- cp_user_verified ;; guard ok ERR_PIN_AUTH_INVALID ;;;
  ok <- cp_has_permission PERM_GA ;; guard ok ERR_PIN_AUTH_INVALID ;;;
  ok <- cp_verify_rp (ga_rphash q) ;; guard ok ERR_PIN_AUTH_INVALID ;;;
  cp_associate_rp (ga_rphash q).
(** ctap.c:792-882 *)
Definition ga_begin (q : gareq) : Mc unit :=
  modify (set_ga (gs_req q)) ;;;
  touch_probe (ga_param q) ;;;
  guard (negb (present (ga_param q)) || present (ga_proto q)) ERR_MISSING ;;;
  modify (set_ga (fun g => gs_up false (gs_uv false g))) ;;;
  guard (present (ga_param q) || negb (ga_uvopt q =? 1)) ERR_INVALID_OPTION ;;;
  guard (ga_rk q =? 2) ERR_UNSUPPORTED_OPTION ;;;
  p <- has_pin ;;
  match ga_param q with Some sig => if p then ga_token q sig else ret tt | None => ret tt end.
(** ctap.c:939-952 *)
Fixpoint find_dc (n : nat) (j : Z) (rp nonce buf : bytes) : Mc (bool * bytes) :=
  match n with
  | O => ret (false, buf)
  | S n' =>
      d <- read_rec DC_FILE DC_SIZE j ;;
      if dc_deleted d then find_dc n' (j + 1) rp nonce d
      else if beqb rp (id_rp (dc_id d)) && beqb nonce (id_nonce (dc_id d)) then ret (true, d)
      else find_dc n' (j + 1) rp nonce d
  end.
(** ctap.c:921-968: the selected credential, in the buffer that also was used to look at others, and its private key *)
Fixpoint allow (rp : bytes) (uv : bool) (l : list bytes) (dc : bytes) : Mc (bytes * bytes) :=
  match l with
  | [] => except ERR_NO_CREDENTIALS
  | i :: r =>
      let id := load_id (dc_id dc) i in
      let dc := overlay id dc in
      if negb (beqb (id_rp id) rp) then allow rp uv r dc else
      v <- verify_key_handle id ;;
      match v with
      | None => except ERR_UNHANDLED
      | Some None => allow rp uv r dc
      | Some (Some pri) =>
          if negb (protect_ok id true uv) then allow rp uv r dc
          else if id_dc id =? 0 then ret (dc, pri)
          else n <- count_recs DC_FILE DC_SIZE ;;
               f <- find_dc (Z.to_nat n) 0 rp (id_nonce id) dc ;;
               if fst f then ret (snd f, pri) else allow rp uv r (snd f)
      end
  end.
(** ctap.c:977-989: the applicable slots, from the last one down *)
Fixpoint applicable (n : nat) (rp : bytes) (uv : bool) : Mc (list Z) :=
  match n with
  | O => ret []
  | S n' =>
      let i := Z.of_nat n' in
      d <- read_rec DC_FILE DC_SIZE i ;;
      r <- applicable n' rp uv ;;
      ret (if dc_deleted d then r else if negb (protect_ok (dc_id d) false uv) then r
           else if beqb rp (id_rp (dc_id d)) then i :: r else r)
  end.
(** ctap.c:920-998 *)
Definition ga_select (q : gareq) : Mc (bytes * bytes) :=
  g <- gets c_ga ;;
  match ga_allow q with
  | _ :: _ => r <- allow (ga_rphash q) (g_uv g) (ga_allow q) (zeros DC_SIZE) ;; modify (set_ga (gs_n 1)) ;;; ret r
  | [] =>
      (if g_ctr g =? 0 then
         n <- count_recs DC_FILE DC_SIZE ;;
         l <- applicable (Z.to_nat n) (ga_rphash q) (g_uv g) ;;
         modify (set_ga (gs_list l (u8 (zlen l)))) ;;;
         guard (negb (u8 (zlen l) =? 0)) ERR_NO_CREDENTIALS
       else ret tt) ;;;
      g <- gets c_ga ;;
      d <- read_rec DC_FILE DC_SIZE (nth (Z.to_nat (g_ctr g)) (g_list g) 0) ;;
      v <- verify_key_handle (dc_id d) ;;
      match v with Some (Some pri) => ret (d, pri) | _ => except ERR_UNHANDLED end
  end.
(** ctap.c:1060-1109.  Both the agreed key and the decrypted salts stay in [g_req].  If the storage read in make_hmac_secret_output fails,
    or the salts are neither 32 nor 64 bytes, uninitialised stack is encrypted. *)
Definition salt_len (h : hsreq) : Z := if hs_proto h =? 1 then zlen (hs_salt h) else zlen (hs_salt h) - 16.
Definition ga_hmac_secret (q : gareq) (h : hsreq) (id : bytes) : Mc bytes :=
  g <- gets c_ga ;;
  h' <- (if g_ctr g =? 0 then
           guard (g_up g) ERR_UNSUPPORTED_OPTION ;;;
           key <- cp_decapsulate (hs_key h) (hs_proto h) ;;
           guard (cp_verify (firstn 32 key) (hs_salt h) (hs_auth h) (hs_proto h)) ERR_PIN_AUTH_INVALID ;;;
           match cp_decrypt key (hs_salt h) (hs_proto h) with
           | None => except ERR_UNHANDLED
           | Some salt =>
               let h' := mkHs key (overlay salt (hs_salt h)) (hs_auth h) (hs_proto h) in
               modify (set_ga (gs_req (mkGa (ga_rphash q) (ga_cdh q) (ga_allow q) (ga_rk q) (ga_uvopt q) (ga_upopt q) (ga_param q) (ga_proto q) (Some h') (ga_blob q)))) ;;;
               ret h'
           end
         else ret h) ;;
  he <- read_key32 HE_KEY_ATTR ;;
  match he with
  | None => ub
  | Some he =>
      let len := salt_len h' in
      if negb ((len =? 32) || (len =? 64)) then ub else
      o <- cp_encrypt (hs_key h') (hmac_secret_output he (id_nonce id) (hs_salt h') len (g_uv g)) (hs_proto h') ;;
      match o with None => except ERR_UNHANDLED | Some o => ret o end
  end.
(** ctap.c:1039-1114 *)
Definition ga_ext (q : gareq) (dc : bytes) : Mc bytes :=
  let blob := if ga_blob q then [(txt "credBlob", CBytes (slice 0 (dc_blob_len dc) (dc_blob dc)))] else [] in
  hs <- (match ga_hs q with Some h => o <- ga_hmac_secret q h (dc_id dc) ;; ret [(txt "hmac-secret", CBytes o)] | None => ret [] end) ;;
  ret (match blob ++ hs with [] => [] | l => enc (CMap l) end).
(** ctap.c:1171-1187 *)
Definition user_map (u : bytes) (details : bool) : cbor :=
  CMap ((txt "id", CBytes (slice 0 (u_size u) (u_id u))) ::
        if details then [(txt "name", CText (u_name u)); (txt "displayName", CText (u_display u))] else []).
Definition cred_map (id : bytes) : cbor := CMap [(txt "id", CBytes id); (txt "type", txt "public-key")].
(** ctap.c:884-1217.  sign_with_private_key returns -1 on failure, which becomes a length of 2^32-1 bytes (the check "len < 0" at 1161 is
    on an unsigned variable): undefined. *)
Definition ga_rest : Mc cbor :=
  q <- gets (fun s => g_req (c_ga s)) ;;
  r <- ga_select q ;;
  let '(dc, pri) := r in
  g <- gets c_ga ;;
  (if (g_ctr g =? 0) && negb (ga_upopt q =? 0) then
     ask_presence (present (ga_param q)) ;;; modify (set_ga (gs_up true)) ;;; cp_clear_flags
   else ret tt) ;;;
  guard (protect_ok (dc_id dc) (match ga_allow q with [] => false | _ => true end) (g_uv g)) ERR_NO_CREDENTIALS ;;;
  ext <- ga_ext q dc ;;
  g <- gets c_ga ;;
  let flags := (match ext with [] => 0 | _ => FLAGS_ED end) + (if g_uv g then FLAGS_UV else 0) + (if g_up g then FLAGS_UP else 0) in
  r <- make_auth_data (ga_rphash q) flags ext None ;;
  let ad := fst r in
  sig <- sign_with_private_key (id_alg (dc_id dc)) pri (ad ++ ga_cdh q) ;;
  match sig with
  | None => ub
  | Some sig =>
      let user := if id_dc (dc_id dc) =? 0 then [] else [(CInt 4, user_map (dc_user dc) (g_uv g && (1 <? g_n g)))] in
      let num := if (match ga_allow q with [] => true | _ => false end) && (g_ctr g =? 0) && (1 <? g_n g) then [(CInt 5, CInt (g_n g))] else [] in
      lbk <- (if dc_lbk dc =? 0 then ret [] else k <- make_large_blob_key (id_nonce (dc_id dc)) ;; ret [(CInt 7, CBytes k)]) ;;
      modify (set_ga (fun g => gs_timer t2 (gs_ctr (u8 (g_ctr g + 1)) g))) ;;;
      ret (CMap ([(CInt 1, cred_map (dc_id dc)); (CInt 2, CBytes ad); (CInt 3, CBytes sig)] ++ user ++ num ++ lbk))
  end.
Definition ctap_get_assertion (p : Z + gareq) : Mc cbor :=
  modify (set_ga (gs_ctr 0)) ;;;
  consistency_check ;;;
  match p with inl err => except err | inr q => ga_begin q ;;; ga_rest end.
(** ctap.c:772-791, 1221-1223 *)
Definition ctap_get_next_assertion : Mc cbor :=
  s <- get ;;
  guard ((c_last s =? CTAP_GET_ASSERTION) || (c_last s =? CTAP_GET_NEXT_ASSERTION)) ERR_NOT_ALLOWED ;;;
  guard (g_ctr (c_ga s) <? g_n (c_ga s)) ERR_NOT_ALLOWED ;;;
  guard (u32 (t1 - g_timer (c_ga s)) <=? 30000) ERR_NOT_ALLOWED ;;;
  ga_rest.

(** ** authenticatorGetInfo (ctap.c:1225-1426); MAX_CTAP_BUFSIZE is 1300 (interfaces/USB/class/ctaphid/ctaphid.h:96) *)
Definition alg_map (alg : Z) : cbor := CMap [(txt "alg", CInt alg); (txt "type", txt "public-key")].
Definition ctap_get_info : Mc cbor :=
  p <- has_pin ;;
  s <- get ;;
  ret (CMap [
    (CInt 1, CArr [txt "U2F_V2"; txt "FIDO_2_0"; txt "FIDO_2_1"]);
    (CInt 2, CArr [txt "credBlob"; txt "credProtect"; txt "hmac-secret"; txt "largeBlobKey"]);
    (CInt 3, CBytes aaguid);
    (CInt 4, CMap [(txt "rk", CBool true); (txt "credMgmt", CBool true); (txt "clientPin", CBool p); (txt "largeBlobs", CBool true);
                   (txt "pinUvAuthToken", CBool true); (txt "makeCredUvNotRqd", CBool true)]);
    (CInt 5, CInt 1300);
    (CInt 6, CArr [CInt 1; CInt 2]);
    (CInt 7, CInt 8);
    (CInt 8, CInt 70);
    (CInt 9, CArr [txt "nfc"; txt "usb"]);
    (CInt 10, CArr ([alg_map ALG_ES256; alg_map ALG_EDDSA] ++ if sm2_enabled (c_sm2 s) then [alg_map (sm2_algo (c_sm2 s))] else []));
    (CInt 11, CInt 4096);
    (CInt 14, CInt 201);
    (CInt 15, CInt 32)]).

(** ** authenticatorClientPIN (ctap.c:1428-1624) *)
(** ctap.c:1494-1497, 1557-1560: [i] is the last position below 64 with a byte that is not zero (0 if there is none) *)
Fixpoint last_nonzero (i : nat) (d : bytes) : Z :=
  match i with O => 0 | S j => if nth i d 0 =? 0 then last_nonzero j d else Z.of_nat i end.
Definition new_pin (d : bytes) : Mc unit :=
  let i := last_nonzero 63 d in
  guard (negb ((i <? 3) || (63 <=? i))) ERR_PIN_POLICY ;;;
  set_pin (firstn (Z.to_nat (i + 1)) d).
Definition pin_enc_len (proto : Z) : nat := if proto =? 1 then 64%nat else 80%nat.
Definition pin_hash_len (proto : Z) : nat := if proto =? 1 then 16%nat else 32%nat.
(** ctap.c:1504-1512, 1570-1578 *)
Definition pin_retries_left : Mc Z :=
  p <- has_pin ;; guard p ERR_PIN_NOT_SET ;;;
  r <- got get_pin_retries ;;
  guard (negb (r =? 0)) ERR_PIN_BLOCKED ;;;
  s <- get ;; guard (negb (c_cpc s =? 0)) ERR_PIN_AUTH_BLOCKED ;;;
  ret (r - 1).
(** ctap.c:1531-1550, 1582-1600: [regen] new key agreement key on a wrong PIN *)
Definition check_pin (key enc_hash : bytes) (proto retries : Z) (regen : bool) : Mc unit :=
  set_pin_retries retries ;;;
  match cp_decrypt key (firstn (pin_hash_len proto) enc_hash) proto with
  | None => except ERR_UNHANDLED
  | Some h =>
      ok <- verify_pin_hash h ;;
      if ok : bool then modify (set_cpc 3) else
      (if regen then cp_regenerate else ret tt) ;;;
      guard (negb (retries =? 0)) ERR_PIN_BLOCKED ;;;
      modify (fun s => set_cpc (u8 (c_cpc s - 1)) s) ;;;
      s <- get ;;
      except (if c_cpc s =? 0 then ERR_PIN_AUTH_BLOCKED else ERR_PIN_INVALID)
  end.
Definition set_pin_cmd (q : cpreq) : Mc unit :=
  p <- has_pin ;; guard (negb p) ERR_PIN_AUTH_INVALID ;;;
  key <- cp_decapsulate (cp_key q) (cp_proto q) ;;
  let d := firstn (pin_enc_len (cp_proto q)) (cp_new q) in
  guard (cp_verify (firstn 32 key) d (cp_param q) (cp_proto q)) ERR_PIN_AUTH_INVALID ;;;
  match cp_decrypt key d (cp_proto q) with None => except ERR_UNHANDLED | Some pin => new_pin pin end.
Definition change_pin_cmd (q : cpreq) : Mc unit :=
  retries <- pin_retries_left ;;
  key <- cp_decapsulate (cp_key q) (cp_proto q) ;;
  let d := firstn (pin_enc_len (cp_proto q)) (cp_new q) in
  guard (cp_verify (firstn 32 key) (d ++ firstn (pin_hash_len (cp_proto q)) (cp_hash q)) (cp_param q) (cp_proto q)) ERR_PIN_AUTH_INVALID ;;;
  check_pin key (cp_hash q) (cp_proto q) retries true ;;;
  match cp_decrypt key d (cp_proto q) with None => except ERR_UNHANDLED | Some pin => new_pin pin end.
(** ctap.c:1565-1620; the result of cp_encrypt_pin_token is not looked at: a failure would leave the buffer uninitialised *)
Definition get_token_cmd (q : cpreq) : Mc cbor :=
  retries <- pin_retries_left ;;
  key <- cp_decapsulate (cp_key q) (cp_proto q) ;;
  check_pin key (cp_hash q) (cp_proto q) retries false ;;;
  set_pin_retries 8 ;;;
  cp_reset_token ;;;
  cp_begin_using false ;;;
  (if cp_sub q =? 5 then cp_set_permission (PERM_MC + PERM_GA)
   else cp_set_permission (cp_perm q) ;;; match cp_rp q with Some h => cp_associate_rp h | None => ret tt end) ;;;
  s <- get ;;
  c <- cp_encrypt key (t_token (c_tok s)) (cp_proto q) ;;
  match c with None => ub | Some c => ret (CMap [(CInt 2, CBytes c)]) end.
(** If the storage fails, the error code of the storage is answered as the number of retries; -61 is LFS_ERR_NOATTR. *)
Definition ctap_client_pin (p : Z + cpreq) : Mc (option cbor) :=
  match p with
  | inl err => except err
  | inr q =>
      if cp_sub q =? 1 then
        r <- get_pin_retries ;; ret (Some (CMap [(CInt 3, CInt (match r with Some n => n | None => -61 end))]))
      else if cp_sub q =? 2 then
        s <- get ;; ret (Some (CMap [(CInt 1, ec_key (snd (t_ka (c_tok s))) (-25) 1)]))
      else if cp_sub q =? 3 then set_pin_cmd q ;;; ret None
      else if cp_sub q =? 4 then change_pin_cmd q ;;; ret None
      else if (cp_sub q =? 5) || (cp_sub q =? 9) then v <- get_token_cmd q ;; ret (Some v)
      else ret None
  end.

(** ** authenticatorCredentialManagement (ctap.c:1641-1990) *)
(** ctap.c:1626-1639: the lowest slot, the number of slots, the slots without it *)
Fixpoint next_slot (n : nat) (i : Z) (slots : Z) : Z * Z :=
  match n with
  | O => (-1, 0)
  | S n' => let '(idx, num) := next_slot n' (i + 1) slots in if Z.testbit slots i then (i, num + 1) else (idx, num)
  end.
Definition get_next_slot : Mc (Z * Z) :=
  s <- get ;;
  let sl := s_slots (c_cm s) in
  let '(idx, num) := next_slot 64 0 sl in
  (if idx =? -1 then ret tt else modify (set_cm (cs_slots (Z.land sl (Z.lnot (2 ^ idx)))))) ;;;
  ret (idx, num).
(** ctap.c:1660-1680 *)
Definition cm_auth (q : cmreq) : Mc Z :=
  modify (set_cm (cs_last (cm_sub q))) ;;;
  a <- read_general ;;
  guard (zlen (cm_raw q) + 1 <=? DC_SIZE) ERR_LENGTH ;;;
  s <- get ;; guard (negb (c_cpc s =? 0)) ERR_PIN_AUTH_BLOCKED ;;;
  ok <- cp_verify_token (cm_sub q :: cm_raw q) (cm_param q) (cm_proto q) ;; guard ok ERR_PIN_AUTH_INVALID ;;;
  ok <- cp_has_permission PERM_CM ;; guard ok ERR_PIN_AUTH_INVALID ;;;
  ret (ga_numbers a).
(** ctap.c:1684-1699 *)
Definition cm_metadata (numbers : Z) : Mc cbor :=
  b <- cp_has_rp ;; guard (negb b) ERR_PIN_AUTH_INVALID ;;;
  ret (CMap [(CInt 1, CInt numbers); (CInt 2, CInt (MAX_DC_NUM - numbers))]).
(** ctap.c:1707-1714 *)
Fixpoint scan_rps (n : nat) : Mc Z :=
  match n with
  | O => ret 0
  | S n' =>
      let i := Z.of_nat n' in
      m <- read_rec DC_META_FILE META_SIZE i ;;
      (if 0 <? m_slots m then modify (set_cm (cs_idx i)) else ret tt) ;;;
      c <- scan_rps n' ;;
      ret (if 0 <? m_slots m then c + 1 else c)
  end.
Definition rp_items (m : bytes) : list (cbor * cbor) :=
  [(CInt 3, CMap [(txt "id", CText (slice 0 (m_len m) (m_rpid m)))]); (CInt 4, CBytes (m_hash m))].
(** ctap.c:1701-1740; a negative size divides to 0 *)
Definition cm_rps_begin (numbers : Z) : Mc cbor :=
  b <- cp_has_rp ;; guard (negb b) ERR_PIN_AUTH_INVALID ;;;
  guard (negb (numbers =? 0)) ERR_NO_CREDENTIALS ;;;
  z <- get_file_size DC_META_FILE ;;
  let n := match z with Some z => z / META_SIZE | None => 0 end in
  modify (set_cm (cs_nrp n)) ;;;
  c <- scan_rps (Z.to_nat n) ;;
  s <- get ;;
  m <- read_rec DC_META_FILE META_SIZE (s_idx (c_cm s)) ;;
  ret (CMap (rp_items m ++ [(CInt 5, CInt c)])).
(** ctap.c:1749-1757: [None] if no further rp is left (the metadata then is uninitialised) *)
Fixpoint next_rp (n : nat) (i : Z) : Mc (option bytes) :=
  match n with
  | O => ret None
  | S n' =>
      m <- read_rec DC_META_FILE META_SIZE i ;;
      if 0 <? m_slots m then modify (set_cm (cs_idx i)) ;;; ret (Some m) else next_rp n' (i + 1)
  end.
(** ctap.c:1742-1776 *)
Definition cm_next_allowed (q : cmreq) (a b : Z) : Mc unit :=
  s <- get ;;
  if negb ((c_last s =? CTAP_CREDENTIAL_MANAGEMENT) && ((s_last (c_cm s) =? a) || (s_last (c_cm s) =? b)))
  then modify (set_cm (cs_last 0)) ;;; except ERR_NOT_ALLOWED
  else modify (set_cm (cs_last (cm_sub q))).
Definition cm_next_rp (q : cmreq) : Mc cbor :=
  cm_next_allowed q 2 3 ;;;
  s <- get ;;
  let i := s_idx (c_cm s) + 1 in
  m <- next_rp (Z.to_nat (s_nrp (c_cm s) - i)) i ;;
  match m with Some m => ret (CMap (rp_items m)) | None => ub end.
(** ctap.c:1785-1790 *)
Fixpoint find_rp (n : nat) (i : Z) (h : bytes) : Mc (option bytes) :=
  match n with
  | O => modify (set_cm (cs_idx i)) ;;; ret None
  | S n' =>
      m <- read_rec DC_META_FILE META_SIZE i ;;
      if (m_slots m =? 0) || negb (beqb (m_hash m) h) then find_rp n' (i + 1) h else modify (set_cm (cs_idx i)) ;;; ret (Some m)
  end.
(** ctap.c:1798-1885.  For SM2 no key is built: the first byte of the raw public key has replaced the empty map. *)
Definition cm_credential (numbers : bool) : Mc cbor :=
  r <- get_next_slot ;;
  let '(idx, num) := r in
  modify (set_cm (cs_idx idx)) ;;;
  d <- read_rec DC_FILE DC_SIZE idx ;;
  let id := dc_id d in
  v <- verify_key_handle id ;;
  pri <- (match v with Some (Some pri) => ret pri | _ => except ERR_UNHANDLED end) ;;
  kt <- cose_alg_to_key_type (id_alg id) ;;
  pub <- (match kt with None => ub | Some kt => match f_pub K kt pri with Some p => ret p | None => except 255 end end) ;;
  let key := if id_alg id =? ALG_ES256 then CRaw (ecdsa_cose_key pub ALG_ES256 1)
             else if id_alg id =? ALG_EDDSA then CRaw (ed25519_cose_key pub)
             else CRaw (slice 0 1 pub) in
  lbk <- (if dc_lbk d =? 0 then ret [] else k <- make_large_blob_key (id_nonce id) ;; ret [(CInt 11, CBytes k)]) ;;
  ret (CMap ([(CInt 6, user_map (dc_user d) true); (CInt 7, cred_map id); (CInt 8, key)] ++
             (if numbers then [(CInt 9, CInt num)] else []) ++ [(CInt 10, CInt (id_cp id))] ++ lbk)).
(** ctap.c:1778-1797 *)
Definition cm_creds_begin (q : cmreq) (numbers : Z) : Mc cbor :=
  ok <- cp_verify_rp (cm_rphash q) ;; guard ok ERR_PIN_AUTH_INVALID ;;;
  guard (negb (numbers =? 0)) ERR_NO_CREDENTIALS ;;;
  z <- get_file_size DC_META_FILE ;;
  let n := match z with Some z => z / META_SIZE | None => 0 end in
  modify (set_cm (cs_nrp n)) ;;;
  m <- find_rp (Z.to_nat n) 0 (cm_rphash q) ;;
  match m with
  | None => except ERR_NO_CREDENTIALS
  | Some m => modify (set_cm (cs_slots (m_slots m))) ;;; cm_credential true
  end.
(** ctap.c:1887-1896 *)
Definition cm_next_cred (q : cmreq) : Mc cbor := cm_next_allowed q 4 5 ;;; cm_credential false.
(** ctap.c:1904-1915, 1960-1974 *)
Fixpoint find_id (n : nat) (i : Z) (id : bytes) : Mc (Z * bytes) :=
  match n with
  | O => modify (set_cm (cs_idx i)) ;;; except ERR_NO_CREDENTIALS
  | S n' =>
      d <- read_rec DC_FILE DC_SIZE i ;;
      if dc_deleted d || negb (beqb (dc_id d) id) then find_id n' (i + 1) id
      else modify (set_cm (cs_idx i)) ;;; ret (i, d)
  end.
(** ctap.c:1935-1946 *)
Fixpoint drop_from_meta (n : nat) (i idx : Z) (rp : bytes) : Mc unit :=
  match n with
  | O => ret tt
  | S n' =>
      m <- read_rec DC_META_FILE META_SIZE i ;;
      if beqb (m_hash m) rp
      then must (write_file DC_META_FILE (meta_make (m_hash m) (m_rpid m) (m_len m) (Z.land (m_slots m) (Z.lnot (2 ^ idx)))) (i * META_SIZE) false)
      else drop_from_meta n' (i + 1) idx rp
  end.
(** ctap.c:1898-1950 *)
Definition cm_delete (q : cmreq) (numbers : Z) : Mc unit :=
  ok <- cp_verify_rp (id_rp (cm_id q)) ;; guard ok ERR_PIN_AUTH_INVALID ;;;
  guard (negb (numbers =? 0)) ERR_NO_CREDENTIALS ;;;
  n <- count_recs DC_FILE DC_SIZE ;;
  r <- find_id (Z.to_nat (u8 n)) 0 (cm_id q) ;;
  let '(idx, d) := r in
  a <- read_general ;;
  let fl := Z.lor (ga_flags a) 2 in
  must (write_attr DC_FILE DC_GENERAL_ATTR [ga_numbers a; idx; fl]) ;;;
  must (write_file DC_FILE (dc_delete d) (idx * DC_SIZE) false) ;;;
  m <- count_recs DC_META_FILE META_SIZE ;;
  drop_from_meta (Z.to_nat (u8 m)) 0 idx (id_rp (cm_id q)) ;;;
  must (write_attr DC_FILE DC_GENERAL_ATTR [u8 (ga_numbers a - 1); idx; Z.land fl 253]).
(** ctap.c:1952-1985 *)
Definition cm_update (q : cmreq) (numbers : Z) : Mc unit :=
  ok <- cp_verify_rp (id_rp (cm_id q)) ;; guard ok ERR_PIN_AUTH_INVALID ;;;
  guard (negb (numbers =? 0)) ERR_NO_CREDENTIALS ;;;
  n <- count_recs DC_FILE DC_SIZE ;;
  r <- find_id (Z.to_nat (u8 n)) 0 (cm_id q) ;;
  let '(idx, d) := r in
  let k := u_size (dc_user d) in
  guard ((k =? u_size (cm_user q)) && beqb (slice 0 k (u_id (dc_user d))) (slice 0 k (u_id (cm_user q)))) ERR_PARAMETER ;;;
  must (write_file DC_FILE (splice d 70 (cm_user q)) (idx * DC_SIZE) false).
Definition ctap_credential_management (p : Z + cmreq) : Mc (option cbor) :=
  match p with
  | inl err => except err
  | inr q =>
      consistency_check ;;;
      let some (m : Mc cbor) : Mc (option cbor) := v <- m ;; ret (Some v) in
      if cm_sub q =? 1 then n <- cm_auth q ;; some (cm_metadata n)
      else if cm_sub q =? 2 then n <- cm_auth q ;; some (cm_rps_begin n)
      else if cm_sub q =? 3 then some (cm_next_rp q)
      else if cm_sub q =? 4 then n <- cm_auth q ;; some (cm_creds_begin q n)
      else if cm_sub q =? 5 then some (cm_next_cred q)
      else if cm_sub q =? 6 then n <- cm_auth q ;; cm_delete q n ;;; ret None
      else if cm_sub q =? 7 then n <- cm_auth q ;; cm_update q n ;;; ret None
      else ret None
  end.

(** ** authenticatorLargeBlobs (ctap.c:2005-2160) *)
(** ctap.c:2102-2109 *)
Definition lb_message (q : lbreq) : bytes :=
  repeat 0xFF 32 ++ [0x0C; 0x00; lb_off q mod 256; lb_off q / 256; 0; 0] ++ f_sha K (lb_set q).
(** ctap.c:2083-2120 *)
Definition lb_auth (q : lbreq) : Mc unit :=
  p <- has_pin ;;
  if p : bool then
    match lb_param q with
    | None => except ERR_PUAT_REQUIRED
    | Some sig =>
        guard (present (lb_proto q)) ERR_MISSING ;;;
        s <- get ;; guard (negb (c_cpc s =? 0)) ERR_PIN_AUTH_BLOCKED ;;;
        ok <- cp_verify_token (lb_message q) sig (match lb_proto q with Some p => p | None => 0 end) ;; guard ok ERR_PIN_AUTH_INVALID ;;;
        ok <- cp_has_permission PERM_LBW ;; guard ok ERR_PIN_AUTH_INVALID
    end
  else ret tt.
(** ctap.c:2140-2146: the bytes hashed are those read, in pieces of 256; a short read would hash old bytes of the buffer *)
Fixpoint lb_read (fuel : nat) (off len : Z) : Mc bytes :=
  match fuel with
  | O => ret []
  | S n =>
      if len <=? off then ret [] else
      let k := Z.min 256 (len - off) in
      d <- got (read_file LB_FILE_TMP off k) ;;
      if negb (zlen d =? k) then ub else
      r <- lb_read n (off + k) len ;; ret (d ++ r)
  end.
(** ctap.c:2027-2055.  The size fits the response (the parser limits [get] to MAX_FRAGMENT_LENGTH). *)
Definition lb_fetch (q : lbreq) (n : Z) : Mc cbor :=
  size <- got (get_file_size LB_FILE) ;;
  guard (lb_off q <=? size) ERR_PARAMETER ;;;
  let n := if size <? lb_off q + n then size - lb_off q else n in
  d <- got (read_file LB_FILE (lb_off q) n) ;;
  if zlen d =? n then ret (CMap [(CInt 1, CBytes d)]) else ub.
(** ctap.c:2061-2153 *)
Definition lb_store (q : lbreq) : Mc unit :=
  (if lb_off q =? 0 then modify (set_lb 0 (lb_len q)) else ret tt) ;;;
  s <- get ;;
  guard (lb_off q =? c_next s) ERR_SEQ ;;;
  lb_auth q ;;;
  s <- get ;;
  guard (lb_off q + zlen (lb_set q) <=? c_len s) ERR_PARAMETER ;;;
  must (write_file LB_FILE_TMP (lb_set q) (lb_off q) (lb_off q =? 0)) ;;;
  let next := u16 (c_next s + zlen (lb_set q)) in
  modify (set_lb next (c_len s)) ;;;
  if negb (next =? c_len s) then ret tt else
  let len := u16 (c_len s - 16) in
  modify (set_lb next len) ;;;
  d <- lb_read 4096 0 len ;;
  h <- got (read_file LB_FILE_TMP len 16) ;;
  if negb (zlen h =? 16) then ub else
  guard (beqb (firstn 16 (f_sha K d)) h) ERR_INTEGRITY ;;;
  must (fs_rename LB_FILE_TMP LB_FILE).
Definition ctap_large_blobs (p : Z + lbreq) : Mc (option cbor) :=
  match p with
  | inl err => except err
  | inr q => match lb_get q with Some n => v <- lb_fetch q n ;; ret (Some v) | None => lb_store q ;;; ret None end
  end.

(** ** Commands (ctap.c:2162-2233): the command byte and the result of the parser for its parameters *)
Inductive creq :=
  | RMake (p : Z + mcreq) | RGet (p : Z + gareq) | RNext | RInfo | RPin (p : Z + cpreq) | RReset
  | RCm (p : Z + cmreq) | RSelect | RLarge (p : Z + lbreq) | ROther.
Definition cmd_of (q : creq) : Z :=
  match q with
  | RMake _ => CTAP_MAKE_CREDENTIAL | RGet _ => CTAP_GET_ASSERTION | RNext => CTAP_GET_NEXT_ASSERTION | RInfo => CTAP_GET_INFO
  | RPin _ => CTAP_CLIENT_PIN | RReset => CTAP_RESET | RCm _ => CTAP_CREDENTIAL_MANAGEMENT | RSelect => CTAP_SELECTION
  | RLarge _ => CTAP_LARGE_BLOBS | ROther => CTAP_INVALID_CMD
  end.
Definition cbor_cmd (q : creq) : Mc (option cbor) :=
  cp_observer ;;;
  match q with
  | RMake p => v <- ctap_make_credential p ;; ret (Some v)
  | RGet p => v <- ctap_get_assertion p ;; ret (Some v)
  | RNext => v <- ctap_get_next_assertion ;; ret (Some v)
  | RInfo => v <- ctap_get_info ;; ret (Some v)
  | RPin p => ctap_client_pin p
  | RReset => ctap_reset_data ;;; ret None
  | RCm p => ctap_credential_management p
  | RSelect => WAIT ERR_USER_TIMEOUT ;;; ret None
  | RLarge p => ctap_large_blobs p
  | ROther => except ERR_UNHANDLED
  end.
(** The message of a response: the status and the item *)
Definition message (r : Z * option cbor) : bytes := fst r :: match snd r with Some v => enc v | None => [] end.
(** ctap.c:2166-2233.  [cap]: the size of the response buffer.  A response that does not fit is an undefined outcome: only
    authenticatorMakeCredential can have one, when the certificate is written behind the end. *)
Definition process_cbor (cap : Z) (q : creq) : Mc (Z * option cbor) := fun s e =>
  match cbor_cmd q s e with
  | (Ret v, s', e') => if zlen (message (0, v)) <=? cap then (Ret (0, v), set_last (cmd_of q) s', e') else (UB, s', e')
  | (Exc c, s', e') => (Ret (c, None), set_last CTAP_INVALID_CMD s', e')
  | (_, s', e') => (UB, s', e')
  end.

(** ** U2F (u2f.c); the requests are [chal 32, app id 32] and [chal 32, app id 32, length 1, key handle 70] (u2f.h) *)
Definition u2f_touch : Mc unit := if nfc then ret tt else r <- wait_touch ;; guard (r =? USER_PRESENCE_OK) SW_CONDITIONS_NOT_SATISFIED.
(** u2f.c:16-64.  A failing signature leaves an empty one.  The response has to fit the buffer of [cap] bytes. *)
Definition u2f_register (cap : Z) (data : bytes) : Mc unit :=
  guard (zlen data =? 64) SW_WRONG_LENGTH ;;;
  u2f_touch ;;;
  let chal := slice 0 32 data in let app := slice 32 32 data in
  r <- generate_key_handle app ALG_ES256 0 1 ;;
  match r with
  | None => fail
  | Some (id, pub) =>
      cert <- read_file CTAP_CERT_FILE 0 1152 ;;
      match cert with
      | None => fail
      | Some cert =>
          sig <- sign_with_device_key ([0] ++ app ++ chal ++ id ++ [4] ++ pub) ;;
          let r := [5; 4] ++ pub ++ [70] ++ id ++ cert ++ match sig with Some x => x | None => [] end in
          if zlen r <=? cap then set_out r else ub
      end
  end.
(** u2f.c:66-103 *)
Definition u2f_authenticate (p1 : Z) (data : bytes) : Mc unit :=
  guard (zlen data =? 135) SW_WRONG_DATA ;;;
  guard (nth 64 data 0 =? 70) SW_WRONG_LENGTH ;;;
  let chal := slice 0 32 data in let app := slice 32 32 data in let id := slice 65 70 data in
  guard (beqb app (id_rp id)) SW_WRONG_DATA ;;;
  v <- verify_key_handle id ;;
  match v with
  | Some (Some pri) =>
      guard (negb (p1 =? 7)) SW_CONDITIONS_NOT_SATISFIED ;;;
      u2f_touch ;;;
      c <- (fun s e => match increase_counter s e with
                       | (Exc _, s', e') => (Exc SW_CONDITIONS_NOT_SATISFIED, s', e')
                       | r => r end) ;;
      match f_sign K KP256 pri (app ++ [FLAGS_UP] ++ to_be 4 c ++ chal) with
      | None => ub
      | Some sig => set_out ([FLAGS_UP] ++ to_be 4 c ++ sig)
      end
  | _ => except SW_WRONG_DATA
  end.
Definition u2f_version : bytes := chars "U2F_V2".

(** ctap.c:2247-2295 [ctap_process_apdu_with_src].  [parse]: ctap-parser.c.  [buf]: the whole buffer, which holds the command data and is the
    response buffer too.  An empty CBOR message makes ctap_process_cbor return at once, and the length of the answer stays that of the
    buffer. *)
Definition APDU_BUFFER_SIZE := 1340.
Definition ctap_apdu (parse : bytes -> creq) (c : capdu) (buf : bytes) : Mc Z :=
  if c_cla c =? 0x80 then
    if c_ins c =? 0x10 then
      match c_data c with
      | [] => set_out (attr_buf APDU_BUFFER_SIZE buf) ;;; except SW_UNABLE_TO_PROCESS
      | d => r <- process_cbor APDU_BUFFER_SIZE (parse d) ;; set_out (message r) ;;; ret 0x9000
      end
    else except SW_INS_NOT_SUPPORTED
  else if c_cla c =? 0 then
    if c_ins c =? 1 then u2f_register APDU_BUFFER_SIZE (c_data c) ;;; ret 0x9000
    else if c_ins c =? 2 then u2f_authenticate (c_p1 c) (c_data c) ;;; ret 0x9000
    else if c_ins c =? 3 then guard (match c_data c with [] => true | _ => false end) SW_WRONG_LENGTH ;;; set_out u2f_version ;;; ret 0x9000
    else if c_ins c =? 0xA4 then set_out u2f_version ;;; ret 0x9000
    else if c_ins c =? 0x10 then ret 0x9000
    else except SW_INS_NOT_SUPPORTED
  else except SW_CLA_NOT_SUPPORTED.

(** ** Vendor commands of the admin applet (ctap.c:96-124) *)
Definition install_private_key (data : bytes) : Mc unit :=
  guard (zlen data =? 32) SW_WRONG_LENGTH ;;;
  let a := [0] ++ to_le 4 9 ++ to_le 4 (-48) in
  modify (set_sm2 a) ;;;
  must (write_attr CTAP_CERT_FILE SM2_ATTR a) ;;;
  must (write_attr CTAP_CERT_FILE KEY_ATTR data).
Definition install_cert (data : bytes) : Mc unit :=
  guard (zlen data <=? 1152) SW_WRONG_LENGTH ;;; must (write_file CTAP_CERT_FILE data 0 true).
Definition write_sm2_config (data : bytes) : Mc unit :=
  guard (zlen data =? 9) SW_WRONG_LENGTH ;;;
  ok <- write_attr CTAP_CERT_FILE SM2_ATTR data ;;
  modify (set_sm2 data) ;;; guard ok SW_UNABLE_TO_PROCESS.
End Ctap.
