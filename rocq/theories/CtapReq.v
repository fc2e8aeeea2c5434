(** The parser of requests (applets/ctap/ctap-parser.c), function by function.  tinycbor is external: a request is the tree of values that
    it finds.  Simplifications: strings, arrays and maps have definite lengths and heads are shortest (CTAP2's canonical form), and the
    message is well formed to its end.  The order of the entries of a map and repeated keys are as they come.  A write outside a field of
    the request record is the outcome [PUB]. *)
From Verif Require Export CtapParse.
Open Scope string_scope. Open Scope list_scope. Open Scope Z_scope.

Inductive pres (A : Type) := POk (a : A) | PErr (c : Z) | PUB.
Arguments POk {A} _. Arguments PErr {A} _. Arguments PUB {A}.
Definition pbind {A B} (m : pres A) (f : A -> pres B) : pres B := match m with POk a => f a | PErr c => PErr c | PUB => PUB end.
Notation "x <<- m ; k" := (pbind m (fun x => k)) (at level 100, m at next level, right associativity).
(** CHECK_CBOR_RET (ctap-parser.c:14-18) on the result of a function of this file: every error becomes CTAP2_ERR_INVALID_CBOR *)
Definition as_cbor_error {A} (m : pres A) : pres A := match m with PErr _ => PErr ERR_INVALID_CBOR | x => x end.
Definition ERR_UNSUPPORTED_ALG := 0x26.  (* ctap-errors.h:26 *)
Definition ERR_BLOB_FULL := 0x18.        (* ctap-errors.h:19 *)
Definition ERR_UNAUTHORIZED := 0x40.     (* ctap-errors.h:49 *)

(** ** The request records (ctap-internal.h:291-366): byte fields, numbers (with one number, 0 or 1, for each bit of parsed_params), and
    the credential ids of an exclude or allow list *)
Record pst := mkP { pb : string -> bytes; pz : string -> Z; pl : list bytes }.
Definition upd {A} (f : string) (a : A) (m : string -> A) : string -> A := fun g => if String.eqb f g then a else m g.
Definition set_b (f : string) (b : bytes) (st : pst) : pst := mkP (upd f b (pb st)) (pz st) (pl st).
Definition set_z (f : string) (z : Z) (st : pst) : pst := mkP (pb st) (upd f z (pz st)) (pl st).
Definition set_l (l : list bytes) (st : pst) : pst := mkP (pb st) (pz st) l.
Definition has (f : string) (st : pst) : bool := negb (pz st f =? 0).
(** The sizes of the byte fields (ctap-internal.h:232-237, 291-366) *)
Definition size_of (f : string) : Z :=
  if String.eqb f "user" then 195 else if String.eqb f "id" then 70 else if String.eqb f "key" then 64
  else if String.eqb f "salt" then 80 else if String.eqb f "new" then 80 else if String.eqb f "set" then 0 else if String.eqb f "raw" then 0 else 32.
(** "memset(mc, 0, sizeof(…))" and the options that are absent by default (624-629, 771-776, 890, 1072, 1176) *)
Definition pst0 : pst := mkP (fun f => zeros (size_of f)) (fun f => if String.eqb f "rk" || String.eqb f "uv" || String.eqb f "up" then 2 else 0) [].

(** ** Reading values *)
(** cbor_value_get_type and cbor_value_get_int_checked: an "int" *)
Definition get_int (v : cbor) : pres Z :=
  match v with CInt z => if (-2147483648 <=? z) && (z <? 2147483648) then POk z else PErr ERR_INVALID_CBOR | _ => PErr ERR_CBOR_UNEXPECTED end.
Definition get_bytes (v : cbor) : pres bytes := match v with CBytes b => POk b | _ => PErr ERR_CBOR_UNEXPECTED end.
Definition get_text (v : cbor) : pres bytes := match v with CText b => POk b | _ => PErr ERR_CBOR_UNEXPECTED end.
Definition get_bool (v : cbor) : pres bool := match v with CBool b => POk b | _ => PErr ERR_CBOR_UNEXPECTED end.
Definition get_map (v : cbor) : pres (list (cbor * cbor)) := match v with CMap l => POk l | _ => PErr ERR_CBOR_UNEXPECTED end.
Definition get_arr (v : cbor) : pres (list cbor) := match v with CArr l => POk l | _ => PErr ERR_CBOR_UNEXPECTED end.
(** Writing [d] at [off] of a field, where there is room for [room] bytes *)
Definition put_in (f : string) (off room : Z) (d : bytes) (st : pst) : pres pst :=
  if zlen d <=? room then POk (set_b f (put_at off d (pb st f)) st) else PUB.
(** cbor_value_copy_byte_string and cbor_value_copy_text_string with "len" = [cap]: a longer string is an error (CborErrorOutOfMemory, for
    which the caller answers [oom]); a shorter one gets a zero behind it *)
Definition copy (f : string) (off room cap oom : Z) (s : bytes) (st : pst) : pres pst :=
  if cap <? zlen s then PErr oom else put_in f off room (if zlen s <? cap then s ++ [0] else s) st.
(** The loops over the entries of maps, with integers as keys and with texts as keys, whose buffer has [n] bytes *)
Fixpoint int_loop {A} (step : Z -> cbor -> A -> pres A) (l : list (cbor * cbor)) (st : A) : pres A :=
  match l with
  | [] => POk st
  | (k, v) :: r => k <<- get_int k ; st <<- step k v st ; int_loop step r st
  end.
Fixpoint txt_loop {A} (n : Z) (step : bytes -> cbor -> A -> pres A) (l : list (cbor * cbor)) (st : A) : pres A :=
  match l with
  | [] => POk st
  | (k, v) :: r => k <<- get_text k ; (if n <? zlen k then PErr ERR_LIMIT else st <<- step k v st ; txt_loop n step r st)
  end.
(** cbor_value_map_find_value: the value of the first entry with that text as its key *)
Fixpoint map_find (k : string) (l : list (cbor * cbor)) : option cbor :=
  match l with
  | [] => None
  | (CText t, v) :: r => if beqb t (chars k) then Some v else map_find k r
  | _ :: r => map_find k r
  end.

Section P.
Variable K : fcrypto.
Variable sm2 : bytes.   (* ctap_sm2_attr (ctap.c:64) *)

(** ctap-parser.c:93-146.  The record has id at 0, id_size at 64, name at 65, display_name at 130 (ctap-internal.h:232-237). *)
Definition user_step (k : bytes) (v : cbor) (st : pst) : pres pst :=
  if key_is k "id" then s <<- get_bytes v ; st <<- copy "user" 0 64 64 ERR_LIMIT s st ; put_in "user" 64 1 [zlen s] st
  else if key_is k "displayName" then
    s <<- get_text v ; st <<- copy "user" 130 65 64 ERR_INVALID_CBOR s st ; put_in "user" (130 + zlen s) (65 - zlen s) [0] st
  else if key_is k "name" then
    s <<- get_text v ; st <<- copy "user" 65 65 64 ERR_INVALID_CBOR s st ; put_in "user" (65 + zlen s) (65 - zlen s) [0] st
  else if key_is k "icon" then _ <<- get_text v ; POk st
  else POk st.
Definition parse_user (v : cbor) (st : pst) : pres pst := l <<- get_map v ; txt_loop 12 user_step l st.
(** ctap-parser.c:148-170 *)
Definition parse_pub_key_cred_param (v : cbor) : pres Z :=
  l <<- get_map v ;
  match map_find "type" l, map_find "alg" l with
  | Some (CText t), Some (CInt z) =>
      if negb (beqb t (chars "public-key")) then PErr ERR_UNSUPPORTED_ALG else get_int (CInt z)
  | _, _ => PErr ERR_MISSING
  end.
(** ctap-parser.c:172-206; [chosen]: whether an algorithm has been chosen *)
Definition supported (a : Z) : bool := (a =? ALG_ES256) || (a =? ALG_EDDSA) || (sm2_enabled sm2 && (a =? sm2_algo sm2)).
Fixpoint alg_loop (l : list cbor) (chosen : bool) (st : pst) : pres pst :=
  match l with
  | [] => if chosen then POk st else PErr ERR_UNSUPPORTED_ALG
  | v :: r =>
      a <<- parse_pub_key_cred_param v ;
      if supported a && negb chosen then alg_loop r true (set_z "alg" a st) else alg_loop r chosen st
  end.
Definition parse_verify_pub_key_cred_params (v : cbor) (st : pst) : pres pst := l <<- get_arr v ; alg_loop l false st.
(** ctap-parser.c:208-226: the id; with a buffer ([parse_credential_descriptor(&map, id)]), it is copied before the type is looked at *)
Definition descriptor_id (v : cbor) : pres bytes :=
  l <<- get_map v ; match map_find "id" l with Some (CBytes b) => POk b | _ => PErr ERR_MISSING end.
Definition descriptor_type (v : cbor) : pres unit :=
  l <<- get_map v ; match map_find "type" l with Some (CText _) => POk tt | _ => PErr ERR_MISSING end.
(** ctap-parser.c:230-245, and the list that the command goes through later (ctap.c:454, 923) *)
Fixpoint id_list (l : list cbor) : pres (list bytes) :=
  match l with
  | [] => POk []
  | v :: r => i <<- descriptor_id v ; _ <<- descriptor_type v ; is <<- id_list r ; POk (i :: is)
  end.
Definition parse_public_key_credential_list (v : cbor) (st : pst) : pres pst := l <<- get_arr v ; is <<- id_list l ; POk (set_l is st).
(** ctap-parser.c:247-295: keys of other lengths than 2 are ignored *)
Definition b2z (b : bool) : Z := if b then 1 else 0.
Fixpoint options_loop (l : list (cbor * cbor)) (st : pst) : pres pst :=
  match l with
  | [] => POk st
  | (k, v) :: r =>
      k <<- get_text k ; b <<- get_bool v ;
      options_loop r (if beqb k (chars "rk") then set_z "rk" (b2z b) st
                      else if beqb k (chars "uv") then set_z "uv" (b2z b) st
                      else if beqb k (chars "up") then set_z "up" (b2z b) st else st)
  end.
Definition parse_options (v : cbor) (st : pst) : pres pst := l <<- get_map v ; options_loop l st.
(** ctap-parser.c:297-371; "parsed_keys" counts modulo 256 *)
Definition cose_step (k : Z) (v : cbor) (x : pst * Z) : pres (pst * Z) :=
  let '(st, n) := x in
  let number (want : Z) := z <<- get_int v ; if z =? want then POk (st, u8 (n + 1)) else PErr ERR_UNHANDLED in
  let point (off : Z) := s <<- get_bytes v ; st <<- copy "key" off 32 32 ERR_INVALID_CBOR s st ;
                         if zlen s =? 32 then POk (st, u8 (n + 1)) else PErr ERR_UNHANDLED in
  if k =? 3 then number (-25) else if k =? 1 then number 2 else if k =? -1 then number 1
  else if k =? -2 then point 0 else if k =? -3 then point 32 else POk x.
Definition parse_cose_key (v : cbor) (st : pst) : pres pst :=
  l <<- get_map v ; x <<- int_loop cose_step l (st, 0) ; if snd x <? 4 then PErr ERR_MISSING else POk (fst x).
(** ctap-parser.c:373-435 *)
Definition mc_ext_step (k : bytes) (v : cbor) (st : pst) : pres pst :=
  if key_is k "credProtect" then z <<- get_int v ; if (z <? 1) || (3 <? z) then PErr ERR_INVALID_OPTION else POk (set_z "cp" z st)
  else if key_is k "credBlob" then
    s <<- get_bytes v ;
    (let st := set_z "has_blob" 1 st in
     if 32 <? zlen s then POk (set_z "blob_len" 33 st) else st <<- copy "blob" 0 32 32 0 s st ; POk (set_z "blob_len" (zlen s) st))
  else if key_is k "largeBlobKey" then b <<- get_bool v ; if b then POk (set_z "lbk" 1 st) else PErr ERR_INVALID_OPTION
  else if key_is k "hmac-secret" then b <<- get_bool v ; POk (set_z "hs" (b2z b) st)
  else POk st.
Definition parse_mc_extensions (v : cbor) (st : pst) : pres pst := l <<- get_map v ; txt_loop 13 mc_ext_step l st.
(** ctap-parser.c:437-561 *)
Definition hs_step (k : Z) (v : cbor) (st : pst) : pres pst :=
  if k =? 1 then st <<- as_cbor_error (parse_cose_key v st) ; POk (set_z "has_hs_key" 1 st)
  else if k =? 2 then
    s <<- get_bytes v ; st <<- copy "salt" 0 80 80 ERR_LENGTH s st ; POk (set_z "has_hs_salt" 1 (set_z "salt_len" (zlen s) st))
  else if k =? 3 then
    s <<- get_bytes v ; st <<- copy "auth" 0 32 32 ERR_INVALID_CBOR s st ; POk (set_z "has_hs_auth" 1 (set_z "auth_len" (zlen s) st))
  else if k =? 4 then z <<- get_int v ; POk (set_z "hs_proto" (u8 z) st)
  else POk st.
Definition ga_ext_step (k : bytes) (v : cbor) (st : pst) : pres pst :=
  if key_is k "hmac-secret" then
    l <<- get_map v ;
    (* "map_has_entry" starts anew for each entry (469-475) *)
    st <<- int_loop hs_step l (set_z "has_hs_auth" 0 (set_z "has_hs_salt" 0 (set_z "has_hs_key" 0 (set_z "hs_proto" 1 st)))) ;
    if negb (has "has_hs_key" st && has "has_hs_salt" st && has "has_hs_auth" st) then PErr ERR_MISSING else
    let p := pz st "hs_proto" in let n := pz st "salt_len" in let m := pz st "auth_len" in
    if ((p =? 1) && negb (n =? 64) && negb (n =? 32)) || ((p =? 2) && negb (n =? 80) && negb (n =? 48)) then PErr ERR_LENGTH else
    if ((p =? 1) && negb (m =? 16)) || ((p =? 2) && negb (m =? 32)) then PErr ERR_LENGTH else
    POk (set_z "has_hs" 1 st)
  else if key_is k "credBlob" then b <<- get_bool v ; POk (set_z "blob" (b2z b) st)
  else if key_is k "largeBlobKey" then b <<- get_bool v ; if b then POk st else PErr ERR_INVALID_OPTION
  else POk st.
Definition parse_ga_extensions (v : cbor) (st : pst) : pres pst := l <<- get_map v ; txt_loop 13 ga_ext_step l st.
(** "case …_PIN_UV_AUTH_PARAM" of parse_make_credential and parse_get_assertion (712-728, 843-857) *)
Definition long_param (v : cbor) (st : pst) : pres pst :=
  s <<- get_bytes v ;
  if 32 <? zlen s then PErr ERR_PIN_AUTH_INVALID else
  st <<- (if 0 <? zlen s then copy "param" 0 32 (zlen s) ERR_INVALID_CBOR s st else POk st) ;
  POk (set_z "has_param" 1 (set_z "param_len" (zlen s) st)).
(** The same of parse_client_pin, parse_credential_management and parse_large_blobs (942-953, 1119-1128, 1248-1257): never empty *)
Definition short_param (v : cbor) (st : pst) : pres pst :=
  s <<- get_bytes v ;
  if (zlen s =? 0) || (32 <? zlen s) then PErr ERR_PIN_AUTH_INVALID else
  st <<- copy "param" 0 32 (zlen s) ERR_INVALID_CBOR s st ; POk (set_z "has_param" 1 st).
(** "case …_PIN_UV_AUTH_PROTOCOL" (730-742, 859-871, 909-921, 1108-1117, 1237-1246) *)
Definition protocol_of (v : cbor) (st : pst) : pres pst :=
  z <<- get_int v ; if (z =? 1) || (z =? 2) then POk (set_z "has_proto" 1 (set_z "proto" z st)) else PErr ERR_PARAMETER.
(** "case …_CLIENT_DATA_HASH" (647-657, 807-817) *)
Definition client_data_hash (v : cbor) (st : pst) : pres pst :=
  s <<- get_bytes v ; st <<- copy "cdh" 0 32 32 ERR_INVALID_CBOR s st ;
  if zlen s =? 32 then POk (set_z "has_cdh" 1 st) else PErr ERR_INVALID_CBOR.
(** parse_rp (55-91) is in CtapParse *)
Definition mc_rp_step (v : cbor) (st : pst) : pres pst :=
  match parse_rp K v (mkRp (pb st "rp") (pz st "rp_len") (pb st "rphash")) with
  | inl c => PErr c
  | inr r => POk (set_z "has_rp" 1 (set_b "rphash" (rp_hash r) (set_z "rp_len" (rp_len r) (set_b "rp" (rp_buf r) st))))
  end.
(** ctap-parser.c:620-764 *)
Definition mc_step (k : Z) (v : cbor) (st : pst) : pres pst :=
  if k =? 1 then client_data_hash v st
  else if k =? 2 then mc_rp_step v st
  else if k =? 3 then st <<- parse_user v st ; POk (set_z "has_user" 1 st)
  else if k =? 4 then st <<- parse_verify_pub_key_cred_params v st ; POk (set_z "has_alg" 1 st)
  else if k =? 5 then parse_public_key_credential_list v st
  else if k =? 6 then parse_mc_extensions v st
  else if k =? 7 then parse_options v st
  else if k =? 8 then long_param v st
  else if k =? 9 then protocol_of v st
  else POk st.
Definition opt {A} (b : bool) (a : A) : option A := if b then Some a else None.
Definition param_of (st : pst) : option bytes := opt (has "has_param" st) (if pz st "param_len" =? 0 then [] else pb st "param").
Definition mc_of_pst (st : pst) : mcreq :=
  mkMc (pb st "cdh") (firstn (Z.to_nat (pz st "rp_len")) (pb st "rp")) (pb st "rphash") (pb st "user") (pz st "alg") (pl st)
    (pz st "rk") (pz st "uv") (pz st "up") (param_of st) (opt (has "has_proto" st) (pz st "proto"))
    (has "hs" st) (has "lbk" st) (pz st "cp")
    (* a length of 33 marks a blob that is too long (410) *)
    (opt (has "has_blob" st) (firstn (Z.to_nat (pz st "blob_len")) (pb st "blob" ++ [0]))).
Definition parse_make_credential (v : cbor) : pres mcreq :=
  l <<- get_map v ; st <<- int_loop mc_step l pst0 ;
  if has "has_cdh" st && has "has_rp" st && has "has_user" st && has "has_alg" st then POk (mc_of_pst st) else PErr ERR_MISSING.
(** ctap-parser.c:766-884.  The 254-byte buffer gets a zero as its last byte (800): an RP ID of 254 bytes loses it. *)
Definition cut_domain (s : bytes) : bytes := if zlen s =? DOMAIN_NAME_MAX_SIZE then firstn 253 s ++ [0] else s.
Definition ga_step (k : Z) (v : cbor) (st : pst) : pres pst :=
  if k =? 1 then
    s <<- get_text v ;
    if DOMAIN_NAME_MAX_SIZE <? zlen s then PErr ERR_INVALID_CBOR
    else POk (set_z "has_rp" 1 (set_b "rphash" (f_sha K (cut_domain s)) st))
  else if k =? 2 then client_data_hash v st
  else if k =? 3 then parse_public_key_credential_list v st
  else if k =? 4 then parse_ga_extensions v st
  else if k =? 5 then parse_options v st
  else if k =? 6 then long_param v st
  else if k =? 7 then protocol_of v st
  else POk st.
Definition ga_of_pst (st : pst) : gareq :=
  mkGa (pb st "rphash") (pb st "cdh") (pl st) (pz st "rk") (pz st "uv") (pz st "up") (param_of st) (opt (has "has_proto" st) (pz st "proto"))
    (opt (has "has_hs" st) (mkHs (pb st "key") (firstn (Z.to_nat (pz st "salt_len")) (pb st "salt")) (pb st "auth") (pz st "hs_proto")))
    (has "blob" st).
Definition parse_get_assertion (v : cbor) : pres gareq :=
  l <<- get_map v ; st <<- int_loop ga_step l pst0 ;
  if has "has_cdh" st && has "has_rp" st then POk (ga_of_pst st) else PErr ERR_MISSING.
(** ctap-parser.c:886-1064.  "case CP_REQ_NEW_PIN_ENC" and "case CP_REQ_PIN_HASH_ENC" (955-985) copy as many bytes as the string has;
    its length is only checked against a protocol that has been read before. *)
Definition enc_field (f : string) (room n1 n2 : Z) (v : cbor) (st : pst) : pres pst :=
  s <<- get_bytes v ;
  if ((pz st "proto" =? 1) && negb (zlen s =? n1)) || ((pz st "proto" =? 2) && negb (zlen s =? n2)) then PErr ERR_INVALID_CBOR
  else copy f 0 room (zlen s) ERR_INVALID_CBOR s st.
Definition cp_step (k : Z) (v : cbor) (st : pst) : pres pst :=
  if k =? 1 then protocol_of v st
  else if k =? 2 then z <<- get_int v ; POk (set_z "has_sub" 1 (set_z "sub" (u8 z) st))
  else if k =? 3 then st <<- parse_cose_key v st ; POk (set_z "has_key" 1 st)
  else if k =? 4 then short_param v st
  else if k =? 5 then st <<- enc_field "new" 80 64 80 v st ; POk (set_z "has_new" 1 st)
  else if k =? 6 then st <<- enc_field "hash" 32 16 32 v st ; POk (set_z "has_hash" 1 st)
  else if k =? 9 then
    z <<- get_int v ;
    if u8 z =? 0 then PErr ERR_PARAMETER else if negb (Z.land (u8 z) 40 =? 0) then PErr ERR_UNAUTHORIZED
    else POk (set_z "has_perm" 1 (set_z "perm" (u8 z) st))
  else if k =? 10 then
    s <<- get_text v ;
    if DOMAIN_NAME_MAX_SIZE <? zlen s then PErr ERR_INVALID_CBOR else POk (set_z "has_rp" 1 (set_b "rphash" (f_sha K s) st))
  else POk st.
Definition cp_missing (st : pst) : bool :=
  let s := pz st "sub" in let no f := negb (has f st) in
  ((s =? 2) && no "has_proto") ||
  ((s =? 3) && (no "has_proto" || no "has_key" || no "has_new" || no "has_param")) ||
  ((s =? 4) && (no "has_proto" || no "has_key" || no "has_hash" || no "has_new" || no "has_param")) ||
  ((s =? 5) && (no "has_proto" || no "has_key" || no "has_hash")).
Definition cp_of_pst (st : pst) : cpreq :=
  mkCp (pz st "sub") (pz st "proto") (pb st "key") (pb st "param") (pb st "new") (pb st "hash") (pz st "perm") (opt (has "has_rp" st) (pb st "rphash")).
Definition parse_client_pin (v : cbor) : pres cpreq :=
  l <<- get_map v ; st <<- int_loop cp_step l pst0 ;
  if negb (has "has_sub" st) then PErr ERR_MISSING else
  if cp_missing st then PErr ERR_MISSING else
  if (pz st "sub" =? 5) && (has "has_perm" st || has "has_rp" st) then PErr ERR_PARAMETER else
  if (pz st "sub" =? 9) && negb (has "has_proto" st && has "has_key" st && has "has_hash" st && has "has_perm" st) then PErr ERR_MISSING else
  POk (cp_of_pst st).
(** ctap-parser.c:563-618 *)
Definition cm_param_step (k : Z) (v : cbor) (st : pst) : pres pst :=
  if k =? 1 then
    s <<- get_bytes v ;
    if negb (zlen s =? 32) then PErr ERR_INVALID_CBOR else st <<- copy "rphash" 0 32 (zlen s) ERR_INVALID_CBOR s st ; POk (set_z "has_rp" 1 st)
  else if k =? 2 then
    st <<- as_cbor_error (s <<- descriptor_id v ; st <<- copy "id" 0 70 70 ERR_INVALID_CBOR s st ; _ <<- descriptor_type v ; POk st) ;
    POk (set_z "has_id" 1 st)
  else if k =? 3 then st <<- as_cbor_error (parse_user v st) ; POk (set_z "has_user" 1 st)
  else POk st.
Definition parse_cm_params (v : cbor) (st : pst) : pres pst := l <<- get_map v ; int_loop cm_param_step l st.
(** ctap-parser.c:1066-1164.  sub_command_params_ptr and param_len span the encoding of the parameters (1099-1106, 616). *)
Definition cm_step (k : Z) (v : cbor) (st : pst) : pres pst :=
  if k =? 1 then z <<- get_int v ; POk (set_z "has_sub" 1 (set_z "sub" (u8 z) st))
  else if k =? 2 then st <<- as_cbor_error (parse_cm_params v st) ; POk (set_b "raw" (enc v) st)
  else if k =? 3 then protocol_of v st
  else if k =? 4 then short_param v st
  else POk st.
Definition cm_of_pst (st : pst) : cmreq :=
  mkCm (pz st "sub") (pb st "raw") (pb st "rphash") (pb st "id") (pb st "user") (pz st "proto") (pb st "param").
Definition parse_credential_management (v : cbor) : pres cmreq :=
  l <<- get_map v ; st <<- int_loop cm_step l pst0 ;
  if negb (has "has_sub" st) then PErr ERR_MISSING else
  let s := pz st "sub" in
  let auth := (s =? 1) || (s =? 2) || (s =? 4) || (s =? 6) || (s =? 7) in
  if auth && negb (has "has_param" st) then PErr ERR_PUAT_REQUIRED else
  if auth && negb (has "has_proto" st) then PErr ERR_MISSING else
  if (s =? 4) && negb (has "has_rp" st) then PErr ERR_MISSING else
  if (s =? 6) && negb (has "has_id" st) then PErr ERR_MISSING else
  if (s =? 7) && negb (has "has_user" st && has "has_id" st) then PErr ERR_MISSING else
  POk (cm_of_pst st).
(** ctap-parser.c:1166-1288.  "lb->set" points to the string in the message (1205-1207).  Line 1269 does not reject a request with both
    get and set: the exclusive or of two different bits is never 0 then. *)
Definition cap16 (z : Z) : Z := if 65535 <? z then 65535 else z.
Definition unsigned (f : string) (v : cbor) (st : pst) : pres pst :=
  z <<- get_int v ; if z <? 0 then PErr ERR_CBOR_UNEXPECTED else POk (set_z ("has_" ++ f) 1 (set_z f (cap16 z) st)).
Definition lb_step (k : Z) (v : cbor) (st : pst) : pres pst :=
  if k =? 1 then unsigned "get" v st
  else if k =? 2 then s <<- get_bytes v ; POk (set_z "has_set" 1 (set_b "set" s st))
  else if k =? 3 then unsigned "offset" v st
  else if k =? 4 then unsigned "length" v st
  else if k =? 5 then short_param v st
  else if k =? 6 then protocol_of v st
  else POk st.
Definition MAX_FRAGMENT_LENGTH := 1236.  (* ctap-internal.h:230, ctaphid.h:96 *)
Definition LARGE_BLOB_SIZE_LIMIT := 4096.  (* ctap-internal.h:229 *)
Definition lb_of_pst (st : pst) : lbreq :=
  mkLb (opt (has "has_get" st) (pz st "get")) (pb st "set") (pz st "offset") (pz st "length") (opt (has "has_param" st) (pb st "param"))
    (opt (has "has_proto" st) (pz st "proto")).
Definition parse_large_blobs (v : cbor) : pres lbreq :=
  l <<- get_map v ; st <<- int_loop lb_step l pst0 ;
  if negb (has "has_offset" st) then PErr ERR_PARAMETER else
  if negb (has "has_get" st || has "has_set" st) then PErr ERR_PARAMETER else
  if has "has_get" st && has "has_length" st then PErr ERR_PARAMETER else
  if has "has_get" st && (has "has_param" st || has "has_proto" st) then PErr ERR_PARAMETER else
  if has "has_get" st && (MAX_FRAGMENT_LENGTH <? pz st "get") then PErr ERR_LENGTH else
  if has "has_set" st && (MAX_FRAGMENT_LENGTH <? zlen (pb st "set")) then PErr ERR_LENGTH else
  if has "has_set" st && (pz st "offset" =? 0) && negb (has "has_length" st) then PErr ERR_PARAMETER else
  if has "has_set" st && (pz st "offset" =? 0) && (LARGE_BLOB_SIZE_LIMIT <? pz st "length") then PErr ERR_BLOB_FULL else
  if has "has_set" st && (pz st "offset" =? 0) && (pz st "length" <? 17) then PErr ERR_PARAMETER else
  if has "has_set" st && negb (pz st "offset" =? 0) && has "has_length" st then PErr ERR_PARAMETER else
  POk (lb_of_pst st).

Definition CTAP_CRED_MANAGE_LEGACY := 0x41.  (* ctap-internal.h:42 *)
(** ctap.c:2166-2233: the command byte and the parameters that follow it.  [None]: a write outside a field. *)
Definition parsed {A} (f : Z + A -> creq) (m : pres A) : option creq :=
  match m with POk q => Some (f (inr q)) | PErr c => Some (f (inl c)) | PUB => None end.
Definition parse_request (cmd : Z) (v : cbor) : option creq :=
  if cmd =? CTAP_MAKE_CREDENTIAL then parsed RMake (parse_make_credential v)
  else if cmd =? CTAP_GET_ASSERTION then parsed RGet (parse_get_assertion v)
  else if cmd =? CTAP_GET_NEXT_ASSERTION then Some RNext
  else if cmd =? CTAP_GET_INFO then Some RInfo
  else if cmd =? CTAP_CLIENT_PIN then parsed RPin (parse_client_pin v)
  else if cmd =? CTAP_RESET then Some RReset
  else if (cmd =? CTAP_CREDENTIAL_MANAGEMENT) || (cmd =? CTAP_CRED_MANAGE_LEGACY) then parsed RCm (parse_credential_management v)
  else if cmd =? CTAP_SELECTION then Some RSelect
  else if cmd =? CTAP_LARGE_BLOBS then parsed RLarge (parse_large_blobs v)
  else Some ROther.
End P.
