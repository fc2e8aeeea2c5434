(** Parsing of requests (applets/ctap/ctap-parser.c).  tinycbor is external: a request is the tree of CBOR values that it gives. *)
From Verif Require Export Ctap.
Open Scope string_scope. Open Scope list_scope. Open Scope Z_scope.

(** "memcpy(buf + off, src, …)" *)
Definition put_at (off : Z) (src buf : bytes) : bytes := firstn (Z.to_nat off) buf ++ src ++ skipn (Z.to_nat (off + zlen src)) buf.
(** "memchr(rpid, c, len)": the position *)
Fixpoint memchr (c : Z) (l : bytes) : option Z :=
  match l with [] => None | x :: r => if x =? c then Some 0 else option_map (fun i => i + 1) (memchr c r) end.
Definition MAX_STORED_RPID_LENGTH := 32. (* ctap-internal.h:224 *)
Definition DOMAIN_NAME_MAX_SIZE := 254.  (* ctap-internal.h:219 *)
(** ctap-parser.c:22-53: the buffer and the stored length *)
Definition maybe_truncate_rpid (buf rp : bytes) : bytes * Z :=
  if zlen rp <=? MAX_STORED_RPID_LENGTH then (put_at 0 rp buf, zlen rp) else
  let '(buf, used) :=
    match memchr 58 rp with
    | Some i =>
        let protocol_len := i + 1 in
        let to_copy := if protocol_len <=? MAX_STORED_RPID_LENGTH then protocol_len else MAX_STORED_RPID_LENGTH in
        (put_at 0 (slice 0 to_copy rp) buf, to_copy)
    | None => (buf, 0)
    end in
  if MAX_STORED_RPID_LENGTH - used <? 3 then (buf, used) else
  let buf := put_at used [0xe2; 0x80; 0xa6] buf in
  let used := used + 3 in
  let to_copy := MAX_STORED_RPID_LENGTH - used in
  (put_at used (slice (zlen rp - to_copy) to_copy rp) buf, MAX_STORED_RPID_LENGTH).
(** "strcmp(key, k) == 0" for a text string copied to a buffer; all constants are shorter than the buffers *)
Definition key_is (s : bytes) (k : string) : bool := beqb (until0 s) (chars k).
Definition ERR_INVALID_CBOR := 0x12. Definition ERR_CBOR_UNEXPECTED := 0x11. (* ctap-errors.h:14-15 *)
(** What parse_rp fills: rp_id, rp_id_len, rp_id_hash (ctap-internal.h:291-297) *)
Record rpst := mkRp { rp_buf : bytes; rp_len : Z; rp_hash : bytes }.
Section P.
Variable K : fcrypto.
(** ctap-parser.c:55-91; the loop *)
Fixpoint rp_loop (l : list (cbor * cbor)) (st : rpst) : Z + rpst :=
  match l with
  | [] => inr st
  | (CText k, v) :: r =>
      if 4 <? zlen k then inl ERR_LIMIT else
      match v with
      | CText rp =>
          if key_is k "id" then
            if DOMAIN_NAME_MAX_SIZE <? zlen rp then inl ERR_INVALID_CBOR else
            let '(b, n) := maybe_truncate_rpid (rp_buf st) rp in rp_loop r (mkRp b n (f_sha K rp))
          else rp_loop r st
      | _ => inl ERR_CBOR_UNEXPECTED
      end
  | _ => inl ERR_CBOR_UNEXPECTED
  end.
Definition parse_rp (v : cbor) (st : rpst) : Z + rpst :=
  match v with CMap l => rp_loop l st | _ => inl ERR_CBOR_UNEXPECTED end.
End P.
