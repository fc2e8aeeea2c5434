(** Model of src/key.c: private keys of PIV and OpenPGP, their storage and the parsers of imported keys. *)
From Verif Require Export Applet Tlv.
Open Scope string_scope. Open Scope list_scope. Open Scope Z_scope.

(** Key types.  The header algo.h belongs to the submodule canokey-crypto, which is not part of the checkout; the order of
    the enumeration and the lengths below are assumptions (they agree with the algorithms' sizes). *)
Definition SECP256R1 := 0.
Definition SECP256K1 := 1.
Definition SECP384R1 := 2.
Definition SECP521R1 := 3.
Definition SM2 := 4.
Definition ED25519 := 5.
Definition X25519 := 6.
Definition RSA2048 := 7.
Definition RSA3072 := 8.
Definition RSA4096 := 9.
Definition KEY_TYPE_PKC_END := 10.
Definition TDEA := 11.
Definition IS_SHORT_WEIERSTRASS (t : Z) : bool := (0 <=? t) && (t <=? SM2).
Definition IS_ECC (t : Z) : bool := (0 <=? t) && (t <=? X25519).
Definition IS_RSA (t : Z) : bool := (RSA2048 <=? t) && (t <=? RSA4096).
Definition E_LENGTH := 4.
(** The tables have no entry for TDEA; [0] stands for what would be read there. *)
Definition PRIVATE_KEY_LENGTH (t : Z) : Z := nth (Z.to_nat t) [32; 32; 48; 66; 32; 32; 32; 128; 192; 256] 0.
Definition PUBLIC_KEY_LENGTH (t : Z) : Z := nth (Z.to_nat t) [64; 64; 96; 132; 64; 32; 32; 256; 384; 512] 0.
Definition SIGNATURE_LENGTH (t : Z) : Z := nth (Z.to_nat t) [64; 64; 96; 132; 64; 64; 32; 256; 384; 512] 0.

(** include/key.h:13-37 *)
Definition SIGN := 1.
Definition ENCRYPT := 2.
Definition KEY_AGREEMENT := 4.
Definition KEY_ORIGIN_NOT_PRESENT := 0.
Definition KEY_ORIGIN_GENERATED := 1.
Definition KEY_ORIGIN_IMPORTED := 2.
Definition PIN_POLICY_NEVER := 1.
Definition PIN_POLICY_ONCE := 2.
Definition PIN_POLICY_ALWAYS := 3.
Definition TOUCH_POLICY_DEFAULT := 0.
Definition TOUCH_POLICY_NEVER := 1.
Definition TOUCH_POLICY_ALWAYS := 2.
Definition TOUCH_POLICY_CACHED := 3.
Definition TOUCH_POLICY_PERMANENT := 4.

(** include/key.h:39-45 [key_meta_t]; each enumeration is stored as one byte here. *)
Record meta := mkMeta { m_type : Z; m_origin : Z; m_usage : Z; m_pin : Z; m_touch : Z }.
(** include/key.h:47-54 [ck_key_t]: the union is [KEY_SIZE] bytes. *)
Record ckey := mkKey { k_meta : meta; k_data : bytes }.

(** Layout of the union (rsa.h and ecc.h of canokey-crypto, assumed): rsa_key_t = nbits(2) e(4) p q dp dq qinv (256 each);
    ecc_key_t = pri(66) pub(132). *)
Definition KEY_SIZE := 1286.
Definition O_NBITS := 0.
Definition O_E := 2.
Definition O_P := 6.
Definition O_Q := 262.
Definition O_DP := 518.
Definition O_DQ := 774.
Definition O_QINV := 1030.
Definition O_PRI := 0.
Definition O_PUB := 66.
Definition put_at (off : Z) (d : bytes) (k : ckey) : ckey := mkKey (k_meta k) (splice (k_data k) off d).
Definition pri_of (t : Z) (k : ckey) : bytes := slice O_PRI (PRIVATE_KEY_LENGTH t) (k_data k).
Definition pub_of (t : Z) (k : ckey) : bytes := slice O_PUB (PUBLIC_KEY_LENGTH t) (k_data k).

Definition set_type (t : Z) (k : ckey) : ckey :=
  mkKey (mkMeta t (m_origin (k_meta k)) (m_usage (k_meta k)) (m_pin (k_meta k)) (m_touch (k_meta k))) (k_data k).
Definition set_origin (o : Z) (k : ckey) : ckey :=
  mkKey (mkMeta (m_type (k_meta k)) o (m_usage (k_meta k)) (m_pin (k_meta k)) (m_touch (k_meta k))) (k_data k).
Definition set_pin (v : Z) (k : ckey) : ckey :=
  mkKey (mkMeta (m_type (k_meta k)) (m_origin (k_meta k)) (m_usage (k_meta k)) v (m_touch (k_meta k))) (k_data k).
Definition set_touch (v : Z) (k : ckey) : ckey :=
  mkKey (mkMeta (m_type (k_meta k)) (m_origin (k_meta k)) (m_usage (k_meta k)) (m_pin (k_meta k)) v) (k_data k).

(** The cryptography (canokey-crypto), not modelled: [None] is a negative return value. *)
Record crypto := mkCrypto {
  ecc_verify_private_key : Z -> bytes -> bool;         (* type, private key *)
  ecc_complete_key : Z -> bytes -> option bytes;       (* type, private key: public key *)
  ecc_generate : Z -> bytes -> option (bytes * bytes); (* type, randomness: private and public key *)
  rsa_generate_key : Z -> bytes -> option bytes;       (* bits, randomness: the union *)
  rsa_get_public_key : bytes -> bytes;                 (* the union: modulus *)
  ecc_sign : Z -> bytes -> bytes -> option bytes;      (* type, private key, input *)
  rsa_sign_pkcs_v15 : bytes -> bytes -> option bytes;  (* the union, input *)
  rsa_private : bytes -> bytes -> option bytes;        (* the union, padded input *)
  rsa_decrypt : bytes -> bytes -> bytes + bool;        (* the union, cipher text: plain text, or "wrong padding" / other error *)
  ecdsa_sig2ansi : bytes -> bytes;                     (* raw signature: DER *)
  ecdh : Z -> bytes -> bytes -> option bytes;          (* type, private key, public key *)
  tdes_enc : bytes -> bytes -> option bytes            (* key (24 bytes), block (8 bytes) *)
}.

(** src/key.c:7-9 *)
Definition KEY_META_ATTR := 0xFF.
Definition CEIL_DIV_SQRT2 := 0xB504F334.
Definition MAX_KEY_TEMPLATE_LENGTH := 0x16.
(** include/key.h:9-11 *)
Definition KEY_ERR_LENGTH := -1.
Definition KEY_ERR_DATA := -2.
Definition KEY_ERR_PROC := -3.

Section Key.
Variable K : crypto.

(** canokey-crypto [swap_big_number_endian]: reverses 32 bytes *)
Definition swap (d : bytes) : bytes := rev d.
Definition hi (n : Z) : Z := u8 (n / 256).
Definition lo (n : Z) : Z := u8 n.

(** key.c:12-83 [ck_encode_public_key] (include_length is always true): [None] = -1 *)
Definition ck_encode_public_key (k : ckey) : option bytes :=
  let t := m_type (k_meta k) in
  let n := PUBLIC_KEY_LENGTH t in
  if (t =? SECP256R1) || (t =? SECP256K1) || (t =? SECP384R1) || (t =? SM2) then
    Some ([n + 3; 0x86; n + 1; 0x04] ++ pub_of t k)
  else if t =? SECP521R1 then
    Some ([0x81; n + 4; 0x86; 0x81; n + 1; 0x04] ++ pub_of t k)
  else if (t =? ED25519) || (t =? X25519) then
    Some ([n + 2; 0x86; n] ++ (if t =? X25519 then swap (pub_of t k) else pub_of t k))
  else if IS_RSA t then
    Some ([0x82; hi (6 + n + E_LENGTH); lo (6 + n + E_LENGTH); 0x81; 0x82; hi n; lo n]
          ++ rsa_get_public_key K (k_data k) ++ [0x82; E_LENGTH] ++ slice O_E E_LENGTH (k_data k))
  else None.

(** The parsers work on a buffer [buf] holding at least the [len] bytes received.  They are written in the error monad
    [out]: [Exc e] is the (negative) error code returned, [UB] an access outside [buf]. *)

(** key.c:85-123 [ck_parse_piv_policies]; the data are buf[p..len).  [fuel] bounds the number of rounds. *)
Fixpoint ck_parse_piv_policies (fuel : nat) (k : ckey) (buf : bytes) (p len : Z) : out ckey :=
  match fuel with
  | O => Ret k
  | S fuel =>
    if negb (p <? len) then Ret k else
    b <~ oneed (rd buf p) ;;
    let p := p + 1 in
    if (b =? 0xAA) || (b =? 0xAB) then
      let top := if b =? 0xAA then PIN_POLICY_ALWAYS else TOUCH_POLICY_CACHED in
      let bot := if b =? 0xAA then PIN_POLICY_NEVER else TOUCH_POLICY_NEVER in
      p <~ (if p <? len then l <~ oneed (rd buf p) ;; if negb (l =? 1) then Exc KEY_ERR_LENGTH else Ret (p + 1)
            else Ret p) ;;
      _ <~ (if p <? len then v <~ oneed (rd buf p) ;; oguard (negb ((top <? v) || (v <? bot))) KEY_ERR_DATA
            else Ret tt) ;;
      v <~ oneed (rd buf p) ;;
      ck_parse_piv_policies fuel (if b =? 0xAA then set_pin v k else set_touch v k) buf (p + 1) len
    else Ret k
  end.

(** A BER length at buf[p..len): its value and the position after it. *)
Definition tlv_at (buf : bytes) (p len : Z) (err : Z) : out (Z * Z) :=
  match tlv_get_length_safe (drop p buf) (len - p) with
  | TlvUB => UB
  | Tlv _ true _ => Exc err
  | Tlv v false (Some n) => Ret (v, p + n)
  | Tlv _ false None => UB
  end.
(** memcpy from the buffer *)
Definition take (buf : bytes) (p n : Z) : out bytes := oneed (sub buf p n).

(** key.c:179-188: the components listed in [l] (tag and place); right-aligned *)
Fixpoint piv_components (l : list (Z * Z)) (k : ckey) (buf : bytes) (p len : Z) : out (ckey * Z) :=
  match l with
  | [] => Ret (k, p)
  | (i, off) :: l =>
    _ <~ oguard (negb (p >=? len)) KEY_ERR_LENGTH ;;
    b <~ oneed (rd buf p) ;;
    _ <~ oguard (b =? i) KEY_ERR_DATA ;;
    r <~ tlv_at buf (p + 1) len KEY_ERR_LENGTH ;;
    let '(n, p) := r in
    let size := PRIVATE_KEY_LENGTH (m_type (k_meta k)) in
    _ <~ oguard (negb (n >? size)) KEY_ERR_DATA ;;
    d <~ take buf p n ;;
    piv_components l (put_at (off + (size - n)) d k) buf (p + n) len
  end.

(** key.c:190, 359: p and q are at least ceil(2^32/sqrt(2)) in their leading 32 bits *)
Definition strong_pq (k : ckey) : bool :=
  negb ((be (slice O_P 4 (k_data k)) <? CEIL_DIV_SQRT2) || (be (slice O_Q 4 (k_data k)) <? CEIL_DIV_SQRT2)).
Definition nbits_of (t : Z) : bytes := let n := PRIVATE_KEY_LENGTH t * 16 in [lo n; hi n].   (* little endian *)

(** key.c:156-163 and 275-282: check the private key and compute the public key *)
Definition finish_ecc (t : Z) (k : ckey) : out ckey :=
  _ <~ oguard (ecc_verify_private_key K t (pri_of t k)) KEY_ERR_DATA ;;
  match ecc_complete_key K t (pri_of t k) with
  | None => Exc KEY_ERR_PROC
  | Some pub => Ret (put_at O_PUB pub k)
  end.

(** key.c:125-203 [ck_parse_piv] *)
Definition ck_parse_piv (k : ckey) (buf : bytes) (len : Z) : out ckey :=
  let t := m_type (k_meta k) in
  let k := set_origin KEY_ORIGIN_IMPORTED (mkKey (k_meta k) (zeros KEY_SIZE)) in
  let size := PRIVATE_KEY_LENGTH t in
  if (IS_ECC t) && negb (t =? SECP521R1) then
    _ <~ oguard (negb (len <? size + 2)) KEY_ERR_LENGTH ;;
    b <~ oneed (rd buf 0) ;;
    _ <~ oguard ((b =? 0x06) || ((t =? ED25519) && (b =? 0x07)) || ((t =? X25519) && (b =? 0x08))) KEY_ERR_DATA ;;
    l <~ oneed (rd buf 1) ;;
    _ <~ oguard (l =? size) KEY_ERR_LENGTH ;;
    d <~ take buf 2 size ;;
    k <~ finish_ecc t (put_at O_PRI (if t =? X25519 then swap d else d) k) ;;
    ck_parse_piv_policies (Z.to_nat len) k buf (2 + size) len
  else if IS_RSA t then
    let k := put_at O_E [0; 1; 0; 1] (put_at O_NBITS (nbits_of t) k) in
    r <~ piv_components [(1, O_P); (2, O_Q); (3, O_DP); (4, O_DQ); (5, O_QINV)] k buf 0 len ;;
    let '(k, p) := r in
    _ <~ oguard (strong_pq k) KEY_ERR_DATA ;;
    ck_parse_piv_policies (Z.to_nat len) k buf p len
  else Exc (-1).

(** key.c:247-252, 291-296 and so on: the next element of the template has tag [tag]; its length and the position after it.
    The tag must be followed by at least one more byte. *)
Definition element (tag : Z) (buf : bytes) (p len : Z) : out (Z * Z) :=
  _ <~ oguard (negb (p + 1 >=? len)) KEY_ERR_LENGTH ;;
  b <~ oneed (rd buf p) ;;
  _ <~ oguard (b =? tag) KEY_ERR_DATA ;;
  tlv_at buf (p + 1) len KEY_ERR_LENGTH.
(** two bytes [a], [b] at [p], followed by at least one more *)
Definition tag2 (a b : Z) (buf : bytes) (p len : Z) : out unit :=
  _ <~ oguard (negb (p + 2 >=? len)) KEY_ERR_LENGTH ;;
  x <~ oneed (rd buf p) ;;
  _ <~ oguard (x =? a) KEY_ERR_DATA ;;
  y <~ oneed (rd buf (p + 1)) ;;
  oguard (y =? b) KEY_ERR_DATA.

(** key.c:222-370 [ck_parse_openpgp] *)
Definition ck_parse_openpgp (k : ckey) (buf : bytes) (len : Z) : out ckey :=
  let t := m_type (k_meta k) in
  let k := set_origin KEY_ORIGIN_IMPORTED (mkKey (k_meta k) (zeros KEY_SIZE)) in
  let size := PRIVATE_KEY_LENGTH t in
  _ <~ tag2 0x7F 0x48 buf 0 len ;;
  r <~ tlv_at buf 2 len KEY_ERR_LENGTH ;;
  let '(n, p) := r in
  _ <~ oguard (negb (n >? MAX_KEY_TEMPLATE_LENGTH)) KEY_ERR_DATA ;;
  let data_tag := p + n in
  if IS_ECC t then
    r <~ element 0x92 buf p len ;;
    let '(pri_len, p) := r in
    _ <~ oguard (negb (pri_len >? size)) KEY_ERR_DATA ;;
    pub_len <~ (if p <? data_tag then
                  _ <~ oguard (negb (p + 1 >=? len)) KEY_ERR_LENGTH ;;
                  b <~ oneed (rd buf p) ;;
                  if b =? 0x99 then
                    r <~ tlv_at buf (p + 1) len KEY_ERR_LENGTH ;;
                    _ <~ oguard (negb (fst r >? PUBLIC_KEY_LENGTH t + 1)) KEY_ERR_DATA ;;
                    Ret (fst r)
                  else Ret 0
                else Ret 0) ;;
    _ <~ tag2 0x5F 0x48 buf data_tag len ;;
    r <~ tlv_at buf (data_tag + 2) len KEY_ERR_DATA ;;
    let '(n, p) := r in
    _ <~ oguard (n =? pri_len + pub_len) KEY_ERR_DATA ;;
    _ <~ oguard (negb (p + pri_len >? len)) KEY_ERR_LENGTH ;;
    d <~ take buf p pri_len ;;
    finish_ecc t (put_at (O_PRI + (size - pri_len)) d k)
  else if IS_RSA t then
    r <~ element 0x91 buf p len ;;
    let '(n, p) := r in
    _ <~ oguard (n =? E_LENGTH) KEY_ERR_DATA ;;
    r <~ element 0x92 buf p len ;;
    let '(n, p) := r in
    _ <~ oguard (n =? size) KEY_ERR_DATA ;;
    r <~ element 0x93 buf p len ;;
    let '(n, p) := r in
    _ <~ oguard (n =? size) KEY_ERR_DATA ;;
    r <~ element 0x94 buf p len ;;
    let '(qinv_len, p) := r in
    _ <~ oguard (negb (qinv_len >? size)) KEY_ERR_DATA ;;
    r <~ element 0x95 buf p len ;;
    let '(dp_len, p) := r in
    _ <~ oguard (negb (dp_len >? size)) KEY_ERR_DATA ;;
    r <~ element 0x96 buf p len ;;
    let '(dq_len, _) := r in
    _ <~ oguard (negb (dq_len >? size)) KEY_ERR_DATA ;;
    _ <~ tag2 0x5F 0x48 buf data_tag len ;;
    r <~ tlv_at buf (data_tag + 2) len KEY_ERR_LENGTH ;;
    let '(n, p) := r in
    _ <~ oguard (n =? size * 2 + qinv_len + dp_len + dq_len + E_LENGTH) KEY_ERR_DATA ;;
    _ <~ oguard (negb (p + n >? len)) KEY_ERR_LENGTH ;;
    let k := put_at O_NBITS (nbits_of t) k in
    d <~ take buf p E_LENGTH ;;
    let k := put_at O_E d k in
    let p := p + E_LENGTH in
    d <~ take buf p size ;;
    let k := put_at O_P d k in
    let p := p + size in
    d <~ take buf p size ;;
    let k := put_at O_Q d k in
    let p := p + size in
    d <~ take buf p qinv_len ;;
    let k := put_at (O_QINV + (size - qinv_len)) d k in
    let p := p + qinv_len in
    d <~ take buf p dp_len ;;
    let k := put_at (O_DP + (size - dp_len)) d k in
    let p := p + dp_len in
    d <~ take buf p dq_len ;;
    let k := put_at (O_DQ + (size - dq_len)) d k in
    _ <~ oguard (strong_pq k) KEY_ERR_DATA ;;
    Ret k
  else Exc (-1).

(** ** Storage *)
Definition meta_bytes (m : meta) : bytes := [m_type m; m_origin m; m_usage m; m_pin m; m_touch m].
Definition meta_of (d : bytes) : meta := mkMeta (nth 0 d 0) (nth 1 d 0) (nth 2 d 0) (nth 3 d 0) (nth 4 d 0).

Section Storage.
Context {S : Type}.
(** key.c:372-374 [ck_read_key_metadata]: [None] = negative *)
Definition ck_read_key_metadata (p : path) : M S (option meta) :=
  r <- read_attr p KEY_META_ATTR ;; ret (option_map meta_of r).
(** key.c:376-378 *)
Definition ck_write_key_metadata (p : path) (m : meta) : M S bool := write_attr p KEY_META_ATTR (meta_bytes m).
(** key.c:380-384 [ck_read_key].  Bytes of the variable not covered by the file are zero here (in C: stack leftovers). *)
Definition ck_read_key (p : path) : M S (option ckey) :=
  m <- ck_read_key_metadata p ;;
  match m with
  | None => ret None
  | Some m => r <- read_file p 0 KEY_SIZE ;; ret (option_map (fun d => mkKey m (overlay d (zeros KEY_SIZE))) r)
  end.
(** key.c:386-390 [ck_write_key] *)
Definition ck_write_key (p : path) (k : ckey) : M S bool :=
  ok <- write_file p (k_data k) 0 true ;;
  if negb ok then ret false else ck_write_key_metadata p (k_meta k).

(** key.c:392-410 [ck_generate_key]: [None] = negative.  The randomness used is a seed of 32 bytes. *)
Definition ck_generate_key (k : ckey) : M S (option ckey) :=
  let k := set_origin KEY_ORIGIN_GENERATED k in
  let t := m_type (k_meta k) in
  seed <- random_buffer 32 ;;
  ret (if IS_ECC t then
         option_map (fun x => put_at O_PUB (snd x) (put_at O_PRI (fst x) k)) (ecc_generate K t seed)
       else if IS_RSA t then
         option_map (fun d => mkKey (k_meta k) d) (rsa_generate_key K (PUBLIC_KEY_LENGTH t * 8) seed)
       else None).
End Storage.

(** key.c:412-440 [ck_sign]: the signature; [None] = negative *)
Definition ck_sign (k : ckey) (input : bytes) : option bytes :=
  let t := m_type (k_meta k) in
  if IS_ECC t then ecc_sign K t (pri_of t k) input
  else if IS_RSA t then rsa_sign_pkcs_v15 K (k_data k) input
  else None.
End Key.
