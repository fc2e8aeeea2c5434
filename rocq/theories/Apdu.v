(** Model of src/apdu.c: APDU decoding, command and response chaining, applet dispatch and the
    ownership word of the shared APDU buffer. *)
From Verif Require Import Base.

(** include/apdu.h:7-15 [CAPDU].  [c_data] holds exactly the [LC] data bytes (in C: the first LC
    bytes of the buffer [data] points to), so LC = length of [c_data]. *)
Record capdu := mkC { c_cla : Z; c_ins : Z; c_p1 : Z; c_p2 : Z; c_data : bytes; c_le : Z }.
Definition c_lc (c : capdu) : Z := zlen (c_data c).

(** A response APDU: the first LL bytes of RDATA, and SW (include/apdu.h:17-21). *)
Record rapdu := mkR { r_data : bytes; r_sw : Z }.

(** include/apdu.h:25-45, the status words used here. *)
Definition SW_NO_ERROR := 0x9000.
Definition SW_FILE_NOT_FOUND := 0x6A82.
Definition SW_CHECKING_ERROR := 0x6F00.

(** include/common.h:11 APDU_BUFFER_SIZE. *)
Definition APDU_BUFFER_SIZE := 1340.

Inductive bc_res := BcOk (c : capdu) | BcErr | BcUB.

(** Bounds-checked accessors used to keep the text close to the C code. *)
Definition bc_rd (l : bytes) (i : Z) (k : Z -> bc_res) : bc_res :=
  match rd l i with Some b => k b | None => BcUB end.
Definition bc_sub (l : bytes) (off n : Z) (k : bytes -> bc_res) : bc_res :=
  match sub l off n with Some d => k d | None => BcUB end.

(** src/apdu.c:62-105 [build_capdu].  [cmd] is exactly the [len] received bytes, so every read
    outside them is undefined behaviour ([BcUB]).  [memmove(DATA, ...)] becomes [c_data].  When the
    C function returns -1 the fields it already assigned are unspecified for the caller (both callers
    answer an error without using them). *)
Definition build_capdu (cmd : bytes) : bc_res :=
  let len := zlen cmd in
  if len <? 4 then BcErr else
  bc_rd cmd 0 (fun cla => bc_rd cmd 1 (fun ins => bc_rd cmd 2 (fun p1 => bc_rd cmd 3 (fun p2 =>
  let mk d le := BcOk (mkC cla ins p1 p2 d le) in
  if len =? 4 then mk [] 0 else                                        (* Case 1 *)
  bc_rd cmd 4 (fun lc =>
  if len =? 5 then mk [] (if lc =? 0 then 0x100 else lc)               (* Case 2S *)
  else if (lc >? 0) && (len =? 5 + lc) then                            (* Case 3S *)
    bc_sub cmd 5 lc (fun d => mk d 0x100)
  else if (lc >? 0) && (len =? 6 + lc) then                            (* Case 4S *)
    bc_sub cmd 5 lc (fun d => bc_rd cmd (5 + lc) (fun le => mk d (if le =? 0 then 0x100 else le)))
  else if len =? 7 then                                                (* Case 2E *)
    if negb (lc =? 0) then BcErr else
    bc_rd cmd 5 (fun h => bc_rd cmd 6 (fun l =>
      let le := h * 256 + l in mk [] (if le =? 0 then 0x10000 else le)))
  else if negb (lc =? 0) || (len <? 7) then BcErr else
    bc_rd cmd 5 (fun h => bc_rd cmd 6 (fun l =>
      let lc := h * 256 + l in
      if lc =? 0 then BcErr
      else if len =? 7 + lc then                                       (* Case 3E *)
        bc_sub cmd 7 lc (fun d => mk d 0x10000)
      else if len =? 9 + lc then                                       (* Case 4E *)
        bc_sub cmd 7 lc (fun d => bc_rd cmd (7 + lc) (fun a => bc_rd cmd (8 + lc) (fun b =>
          let le := a * 256 + b in mk d (if le =? 0 then 0x10000 else le))))
      else BcErr))
  ))))).

(** include/apdu.h:77-80 [CAPDU_CHAINING] without the data, which is in the shared buffer.
    [x_lc] is the number of accumulated bytes. *)
Record chain := mkX { x_on : bool; x_cla : Z; x_ins : Z; x_p1 : Z; x_p2 : Z; x_lc : Z }.

Inductive chain_res := NotLast | Last (c : capdu) | Overflow.

(** src/apdu.c:107-132 [apdu_input].  [buf] is [chaining_buffer] (src/apdu.c:54, 1340 bytes), to
    which both chaining structures point.  [sh->cla & 0xEF] is [Z.land _ 0xEF]. *)
Definition apdu_input (ex : chain) (buf : bytes) (sh : capdu) : chain_res * chain * bytes :=
  let cla := Z.land (c_cla sh) 0xEF in
  let fresh := mkX true cla (c_ins sh) (c_p1 sh) (c_p2 sh) 0 in
  let ex1 :=
    if negb (x_on ex) then fresh
    else if negb (x_cla ex =? cla) || negb (x_ins ex =? c_ins sh) || negb (x_p1 ex =? c_p1 sh)
            || negb (x_p2 ex =? c_p2 sh) then fresh                    (* goto restart *)
    else ex in
  if x_lc ex1 + c_lc sh >? APDU_BUFFER_SIZE then (Overflow, ex1, buf)
  else
    let buf' := splice buf (x_lc ex1) (c_data sh) in
    let lc' := x_lc ex1 + c_lc sh in
    if negb (Z.land (c_cla sh) 0x10 =? 0) then
      (NotLast, mkX true (x_cla ex1) (x_ins ex1) (x_p1 ex1) (x_p2 ex1) lc', buf')
    else
      (Last (mkC (x_cla ex1) (x_ins ex1) (x_p1 ex1) (x_p2 ex1) (slice 0 lc' buf') (c_le sh)),
       mkX false (x_cla ex1) (x_ins ex1) (x_p1 ex1) (x_p2 ex1) lc', buf').

(** include/apdu.h:82-85 [RAPDU_CHAINING] without the data, which is in the shared buffer. *)
Record rchain := mkRC { rc_len : Z; rc_sw : Z; rc_sent : Z }.

(** src/apdu.c:134-148 [apdu_output]; [maxlen] is [sh->len] on entry. *)
Definition apdu_output (ex : rchain) (buf : bytes) (maxlen : Z) : rapdu * rchain :=
  let left := u16 (rc_len ex - rc_sent ex) in
  let to_send := if left >? maxlen then maxlen else left in
  let sent := u16 (rc_sent ex + to_send) in
  let d := slice (rc_sent ex) to_send buf in
  let sw := if sent <? rc_len ex then
              if rc_len ex - sent >? 0xFF then 0x61FF else 0x6100 + (rc_len ex - sent)
            else rc_sw ex in
  (mkR d sw, mkRC (rc_len ex) (rc_sw ex) sent).

(** src/apdu.c:14-23 *)
Inductive applet := NULL | PIV | FIDO | OATH | ADMIN | OPENPGP | NDEF.
Definition applet_eqb (a b : applet) : bool :=
  match a, b with
  | NULL, NULL | PIV, PIV | FIDO, FIDO | OATH, OATH | ADMIN, ADMIN | OPENPGP, OPENPGP | NDEF, NDEF => true
  | _, _ => false
  end.

(** src/apdu.c:31-51 *)
Definition aid (a : applet) : bytes :=
  match a with
  | NULL => []
  | PIV => [0xA0; 0x00; 0x00; 0x03; 0x08]
  | OATH => [0xA0; 0x00; 0x00; 0x05; 0x27; 0x21; 0x01]
  | ADMIN => [0xF0; 0x00; 0x00; 0x00; 0x00]
  | OPENPGP => [0xD2; 0x76; 0x00; 0x01; 0x24; 0x01]
  | FIDO => [0xA0; 0x00; 0x00; 0x06; 0x47; 0x2F; 0x00; 0x01]
  | NDEF => [0xD2; 0x76; 0x00; 0x00; 0x85; 0x01; 0x01]
  end.

(** The loop at src/apdu.c:188-203: first applet, in enumeration order, whose AID is a prefix. *)
Definition aid_matches (d : bytes) (a : applet) : bool :=
  (zlen d >=? zlen (aid a)) && beqb (slice 0 (zlen (aid a)) d) (aid a).
Definition find_aid (d : bytes) : option applet :=
  find (aid_matches d) [PIV; FIDO; OATH; ADMIN; OPENPGP; NDEF].

Inductive piv_state := GetData | GetDataResponse | PivOther.

(** What the dispatcher needs from the applets: [exec a c s] is [<a>_process_apdu] started in the
    applets' joint state [s] (RAM and storage), yielding the response written and the new state;
    [poweroff] is [applets_poweroff] (src/applets.c:21-27); [ndef_on] is [cfg_is_ndef_enable()];
    [eject] is [KBDHID_Eject()]. *)
Record applets (St : Type) := mkA {
  exec : applet -> capdu -> St -> rapdu * St;
  poweroff : St -> St;
  ndef_on : St -> bool;
  eject : St -> St }.
Arguments exec {St}. Arguments poweroff {St}. Arguments ndef_on {St}. Arguments eject {St}.
Arguments mkA {St}.

(** The static variables of src/apdu.c together with the applets' state. *)
Record disp (St : Type) := mkD {
  d_cur : applet;            (* current_applet *)
  d_piv : piv_state;         (* piv_state *)
  d_x : chain;               (* capdu_chaining *)
  d_r : rchain;              (* rapdu_chaining *)
  d_buf : bytes;             (* chaining_buffer *)
  d_app : St }.
Arguments mkD {St}. Arguments d_cur {St}. Arguments d_piv {St}. Arguments d_x {St}.
Arguments d_r {St}. Arguments d_buf {St}. Arguments d_app {St}.

Definition clamp_le (c : capdu) : capdu :=
  mkC (c_cla c) (c_ins c) (c_p1 c) (c_p2 c) (c_data c) (Z.min (c_le c) APDU_BUFFER_SIZE).

Definition is_magic (c : capdu) : bool :=
  (c_cla c =? 0xFF) && (c_ins c =? 0xEE) && (c_p1 c =? 0xFF) && (c_p2 c =? 0xEE).
Definition is_get_response (c : capdu) : bool :=
  ((c_cla c =? 0x80) || (c_cla c =? 0x00)) && (c_ins c =? 0xC0).
Definition is_select (c : capdu) : bool :=
  (c_cla c =? 0x00) && (c_ins c =? 0xA4) && (c_p1 c =? 0x04) && (c_p2 c =? 0x00).

(** src/apdu.c:162-167, the new value of [piv_state]. *)
Definition next_piv (s : piv_state) (ins : Z) : piv_state :=
  if ins =? 0xCB then GetData
  else match s with
       | GetData | GetDataResponse => if ins =? 0xC0 then GetDataResponse else PivOther
       | PivOther => PivOther
       end.
Definition piv_bypass (s : piv_state) (ins : Z) : bool :=
  match s with GetData | GetDataResponse => true | PivOther => ins =? 0xDB end.

Section Process.
  Context {St : Type}.
  Variable A : applets St.

  (** src/apdu.c:211-256: run the command in the current applet.  OPENPGP, PIV and FIDO answer
      through the response-chaining structure (their RDATA is [chaining_buffer]); OATH, ADMIN and
      NDEF write directly to the transport's response.  Simplification: bytes of [chaining_buffer]
      beyond LL are unchanged by the applet (they are never sent, see [apdu_output]). *)
  Definition run_current (d : disp St) (c : capdu) : rapdu * disp St :=
    match d_cur d with
    | OPENPGP | PIV | FIDO =>
      let '(r, st) := exec A (d_cur d) c (d_app d) in
      let buf := splice (d_buf d) 0 (r_data r) in
      let '(out, rc) := apdu_output (mkRC (zlen (r_data r)) (r_sw r) (rc_sent (d_r d))) buf (c_le c) in
      (out, mkD (d_cur d) (d_piv d) (d_x d) rc buf st)
    | OATH | ADMIN | NDEF =>
      let '(r, st) := exec A (d_cur d) c (d_app d) in
      (r, mkD (d_cur d) (d_piv d) (d_x d) (d_r d) (d_buf d) st)
    | NULL => (mkR [] SW_FILE_NOT_FOUND, d)
    end.

  (** src/apdu.c:150-261 [process_apdu] (without the [#ifdef TEST] commands). *)
  Definition process_apdu (d : disp St) (c : capdu) : rapdu * disp St :=
    if is_magic c then
      (mkR [] SW_NO_ERROR, mkD (d_cur d) (d_piv d) (d_x d) (d_r d) (d_buf d) (eject A (d_app d)))
    else
    let in_piv := applet_eqb (d_cur d) PIV in
    let ps := if in_piv then next_piv (d_piv d) (c_ins c) else d_piv d in
    if in_piv && piv_bypass ps (c_ins c) then
      let '(r, st) := exec A PIV (clamp_le c) (d_app d) in
      (r, mkD (d_cur d) ps (d_x d) (d_r d) (d_buf d) st)
    else
    let '(res, x, buf) := apdu_input (d_x d) (d_buf d) c in
    match res with
    | NotLast => (mkR [] SW_NO_ERROR, mkD (d_cur d) ps x (d_r d) buf (d_app d))
    | Overflow => (mkR [] SW_CHECKING_ERROR, mkD (d_cur d) ps x (d_r d) buf (d_app d))
    | Last c0 =>
      let c := clamp_le c0 in
      if is_get_response c then
        let '(out, rc) := apdu_output (d_r d) buf (c_le c) in
        (out, mkD (d_cur d) ps x rc buf (d_app d))
      else
      let r0 := mkRC (rc_len (d_r d)) (rc_sw (d_r d)) 0 in
      let d0 := mkD (d_cur d) ps x r0 buf (d_app d) in
      if is_select c then
        match find_aid (c_data c) with
        | None => (mkR [] SW_FILE_NOT_FOUND, d0)
        | Some i =>
          if applet_eqb i NDEF && negb (ndef_on A (d_app d)) then (mkR [] SW_FILE_NOT_FOUND, d0)
          else
            let ps' := if applet_eqb i PIV then PivOther else ps in
            let st := if applet_eqb i (d_cur d) then d_app d else poweroff A (d_app d) in
            run_current (mkD i ps' x r0 buf st) c
        end
      else run_current d0 c
    end.
End Process.

(** Power-up values of the static variables (zero-initialised). *)
Definition disp_init {St} (s : St) : disp St :=
  mkD NULL GetData (mkX false 0 0 0 0 0) (mkRC 0 0 0) (zeros APDU_BUFFER_SIZE) s.

(** A host command sequence: responses and final state. *)
Fixpoint run {St} (A : applets St) (d : disp St) (cs : list capdu) : list rapdu * disp St :=
  match cs with
  | [] => ([], d)
  | c :: r => let '(o, d1) := process_apdu A d c in
              let '(os, d2) := run A d1 r in (o :: os, d2)
  end.

(** ** Ownership of the shared buffer: src/apdu.c:53, 263-271 and include/apdu.h:89-94.
    Each C function is two accesses of the volatile word: an atomic compare-and-swap
    ([device_atomic_compare_and_swap], assumed atomic) and a later plain read; an interrupt may run
    between them, so they are separate atomic steps here. *)
Inductive owner := O_NONE | O_CCID | O_WEBUSB | O_USBD.
Definition owner_eqb (a b : owner) : bool :=
  match a, b with
  | O_NONE, O_NONE | O_CCID, O_CCID | O_WEBUSB, O_WEBUSB | O_USBD, O_USBD => true
  | _, _ => false
  end.
Definition cas (w expect update : owner) : owner := if owner_eqb w expect then update else w.

Inductive atomic :=
| AcqCas (o : owner)     (* src/apdu.c:264 *)
| AcqRead (o : owner)    (* src/apdu.c:265: the result of acquire *)
| RelCas (o : owner)     (* src/apdu.c:269 *)
| RelRead (o : owner).   (* src/apdu.c:270: the result of release *)

(** New value of the word, and the return value (0 or -1) where the step is a return. *)
Definition own_step (w : owner) (a : atomic) : owner * option Z :=
  match a with
  | AcqCas o => (cas w O_NONE o, None)
  | AcqRead o => (w, Some (if owner_eqb w o then 0 else -1))
  | RelCas o => (cas w o O_NONE, None)
  | RelRead o => (w, Some (if owner_eqb w O_NONE then 0 else -1))
  end.

(** The uninterrupted functions. *)
Definition acquire_apdu_buffer (w o : owner) : Z * owner :=
  let w' := cas w O_NONE o in ((if owner_eqb w' o then 0 else -1), w').
Definition release_apdu_buffer (w o : owner) : Z * owner :=
  let w' := cas w o O_NONE in ((if owner_eqb w' O_NONE then 0 else -1), w').
