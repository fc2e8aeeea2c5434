(** Model of interfaces/NFC/nfc.c: the ISO 14443-4 block protocol.

    [Frame f]: the chip received the bytes [f] (with the two bytes of the checksum, which the chip has verified) or an error.
    [Loop]: one run of nfc_loop.  The execution of a command is one step: the waiting-time extensions (send_wtx) that may be
    exchanged meanwhile only overwrite the received frame, which is not read again.  The wait of nfc_send_frame for the right to
    send is not modelled (it spins while next_state is TO_RECEIVE, which only happens after such an extension).
    The global buffer has 1342 bytes (ccid.c:31-34, ccid.h:7).  Undefined behaviour is [None]. *)
From Verif Require Export Base.
Open Scope list_scope. Open Scope Z_scope.

Inductive nout := NSend (prologue : Z) (d : bytes) | NExec (d r : bytes).
Section Nfc.
Context {X : Type}.
(** build_capdu and process_apdu, with the status word behind the response (135-146) *)
Variable proc : X -> bytes -> X * bytes.
(** nfc.c:16-23 *)
Record nfc := mkN { n_send : bool; n_block : Z; n_rx : bytes; n_rxn : Z; n_inf : bool; n_in : Z; n_tx : Z; n_sent : Z; n_last : Z; n_buf : bytes; n_x : X }.
Definition n_init (x : X) : nfc := mkN false 1 (zeros 32) 0 false 0 0 0 0 (zeros 1342) x.       (* 25-37 *)
(** 39-54; apdu_buffer_sent is kept *)
Definition n_error (s : nfc) : nfc := mkN false 1 (n_rx s) (n_rxn s) false 0 0 (n_sent s) 0 (n_buf s) (n_x s).

(** 84-97 with 56-82 *)
Definition send_buf (resend : bool) (s : nfc) : option (list nout * nfc) :=
  let sent := if resend then u16 (n_sent s - n_last s) else n_sent s in
  let last := u16 (n_tx s - sent) in
  if last =? 0 then Some ([], n_error (mkN (n_send s) (n_block s) (n_rx s) (n_rxn s) (n_inf s) (n_in s) (n_tx s) sent last (n_buf s) (n_x s))) else
  let last := if 29 <? last then 29 else last in
  let pro := Z.lor (Z.lor (n_block s) 2) (if last <? n_tx s - sent then 0x10 else 0) in
  if 1342 <? sent + last then None else
  let sent' := u16 (sent + last) in
  Some ([NSend pro (slice sent last (n_buf s))], mkN false (n_block s) (n_rx s) (n_rxn s) (if n_tx s =? sent' then false else n_inf s) (n_in s) (n_tx s) sent' last (n_buf s) (n_x s)).
Definition n_ack (s : nfc) : option (list nout * nfc) :=
  Some ([NSend (Z.lor 0xA2 (n_block s)) []], mkN false (n_block s) (n_rx s) (n_rxn s) (n_inf s) (n_in s) (n_tx s) (n_sent s) (n_last s) (n_buf s) (n_x s)).
Definition n_flip (s : nfc) : nfc := mkN (n_send s) (Z.lxor (n_block s) 1) (n_rx s) (n_rxn s) (n_inf s) (n_in s) (n_tx s) (n_sent s) (n_last s) (n_buf s) (n_x s).
(** The information field is copied before the length is checked (117-122, 125-130) *)
Definition n_take (s : nfc) : option nfc :=
  let k := n_rxn s - 3 in
  if (k <? 0) || (1342 <? n_in s + k) then None else
  Some (mkN (n_send s) (n_block s) (n_rx s) (n_rxn s) (n_inf s) (n_in s + k) (n_tx s) (n_sent s) (n_last s) (splice (n_buf s) (n_in s) (slice 1 k (n_rx s))) (n_x s)).
(** 110-176 *)
Definition n_loop (s : nfc) : option (list nout * nfc) :=
  if negb (n_send s) then Some ([], s) else
  let pcb := nth 0 (n_rx s) 0 in
  if Z.land pcb 0xC0 =? 0 then
    match n_take (n_flip s) with
    | None => None
    | Some s1 =>
      if 1340 <? n_in s1 then Some ([], n_error s1) else
      if negb (Z.land pcb 0x10 =? 0) then n_ack s1 else
      let d := slice 0 (n_in s1) (n_buf s1) in
      let '(x, r) := proc (n_x s1) d in
      if 1342 <? zlen r then None else
      let s2 := mkN (n_send s1) (n_block s1) (n_rx s1) (n_rxn s1) true 0 (zlen r) 0 (n_last s1) (splice (n_buf s1) 0 r) x in
      match send_buf false s2 with Some (o, s3) => Some (NExec d r :: o, s3) | None => None end
    end
  else if Z.land pcb 0xC0 =? 0x80 then
    let other := negb (Z.land pcb 1 =? n_block s) in
    if Z.land pcb 0xB2 =? 0xA2 then
      if other then send_buf false (n_flip s) else send_buf true s
    else if other then
      if n_inf s then send_buf false (n_flip s) else n_ack s
    else send_buf true s
  else Some ([], s).
(** 178-202: a frame, or an error reported by the chip *)
Definition n_frame (f : bytes) (s : nfc) : nfc :=
  if 32 <? zlen f then n_error s else
  mkN true (n_block s) (splice (n_rx s) 0 f) (zlen f) (n_inf s) (n_in s) (n_tx s) (n_sent s) (n_last s) (n_buf s) (n_x s).
(** The reader sends a frame and waits: the outputs of the run of the loop *)
Definition n_turn (f : bytes) (s : nfc) : option (list nout * nfc) := n_loop (n_frame f s).
End Nfc.
