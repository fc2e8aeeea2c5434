(** Model of interfaces/USB/class/ctaphid/ctaphid.c: the FIDO HID transport.

    The USB interrupt may deliver a frame ([CTAPHID_OutEvent]) while the main loop works.  Between two calls of
    [CTAPHID_Loop] that is an event of its own; inside one, frames arrive at the points where [intr] is called: before each
    report is sent and around every poll a running command makes while it waits for the user (the code only shares [frame]
    and [has_frame] with the interrupt).  What FIDO commands do is a parameter: a tree of polls and keep-alives that ends in
    a response.  Undefined behaviour is [None]. *)
From Verif Require Export Base.
Open Scope list_scope. Open Scope Z_scope.

(** ctaphid.h:16-31: channel id, byte 4 (command or sequence number), the 59 bytes after it *)
Record frm := mkF { f_cid : Z; f_type : Z; f_pay : bytes }.
Definition CID_BROADCAST := 0xffffffff.
Definition is_init (f : frm) : bool := 128 <=? f_type f.                        (* FRAME_TYPE, ctaphid.h:33, bytes *)
Definition byte_at (l : bytes) (i : nat) : Z := nth i l 0.
Definition msg_len (f : frm) : Z := byte_at (f_pay f) 0 * 256 + byte_at (f_pay f) 1.   (* MSG_LEN, ctaphid.h:35 *)
Definition init_data (f : frm) : bytes := skipn 2 (f_pay f).
Definition frame_seq (f : frm) : Z := f_type f mod 128.                         (* FRAME_SEQ, ctaphid.h:36 *)

(** ctaphid.h:40-96 *)
Definition TRANS_TIMEOUT := 800.
Definition PING := 0x81. Definition MSG := 0x83. Definition INIT := 0x86. Definition WINK := 0x88. Definition CBOR := 0x90.
Definition CANCEL := 0x91. Definition KEEPALIVE := 0xbb. Definition ERROR := 0xbf.
Definition ERR_INVALID_CMD := 1. Definition ERR_INVALID_LEN := 3. Definition ERR_INVALID_SEQ := 4.
Definition ERR_MSG_TIMEOUT := 5. Definition ERR_CHANNEL_BUSY := 6. Definition ERR_INVALID_CID := 0xb.
Definition BUFSIZE := 1300.
Definition ISIZE := 57. Definition CSIZE := 59.                                 (* ctaphid.c:16-17 *)
Definition EXPIRE_NEVER := 4294967295.
Definition LOOP_SUCCESS := 0. Definition LOOP_CANCEL := 1.

(** ctaphid.c:9-13 and ctaphid.h:98-107.  [h_sent]: the reports sent, in order; [h_now]: the millisecond clock;
    [h_arr]: what happens at the next interrupt points (a frame, time passing); [h_rnd]: random channel ids;
    [h_log]: the commands executed, as (channel, command, payload buffer, length), in order. *)
Record hid := mkH { h_frame : frm; h_has : bool; h_cid : Z; h_total : Z; h_cur : Z; h_expire : Z; h_busy : bool; h_cmd : Z; h_seq : Z;
  h_data : bytes; h_sent : list frm; h_now : Z; h_arr : list (option frm * Z); h_rnd : list Z; h_log : list (Z * Z * bytes * Z) }.
Definition s_frame f has h := mkH f has (h_cid h) (h_total h) (h_cur h) (h_expire h) (h_busy h) (h_cmd h) (h_seq h) (h_data h) (h_sent h) (h_now h) (h_arr h) (h_rnd h) (h_log h).
Definition s_cid c h := mkH (h_frame h) (h_has h) c (h_total h) (h_cur h) (h_expire h) (h_busy h) (h_cmd h) (h_seq h) (h_data h) (h_sent h) (h_now h) (h_arr h) (h_rnd h) (h_log h).
Definition s_total t h := mkH (h_frame h) (h_has h) (h_cid h) t (h_cur h) (h_expire h) (h_busy h) (h_cmd h) (h_seq h) (h_data h) (h_sent h) (h_now h) (h_arr h) (h_rnd h) (h_log h).
Definition s_busy b h := mkH (h_frame h) (h_has h) (h_cid h) (h_total h) (h_cur h) (h_expire h) b (h_cmd h) (h_seq h) (h_data h) (h_sent h) (h_now h) (h_arr h) (h_rnd h) (h_log h).
Definition s_expire e h := mkH (h_frame h) (h_has h) (h_cid h) (h_total h) (h_cur h) e (h_busy h) (h_cmd h) (h_seq h) (h_data h) (h_sent h) (h_now h) (h_arr h) (h_rnd h) (h_log h).
Definition s_seq q h := mkH (h_frame h) (h_has h) (h_cid h) (h_total h) (h_cur h) (h_expire h) (h_busy h) (h_cmd h) q (h_data h) (h_sent h) (h_now h) (h_arr h) (h_rnd h) (h_log h).
Definition s_data c d h := mkH (h_frame h) (h_has h) (h_cid h) (h_total h) c (h_expire h) (h_busy h) (h_cmd h) (h_seq h) d (h_sent h) (h_now h) (h_arr h) (h_rnd h) (h_log h).
Definition s_start cur cmd d e h := mkH (h_frame h) (h_has h) (h_cid h) (h_total h) cur e true cmd 0 d (h_sent h) (h_now h) (h_arr h) (h_rnd h) (h_log h).
Definition s_sent f h := mkH (h_frame h) (h_has h) (h_cid h) (h_total h) (h_cur h) (h_expire h) (h_busy h) (h_cmd h) (h_seq h) (h_data h) (h_sent h ++ [f]) (h_now h) (h_arr h) (h_rnd h) (h_log h).
Definition s_log x h := mkH (h_frame h) (h_has h) (h_cid h) (h_total h) (h_cur h) (h_expire h) (h_busy h) (h_cmd h) (h_seq h) (h_data h) (h_sent h) (h_now h) (h_arr h) (h_rnd h) (h_log h ++ [x]).
Definition s_env now arr rnd h := mkH (h_frame h) (h_has h) (h_cid h) (h_total h) (h_cur h) (h_expire h) (h_busy h) (h_cmd h) (h_seq h) (h_data h) (h_sent h) now arr rnd (h_log h).

(** ctaphid.c:26-34 *)
Definition out_event (f : frm) (h : hid) : hid := if h_has h then h else s_frame f true h.
(** An interrupt point *)
Definition intr (h : hid) : hid :=
  match h_arr h with
  | [] => h
  | (o, dt) :: arr => let h := s_env (h_now h + dt) arr (h_rnd h) h in match o with Some f => out_event f h | None => h end
  end.
(** ctaphid.c:36 *)
Definition send_frame (h : hid) : hid := let h := intr h in s_sent (h_frame h) h.
Definition pad (n : Z) (l : bytes) : bytes := l ++ zeros (n - zlen l).
(** ctaphid.c:56-63; [fuel]: one per frame, at most [len] *)
Fixpoint send_conts (fuel : nat) (seq off len : Z) (data : bytes) (h : hid) : hid :=
  match fuel with
  | O => h
  | S fuel =>
    if off <? len then
      let copied := Z.min (len - off) CSIZE in
      let h := s_frame (mkF (f_cid (h_frame h)) (u8 seq) (pad 59 (slice off copied data))) (h_has h) h in
      send_conts fuel (seq + 1) (off + copied) len data (send_frame h)
    else h
  end.
(** ctaphid.c:38-64.  The C code can only be given [len] up to the length of the buffer: see the callers. *)
Definition send_response (cid cmd : Z) (data : bytes) (len : Z) (h : hid) : hid :=
  let copied := Z.min len ISIZE in
  let h := s_frame (mkF cid (Z.lor 0x80 cmd) (u8 (len / 256) :: u8 len :: pad 57 (slice 0 copied data))) (h_has h) h in
  send_conts (Z.to_nat len) 0 copied len data (send_frame h).
Definition small_frame (cid cmd code : Z) : frm := mkF cid cmd (0 :: 1 :: pad 57 [code]).
(** ctaphid.c:66-75 *)
Definition send_error (cid code : Z) (h : hid) : hid := send_frame (s_frame (small_frame cid ERROR code) (h_has h) h).
(** ctaphid.c:239-248 *)
Definition send_keepalive (status : Z) (h : hid) : hid := send_frame (s_frame (small_frame (h_cid h) KEEPALIVE status) (h_has h) h).
Definition le4 (z : Z) : bytes := rev (to_be 4 z).
(** ctaphid.c:77-91 *)
Definition execute_init (h : hid) : hid :=
  let '(cid, h) := if h_cid h =? CID_BROADCAST then (hd 0 (h_rnd h), s_env (h_now h) (h_arr h) (tl (h_rnd h)) h) else (h_cid h, h) in
  let h := s_data (h_cur h) (splice (h_data h) 8 (le4 cid ++ [2; 1; 0; 0; 4])) h in
  send_response (h_cid h) (h_cmd h) (h_data h) 17 h.

(** What a FIDO command does, seen from here: polls of CTAPHID_Loop(1) and keep-alives (device.c:76, 91, 102), then a response
    written over the beginning of the buffer *)
Inductive prog :=
| Done (resp : bytes)
| Poll (k : Z -> prog)
| Keep (status : Z) (p : prog).

(** ctaphid.c:180-236, without the execution of MSG and CBOR commands ([exec]), which is not reached when [wait] *)
Definition complete (exec : hid -> option hid) (wait : bool) (h : hid) : option (Z * hid) :=
  let h := s_frame (h_frame h) false h in                                                                       (* 180 *)
  if negb (h_cur h =? h_total h) then Some (LOOP_SUCCESS, s_frame (h_frame h) false h) else
  let h := s_expire EXPIRE_NEVER h in
  let finish r h := Some (r, s_frame (h_frame h) false (s_busy false h)) in
  let busy := send_error (h_cid h) ERR_CHANNEL_BUSY in
  let c := h_cmd h in
  if (c =? MSG) || (c =? CBOR) then
    if wait then finish LOOP_SUCCESS (busy h)
    else if (if c =? MSG then h_total h <? 4 else h_total h =? 0) then finish LOOP_SUCCESS (send_error (h_cid h) ERR_INVALID_LEN h)
    else match exec h with Some h => finish LOOP_SUCCESS h | None => None end
  else if c =? INIT then finish LOOP_SUCCESS (if wait then busy h else execute_init h)
  else if c =? PING then finish LOOP_SUCCESS (if wait then busy h else send_response (h_cid h) c (h_data h) (h_total h) h)
  else if c =? WINK then finish LOOP_SUCCESS (send_response (h_cid h) c (h_data h) 0 h)
  else if c =? CANCEL then finish LOOP_CANCEL h
  else finish LOOP_SUCCESS (send_error (h_cid h) ERR_INVALID_CMD h).
(** ctaphid.c:234-236 *)
Definition consume (h : hid) : option (Z * hid) := Some (LOOP_SUCCESS, s_frame (h_frame h) false h).
(** ctaphid.c:145-179 *)
Definition accept (exec : hid -> option hid) (wait : bool) (f : frm) (h : hid) : option (Z * hid) :=
  if is_init f then                                                                                             (* 145-165 *)
    if negb wait && h_busy h && negb (f_type f =? INIT) then consume (send_error (h_cid h) ERR_INVALID_SEQ (s_busy false h)) else
    let h := s_total (msg_len f) h in
    if BUFSIZE <? h_total h then consume (send_error (f_cid f) ERR_INVALID_LEN h) else
    let copied := Z.min (h_total h) ISIZE in
    complete exec wait (s_start copied (f_type f) (splice (h_data h) 0 (slice 0 copied (init_data f))) (u32 (u32 (h_now h) + TRANS_TIMEOUT)) h)
  else                                                                                                          (* 166-179 *)
    if negb (h_busy h) then consume h else
    let seq := h_seq h in
    let h := s_seq (u8 (seq + 1)) h in
    if negb (frame_seq f =? seq) then consume (send_error (h_cid h) ERR_INVALID_SEQ (s_busy false h)) else
    let copied := Z.min (h_total h - h_cur h) CSIZE in
    if BUFSIZE <? h_cur h + copied then None else                          (* memcpy past channel.data: undefined *)
    complete exec wait (s_data (h_cur h + copied) (splice (h_data h) (h_cur h) (slice 0 copied (f_pay f))) h).
(** ctaphid.c:126-130 *)
Definition expire (h : hid) : hid :=
  if h_busy h && (h_expire h <? u32 (h_now h)) then send_error (h_cid h) ERR_MSG_TIMEOUT (s_busy false h) else h.
(** ctaphid.c:124-237 *)
Definition loop_with (exec : hid -> option hid) (wait : bool) (h : hid) : option (Z * hid) :=
  let h := expire h in
  if negb (h_has h) then Some (LOOP_SUCCESS, h) else
  let f := h_frame h in
  if (f_cid f =? 0) || ((f_cid f =? CID_BROADCAST) && negb (f_type f =? INIT)) then consume (send_error (f_cid f) ERR_INVALID_CID h) else   (* 134-137 *)
  if h_busy h && negb (f_cid f =? h_cid h) then consume (send_error (f_cid f) ERR_CHANNEL_BUSY h) else          (* 138-141 *)
  accept exec wait f (s_cid (f_cid f) h).                                                                       (* 143 *)

(** CTAPHID_Loop(1), as called by wait_for_user_presence *)
Definition loop_wait : hid -> option (Z * hid) := loop_with (fun h => Some h) true.
(** A running command: frames may arrive before each poll *)
Fixpoint run_prog (p : prog) (h : hid) : option (bytes * hid) :=
  match p with
  | Done r => Some (r, h)
  | Keep s p => run_prog p (send_keepalive s (intr h))
  | Poll k => match loop_wait (intr h) with Some (r, h) => run_prog (k r) h | None => None end
  end.

Section Commands.
(** The FIDO commands: CBOR gets the message; MSG gets the whole buffer, since it takes the length of the APDU from its bytes 5 and 6 *)
Variable cbor : bytes -> prog.
Variable msg : bytes -> prog.
(** ctaphid.c:93-122.  A response longer than the buffer is undefined behaviour. *)
Definition execute (h : hid) : option hid :=
  let c := h_cmd h in
  let h := s_log (h_cid h, c, h_data h, h_total h) h in
  match run_prog (if c =? CBOR then cbor (slice 0 (h_total h) (h_data h)) else msg (h_data h)) h with
  | Some (r, h) =>
    if BUFSIZE <? zlen r then None else
    let h := s_data (h_cur h) (splice (h_data h) 0 r) h in
    Some (send_response (h_cid h) (if c =? CBOR then CBOR else h_cmd h) (h_data h) (zlen r) h)
  | None => None
  end.
(** CTAPHID_Loop(0), as called by device_loop *)
Definition loop_main : hid -> option (Z * hid) := loop_with execute false.

Inductive ev :=
| Rx (f : frm)                                       (** the USB interrupt delivers a frame *)
| Loop (arr : list (option frm * Z)) (rnd : list Z)   (** the main loop runs CTAPHID_Loop(0), with these interrupts and random numbers *)
| Tick (ms : Z).                                      (** time passes *)
Definition step (h : hid) (e : ev) : option hid :=
  match e with
  | Rx f => Some (out_event f h)
  | Loop arr rnd => match loop_main (s_env (h_now h) arr rnd h) with Some (_, h) => Some (s_env (h_now h) [] [] h) | None => None end
  | Tick ms => Some (s_env (h_now h + ms) [] [] h)
  end.
Fixpoint steps (h : hid) (l : list ev) : option hid :=
  match l with [] => Some h | e :: l => match step h e with Some h => steps h l | None => None end end.
End Commands.

(** ctaphid.c:19-24: power-on; static data is zero *)
Definition hid_init (now : Z) : hid := mkH (mkF 0 0 (zeros 59)) false 0 0 0 0 false 0 0 (zeros 1300) [] now [] [] [].
