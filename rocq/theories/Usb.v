(** Model of interfaces/USB/class/ccid/{ccid.c,usbd_ccid.c}, interfaces/USB/class/webusb/webusb.c and of the ownership of the
    shared APDU buffer (src/apdu.c:263-271): the smart-card reader and the WebUSB interface.

    One event is one USB interrupt, one run of a loop function or the passing of time.  The run of an APDU is one step (an
    interrupt that arrives meanwhile acts as if it had arrived before or after it); clearing [has_cmd] after the response has
    been handed to the USB controller is a step of its own.  What an APDU does is a parameter: [proc] takes the bytes of the
    message (also malformed ones) and gives the response with its status word.
    The descriptors that are built in the shared buffer (usbd_desc.c:342-389, 397-448) are given as data: [pad] is 32 for the
    configuration descriptor when the keyboard is disabled (lines 384-388 add its size always), else 0.
    Not modelled: time-extension messages (they use a buffer of their own), and responses dropped because the host does not
    fetch the previous one within 50 ms (usbd_ccid.c:49-56).  Undefined behaviour is [None]. *)
From Verif Require Export Base.
Open Scope list_scope. Open Scope Z_scope.

Definition ABDATA_SIZE := 1342.                       (* ccid.h:7 *)
Definition APDU_BUFFER := 1340.                       (* include/apdu.h: APDU_BUFFER_SIZE *)
(** include/apdu.h:84-89 *)
Definition OWN_NONE := 1. Definition OWN_CCID := 2. Definition OWN_WEBUSB := 3.
(** ccid.h:116-140 *)
Definition XFRBLOCK := 0x6F.
Definition ATR : bytes := [0x3B; 0xF7; 0x11; 0x00; 0x00; 0x81; 0x31; 0xFE; 0x65; 0x43; 0x61; 0x6E; 0x6F; 0x6B; 0x65; 0x79; 0x99].   (* ccid.c:18-19 *)
Definition PARAMS : bytes := [0x11; 0x10; 0x00; 0x15; 0x00; 0xFE; 0x00].         (* ccid.c:267-273 *)

(** A bulk-out header (ccid.h:13-23) *)
Record hdr := mkHd { q_type : Z; q_len : Z; q_slot : Z; q_seq : Z; q_s0 : Z; q_s1 : Z; q_s2 : Z }.
Definition parse_hdr (p : bytes) : hdr :=
  let b i := nth i p 0 in mkHd (b 0%nat) (b 1%nat + 256 * b 2%nat + 65536 * b 3%nat + 16777216 * b 4%nat) (b 5%nat) (b 6%nat) (b 7%nat) (b 8%nat) (b 9%nat).
(** A bulk-in message: type, slot, sequence number, status, error, specific, data *)
Record msg := mkMsg { m_type : Z; m_slot : Z; m_seq : Z; m_status : Z; m_error : Z; m_spec : Z; m_data : bytes }.

Inductive rx := RxIdle | RxReceive | RxDiscard.        (* CCID_STATE_* *)
(** ccid.c:21-31; [c_sent]: the loop function is between sending the response and clearing has_cmd; [c_tx]: a response is being
    transmitted.  [c_slot], [c_seq] stand for the copies in both bulk-in buffers, [c_len] for bulkin_data.dwLength. *)
Record ccid := mkC { c_state : rx; c_hdr : hdr; c_short : bytes; c_abl : Z; c_has : Z; c_slot : Z; c_seq : Z; c_status : Z; c_len : Z; c_sent : bool; c_tx : bool }.
(** webusb.c:7-20; [w_rx]: a data stage of this length is expected (the control endpoint's state) *)
Inductive wst := WIdle | WHold | WRecving | WProcess | WSending | WSent.
Record web := mkW { w_state : wst; w_size : Z; w_keep : Z; w_rx : option Z }.
Inductive src := Ccid | Web.
Inductive outp :=
| OMsg (m : msg)                        (** the reader answers *)
| OExec (s : src) (d r : bytes)         (** the bytes [d] are executed for [s] with response [r] *)
| OPowerOff                             (** the applets are powered off *)
| OStall                                (** a control request is refused *)
| OAck                                  (** a WebUSB command is accepted *)
| OData (b : bytes)                     (** a WebUSB response *)
| OStat (w : wst)
| ODesc (b : bytes).                    (** a descriptor *)
Inductive req := RCmd (wlen : Z) | RResp (wlen : Z) | RStat | ROther.
Inductive ev :=
| Out (p : bytes)            (** a bulk-out packet *)
| CRun                       (** CCID_Loop *)
| CEnd                       (** its last instruction, has_cmd = 0 *)
| InFin                      (** the transmission of a reader message ends *)
| Setup (r : req)            (** a WebUSB control request *)
| Rx (d : bytes)             (** the data stage of a WebUSB command *)
| Tx                         (** a WebUSB response has been transmitted *)
| WRun                       (** WebUSB_Loop *)
| Tick (ms : Z)
| Config                     (** the host configures the device anew *)
| Desc (d : bytes) (pad n : Z). (** GET_DESCRIPTOR of at most [n] bytes: [d] is built in the shared buffer, its length is given as [zlen d + pad] *)

Section Machine.
Context {X : Type}.
Variable proc : X -> bytes -> X * bytes.       (** build_capdu and process_apdu *)
Variable poff : X -> X.                        (** applets_poweroff *)

Record usb := mkU { u_c : ccid; u_w : web; u_own : Z; u_buf : bytes; u_x : X; u_now : Z }.
Definition set_c c s := mkU c (u_w s) (u_own s) (u_buf s) (u_x s) (u_now s).
Definition set_w w s := mkU (u_c s) w (u_own s) (u_buf s) (u_x s) (u_now s).
Definition set_own o s := mkU (u_c s) (u_w s) o (u_buf s) (u_x s) (u_now s).
Definition set_buf b s := mkU (u_c s) (u_w s) (u_own s) b (u_x s) (u_now s).
Definition set_x x s := mkU (u_c s) (u_w s) (u_own s) (u_buf s) x (u_now s).
Definition c_rx st abl has c := mkC st (c_hdr c) (c_short c) abl has (c_slot c) (c_seq c) (c_status c) (c_len c) (c_sent c) (c_tx c).
Definition c_setshort b c := mkC (c_state c) (c_hdr c) b (c_abl c) (c_has c) (c_slot c) (c_seq c) (c_status c) (c_len c) (c_sent c) (c_tx c).
Definition c_setstatus v c := mkC (c_state c) (c_hdr c) (c_short c) (c_abl c) (c_has c) (c_slot c) (c_seq c) v (c_len c) (c_sent c) (c_tx c).
Definition c_setlen v c := mkC (c_state c) (c_hdr c) (c_short c) (c_abl c) (c_has c) (c_slot c) (c_seq c) (c_status c) v (c_sent c) (c_tx c).
Definition c_send snt tx has c := mkC (c_state c) (c_hdr c) (c_short c) (c_abl c) has (c_slot c) (c_seq c) (c_status c) (c_len c) snt tx.

(** src/apdu.c:263-271 *)
Definition acquire (o : Z) (s : usb) : bool * usb := let s := if u_own s =? OWN_NONE then set_own o s else s in (u_own s =? o, s).
Definition release (o : Z) (s : usb) : usb := if u_own s =? o then set_own OWN_NONE s else s.

(** Where the data of the current message goes: the short buffer (8 bytes) or the shared one *)
Definition is_short (h : hdr) : bool := q_len h <=? 8.                       (* ccid.c:12 *)
Definition put (off : Z) (d : bytes) (s : usb) : option usb :=
  if is_short (c_hdr (u_c s)) then if 8 <? off + zlen d then None else Some (set_c (c_setshort (splice (c_short (u_c s)) off d) (u_c s)) s)
  else if ABDATA_SIZE <? off + zlen d then None else Some (set_buf (splice (u_buf s) off d) s).
(** ccid.c:47-113 *)
Definition out_event (p : bytes) (s : usb) : option usb :=
  let c := u_c s in let len := zlen p in
  match c_state c with
  | RxIdle =>
    if len <? 10 then Some s else
    let h := parse_hdr p in                                                                          (* 54-59 *)
    let abl := Z.min (len - 10) (q_len h) in                                                         (* 60-62 *)
    let s := set_c (mkC RxIdle h (c_short c) abl (c_has c) (q_slot h) (q_seq h) (c_status c) (c_len c) (c_sent c) (c_tx c)) s in
    let '(take, s) :=                                                                                (* 64-79 *)
      if q_type h =? XFRBLOCK then acquire OWN_CCID s else (is_short h, s) in
    let os := if take then put 0 (slice 10 abl p) s else Some s in                                   (* 80 *)
    match os with
    | None => None
    | Some s =>
      if q_len h <=? abl then Some (set_c (c_rx RxIdle abl (if take then 1 else 2) (u_c s)) s)       (* 81-82 *)
      else Some (set_c (c_rx (if take then RxReceive else RxDiscard) abl (c_has (u_c s)) (u_c s)) s) (* 83-85 *)
    end
  | RxReceive =>                                                                                     (* 89-101 *)
    let more := c_abl c + len <? q_len (c_hdr c) in
    let n := if more then len else q_len (c_hdr c) - c_abl c in
    match put (c_abl c) (slice 0 n p) s with
    | None => None
    | Some s => Some (set_c (if more then c_rx RxReceive (u16 (c_abl c + len)) (c_has (u_c s)) (u_c s) else c_rx RxIdle (c_abl c) 1 (u_c s)) s)
    end
  | RxDiscard =>                                                                                     (* 103-110 *)
    if c_abl c + len <? q_len (c_hdr c) then Some (set_c (c_rx RxDiscard (u16 (c_abl c + len)) (c_has c) c) s)
    else Some (set_c (c_rx RxIdle (c_abl c) 2 c) s)
  end.

Definition FAILED := 64.                                                                             (* BM_COMMAND_STATUS_FAILED *)
Definition NO_ERROR := 0x81.                                                                         (* SLOT_NO_ERROR *)
Definition card (c : ccid) : Z := c_status c mod 4.
(** ccid.c:301-334: None if all is well *)
Definition check (dw rfu2 rfu3 : bool) (c : ccid) : option Z :=
  let h := c_hdr c in
  if 1 <=? q_slot h then Some 5
  else if dw && negb (q_len h =? 0) then Some 1
  else if rfu2 && (negb (q_s1 h =? 0) || negb (q_s2 h =? 0)) then Some 8
  else if rfu3 && (negb (q_s0 h =? 0) || negb (q_s1 h =? 0) || negb (q_s2 h =? 0)) then Some 7
  else None.
(** The answer from the short buffer, ccid.c:228-290 *)
Definition short_msg (type err spec : Z) (d : bytes) (c : ccid) : msg := mkMsg type (c_slot c) (c_seq c) (c_status c) err spec d.
(** ccid.c:175-205 *)
Definition xfr_block (s : usb) : option (msg * list outp * usb) :=
  let c := u_c s in let h := c_hdr c in
  match check false false false c with
  | Some e =>                                                                                        (* 177-178: dwLength and abData unchanged *)
    let c := c_setstatus (FAILED + card c) c in
    Some (mkMsg 0x80 (c_slot c) (c_seq c) (c_status c) e 0 (slice 0 (c_len c) (u_buf s)), [], set_c c s)
  | None =>
    let d := slice 0 (q_len h) (if is_short h then c_short c else u_buf s) in
    let '(x, r) := proc (u_x s) d in
    if ABDATA_SIZE <? zlen r then None else
    let c := c_setlen (zlen r) (c_setstatus 0 c) in
    Some (mkMsg 0x80 (c_slot c) (c_seq c) 0 NO_ERROR 0 r, [OExec Ccid d r], set_x x (set_buf (splice (u_buf s) 0 r) (set_c c s)))
  end.
(** ccid.c:336-399 *)
Definition ccid_run (s : usb) : option (list outp * usb) :=
  let c := u_c s in
  if (c_has c =? 0) || c_sent c then Some ([], s) else
  let send m o s := Some (o ++ [OMsg m], set_c (c_send true true (c_has (u_c s)) (u_c s)) s) in
  let fail e := c_setstatus (FAILED + card c) c in
  let okc := c_setstatus (card c) c in
  let t := q_type (c_hdr c) in
  if t =? 0x62 then                                                                                  (* 121-138, 342-346 *)
    match check true true false c with
    | Some e => send (short_msg 0x80 e 0 [] (fail e)) [] (set_c (fail e) s)
    | None =>
      if negb (q_s0 (c_hdr c) =? 0) then send (short_msg 0x80 7 0 [] (fail 7)) [] (set_c (fail 7) s)
      else send (short_msg 0x80 NO_ERROR 0 ATR (c_setstatus 0 c)) [OPowerOff] (set_x (poff (u_x s)) (set_c (c_setstatus 0 c) s))
    end
  else if t =? 0x63 then                                                                             (* 146-153, 347-351 *)
    match check true false true c with
    | Some e => send (short_msg 0x81 e 0 [] (fail e)) [] (set_c (fail e) s)
    | None => send (short_msg 0x81 NO_ERROR 0 [] (c_setstatus 1 c)) [OPowerOff] (set_x (poff (u_x s)) (set_c (c_setstatus 1 c) s))
    end
  else if t =? 0x65 then                                                                             (* 161-166, 352-356 *)
    match check true false true c with
    | Some e => send (short_msg 0x81 e 0 [] (fail e)) [] (set_c (fail e) s)
    | None => send (short_msg 0x81 NO_ERROR 0 [] okc) [] (set_c okc s)
    end
  else if t =? XFRBLOCK then                                                                         (* 357-369 *)
    if c_has c =? 2 then send (short_msg 0x80 NO_ERROR 0 [0x64; 0x00] c) [] s
    else match xfr_block s with Some (m, o, s) => send m o s | None => None end
  else if t =? 0x6C then                                                                             (* 370-374 *)
    match check true false true c with
    | Some e => send (short_msg 0x82 e 1 [] (fail e)) [] (set_c (fail e) s)
    | None => send (short_msg 0x82 NO_ERROR 1 PARAMS okc) [] (set_c okc s)
    end
  else if (t =? 0x6D) || (t =? 0x61) then send (short_msg 0x82 0 1 [] c) [] s                         (* 375-378 *)
  else if t =? 0x6B then send (short_msg 0x83 0 0 [] c) [] s                                          (* 379-381 *)
  else if t =? 0x69 then send (short_msg 0x80 0 0 [] c) [] s                                          (* 382-385 *)
  else send (short_msg 0x81 0 0 [] c) [] s.                                                           (* 386-392 *)

(** webusb.c:33-81 *)
Definition setup (r : req) (s : usb) : list outp * usb :=
  let w := u_w s in
  let s := set_w (mkW (w_state w) (w_size w) (u_now s) None) s in                                    (* 35; a new request ends any data stage *)
  match r with
  | RCmd n =>
    match w_state w with
    | WIdle | WHold =>
      let '(ok, s) := acquire OWN_WEBUSB s in
      if negb ok then ([OStall], s) else
      if APDU_BUFFER <? n then ([OStall], set_w (mkW WHold (w_size w) (u_now s) None) s) else
      ([OAck], set_w (mkW WRecving n (u_now s) (Some n)) s)
    | _ => ([OStall], s)
    end
  | RResp n =>
    match w_state w with
    | WSending => ([OData (slice 0 (Z.min (w_size w) n) (u_buf s))], set_w (mkW WSent (w_size w) (u_now s) None) s)
    | _ => ([OStall], s)
    end
  | RStat => ([OStat (w_state w)], s)
  | ROther => ([OStall], s)
  end.
(** webusb.c:83-112 *)
Definition web_run (s : usb) : option (list outp * usb) :=
  let w := u_w s in
  match w_state w with
  | WHold => if 2000 <? u32 (u_now s - w_keep w) then Some ([], set_w (mkW WIdle (w_size w) (w_keep w) (w_rx w)) (release OWN_WEBUSB s)) else Some ([], s)
  | WProcess =>
    let d := slice 0 (w_size w) (u_buf s) in
    let '(x, r) := proc (u_x s) d in
    if ABDATA_SIZE <? zlen r then None else
    Some ([OExec Web d r], set_w (mkW WSending (zlen r) (w_keep w) (w_rx w)) (set_x x (set_buf (splice (u_buf s) 0 r) s)))
  | _ => Some ([], s)
  end.
Definition step (s : usb) (e : ev) : option (list outp * usb) :=
  match e with
  | Out p => match out_event p s with Some s => Some ([], s) | None => None end
  | CRun => ccid_run s
  | CEnd => if c_sent (u_c s) then Some ([], set_c (c_send false (c_tx (u_c s)) 0 (u_c s)) s) else Some ([], s)      (* ccid.c:400 *)
  | InFin => if c_tx (u_c s) then Some ([], release OWN_CCID (set_c (c_send (c_sent (u_c s)) false (c_has (u_c s)) (u_c s)) s)) else Some ([], s)   (* usbd_ccid.c:26, ccid.c:403-413 *)
  | Setup r => Some (setup r s)
  | Rx d => match w_rx (u_w s) with                                                                  (* the data stage, then webusb.c:126-133 *)
            | Some n => if zlen d =? n then Some ([], set_w (mkW WProcess (w_size (u_w s)) (w_keep (u_w s)) None) (set_buf (splice (u_buf s) 0 d) s)) else Some ([], s)
            | None => Some ([], s) end
  | Tx => match w_state (u_w s) with WSent => Some ([], set_w (mkW WHold (w_size (u_w s)) (w_keep (u_w s)) (w_rx (u_w s))) s) | _ => Some ([], s) end   (* webusb.c:114-124 *)
  | WRun => web_run s
  | Tick ms => Some ([], mkU (u_c s) (u_w s) (u_own s) (u_buf s) (u_x s) (u_now s + ms))
  | Config =>                                                                                        (* usbd_ccid.c:11-18, ccid.c:37-45, webusb.c:22-31 *)
    let c := u_c s in
    Some ([], set_w (mkW WIdle (w_size (u_w s)) 0 None) (set_c (mkC RxIdle (c_hdr c) (c_short c) (c_abl c) 0 (c_slot c) (c_seq c) 1 (c_len c) (c_sent c) false) s))
  | Desc d pad n =>                                                                                  (* usbd_ctlreq.c:227-275 *)
    if ABDATA_SIZE <? zlen d then None else
    let s := set_w (mkW (w_state (u_w s)) (w_size (u_w s)) (w_keep (u_w s)) None) (set_buf (splice (u_buf s) 0 d) s) in
    Some ([ODesc (slice 0 (Z.min (zlen d + pad) n) (u_buf s))], s)
  end.
(** A run, with its outputs *)
Inductive exec : usb -> list (ev * list outp) -> usb -> Prop :=
| x_nil s : exec s [] s
| x_snoc s t s1 e o s2 : exec s t s1 -> step s1 e = Some (o, s2) -> exec s (t ++ [(e, o)]) s2.
Definition usb_init (x : X) : usb :=
  mkU (mkC RxIdle (mkHd 0 0 0 0 0 0 0) (zeros 8) 0 0 0 0 1 0 false false) (mkW WIdle 0 0 None) OWN_NONE (zeros 1342) x 0.
End Machine.
