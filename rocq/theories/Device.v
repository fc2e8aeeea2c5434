(** Model of src/device.c: user presence, strong user presence, blinking and the keyboard's share of touches.

    The touch sensor and the clock are driven by interrupts, so the model is a small-step machine: between any two
    steps of the firmware the platform may call [set_touch_result], let time pass or run [device_update_led].
    [wait_for_user_presence] runs CCID_Loop and CTAPHID_Loop, which may execute whole commands: the machine has a
    stack of pending calls.  Not modelled: the LED pin itself, and what else the nested commands do. *)
From Verif Require Export Base.
Open Scope list_scope. Open Scope Z_scope.

(** device.h:8-17 *)
Definition TOUCH_NO := 0.
Definition TOUCH_SHORT := 1.
Definition TOUCH_LONG := 2.
Definition UP_OK := 0.
Definition UP_CANCEL := 1.
Definition UP_TIMEOUT := 2.
Definition ENTRY_CCID := 0.
Definition ENTRY_CTAPHID := 1.
(** common.h / device.c:29-30 *)
Definition TOUCH_EXPIRE_TIME := 1000.
Definition TOUCH_AFTER_PWRON := 1500.
Definition UINT32_MAX := 4294967295.

(** device.c:10-15.  [v_time] is the true time since power-on in ms; [device_get_tick] is its low 32 bits. [v_wait] is
    wait_status with WAIT_NONE = 1, WAIT_CCID = 2, WAIT_CTAPHID = 3 (the other values are never assigned). *)
Record dv := mkDv { v_touch : Z; v_wait : Z; v_time : Z; v_last : Z; v_bto : Z; v_bint : Z; v_nfc : bool }.
Definition tick (v : dv) : Z := u32 (v_time v).
Definition WAIT_NONE := 1.

Definition with_touch t v := mkDv t (v_wait v) (v_time v) (v_last v) (v_bto v) (v_bint v) (v_nfc v).
Definition with_wait w v := mkDv (v_touch v) w (v_time v) (v_last v) (v_bto v) (v_bint v) (v_nfc v).
Definition with_time t v := mkDv (v_touch v) (v_wait v) t (v_last v) (v_bto v) (v_bint v) (v_nfc v).
Definition with_blink l b i v := mkDv (v_touch v) (v_wait v) (v_time v) l b i (v_nfc v).
Definition with_nfc n v := mkDv (v_touch v) (v_wait v) (v_time v) (v_last v) (v_bto v) (v_bint v) n.

(** device.c:17 *)
Definition is_blinking v : bool := negb (v_bto v =? 0).
(** device.c:162-172, without the LED *)
Definition start_blinking_interval sec interval v : dv :=
  if is_blinking v then v else with_blink (tick v) (if sec =? 0 then UINT32_MAX else u32 (tick v + sec * 1000)) interval v.
(** device.h:112-114 *)
Definition start_blinking sec v : dv := if v_nfc v then v else start_blinking_interval sec 200 v.
(** device.c:174-183, without the LED *)
Definition stop_blinking v : dv := with_blink (v_last v) 0 (v_bint v) v.
(** device.c:152-160, without the LED *)
Definition device_update_led v : dv :=
  if v_bto v <? tick v then stop_blinking v
  else if is_blinking v && (v_last v <=? tick v) && (v_bint v <=? tick v - v_last v) then with_blink (tick v) (v_bto v) (v_bint v) v else v.
(** device.c:26-37 *)
Definition device_allow_kbd_touch v : bool :=
  negb (is_blinking v) && (TOUCH_AFTER_PWRON <? tick v) && (v_last v <? u32 (tick v - TOUCH_EXPIRE_TIME)) && negb (v_touch v =? TOUCH_NO).
(** device.c:185-189 *)
Definition device_init (t0 : Z) (nfc : bool) : dv := mkDv TOUCH_NO WAIT_NONE t0 0 0 0 nfc.

(** Where a pending call stands.  [wait_for_user_presence]: at the loop condition (68), inside the nested loops (75-76),
    at the time check (82), past the loop (95).  [strong_user_presence_test]: at the touch check (117), past it (118),
    at the time check (124). *)
Inductive wpc := W68 | W75 | W82 | W95.
Inductive spc := S117 | S118 | S124.
Inductive frame :=
| Wait (entry start last : Z) (pc : wpc)
| Strong (i begin : Z) (up : bool) (pc : spc).
Definition st := (dv * list frame)%type.

Inductive ev :=
| PTouch (v : Z)                (** interrupt: set_touch_result(v), device.c:46 *)
| PTick (ms : Z)                (** time passes *)
| PLed                          (** interrupt: device_update_led *)
| Nfc (b : bool)                (** set_nfc_state *)
| Call (entry : Z)              (** a command calls wait_for_user_presence *)
| CallStrong                    (** a command calls strong_user_presence_test *)
| Kbd                           (** KBDHID_Loop finds the keyboard idle, kbdhid.c:142-146 *)
| Blink (sec interval : Z)      (** some applet calls start_blinking_interval *)
| StopBlink                     (** some applet calls stop_blinking *)
| Go (cancel : bool).           (** the firmware takes one step in the innermost pending call; [cancel]: CTAPHID_Loop returned LOOP_CANCEL *)
Inductive out := Nothing | Ret (r : Z) | RetStrong (r : Z) | Took (v : Z).

(** New calls start at top level or inside the loops nested in a wait (device.c:75-76). *)
Definition may_call (k : list frame) : bool :=
  match k with [] => true | Wait _ _ _ W75 :: _ => true | _ => false end.

(** device.c:112-115 *)
Definition strong_round (i : Z) (v : dv) : dv * frame :=
  let v := start_blinking_interval 2 (if Z.odd i then 200 else 50) v in (v, Strong i (tick v) false S117).

Definition step (s : st) (e : ev) : option (out * st) :=
  let '(v, k) := s in
  match e with
  | PTouch x => Some (Nothing, (with_touch x v, k))
  | PTick ms => if 0 <=? ms then Some (Nothing, (with_time (v_time v + ms) v, k)) else None
  | PLed => Some (Nothing, (device_update_led v, k))
  | Nfc b => Some (Nothing, (with_nfc b v, k))
  | Call entry =>
    if negb (may_call k) then None else
    if negb (v_wait v =? WAIT_NONE) then Some (Ret UP_TIMEOUT, s) else                                        (* 59-63 *)
    let w := if entry =? ENTRY_CCID then Some 2 else if entry =? ENTRY_CTAPHID then Some 3 else None in       (* 51-58 *)
    match w with
    | Some w => Some (Nothing, (with_wait w v, Wait entry (tick v) (tick v) W68 :: k))                        (* 65-66 *)
    | None => None     (* no caller passes another entry: ctap.c:42, piv.c:81, oath.c:469, openpgp.c:127 *)
    end
  | CallStrong => if negb (may_call k) then None else let '(v, f) := strong_round 0 v in Some (Nothing, (v, f :: k))
  | Kbd =>
    match k with
    | [] => if device_allow_kbd_touch v then Some (Took (v_touch v), (with_touch TOUCH_NO v, k)) else Some (Nothing, s)
    | _ => None       (* KBDHID_Loop is only called from device_loop, device.c:19-24 *)
    end
  | Blink sec i => if may_call k then Some (Nothing, (start_blinking_interval sec i v, k)) else None
  | StopBlink => if may_call k then Some (Nothing, (stop_blinking v, k)) else None
  | Go cancel =>
    match k with
    | [] => None
    | Wait entry start last pc :: k' =>
      match pc with
      | W68 => if v_touch v =? TOUCH_NO then Some (Nothing, (start_blinking 0 v, Wait entry start last W75 :: k'))     (* 68, 73 *)
               else Some (Nothing, (v, Wait entry start last W95 :: k'))
      | W75 => if cancel then Some (Ret UP_CANCEL, (with_wait WAIT_NONE (stop_blinking v), k'))                (* 76-81 *)
               else Some (Nothing, (v, Wait entry start last W82 :: k'))
      | W82 => let now := tick v in
               if 30000 <=? u32 (now - start) then Some (Ret UP_TIMEOUT, (with_wait WAIT_NONE (stop_blinking v), k'))   (* 83-88 *)
               else Some (Nothing, (v, Wait entry start (if 100 <=? u32 (now - last) then now else last) W68 :: k'))    (* 89-92 *)
      | W95 => Some (Ret UP_OK, (with_wait WAIT_NONE (stop_blinking (with_touch TOUCH_NO v)), k'))             (* 95-98 *)
      end
    | Strong i begin up pc :: k' =>
      match pc with
      | S117 => if v_touch v =? TOUCH_SHORT then Some (Nothing, (v, Strong i begin up S118 :: k'))
                else Some (Nothing, (v, Strong i begin up S124 :: k'))
      | S118 => let v := stop_blinking (with_touch TOUCH_NO v) in Some (Took TOUCH_SHORT, (v, Strong i (tick v) true S124 :: k'))  (* 118-122 *)
      | S124 => let now := tick v in
                if u32 (now - begin) <? 2000 then Some (Nothing, (v, Strong i begin up S117 :: k'))             (* 125 *)
                else if negb up then Some (RetStrong (-1), (v, k'))                                             (* 126-128 *)
                else if i + 1 <? 5 then let '(v, f) := strong_round (i + 1) v in Some (Nothing, (v, f :: k'))   (* 111 *)
                else Some (RetStrong 0, (v, k'))                                                                (* 130 *)
      end
    end
  end.
