(** Model of interfaces/USB/class/kbdhid/kbdhid.c: the emulated keyboard.  Of usbd_kbdhid.c only "idle or not"
    is an input ([USBD_KBDHID_IsIdle], usbd_kbdhid.c:122-125 sets it when the host has fetched a report); a report
    given to [USBD_KBDHID_SendReport] while idle reaches the host (usbd_kbdhid.c:133-149; the device is configured
    and the keyboard interface enabled). *)
From Verif Require Export Base.
Open Scope list_scope. Open Scope Z_scope.

Definition EJECT_KEY := 3.                     (* kbdhid.c:10 *)
Definition KEYSEQ_SIZE := 34.                  (* kbdhid.c:18, PASS_MAX_PASSWORD_LENGTH + 2 *)

(** kbdhid.c:12-17 *)
Inductive kst := KBDHID_Idle | KBDHID_Typing | KBDHID_KeyDown | KBDHID_KeyUp.

(** A report on the wire: report id 1 with modifier byte and first key code (the other key codes and the reserved byte
    are always zero), or the two bytes of report id 2. *)
Inductive report := Keys (modifier keycode : Z) | Consumer (b : Z).

(** kbdhid.c:12-20; of [report] the modifier and keycode[0] *)
Record kbd := mkK { k_st : kst; k_seq : bytes; k_pos : Z; k_mod : Z; k_key : Z }.

Definition SHIFT := 0x80.
(** kbdhid.c:22-75 [ascii2keycode]; [ch] is a char with the values 0..127 (negative chars get 0, as do the
    bytes above 127 here) *)
Definition ascii2keycode (ch : Z) : Z :=
  if (49 <=? ch) && (ch <=? 57) then 30 + ch - 49
  else if 48 =? ch then 39
  else if (97 <=? ch) && (ch <=? 122) then 4 + ch - 97
  else if (65 <=? ch) && (ch <=? 90) then Z.lor (4 + ch - 65) SHIFT
  else match ch with
  | 13 => 0x28 | 32 => 0x2C
  | 33 => Z.lor 0x1E SHIFT | 34 => Z.lor 0x34 SHIFT | 35 => Z.lor 0x20 SHIFT | 36 => Z.lor 0x21 SHIFT
  | 37 => Z.lor 0x22 SHIFT | 38 => Z.lor 0x24 SHIFT | 39 => 0x34 | 40 => Z.lor 0x26 SHIFT
  | 41 => Z.lor 0x27 SHIFT | 42 => Z.lor 0x25 SHIFT | 43 => Z.lor 0x2E SHIFT | 44 => 0x36
  | 45 => 0x2D | 46 => 0x37 | 47 => 0x38 | 58 => Z.lor 0x33 SHIFT | 59 => 0x33 | 60 => Z.lor 0x36 SHIFT
  | 61 => 0x2E | 62 => Z.lor 0x37 SHIFT | 63 => Z.lor 0x38 SHIFT | 64 => Z.lor 0x1F SHIFT
  | 91 => 0x2F | 92 => 0x31 | 93 => 0x30 | 94 => Z.lor 0x23 SHIFT | 95 => Z.lor 0x2D SHIFT | 96 => 0x35
  | 123 => Z.lor 0x2F SHIFT | 124 => Z.lor 0x31 SHIFT | 125 => Z.lor 0x30 SHIFT | 126 => Z.lor 0x35 SHIFT
  | _ => 0
  end.

(** kbdhid.c:77-126 [KBDHID_TypeKeySeq]; [idle] is USBD_KBDHID_IsIdle(); [None]: a read outside
    key_sequence *)
Definition KBDHID_TypeKeySeq (idle : bool) (k : kbd) : option (kbd * list report) :=
  match k_st k with
  | KBDHID_Idle => Some (k, [])
  | KBDHID_Typing | KBDHID_KeyUp =>
    match rd (k_seq k) (k_pos k) with
    | None => None
    | Some c =>
      if c =? 0 then Some (mkK KBDHID_Idle (k_seq k) (k_pos k) (k_mod k) (k_key k), [])
      else if idle then
        if c =? EJECT_KEY then Some (mkK KBDHID_KeyDown (k_seq k) (k_pos k) 0xB8 (k_key k), [Consumer 0xB8])
        else
          let kc := ascii2keycode c in
          let m := if negb (Z.land kc 0x80 =? 0) then 2 else 0 in
          let kc := if negb (Z.land kc 0x80 =? 0) then Z.land kc 0x7F else kc in
          Some (mkK KBDHID_KeyDown (k_seq k) (k_pos k) m kc, [Keys m kc])
      else Some (k, [])
    end
  | KBDHID_KeyDown =>
    if idle then
      match rd (k_seq k) (k_pos k) with
      | None => None
      | Some c => Some (mkK KBDHID_KeyUp (k_seq k) (u8 (k_pos k + 1)) 0 0, [if c =? EJECT_KEY then Consumer 0 else Keys 0 0])
      end
    else Some (k, [])
  end.

(** kbdhid.c:128-133 [KBDHID_Eject] *)
Definition KBDHID_Eject (k : kbd) : kbd := mkK KBDHID_Typing (splice (k_seq k) 0 [EJECT_KEY; 0]) 0 (k_mod k) (k_key k).

(** kbdhid.c:135-139 [KBDHID_Init] *)
Definition KBDHID_Init (k : kbd) : kbd := mkK KBDHID_Idle (k_seq k) (k_pos k) 0 0.

(** What one call of [KBDHID_Loop] sees: [l_touch]: device_allow_kbd_touch() holds (it implies a pending
    touch), with the result of pass_handle_touch (Oath.v): [None] = negative, [Some text]. *)
Record look := mkL { l_touch : option (option bytes); l_idle : bool }.

(** kbdhid.c:141-160 [KBDHID_Loop]; the text accepted, if any, is reported for use in the specification *)
Definition KBDHID_Loop (l : look) (k : kbd) : option (kbd * list report * option bytes) :=
  match k_st k, l_touch l with
  | KBDHID_Idle, Some t =>
    match t with
    | None | Some [] => Some (k, [], None)
    | Some text =>
      if KEYSEQ_SIZE <=? zlen text then None
      else Some (mkK KBDHID_Typing (splice (k_seq k) 0 (text ++ [0])) 0 (k_mod k) (k_key k), [], Some text)
    end
  | _, _ => match KBDHID_TypeKeySeq (l_idle l) k with Some (k, r) => Some (k, r, None) | None => None end
  end.

(** A run of the loop: reports sent, texts accepted. *)
Fixpoint run (k : kbd) (ls : list look) : option (kbd * list report * list bytes) :=
  match ls with
  | [] => Some (k, [], [])
  | l :: ls =>
    match KBDHID_Loop l k with
    | None => None
    | Some (k, r, t) =>
      match run k ls with
      | None => None
      | Some (k, r2, t2) => Some (k, r ++ r2, match t with Some x => x :: t2 | None => t2 end)
      end
    end
  end.
