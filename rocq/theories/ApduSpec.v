(** Specifications for the APDU layer, independent of the code's structure. *)
From Verif Require Import Base Apdu.

(** ISO/IEC 7816-4 (2013) 5.1: the seven encodings of a command APDU.  The last argument of [mkC] is
    the expected response length; the card uses 256 / 65536 when Le is zero, or absent but data are
    present (cases 3S / 3E). *)
Definition ne_short (le : Z) := if le =? 0 then 256 else le.
Definition ne_ext (le : Z) := if le =? 0 then 65536 else le.

Inductive iso_apdu : bytes -> capdu -> Prop :=
| iso_1 cla ins p1 p2 :
    iso_apdu [cla; ins; p1; p2] (mkC cla ins p1 p2 [] 0)
| iso_2s cla ins p1 p2 le :
    iso_apdu [cla; ins; p1; p2; le] (mkC cla ins p1 p2 [] (ne_short le))
| iso_3s cla ins p1 p2 d : 1 <= zlen d <= 255 ->
    iso_apdu ([cla; ins; p1; p2; zlen d] ++ d) (mkC cla ins p1 p2 d 256)
| iso_4s cla ins p1 p2 d le : 1 <= zlen d <= 255 ->
    iso_apdu ([cla; ins; p1; p2; zlen d] ++ d ++ [le]) (mkC cla ins p1 p2 d (ne_short le))
| iso_2e cla ins p1 p2 le : 0 <= le < 65536 ->
    iso_apdu ([cla; ins; p1; p2; 0] ++ to_be 2 le) (mkC cla ins p1 p2 [] (ne_ext le))
| iso_3e cla ins p1 p2 d : 1 <= zlen d <= 65535 ->
    iso_apdu ([cla; ins; p1; p2; 0] ++ to_be 2 (zlen d) ++ d) (mkC cla ins p1 p2 d 65536)
| iso_4e cla ins p1 p2 d le : 1 <= zlen d <= 65535 -> 0 <= le < 65536 ->
    iso_apdu ([cla; ins; p1; p2; 0] ++ to_be 2 (zlen d) ++ d ++ to_be 2 le)
             (mkC cla ins p1 p2 d (ne_ext le)).

(** Response chaining (ISO 7816-4 5.3.4): with [rest] still to be delivered and final status [sw],
    the segments for the successive maximum lengths [les]. *)
Fixpoint segments (rest : bytes) (sw : Z) (les : list Z) : list rapdu :=
  match les with
  | [] => []
  | le :: les' =>
    let now := firstn (Z.to_nat le) rest in
    let later := skipn (Z.to_nat le) rest in
    let status := if zlen later =? 0 then sw else 0x6100 + Z.min 255 (zlen later) in
    mkR now status :: segments later sw les'
  end.

Definition max_le (le : Z) := Z.min le 1340.

(** A GET RESPONSE command as a host sends it. *)
Definition get_response (c : capdu) : Prop :=
  (c_cla c = 0x00 \/ c_cla c = 0x80) /\ c_ins c = 0xC0 /\ c_data c = [] /\ 0 <= c_le c.

(** The blocks of one chained command: all but the last carry CLA bit 0x10. *)
Fixpoint blocks (cla ins p1 p2 le : Z) (first : bytes) (more : list bytes) : list capdu :=
  match more with
  | [] => [mkC cla ins p1 p2 first le]
  | d :: r => mkC (cla + 0x10) ins p1 p2 first le :: blocks cla ins p1 p2 le d r
  end.

(** ** Applet routing, observed through a recording applet layer *)
Inductive event := EExec (a : applet) (c : capdu) | EPoweroff | EEject.

(** Applets which only record what is asked of them; the answers are arbitrary functions of the
    history. *)
Definition recorder (resp : list event -> rapdu) (ndef : list event -> bool) : applets (list event) :=
  mkA (fun a c h => (resp (EExec a c :: h), EExec a c :: h)) (fun h => EPoweroff :: h) ndef
      (fun h => EEject :: h).

(** The applet that executed most recently. *)
Fixpoint last_exec (h : list event) : option applet :=
  match h with
  | [] => None
  | EExec a _ :: _ => Some a
  | _ :: h' => last_exec h'
  end.

(** [a] is selected by the command [c]: SELECT by name whose data start with the AID of [a]. *)
Definition selects (c : capdu) (a : applet) : Prop :=
  c_cla c = 0 /\ c_ins c = 0xA4 /\ c_p1 c = 4 /\ c_p2 c = 0 /\ a <> NULL /\
  exists rest, c_data c = aid a ++ rest.

(** Newest event first.  Each execution is either
    - in the applet that executed last (and if the command is a SELECT by name of a registered AID,
      it is this applet's), without power-off, or
    - a SELECT of this applet, different from the last one, immediately preceded by a power-off of
      all applets.
    Power-offs happen only in the second situation. *)
Fixpoint routed (h : list event) : Prop :=
  match h with
  | [] => True
  | EExec a c :: EPoweroff :: h' =>
      selects c a /\ last_exec h' <> Some a /\ routed h'
  | EExec a c :: h' =>
      last_exec h' = Some a /\ (forall b, selects c b -> b = a) /\ routed h'
  | EPoweroff :: _ => False
  | EEject :: h' => routed h'
  end.

(** ** Command chaining as an abstract machine
    The data accepted so far of an unfinished chain, with its header (CLA without the chaining
    bit).  A block with the same header extends it, any other block starts afresh; a block which
    would exceed the buffer is refused and its data are dropped. *)
Definition header := (Z * Z * Z * Z)%type.
Definition header_of (c : capdu) : header := (Z.land (c_cla c) 0xEF, c_ins c, c_p1 c, c_p2 c).
Definition header_eqb (a b : header) : bool :=
  let '(a1, a2, a3, a4) := a in let '(b1, b2, b3, b4) := b in
  (a1 =? b1) && (a2 =? b2) && (a3 =? b3) && (a4 =? b4).

Inductive chain_out := CWait | CRefused | CRun (c : capdu).

Definition spec_chain (p : option (header * bytes)) (c : capdu) : chain_out * option (header * bytes) :=
  let h := header_of c in
  let '(cla, ins, p1, p2) := h in
  let base := match p with
              | Some (h', d) => if header_eqb h' h then d else []
              | None => []
              end in
  if zlen base + zlen (c_data c) >? 1340 then (CRefused, Some (h, base))
  else if Z.testbit (c_cla c) 4 then (CWait, Some (h, base ++ c_data c))
  else (CRun (mkC cla ins p1 p2 (base ++ c_data c) (c_le c)), None).

(** ** Buffer ownership: who was told that it owns the buffer and has not released it since.
    [grants] is computed from the observable calls only. *)
Definition grant_step (g : owner -> bool) (a : atomic) (ret : option Z) : owner -> bool :=
  match a, ret with
  | AcqRead o, Some 0 => fun x => if owner_eqb x o then true else g x
  | RelCas o, _ => fun x => if owner_eqb x o then false else g x
  | _, _ => g
  end.
Fixpoint run_own (w : owner) (g : owner -> bool) (l : list atomic) : owner * (owner -> bool) :=
  match l with
  | [] => (w, g)
  | a :: r => let '(w', ret) := own_step w a in run_own w' (grant_step g a ret) r
  end.
(** Only the three real owners call the functions. *)
Definition real_owner (a : atomic) : Prop :=
  match a with AcqCas o | AcqRead o | RelCas o | RelRead o => o <> O_NONE end.

(** ** Situations used in the theorems *)

(** No chain with this very header is unfinished. *)
Definition fresh_for {St} (d : disp St) (cla ins p1 p2 : Z) : Prop :=
  x_on (d_x d) = false \/ (x_cla (d_x d), x_ins (d_x d), x_p1 (d_x d), x_p2 (d_x d)) <> (cla, ins, p1, p2).

(** The header of a chainable command: CLA without the chaining bit, not the magic eject command,
    and not one of the PIV commands the dispatcher forwards unassembled. *)
Definition chainable {St} (d : disp St) (cla ins p1 p2 : Z) : Prop :=
  is_byte cla /\ Z.testbit cla 4 = false /\
  ~ (cla = 0xEF /\ ins = 0xEE /\ p1 = 0xFF /\ p2 = 0xEE) /\
  (d_cur d = PIV -> ins <> 0xCB /\ ins <> 0xDB /\ ins <> 0xC0).

(** A complete (unchained) command outside the PIV short cuts reaches the current applet. *)
Definition plain {St} (d : disp St) (c : capdu) : Prop :=
  x_on (d_x d) = false /\ is_byte (c_cla c) /\ Z.testbit (c_cla c) 4 = false /\ c_lc c <= APDU_BUFFER_SIZE /\
  (d_cur d = PIV -> c_ins c <> 0xCB /\ c_ins c <> 0xDB /\ c_ins c <> 0xC0).

(** Applets whose responses go through the response chaining. *)
Definition chained_applet (a : applet) : Prop := a = OPENPGP \/ a = PIV \/ a = FIDO.

