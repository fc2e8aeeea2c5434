(** Histories of the PIV applet, and the words used to state what they say. *)
From Verif Require Import Sys Apdu Applet Pin Key Piv.
Open Scope string_scope. Open Scope list_scope. Open Scope Z_scope.

Definition piv_objects : list path :=
  ["piv-pauc"; "piv-sigc"; "piv-mntc"; "piv-cauc"; "piv-82c"; "piv-83c"; "piv-chu"; "piv-ccc"; "piv-pi"; "piv-fig"; "piv-face"].
Definition piv_keys : list path := ["piv-pauk"; "piv-sigk"; "piv-mntk"; "piv-cauk"; "piv-82"; "piv-83"].
Definition piv_files : list path := piv_objects ++ piv_keys ++ ["piv-admk"; "piv-pin"; "piv-puk"; "piv-alg"].

(** A command and everything the outside world decides while it runs: the rest of the command buffer (left by earlier
    commands), the interface, the clock, storage errors, randomness, the user's answers to requests for touches. *)
Record cmd := mkCmd {
  x_apdu : capdu; x_tail : bytes; x_nfc : bool; x_t1 : Z; x_t2 : Z; x_flt : list fault; x_rnd : bytes; x_tch : list Z }.
(** [Do]: a command.  [Cut]: the same, but the power fails when the [n]-th last storage update is current, and the device
    boots.  [Off]: the applet is left.  [Install]: the administrator resets the applet (ADMIN RESET PIV, factory reset).
    [Other]: other applets work on their own files. *)
Inductive ev :=
  | Do (x : cmd)
  | Cut (x : cmd) (n : nat) (flt : list fault) (rnd : bytes)
  | Off
  | Install (flt : list fault) (rnd : bytes)
  | InstallCut (flt : list fault) (rnd : bytes) (n : nat) (flt' : list fault) (rnd' : bytes)
  | Other (F : fs).
Record dev := mkD { d_ram : piv; d_fs : fs }.

Section H.
Variable K : crypto.
Definition exec (d : dev) (x : cmd) : option rapdu * piv * env :=
  run_apdu (piv_body K (x_nfc x) (x_t1 x) (x_t2 x) (x_apdu x) (x_tail x)) (d_ram d) (start (d_fs d) (x_flt x) (x_rnd x) (x_tch x)).
Definition installed (reset : bool) (s : piv) (F : fs) (flt : list fault) (rnd : bytes) : out unit * piv * env :=
  piv_install reset s (start F flt rnd []).
Definition boot (F : fs) (flt : list fault) (rnd : bytes) : dev :=
  let '(_, s, e) := installed false piv_boot F flt rnd in mkD s (e_fs e).
Definition step (d : dev) (v : ev) : option (option rapdu * dev) :=
  match v with
  | Do x => match exec d x with (Some r, s, e) => Some (Some r, mkD s (e_fs e)) | _ => None end
  | Cut x n flt rnd => let '(_, _, e) := exec d x in Some (None, boot (nth n (e_log e) (e_fs e)) flt rnd)
  | Off => Some (None, mkD (piv_poweroff (d_ram d)) (d_fs d))
  | Install flt rnd => let '(_, s, e) := installed true (d_ram d) (d_fs d) flt rnd in Some (None, mkD s (e_fs e))
  | InstallCut flt rnd n flt' rnd' =>
      let '(_, _, e) := installed true (d_ram d) (d_fs d) flt rnd in Some (None, boot (nth n (e_log e) (e_fs e)) flt' rnd')
  | Other F => Some (None, mkD (d_ram d) F)
  end.
Definition ev_ok (d : dev) (v : ev) : Prop :=
  match v with
  | Do x | Cut x _ _ _ => all_bytes (c_data (x_apdu x) ++ x_tail x)
  | Other F => forall q, In q piv_files -> F q = d_fs d q
  | _ => True
  end.
(** A history: each entry is the device before the event, the event, and the answer. *)
Definition entry := (dev * ev * option rapdu)%type.
Inductive hist : dev -> list entry -> dev -> Prop :=
  | h_nil d : hist d [] d
  | h_snoc d0 tr d v o d' : hist d0 tr d -> ev_ok d v -> step d v = Some (o, d') -> hist d0 (tr ++ [(d, v, o)]) d'.
(** From some boot on *)
Definition since_boot (tr : list entry) (d : dev) : Prop := exists F flt rnd, hist (boot F flt rnd) tr d.
End H.

(** ** What is stored *)
Definition mgmt_key (d : dev) : bytes := match fdata (d_fs d) "piv-admk" with Some x => slice 0 24 (x ++ zeros 24) | None => [] end.
Definition pin_value (d : dev) : option bytes := fdata (d_fs d) "piv-pin".
Definition slot_meta (d : dev) (p : path) : option meta := option_map meta_of (fattr (d_fs d) p KEY_META_ATTR).

(** The files of the key slots: authentication, signature, key management, card authentication, two retired key-management slots; and the
    management key *)
Definition slot_file (id : Z) : option path :=
  match id with
  | 0x9A => Some "piv-pauk" | 0x9C => Some "piv-sigk" | 0x9D => Some "piv-mntk" | 0x9E => Some "piv-cauk" | 0x82 => Some "piv-82" | 0x83 => Some "piv-83"
  | 0x9B => Some "piv-admk" | _ => None
  end.
Lemma slot_file_eq id : get_key_path id = slot_file id.
Proof.
  unfold get_key_path, slot_file, CARD_ADMIN_KEY_PATH.
  repeat match goal with |- context [id =? ?n] => destruct (Z.eqb_spec id n) as [->|]; [reflexivity|] end.
  destruct id as [|p|p]; try reflexivity. repeat (destruct p as [p|p|]; try reflexivity; try contradiction).
Qed.

(** ** GENERAL AUTHENTICATE templates: 7C, a length (not compared with anything but the end of the data), then elements *)
Inductive elements : bytes -> list (Z * bytes) -> Prop :=
  | el_nil : elements [] []
  | el_cons tag lb v d l : In tag [0x80; 0x81; 0x82; 0x85] -> ber_length lb (zlen v) -> elements d l ->
      elements ([tag] ++ lb ++ v ++ d) ((tag, v) :: l).
Definition template (d : bytes) (l : list (Z * bytes)) : Prop :=
  exists lb n rest, d = [0x7C] ++ lb ++ rest /\ ber_length lb n /\ n <= zlen rest /\ elements rest l.
(** The last element with a tag counts. *)
Definition value (tag : Z) (l : list (Z * bytes)) : option bytes :=
  fold_left (fun r x => if fst x =? tag then Some (snd x) else r) l None.

(** ** The management-key protocol *)
(** A request of the card: an external challenge or a mutual witness, with the management key of that moment *)
Inductive ask := AskExternal (key ch : bytes) | AskMutual (key wit : bytes).
Definition is_ga (c : capdu) : Prop := c_cla c = 0 /\ c_ins c = 0x87.
(** In this entry the card makes the request [a]. *)
Definition requests (e : entry) (a : ask) : Prop :=
  exists d x v, is_ga (x_apdu x) /\
  match a with
  | AskExternal key ch => key = mgmt_key d /\ ch = v /\ e = (d, Do x, Some (mkR ([0x7C; 10; 0x81; 8] ++ v) 0x9000))
  | AskMutual key wit => key = mgmt_key d /\ wit = v /\ e = (d, Do x, Some (mkR ([0x7C; 10; 0x80; 8] ++ v) 0x9000))
  end.
Definition selects (e : entry) : Prop :=
  match e with (_, Do x, Some r) => c_ins (x_apdu x) = 0xA4 /\ r_sw r = 0x9000 | _ => False end.
(** After this entry a request made before it is still open.  An answer uses the request up, right or wrong; so does a new
    SELECT.  (Leaving the applet or resetting it does not, but see [stays].) *)
Definition leaves_open (e : entry) : Prop :=
  ~ selects e /\
  match e with
  | (_, Do x, Some r) => ~ (is_ga (x_apdu x) /\ (r_sw r = 0x9000 \/ r_sw r = 0x6982))
  | (_, Cut _ _ _ _, _) => False
  | (_, InstallCut _ _ _ _ _, _) => False
  | _ => True
  end.
(** After this entry a host authenticated before it still is: not after SELECT, leaving the applet, a reset, or a new request *)
Definition stays (e : entry) : Prop :=
  ~ selects e /\ (forall a, ~ requests e a) /\
  match e with
  | (_, Do x, Some r) => ~ (c_ins (x_apdu x) = 0xFB /\ r_sw r = 0x9000)
  | (_, Other _, _) => True
  | _ => False
  end.
Section Auth.
Variable K : crypto.
(** In this entry the host gives the right answer to [a]. *)
Definition answers (e : entry) (a : ask) : Prop :=
  exists d x r l, e = (d, Do x, Some r) /\ r_sw r = 0x9000 /\ is_ga (x_apdu x) /\ template (c_data (x_apdu x)) l /\
  match a with
  | AskExternal key ch => exists w, value 0x82 l = Some w /\ tdes_enc K key ch = Some w
  | AskMutual key wit => exists w, value 0x80 l = Some w /\ tdes_enc K key w = Some wit
  end.
Definition open_request (tr : list entry) (a : ask) : Prop :=
  exists tr1 e tr2, tr = tr1 ++ [e] ++ tr2 /\ requests e a /\ Forall leaves_open tr2.
(** The host has answered an open request of the card correctly, and nothing has ended the session since. *)
Definition authenticated (tr : list entry) : Prop :=
  exists tr1 e tr2 a, tr = tr1 ++ [e] ++ tr2 /\ open_request tr1 a /\ answers e a /\ Forall stays tr2.
End Auth.

(** ** The PIN *)
Definition pin_tries (d : dev) : Z := match fattr (d_fs d) "piv-pin" 0 with Some (n :: _) => n | _ => 0 end.
(** VERIFY of the PIN; CHANGE REFERENCE DATA of the PIN *)
Definition verify_cmd (c : capdu) : Prop := c_cla c = 0 /\ c_ins c = 0x20 /\ c_p1 c = 0 /\ c_p2 c = 0x80 /\ c_lc c = 8.
Definition change_cmd (c : capdu) : Prop := c_cla c = 0 /\ c_ins c = 0x24 /\ c_p1 c = 0 /\ c_p2 c = 0x80 /\ c_lc c = 16.
(** The host gives the right PIN, which is not blocked: VERIFY, answered 9000 (or 6900 when storing the retry counter failed), or a
    CHANGE REFERENCE DATA that went no further for that reason. *)
Definition right_pin (e : entry) : Prop :=
  exists d x r, e = (d, Do x, Some r) /\ pin_tries d <> 0 /\
  (verify_cmd (x_apdu x) /\ pin_value d = Some (c_data (x_apdu x)) /\ (r_sw r = 0x9000 \/ r_sw r = 0x6900) \/
   change_cmd (x_apdu x) /\ pin_value d = Some (firstn 8 (c_data (x_apdu x))) /\ r_sw r = 0x6900).
(** The session goes on: no SELECT, no logout, no wrong PIN, no new PIN, no RESET, the applet is not left, no power cycle. *)
Definition session_goes_on (e : entry) : Prop :=
  ~ selects e /\
  match e with
  | (d, Do x, Some r) =>
      let c := x_apdu x in
      ~ (c_ins c = 0x20 /\ c_p1 c = 0xFF /\ r_sw r = 0x9000) /\
      ~ (verify_cmd c /\ pin_value d <> Some (c_data c)) /\
      ~ (change_cmd c /\ pin_value d <> Some (firstn 8 (c_data c))) /\
      ~ (change_cmd c /\ r_sw r = 0x9000) /\
      ~ (c_ins c = 0x2C /\ r_sw r = 0x9000) /\
      ~ (c_ins c = 0xFB /\ r_sw r = 0x9000)
  | (_, Other _, _) => True
  | _ => False
  end.
(** A private-key operation: GENERAL AUTHENTICATE with another key than the management key, successful *)
Definition key_op (e : entry) : Prop :=
  match e with (_, Do x, Some r) => is_ga (x_apdu x) /\ c_p2 (x_apdu x) <> 0x9B /\ r_sw r = 0x9000 | _ => False end.
(** The right PIN has been given in this session [, and no private-key operation has taken place since]. *)
Definition pin_given (tr : list entry) (unused : Prop) : Prop :=
  exists tr1 e tr2, tr = tr1 ++ [e] ++ tr2 /\ right_pin e /\ Forall session_goes_on tr2 /\ (unused -> Forall (fun e => ~ key_op e) tr2).
