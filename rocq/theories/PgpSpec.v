(** Histories of the OpenPGP applet, and the words used to state what they say. *)
From Verif Require Import Sys Apdu Applet Pin Key Pgp.
Open Scope string_scope. Open Scope list_scope. Open Scope Z_scope.

Definition pgp_keys : list path := ["pgp-sigk"; "pgp-deck"; "pgp-autk"].
Definition pgp_certs : list path := ["pgp-sigc"; "pgp-decc"; "pgp-autc"].
Definition pgp_files : list path := ["pgp-data"; "pgp-pw1"; "pgp-pw3"; "pgp-rc"] ++ pgp_keys ++ pgp_certs.

(** A command and everything the outside world decides while it runs: the rest of the command buffer (left by earlier
    commands), the interface, the clock, an uninitialised byte, storage errors, randomness, the user's answers to requests for
    touches. *)
Record cmd := mkCmd {
  x_apdu : capdu; x_tail : bytes; x_nfc : bool; x_t1 : Z; x_t2 : Z; x_junk : Z; x_flt : list fault; x_rnd : bytes; x_tch : list Z }.
(** [Do]: a command.  [Cut]: the same, but the power fails when the [n]-th last storage update is current, and the device
    boots.  [Off]: the applet is left.  [Install]: the administrator resets the applet (ADMIN RESET OPENPGP, factory reset).
    [Other]: other applets work on their own files. *)
Inductive ev :=
  | Do (x : cmd)
  | Cut (x : cmd) (n : nat) (flt : list fault)
  | Off
  | Install (flt : list fault)
  | InstallCut (flt : list fault) (n : nat) (flt' : list fault)
  | Other (F : fs).
Record dev := mkD { d_ram : pgp; d_fs : fs }.

Section H.
Variable K : crypto.
Definition exec (d : dev) (x : cmd) : option rapdu * pgp * env :=
  run_apdu (pgp_body K (x_nfc x) (x_t1 x) (x_t2 x) (x_junk x) (x_apdu x) (x_tail x)) (d_ram d) (start (d_fs d) (x_flt x) (x_rnd x) (x_tch x)).
Definition installed (reset : bool) (s : pgp) (F : fs) (flt : list fault) : out unit * pgp * env := pgp_install reset s (start F flt [] []).
Definition boot (F : fs) (flt : list fault) : dev := let '(_, s, e) := installed false pgp_boot F flt in mkD s (e_fs e).
Definition step (d : dev) (v : ev) : option (option rapdu * dev) :=
  match v with
  | Do x => match exec d x with (Some r, s, e) => Some (Some r, mkD s (e_fs e)) | _ => None end
  | Cut x n flt => let '(_, _, e) := exec d x in Some (None, boot (nth n (e_log e) (e_fs e)) flt)
  | Off => Some (None, mkD (pgp_poweroff (d_ram d)) (d_fs d))
  | Install flt => let '(_, s, e) := installed true (d_ram d) (d_fs d) flt in Some (None, mkD s (e_fs e))
  | InstallCut flt n flt' => let '(_, _, e) := installed true (d_ram d) (d_fs d) flt in Some (None, boot (nth n (e_log e) (e_fs e)) flt')
  | Other F => Some (None, mkD (d_ram d) F)
  end.
Definition ev_ok (d : dev) (v : ev) : Prop :=
  match v with
  | Do x | Cut x _ _ => all_bytes (c_data (x_apdu x) ++ x_tail x)
  | Other F => forall q, In q pgp_files -> F q = d_fs d q
  | _ => True
  end.
(** A history: each entry is the device before the event, the event, and the answer. *)
Definition entry := (dev * ev * option rapdu)%type.
Inductive hist : dev -> list entry -> dev -> Prop :=
  | h_nil d : hist d [] d
  | h_snoc d0 tr d v o d' : hist d0 tr d -> ev_ok d v -> step d v = Some (o, d') -> hist d0 (tr ++ [(d, v, o)]) d'.
(** From some boot on *)
Definition since_boot (tr : list entry) (d : dev) : Prop := exists F flt, hist (boot F flt) tr d.
End H.

(** ** What is stored *)
(** The value of a password.  (No password is longer than 64 bytes; were it so, the rest would not be looked at.) *)
Definition value (F : fs) (p : path) : option bytes := option_map (firstn 64) (fdata F p).
Definition tries (F : fs) (p : path) : Z := match fattr F p 0 with Some (n :: _) => n | _ => 0 end.
(** PW status byte 0: PW1 (81) is good for one signature only *)
Definition one_signature (F : fs) : Prop := exists l, fattr F "pgp-data" 0xC4 = Some (0 :: l) \/ fattr F "pgp-data" 0xC4 = Some [].

(** ** Passwords: 81 = PW1 for signing, 82 = PW1 for the rest, 83 = PW3 (admin) *)
Definition pw_file (n : Z) : path := if n =? 0x83 then "pgp-pw3" else "pgp-pw1".
Definition verify_cmd (n : Z) (c : capdu) : Prop := c_cla c = 0 /\ c_ins c = 0x20 /\ c_p1 c = 0 /\ c_p2 c = n /\ c_data c <> [].
Definition change_cmd (n : Z) (c : capdu) : Prop := c_cla c = 0 /\ c_ins c = 0x24 /\ c_p1 c = 0 /\ c_p2 c = n.
(** The password shown.  (The card looks at the first [length mod 256] bytes of the data.) *)
Definition shown (c : capdu) : bytes := firstn (Z.to_nat (zlen (c_data c) mod 256)) (c_data c).
(** The right password [n], not blocked, is given and accepted. *)
Definition right (n : Z) (e : entry) : Prop :=
  exists d x r, e = (d, Do x, Some r) /\ verify_cmd n (x_apdu x) /\ value (d_fs d) (pw_file n) = Some (shown (x_apdu x)) /\
  tries (d_fs d) (pw_file n) <> 0 /\ r_sw r = 0x9000.
(** The same for PW3, including attempts that ended with an error after the password was found right: a storage error (6900), a new
    password of bad length (6700). *)
Definition right_pw3 (e : entry) : Prop :=
  right 0x83 e \/
  exists d x r pw, e = (d, Do x, Some r) /\ value (d_fs d) "pgp-pw3" = Some pw /\ tries (d_fs d) "pgp-pw3" <> 0 /\
  (verify_cmd 0x83 (x_apdu x) /\ pw = shown (x_apdu x) /\ r_sw r = 0x6900 \/
   change_cmd 0x83 (x_apdu x) /\ (exists new, c_data (x_apdu x) = pw ++ new) /\ (r_sw r = 0x6900 \/ r_sw r = 0x6700)).
(** The session with password [n] goes on: the applet is not left, no power cycle, no re-installation, no logout, no failed or new
    verification, no change of the password. *)
Definition ends (n : Z) (c : capdu) (sw : Z) : Prop :=
  c_cla c = 0 /\
  (c_ins c = 0x44 /\ sw = 0x9000 \/
   (if n =? 0x83 then
      c_ins c = 0x20 /\ c_p2 c = 0x83 /\ (c_p1 c = 0xFF /\ sw = 0x9000 \/ c_p1 c = 0 /\ In sw [0x6982; 0x6983; 0x6700]) \/
      c_ins c = 0x24 /\ c_p2 c = 0x83 /\ c_p1 c = 0 /\ In sw [0x9000; 0x6982; 0x6983]
    else
      c_ins c = 0x20 /\ c_p2 c = n /\ (c_p1 c = 0 \/ c_p1 c = 0xFF) /\ ~ In sw [0x6285; 0x6900] \/
      c_ins c = 0x24 /\ c_p2 c = 0x81 /\ c_p1 c = 0 /\ ~ In sw [0x6285; 0x6900])).
Definition goes_on (n : Z) (e : entry) : Prop :=
  match e with
  | (_, Do x, Some r) => ~ ends n (x_apdu x) (r_sw r)
  | (_, Other _, _) => True
  | _ => False
  end.
(** A signature leaves the card: COMPUTE DIGITAL SIGNATURE answered 9000, or with data. *)
Definition sign_cmd (c : capdu) : Prop := c_cla c = 0 /\ c_ins c = 0x2A /\ c_p1 c = 0x9E /\ c_p2 c = 0x9A.
Definition has_result (r : rapdu) : Prop := r_sw r = 0x9000 \/ r_data r <> [].
Definition gives_signature (e : entry) : Prop :=
  match e with (_, Do x, Some r) => sign_cmd (x_apdu x) /\ has_result r | _ => False end.
(** DECIPHER and INTERNAL AUTHENTICATE *)
Definition use_cmd (c : capdu) : Prop := c_cla c = 0 /\ (c_ins c = 0x2A /\ c_p1 c = 0x80 /\ c_p2 c = 0x86 \/ c_ins c = 0x88).
(** Password [n] has been given in this session. *)
Definition given (n : Z) (tr : list entry) : Prop :=
  exists tr1 e tr2, tr = tr1 ++ [e] ++ tr2 /\ (if n =? 0x83 then right_pw3 e else right n e) /\ Forall (goes_on n) tr2.

(** ** Data under the administrator's control: keys with their attributes, certificates, the resetting code, the data objects (everything
    in "pgp-data" but the signature counter, 93, and the termination mark, FC) *)
Definition same_admin_data (F G : fs) : Prop :=
  (forall q, In q (pgp_keys ++ pgp_certs) -> G q = F q) /\ fdata G "pgp-rc" = fdata F "pgp-rc" /\ fdata G "pgp-data" = fdata F "pgp-data" /\
  (forall a, a <> 0x93 -> a <> 0xFC -> fattr G "pgp-data" a = fattr F "pgp-data" a).
(** Executing [x] may leave other administrator's data (at the end, or if the power fails on the way). *)
Definition changes (K : crypto) (d : dev) (x : cmd) : Prop :=
  let '(_, _, e) := exec K d x in exists G, (G = e_fs e \/ In G (e_log e)) /\ ~ same_admin_data (d_fs d) G.
