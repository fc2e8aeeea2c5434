(** Histories of the FIDO applet, and the words used to state what they say. *)
From Verif Require Export Sys Apdu Applet Ctap.
Open Scope string_scope. Open Scope list_scope. Open Scope Z_scope.

Definition ctap_files : list path := ["ctap_cert"; "ctap_dc"; "ctap_dm"; "ctap_lb"; "ctap_lbt"].

(** What is asked: a CTAP2 command (with the parameters that the parser found, or its error), U2F REGISTER and AUTHENTICATE, and, through
    the admin applet, a reset and the installation of the attestation key and certificate and of the SM2 configuration. *)
Inductive op :=
  | OCbor (q : creq) | ORegister (data : bytes) | OAuth (p1 : Z) (data : bytes)
  | OReset | OKey (data : bytes) | OCert (data : bytes) | OSm2 (data : bytes).
(** What the parser guarantees (ctap-parser.c): buffers of fixed size (620-760, 766-884, 563-618, 1066-1164), zeroed before; user ids of at
    most 64 bytes (110); a truncated rp id of at most 32 (22-53); credProtect 0 to 3 (400); fragments and lengths (1268-1284). *)
Definition bytes_of (n : Z) (l : bytes) : Prop := zlen l = n /\ all_bytes l.
Definition mc_ok (q : mcreq) : Prop :=
  bytes_of 32 (mc_cdh q) /\ bytes_of 32 (mc_rphash q) /\ bytes_of 195 (mc_user q) /\ u_size (mc_user q) <= 64 /\
  zlen (mc_rp q) <= 32 /\ all_bytes (mc_rp q) /\ 0 <= mc_cp q <= 3 /\ -2147483648 <= mc_alg q < 2147483648 /\
  match mc_blob q with Some b => all_bytes b | None => True end.
Definition ga_ok (q : gareq) : Prop := bytes_of 32 (ga_cdh q) /\ bytes_of 32 (ga_rphash q).
Definition cm_ok (q : cmreq) : Prop :=
  bytes_of 32 (cm_rphash q) /\ bytes_of 70 (cm_id q) /\ bytes_of 195 (cm_user q) /\ u_size (cm_user q) <= 64.
Definition lb_ok (q : lbreq) : Prop :=
  0 <= lb_off q < 65536 /\ all_bytes (lb_set q) /\ zlen (lb_set q) <= 1236 /\
  match lb_get q with Some n => 0 <= n <= 1236 | None => lb_off q = 0 -> 17 <= lb_len q <= 4096 end.
Definition creq_ok (q : creq) : Prop :=
  match q with
  | RMake (inr q) => mc_ok q | RGet (inr q) => ga_ok q | RCm (inr q) => cm_ok q | RLarge (inr q) => lb_ok q
  | _ => True
  end.
(** A command and everything the outside world decides while it runs: the size of the response buffer (1300 by USB HID, 1340 by APDU),
    the interface, the clock at the start and later, uninitialised memory, storage errors, randomness, the answers to requests for touches. *)
Record cmd := mkCmd {
  x_op : op; x_cap : Z; x_nfc : bool; x_t1 : Z; x_t2 : Z; x_junk : bytes; x_flt : list fault; x_rnd : bytes; x_tch : list Z }.
(** An answer: status and item of a CTAP2 command, or data and status word *)
Inductive ans := ACbor (c : Z) (v : option cbor) | AApdu (r : rapdu).
(** [Do]: a command.  [Cut]: the same, but the power fails when the [n]-th last storage update is current, and the device boots, with
    storage errors [flt] and randomness [rnd].  [Other]: other applets work on their own files. *)
Inductive ev :=
  | Do (x : cmd)
  | Cut (x : cmd) (n : nat) (flt : list fault) (rnd : bytes)
  | Other (F : fs).
Record dev := mkD { d_ram : ctap; d_fs : fs }.

Section H.
Variable K : fcrypto.
Definition body (x : cmd) : Mc Z :=
  match x_op x with
  | OCbor _ => ub
  | ORegister d => u2f_register K (x_nfc x) (x_cap x) d ;;; ret 0x9000
  | OAuth p1 d => u2f_authenticate K (x_nfc x) p1 d ;;; ret 0x9000
  | OReset => ctap_install K true ;;; ret 0x9000
  | OKey d => install_private_key d ;;; ret 0x9000
  | OCert d => install_cert d ;;; ret 0x9000
  | OSm2 d => write_sm2_config d ;;; ret 0x9000
  end.
Definition cbor_body (x : cmd) (q : creq) : Mc (Z * option cbor) := process_cbor K (x_nfc x) (x_t1 x) (x_t2 x) (x_junk x) (x_cap x) q.
Definition exec (d : dev) (x : cmd) : option ans * ctap * env :=
  let e := start (d_fs d) (x_flt x) (x_rnd x) (x_tch x) in
  match x_op x with
  | OCbor q =>
      match cbor_body x q (d_ram d) e with
      | (Ret (c, v), s', e') => (Some (ACbor c v), s', e')
      | (_, s', e') => (None, s', e')
      end
  | _ =>
      match run_apdu (body x) (d_ram d) e with
      | (Some r, s', e') => (Some (AApdu r), s', e')
      | (None, s', e') => (None, s', e')
      end
  end.
Definition boot (F : fs) (flt : list fault) (rnd : bytes) : dev :=
  let '(_, s, e) := ctap_install K false ctap_boot (start F flt rnd []) in mkD s (e_fs e).
Definition step (d : dev) (v : ev) : option (option ans * dev) :=
  match v with
  | Do x => match exec d x with (Some r, s, e) => Some (Some r, mkD s (e_fs e)) | _ => None end
  | Cut x n flt rnd => let '(_, _, e) := exec d x in Some (None, boot (nth n (e_log e) (e_fs e)) flt rnd)
  | Other F => Some (None, mkD (d_ram d) F)
  end.
Definition ev_ok (d : dev) (v : ev) : Prop :=
  match v with
  | Do x | Cut x _ _ _ => match x_op x with OCbor q => creq_ok q | _ => True end
  | Other F => forall q, In q ctap_files -> F q = d_fs d q
  end.
(** A history: each entry is the device before the event, the event, and the answer. *)
Definition entry := (dev * ev * option ans)%type.
Inductive hist : dev -> list entry -> dev -> Prop :=
  | h_nil d : hist d [] d
  | h_snoc d0 tr d v o d' : hist d0 tr d -> ev_ok d v -> step d v = Some (o, d') -> hist d0 (tr ++ [(d, v, o)]) d'.

Lemma hist_app d0 tr1 tr2 d : hist d0 (tr1 ++ tr2) d -> exists d1, hist d0 tr1 d1 /\ hist d1 tr2 d.
Proof.
  remember (tr1 ++ tr2) as tr eqn:E. intros H. revert tr1 tr2 E. induction H as [d|d0 tr d v o d' H IH Hv Hs]; intros tr1 tr2 E.
  - destruct tr1; [|discriminate]. destruct tr2; [|discriminate]. exists d. split; constructor.
  - destruct tr2 as [|a tr2] using rev_ind.
    + rewrite app_nil_r in E. subst tr1. exists d'. split; [econstructor; eassumption|constructor].
    + clear IHtr2. rewrite app_assoc in E. apply app_inj_tail in E. destruct E as [E <-]. destruct (IH _ _ E) as (d1 & H1 & H2).
      exists d1. split; [exact H1|]. econstructor; eassumption.
Qed.
Lemma hist_one d0 e d : hist d0 [e] d -> exists v o, e = (d0, v, o) /\ ev_ok d0 v /\ step d0 v = Some (o, d).
Proof.
  remember [e] as tr eqn:E. intros H. destruct H as [d|d0 tr d v o d' H Hv Hs]; [discriminate|].
  destruct tr as [|a [|b tr]]; try discriminate. injection E as <-. inversion H; subst; [|destruct tr; discriminate]. exists v, o. auto.
Qed.

(** ** Running a command *)
Lemma exec_wp d x (Q : option ans -> ctap -> env -> Prop) :
  match x_op x with
  | OCbor q => wp (cbor_body x q) (fun o s e => match o with Ret (c, v) => Q (Some (ACbor c v)) s e | _ => Q None s e end)
                  (d_ram d) (start (d_fs d) (x_flt x) (x_rnd x) (x_tch x))
  | _ => wp (body x) (fun o s e => match o with
                                   | Ret w | Exc w => Q (Some (AApdu (mkR (e_out e) w))) s e
                                   | Fail => Q (Some (AApdu (mkR (e_out e) 0x6900))) s e
                                   | UB => Q None s e end)
            (d_ram d) (start (d_fs d) (x_flt x) (x_rnd x) (x_tch x))
  end ->
  let '(o, s, e) := exec d x in Q o s e.
Proof.
  unfold exec, wp, run_apdu. change (mkE _ _ _ _ _ _) with (start (d_fs d) (x_flt x) (x_rnd x) (x_tch x)).
  destruct (x_op x) as [q| | | | | |].
  1: destruct (cbor_body x q _ _) as [[[[c v]| | |] s'] e']; exact (fun H => H).
  all: destruct (body x _ _) as [[[w|w| |] s'] e']; exact (fun H => H).
Qed.
End H.
