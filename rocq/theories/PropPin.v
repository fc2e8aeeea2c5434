(** Property theorems of the PIN store (C08-C10) and the TLV length parser (C12). *)
From Verif Require Import Sys Pin PinProofs Tlv.
Open Scope string_scope. Open Scope list_scope.
Open Scope Z_scope.

(** Vocabulary of the statements:
    [pin_inv p N d c F]: storage [F] holds the PIN [d] with retry limit [N] and [c] retries left;
    [pin_run p (v, F) evs]: runs a history of verifications, PIN updates, reboots and power cuts in the
    middle of them (any committed image), and yields the answers given and the final state;
    [rejections l]: number of "wrong PIN" answers in [l]. *)

(** C08.  After any history [pre] (with arbitrary guesses, updates, power cuts), if the following guesses
    are all wrong and [N] of them have been answered by a rejection (no matter how many more were
    interrupted by power loss and how many reboots happened), then every further guess -- the correct
    PIN included -- gets the answer "rejected, 0 retries left", validates nothing and changes nothing. *)
Theorem C08_retry_limit : forall p N d0 F0 v0 pre mid,
  0 <= pin_min p -> pin_max p <= 64 -> 0 <= N < 256 -> pin_inv p N d0 N F0 ->
  let '(_, (v1, F1)) := pin_run p (v0, F0) pre in
  forall d, fdata F1 (pin_path p) = Some d -> Forall (wrong_guess d) mid ->
  let '(answers, (_, F2)) := pin_run p (v1, F1) mid in
  N <= rejections answers ->
  forall v g, pin_min p <= zlen g <= pin_max p ->
    pin_step p (v, F2) (EvVerify g) = (AnsVerify PIN_AUTH_FAIL (Some 0) false, (false, F2)).
Proof.
  intros p N d0 F0 v0 pre mid H1 H2 H3 H4.
  exact (retry_limit p H1 H2 N d0 F0 v0 pre mid H3 H4).
Qed.
Print Assumptions C08_retry_limit.

(** C08, second half: once that is the case no history of guesses, power cuts and reboots (only a PIN
    update) changes the storage, hence it stays the case. *)
Theorem C08_locked_stays_locked : forall p N d0 F0 v0 pre mid,
  0 <= pin_min p <= pin_max p -> pin_max p <= 64 -> 0 <= N < 256 -> pin_inv p N d0 N F0 ->
  let '(_, (v1, F1)) := pin_run p (v0, F0) pre in
  (forall v g, pin_min p <= zlen g <= pin_max p ->
    pin_step p (v, F1) (EvVerify g) = (AnsVerify PIN_AUTH_FAIL (Some 0) false, (false, F1))) ->
  Forall (fun ev => match ev with EvUpdate _ | EvUpdateCut _ _ => False | _ => True end) mid ->
  let '(_, (_, F2)) := pin_run p (v1, F1) mid in F2 = F1.
Proof.
  intros p N d0 F0 v0 pre mid H1 H2 H3 H4.
  pose proof (locked_forever p ltac:(lia) H2 N d0 F0 v0 pre mid H3 H4) as H.
  destruct (pin_run p (v0, F0) pre) as [l [v1 F1]]. intros Hl Hu. apply H; auto. lia.
Qed.
Print Assumptions C08_locked_stays_locked.

Definition demo_pin := mkPin "admin-pin" 6 64.
Definition demo_fs (c : Z) : fs :=
  fset fs_empty "admin-pin" (Some (mkF [49;50;51;52;53;54] (aset (aset no_attr 0 [c]) 1 [3]))).
Lemma demo_inv c : 0 <= c <= 3 -> pin_inv demo_pin 3 [49;50;51;52;53;54] c (demo_fs c).
Proof. intros H. split; [reflexivity|]. split; [vm_compute; discriminate|]. repeat split; lia || reflexivity. Qed.

Example C08_nonvacuous :
  let bad := [48;48;48;48;48;48] in let good := [49;50;51;52;53;54] in
  pin_inv demo_pin 3 good 3 (demo_fs 3) /\
  let '(answers, (_, F)) := pin_run demo_pin (false, demo_fs 3)
        [EvVerify bad; EvVerifyCut bad 0; EvReboot; EvVerify bad; EvVerify bad] in
  map (fun a => match a with AnsVerify c r v => Some (c, r, v) | _ => None end) answers
    = [Some (-2, Some 2, false); None; None; Some (-2, Some 0, false); Some (-2, Some 0, false)] /\
  fst (pin_step demo_pin (false, F) (EvVerify good)) = AnsVerify (-2) (Some 0) false.
Proof. split; [apply demo_inv; lia|]. vm_compute. auto. Qed.

(** C09.  One verification, exactly: with [c] retries left and stored PIN [d], for every guess. *)
Theorem C09_verify_exact : forall p N d c F v g,
  0 <= pin_min p -> pin_max p <= 64 -> N < 256 -> pin_inv p N d c F ->
  let '(a, (v', F')) := pin_step p (v, F) (EvVerify g) in
  (v' = true <-> (pin_min p <= zlen g <= pin_max p /\ c <> 0 /\ g = d)) /\
  (v' = true -> a = AnsVerify 0 (Some c) true /\ pin_inv p N d N F') /\
  (pin_min p <= zlen g <= pin_max p -> c <> 0 -> g <> d ->
     a = AnsVerify PIN_AUTH_FAIL (Some (c - 1)) false /\ pin_inv p N d (c - 1) F') /\
  (pin_min p <= zlen g <= pin_max p -> c = 0 -> a = AnsVerify PIN_AUTH_FAIL (Some 0) false /\ F' = F) /\
  (~ pin_min p <= zlen g <= pin_max p -> a = AnsVerify PIN_LENGTH_INVALID None false /\ F' = F) /\
  (forall q, q <> pin_path p -> F' q = F q).
Proof.
  intros p N d c F v g H1 H2 HN Hi. pose proof (proj1 (proj2 (proj2 Hi))) as Hc.
  cbn [pin_step]. rewrite (verify_run p H1 H2 N d c F g v HN Hi).
  destruct ((zlen g <? pin_min p) || (pin_max p <? zlen g)) eqn:El; cbn [e_fs start].
  { repeat split; try discriminate; try lia. }
  destruct (Z.eqb_spec c 0); cbn [e_fs start].
  { repeat split; try discriminate; try lia. }
  destruct (beqb_spec g d) as [->|Hne]; cbn [e_fs].
  - split; [split; [intros _; split; [lia|auto]|reflexivity]|].
    split; [intros _; split; [reflexivity|eapply pin_inv_setattr; eauto; lia]|].
    split; [congruence|]. split; [lia|]. split; [lia|]. intros q Hq; apply fsetattr_other, Hq.
  - split; [split; [discriminate|intros (_ & _ & E); congruence]|].
    split; [discriminate|].
    split; [intros _ _ _; split; [reflexivity|eapply pin_inv_setattr; eauto; lia]|].
    split; [lia|]. split; [lia|]. intros q Hq; apply fsetattr_other, Hq.
Qed.
Print Assumptions C09_verify_exact.

(** C09: the result depends neither on the uninitialised part of the stack buffer nor on the value
    [memcmp_s] returns for different inputs, provided that value is not 1 (and it is not 0). *)
Theorem C09_verify_independent : forall (p : pin_t) neq junk d cv Nv buf len (v : bool) F L R T O,
  neq <> 0 -> neq <> 1 -> 0 <= pin_min p -> pin_max p <= 64 -> len <= zlen buf ->
  fdata F (pin_path p) = Some d -> zlen d <= 64 ->
  fattr F (pin_path p) RETRY_ATTR = Some cv -> fattr F (pin_path p) DEFAULT_RETRY_ATTR = Some Nv ->
  pin_verify_gen p setf neq junk buf len v (mkE F L [] R T O)
  = pin_verify p setf buf len v (mkE F L [] R T O).
Proof.
  intros. unfold pin_verify. rewrite (verify_exact p setf neq junk d cv Nv) by assumption.
  rewrite (verify_exact p setf (-1) [] d cv Nv) by (assumption || lia). reflexivity.
Qed.
Print Assumptions C09_verify_independent.

(** The proviso is needed: would [memcmp_s] return 1, a wrong guess of a wrong length would be accepted. *)
Theorem C09_needs_memcmp_not_one :
  exists g, g <> [49;50;51;52;53;54] /\ zlen g = 8 /\
  let '(o, v, _) := pin_verify_gen demo_pin setf 1 [] g 8 false (start (demo_fs 3) [] [] []) in
  o = Ret (0, Some 3) /\ v = true.
Proof. exists (repeat 48 8). split; [discriminate|]. split; [reflexivity|]. vm_compute. auto. Qed.
Print Assumptions C09_needs_memcmp_not_one.

Example C09_nonvacuous : pin_inv demo_pin 3 [49;50;51;52;53;54] 2 (demo_fs 2) /\
  pin_step demo_pin (true, demo_fs 2) (EvVerify [49;50;51;52;53;54;55])
  = (AnsVerify (-2) (Some 1) false, (false, fsetattr (demo_fs 2) "admin-pin" 0 [1])).
Proof. split; [apply demo_inv; lia|]. reflexivity. Qed.

(** C10 (full statement: with storage errors an attempt neither validates nor is free of cost).
    False: if the write of the counter fails, (a) the correct PIN is reported as I/O error but leaves the
    PIN validated, and (b) a wrong guess does not decrease the counter -- so while writes fail the guesses
    are free, and whether a guess was right can be told from the validated state. *)
Theorem C10_storage_errors_refuted :
  exists faults good bad,
    bad <> good /\ pin_inv demo_pin 3 good 3 (demo_fs 3) /\
    (let '(o, validated, e) := pin_verify demo_pin setf good 6 false (start (demo_fs 3) faults [] []) in
     o = Ret (PIN_IO_FAIL, Some 3) /\ validated = true) /\
    (let '(o, validated, e) := pin_verify demo_pin setf bad 6 false (start (demo_fs 3) (tl faults) [] []) in
     o = Ret (PIN_IO_FAIL, Some 2) /\ validated = false /\ e_fs e = demo_fs 3).
Proof.
  exists [FNone; FNone; FNone; FEarly], [49;50;51;52;53;54], [48;48;48;48;48;48].
  split; [discriminate|]. split; [apply demo_inv; lia|]. vm_compute. auto.
Qed.
Print Assumptions C10_storage_errors_refuted.

(** C10, what holds for every pattern of storage faults (missing: the claim for the answer "I/O error",
    see the refutation): the PIN is validated only by the correct PIN with retries left; the answer 0 means
    validated and counter restored; the answer "rejected" means not validated and, unless no retry was
    left, a persistently decremented counter; an I/O error leaves the storage's PIN and counter as they
    were. *)
Theorem C10_storage_errors_partial : forall p N d c g v F faults rnd tch,
  0 <= pin_min p -> pin_max p <= 64 -> N < 256 -> pin_inv p N d c F ->
  let '(o, v', e') := pin_verify p setf g (zlen g) v (start F faults rnd tch) in
  exists code r, o = Ret (code, r) /\
    (v' = true -> c <> 0 /\ g = d) /\
    (code = 0 -> v' = true /\ pin_inv p N d N (e_fs e')) /\
    (code = PIN_AUTH_FAIL -> v' = false /\
       ((c = 0 /\ e_fs e' = F) \/ (c <> 0 /\ g <> d /\ r = Some (c - 1) /\ pin_inv p N d (c - 1) (e_fs e')))) /\
    (code = PIN_IO_FAIL -> pin_inv p N d c (e_fs e')).
Proof.
  intros p N d c g v F X R T H1 H2 HN Hi.
  pose proof (verify_faults p setf (fun b => b) (fun b s => eq_refl) N d c g (zlen g) v F [F] X R T []
                H1 H2 (Z.le_refl _) HN Hi) as H.
  unfold wp in H. unfold start. destruct (pin_verify p setf g (zlen g) v (mkE F [F] X R T [])) as [[o v'] e'].
  destruct H as (code & r & Ho & Ha & Hb & Hc & Hd). rewrite slice_all in *.
  exists code, r. split; [assumption|]. split; [intros Hv; destruct (Ha Hv) as (? & ? & _); auto|].
  split; [assumption|]. split; [|assumption].
  intros Hx. destruct (Hc Hx) as (Hv & [Hz|(Hz & Hn & Hr & Hp)]); split; auto.
  right. split; [assumption|]. split; [|auto]. intros ->. apply Hn; auto.
Qed.
Print Assumptions C10_storage_errors_partial.

(** C12 *)
Theorem C12_tlv_exact : forall data len v n,
  0 <= len <= zlen data -> all_bytes data ->
  (tlv_get_length_safe data len = Tlv v false (Some n) <->
   exists enc rest, firstn (Z.to_nat len) data = enc ++ rest /\ ber_length enc v /\ n = zlen enc /\ v <= zlen rest).
Proof. exact tlv_exact. Qed.
Print Assumptions C12_tlv_exact.

Theorem C12_tlv_in_bounds : forall data len, len <= zlen data -> tlv_get_length_safe data len <> TlvUB.
Proof. exact tlv_no_ub. Qed.
Print Assumptions C12_tlv_in_bounds.

Example C12_nonvacuous :
  tlv_get_length_safe ([0x82; 1; 2] ++ repeat 7 300) 303 = Tlv 258 false (Some 3) /\
  tlv_get_length_safe ([0x82; 1; 2] ++ repeat 7 300) 200 = Tlv 258 true (Some 3) /\
  tlv_get_length_safe [0x81] 1 = Tlv 0 true None.
Proof. vm_compute. auto. Qed.
