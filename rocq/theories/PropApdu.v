(** Property theorems of the APDU layer (C01-C07).  Statements use [ApduSpec]. *)
From Verif Require Import Base Apdu ApduSpec ApduProofs.

(** C01: a byte string is decoded to [c] exactly when it is an ISO 7816-4 encoding of [c]. *)
Theorem C01_decode_iff_iso7816 : forall cmd c,
  all_bytes cmd -> (build_capdu cmd = BcOk c <-> iso_apdu cmd c).
Proof. intros cmd c Hb; split; [exact (build_capdu_sound cmd c Hb)|exact (build_capdu_complete cmd c)]. Qed.
Print Assumptions C01_decode_iff_iso7816.

Theorem C01_decode_in_bounds : forall cmd, all_bytes cmd -> build_capdu cmd <> BcUB.
Proof. exact build_capdu_no_ub. Qed.
Print Assumptions C01_decode_in_bounds.

Example C01_nonvacuous :
  all_bytes [0x00; 0xA4; 0x04; 0x00; 0x02; 0xAA; 0xBB; 0x00] /\
  iso_apdu [0x00; 0xA4; 0x04; 0x00; 0x02; 0xAA; 0xBB; 0x00] (mkC 0 0xA4 4 0 [0xAA; 0xBB] 256) /\
  build_capdu [0; 0xA4; 4; 0; 0; 1; 1] = BcOk (mkC 0 0xA4 4 0 [] 257) /\
  build_capdu [0; 0xA4; 4; 0; 3; 1] = BcErr.
Proof.
  split; [apply all_bytesb_spec; reflexivity|]. split; [|split; reflexivity].
  apply (iso_4s 0 0xA4 4 0 [0xAA; 0xBB] 0). unfold zlen; cbn; lia.
Qed.

(** C02: sending a command in blocks is the same as sending it at once: all blocks but the last are
    acknowledged, and the last has exactly the response and the effect (on every part of the device
    state) of the unchained command, for every previous state in which no chain with the same header
    is unfinished. *)
Theorem C02_chained_equals_unchained :
  forall St (A : applets St) d cla ins p1 p2 le b more,
  chainable d cla ins p1 p2 -> fresh_for d cla ins p1 p2 -> zlen (d_buf d) = 1340 ->
  zlen (b ++ concat more) <= 1340 ->
  run A d (blocks cla ins p1 p2 le b more)
  = let '(o, d') := process_apdu A d (mkC cla ins p1 p2 (b ++ concat more) le) in
    (repeat (mkR [] 0x9000) (length more) ++ [o], d').
Proof. exact @chaining_concat. Qed.
Print Assumptions C02_chained_equals_unchained.

Definition idle_openpgp {St} (s : St) : disp St :=
  mkD OPENPGP PivOther (mkX false 0 0 0 0 0) (mkRC 0 0 0) (zeros 1340) s.

Example C02_nonvacuous :
  let d := idle_openpgp (@nil event) in
  chainable d 0 0xDA 0 0x5B /\ fresh_for d 0 0xDA 0 0x5B /\ zlen (d_buf d) = 1340 /\
  zlen ([1; 2] ++ concat [[3]; [4; 5]]) <= 1340.
Proof. cbn. repeat split; unfold is_byte; cbn; try lia; try discriminate; auto. left; reflexivity. Qed.

(** C03 (full statement): whenever the dispatcher executes a command assembled from a chain, its data
    contain every block the host sent in the chain.  False: the block that overflows the buffer is
    answered 6F00 and dropped, but the chain stays open, so a following last block executes the
    command with the dropped block missing in the middle. *)
Theorem C03_no_truncated_execution_refuted :
  exists b1 b2 b3 rs,
    let '(os, d) := run (recorder (fun _ => mkR [] 0x9000) (fun _ => true)) (idle_openpgp [])
                        (blocks 0 0xDA 0 0x5B 0 b1 [b2; b3]) in
    map r_sw os = [0x9000; 0x6F00; 0x9000] /\ rs = d_app d /\
    rs = [EExec OPENPGP (mkC 0 0xDA 0 0x5B (b1 ++ b3) 0)] /\ b2 <> [].
Proof.
  exists (repeat 1 10), (repeat 2 1331), [3]. eexists. vm_compute. repeat split. discriminate.
Qed.
Print Assumptions C03_no_truncated_execution_refuted.

(** C03, what holds: for every history of blocks the assembler behaves exactly as the abstract machine
    [spec_chain]: an executed command carries exactly the blocks accepted with the same header.
    Missing for the full property: a refused block does not abandon the chain. *)
Theorem C03_chaining_history_partial : forall ex buf cs,
  zlen buf = 1340 -> (x_on ex = true -> 0 <= x_lc ex <= 1340) ->
  map abs_out (run_input ex buf cs) = run_spec_chain (chain_abs ex buf) cs.
Proof. intros ex buf cs H1 H2. exact (chaining_history ex buf cs (conj H1 H2)). Qed.
Print Assumptions C03_chaining_history_partial.

Example C03_nonvacuous :
  run_spec_chain (chain_abs (mkX false 0 0 0 0 0) (zeros 1340))
     [mkC 0x10 1 2 3 [7] 0; mkC 0x10 9 9 9 [5] 0; mkC 0 9 9 9 [6] 8]
  = [CWait; CWait; CRun (mkC 0 9 9 9 [5; 6] 8)].
Proof. reflexivity. Qed.

(** C04: the responses to a command and to the GET RESPONSE commands after it are exactly the
    [segments] of the applet's response, and GET RESPONSE does not touch the applets. *)
Theorem C04_response_chaining :
  forall St (A : applets St) d c gs r st,
  plain d c -> zlen (d_buf d) = 1340 -> is_magic c = false ->
  c_ins c <> 0xC0 -> is_select c = false -> chained_applet (d_cur d) -> 0 <= c_le c ->
  exec A (d_cur d) (clamp_le c) (d_app d) = (r, st) -> zlen (r_data r) <= 1340 ->
  Forall get_response gs ->
  fst (run A d (c :: gs)) = segments (r_data r) (r_sw r) (map (fun c => max_le (c_le c)) (c :: gs))
  /\ d_app (snd (run A d (c :: gs))) = st.
Proof. exact @response_chaining. Qed.
Print Assumptions C04_response_chaining.

(** The segments concatenate to the response (as far as the Le values reach). *)
Theorem C04_segments_concat : forall rest sw les, Forall (fun le => 0 <= le) les ->
  concat (map r_data (segments rest sw les)) = firstn (Z.to_nat (fold_right Z.add 0 les)) rest.
Proof. exact segments_concat. Qed.
Print Assumptions C04_segments_concat.

Example C04_nonvacuous :
  let A := mkA (fun _ _ s => (mkR (repeat 7 300) 0x9000, s)) (fun s : unit => s) (fun _ => true) (fun s => s) in
  let d := idle_openpgp tt in
  let c := mkC 0 0xCA 0 0x6E [] 16 in
  plain d c /\ is_magic c = false /\ is_select c = false /\ chained_applet (d_cur d) /\
  map r_sw (fst (run A d [c; mkC 0 0xC0 0 0 [] 20; mkC 0 0xC0 0 0 [] 256; mkC 0 0xC0 0 0 [] 256]))
  = [0x61FF; 0x61FF; 0x6108; 0x9000].
Proof.
  cbn -[run]. repeat split; try (unfold is_byte; cbn; lia); try discriminate; try (left; reflexivity).
  all: try (vm_compute; congruence).
Qed.

(** C05 (full statement): GET RESPONSE only returns bytes of the response to the last executed
    command.  False: for applets answering directly (OATH, ADMIN, NDEF) the old chained response is
    not discarded.  For every device state and applets: after a command [c] of OpenPGP/PIV/FIDO with
    response [r] and a SELECT of OATH, GET RESPONSE returns the old response [r] (its first 7 bytes
    overwritten by the AID). *)
Theorem C05_stale_response_refuted :
  forall St (A : applets St) d c r st g,
  plain d c -> zlen (d_buf d) = 1340 -> is_magic c = false ->
  c_ins c <> 0xC0 -> is_select c = false -> chained_applet (d_cur d) -> 0 <= c_le c ->
  exec A (d_cur d) (clamp_le c) (d_app d) = (r, st) -> zlen (r_data r) <= 1340 ->
  7 <= zlen (r_data r) -> get_response g -> zlen (r_data r) <= c_le g ->
  exists o1 o2 sw d',
    run A d [c; mkC 0 0xA4 4 0 (aid OATH) 256; g]
    = ([o1; o2; mkR (aid OATH ++ skipn 7 (r_data r)) sw], d').
Proof. exact @stale_response. Qed.
Print Assumptions C05_stale_response_refuted.

Example C05_witness :
  let A := mkA (fun a _ s => (match a with OPENPGP => mkR [1; 2; 3; 4; 5; 6; 7; 8; 9] 0x9000
                              | _ => mkR [] 0x9000 end, s)) (fun s : unit => s) (fun _ => true) (fun s => s) in
  map r_data (fst (run A (idle_openpgp tt)
     [mkC 0 0xCA 0 0x6E [] 256; mkC 0 0xA4 4 0 (aid OATH) 256; mkC 0 0xA1 0 0 [] 256; mkC 0 0xC0 0 0 [] 256]))
  = [[1; 2; 3; 4; 5; 6; 7; 8; 9]; []; []; aid OATH ++ [8; 9]].
Proof. vm_compute. reflexivity. Qed.

(** C06: in every history from power-up, every execution is routed by the last SELECT and every
    applet change is preceded by a power-off of the applets. *)
Theorem C06_routing : forall resp ndef cs,
  routed (d_app (snd (run (recorder resp ndef) (disp_init []) cs))).
Proof. exact run_routed. Qed.
Print Assumptions C06_routing.

(** ... a SELECT whose data start with the AID of [a] makes [a] current and executes there, with all
    applets powered off first if the applet changes; *)
Theorem C06_select : forall St (A : applets St) d c a r st,
  plain d c -> zlen (d_buf d) = 1340 -> selects c a -> (a = NDEF -> ndef_on A (d_app d) = true) ->
  exec A a (clamp_le c) (if applet_eqb a (d_cur d) then d_app d else poweroff A (d_app d)) = (r, st) ->
  d_cur (snd (process_apdu A d c)) = a /\ d_app (snd (process_apdu A d c)) = st.
Proof. exact @select_effect. Qed.
Print Assumptions C06_select.

(** ... and a SELECT of an unknown AID or of the disabled NDEF applet changes nothing. *)
Theorem C06_select_unknown : forall St (A : applets St) d c,
  plain d c -> zlen (d_buf d) = 1340 -> is_select c = true ->
  (forall a, selects c a -> a = NDEF /\ ndef_on A (d_app d) = false) ->
  fst (process_apdu A d c) = mkR [] 0x6A82 /\
  d_cur (snd (process_apdu A d c)) = d_cur d /\ d_app (snd (process_apdu A d c)) = d_app d.
Proof. exact @select_unknown. Qed.
Print Assumptions C06_select_unknown.

Example C06_nonvacuous :
  let c1 := mkC 0 0xA4 4 0 (aid OATH) 256 in
  let c2 := mkC 0 0xA1 0 0 [] 256 in
  let c3 := mkC 0 0xA4 4 0 (aid PIV) 256 in
  plain (disp_init (@nil event)) c1 /\ selects c1 OATH /\
  d_app (snd (run (recorder (fun _ => mkR [] 0x9000) (fun _ => true)) (disp_init []) [c1; c2; c3]))
  = [EExec PIV c3; EPoweroff; EExec OATH c2; EExec OATH c1; EPoweroff].
Proof.
  split; [|split; [|vm_compute; reflexivity]].
  - repeat split; try (unfold is_byte; cbn; lia); try discriminate.
  - repeat split; try discriminate. exists []. reflexivity.
Qed.

(** C07: in every interleaving of the atomic steps of acquire and release by any of the owners, at most
    one owner has been granted the buffer without having released it, *)
Theorem C07_exclusive_ownership : forall l a b, Forall real_owner l ->
  let g := snd (run_own O_NONE (fun _ => false) l) in g a = true -> g b = true -> a = b.
Proof. exact own_exclusive. Qed.
Print Assumptions C07_exclusive_ownership.

(** ... an uninterrupted acquire succeeds exactly when the buffer is free or already held by the
    caller, in which case the caller holds it, and otherwise nothing changes; *)
Theorem C07_acquire : forall w o, o <> O_NONE ->
  acquire_apdu_buffer w o = if owner_eqb w O_NONE || owner_eqb w o then (0, o) else (-1, w).
Proof. intros w o Ho. destruct w, o; try congruence; reflexivity. Qed.
Print Assumptions C07_acquire.

(** ... and only the holder can release it. *)
Theorem C07_release : forall w o, o <> O_NONE ->
  release_apdu_buffer w o = if owner_eqb w o || owner_eqb w O_NONE then (0, O_NONE) else (-1, w).
Proof. intros w o Ho. destruct w, o; try congruence; reflexivity. Qed.
Print Assumptions C07_release.

Example C07_nonvacuous :
  let l := [AcqCas O_CCID; AcqCas O_WEBUSB; AcqRead O_WEBUSB; AcqRead O_CCID] in
  Forall real_owner l /\ snd (run_own O_NONE (fun _ => false) l) O_CCID = true /\
  snd (run_own O_NONE (fun _ => false) l) O_WEBUSB = false.
Proof. cbn. repeat split; repeat constructor; discriminate. Qed.
