(** C47, C78: the NFC block protocol. *)
From Verif Require Import Nfc.
Open Scope list_scope. Open Scope Z_scope.

(** ** Specification: a reader following ISO 14443-4 *)
(** Blocks: [num] is the reader's block number, [ck] the checksum *)
Definition iblock (num : Z) (more : bool) (inf ck : bytes) : bytes := (2 + num + (if more then 0x10 else 0)) :: inf ++ ck.
Definition rblock (nak : bool) (num : Z) (ck : bytes) : bytes := (0xA2 + num + (if nak then 0x10 else 0)) :: ck.
(** What becomes of a block sent by the card: received, or lost, upon which the reader asks again with R(NAK) or R(ACK) *)
Inductive fate := Got | Lost (nak : bool).
Fixpoint gots (cs : list fate) : Z := match cs with [] => 0 | Got :: cs => 1 + gots cs | Lost _ :: cs => gots cs end.
Section Reader.
Context {X : Type}.
Variable proc : X -> bytes -> X * bytes.
Variable ck : bytes.
(** The reader sends the pieces of a command and expects an acknowledgement with its number for all but the last; gives its number,
    and what the card did last *)
Fixpoint send_cmd (num : Z) (pieces : list bytes) (s : nfc (X := X)) : option (Z * list nout * nfc (X := X)) :=
  match pieces with
  | [] => None
  | [c] => match n_turn proc (iblock num false c ck) s with Some (o, s) => Some (num, o, s) | None => None end
  | c :: cs => match n_turn proc (iblock num true c ck) s with
      | Some ([NSend p []], s) => if p =? 0xA2 + num then send_cmd (1 - num) cs s else None
      | _ => None end
  end.
(** The reader collects the pieces of the response: it expects I-blocks with its number and asks for the next piece with R(ACK) and
    the other number; gives the response and its next number *)
Fixpoint fetch (cs : list fate) (num : Z) (got : bytes) (o : list nout) (s : nfc (X := X)) : option (bytes * Z * nfc (X := X)) :=
  match o with
  | [NSend p d] =>
    if p =? 2 + num then match cs with [] => None | Got :: _ => Some (got ++ d, 1 - num, s)
                         | Lost nak :: cs => match n_turn proc (rblock nak num ck) s with Some (o, s) => fetch cs num got o s | None => None end end
    else if p =? 0x12 + num then match cs with [] => None | Got :: cs => match n_turn proc (rblock false (1 - num) ck) s with Some (o, s) => fetch cs (1 - num) (got ++ d) o s | None => None end
                         | Lost nak :: cs => match n_turn proc (rblock nak num ck) s with Some (o, s) => fetch cs num got o s | None => None end end
    else None
  | _ => None
  end.
(** The card is ready for a command whose first block has number [num] *)
Definition ready (num : Z) (s : nfc (X := X)) : Prop := (num = 0 \/ num = 1) /\ n_block s = 1 - num /\ n_in s = 0 /\ zlen (n_buf s) = 1342 /\ zlen (n_rx s) = 32.

(** ** Proofs *)
Hypothesis Hck : zlen ck = 2.
Lemma frame_rx h inf (s : nfc (X := X)) : zlen (n_rx s) = 32 -> zlen inf <= 29 ->
  n_frame (h :: inf ++ ck) s = mkN true (n_block s) (splice (n_rx s) 0 (h :: inf ++ ck)) (zlen inf + 3) (n_inf s) (n_in s) (n_tx s) (n_sent s) (n_last s) (n_buf s) (n_x s) /\
  nth 0 (splice (n_rx s) 0 (h :: inf ++ ck)) 0 = h /\ slice 1 (zlen inf) (splice (n_rx s) 0 (h :: inf ++ ck)) = inf /\ zlen (splice (n_rx s) 0 (h :: inf ++ ck)) = 32.
Proof.
  intros Hr Hi. assert (Hz : zlen (h :: inf ++ ck) = zlen inf + 3) by (rewrite zlen_cons, zlen_app, Hck; lia). unfold n_frame. rewrite Hz. destruct (Z.ltb_spec 32 (zlen inf + 3)); [lia|]. split; [reflexivity|]. split; [reflexivity|]. split.
  - unfold splice. change (firstn (Z.to_nat 0) (n_rx s)) with (@nil Z). cbn [app]. rewrite slice_cons_S by lia. rewrite <- app_assoc. apply slice_0_app.
  - rewrite zlen_splice; lia.
Qed.
Lemma slice_splice off d x : 0 <= off -> off + zlen x <= zlen d -> slice 0 (off + zlen x) (splice d off x) = slice 0 off d ++ x.
Proof.
  intros H0 H1. unfold slice, splice. change (skipn (Z.to_nat 0) ?l) with l. rewrite app_assoc, firstn_app. rewrite app_length, firstn_length. unfold zlen in *.
  replace (Z.to_nat (off + Z.of_nat (length x)) - (Nat.min (Z.to_nat off) (length d) + length x))%nat with 0%nat by lia. rewrite firstn_O, app_nil_r.
  apply firstn_all2. rewrite app_length, firstn_length. lia.
Qed.
Lemma slice_sub a l n b : 0 <= a -> 0 <= l -> a + l <= n -> slice a l b = slice a l (slice 0 n b).
Proof. intros. unfold slice. change (skipn (Z.to_nat 0) b) with b. rewrite skipn_firstn_comm, firstn_firstn. f_equal. lia. Qed.
(** The state while the piece at [a] of the response [r] is on the air *)
Definition sending (r : bytes) (num a l : Z) (s : nfc (X := X)) : Prop :=
  n_block s = num /\ n_in s = 0 /\ zlen (n_buf s) = 1342 /\ zlen (n_rx s) = 32 /\ n_tx s = zlen r /\ n_sent s = a + l /\ n_last s = l /\ l = Z.min 29 (zlen r - a) /\ 0 <= a < zlen r /\ zlen r <= 1342 /\ slice 0 (zlen r) (n_buf s) = r.
Definition piece (r : bytes) (num a : Z) : list nout := [NSend (if a + 29 <? zlen r then 0x12 + num else 2 + num) (slice a (Z.min 29 (zlen r - a)) r)].
Lemma send_spec r num a (again : bool) (s : nfc (X := X)) : (num = 0 \/ num = 1) -> n_block s = num -> n_in s = 0 -> zlen (n_buf s) = 1342 -> zlen (n_rx s) = 32 -> n_tx s = zlen r -> 0 <= a < zlen r -> zlen r <= 1342 -> slice 0 (zlen r) (n_buf s) = r ->
  (if again then n_sent s = a + n_last s /\ 0 <= n_last s <= 29 else n_sent s = a) ->
  exists s', send_buf again s = Some (piece r num a, s') /\ sending r num a (Z.min 29 (zlen r - a)) s' /\ n_x s' = n_x s.
Proof.
  intros Hn Hb Hi Hz Hx Ht Ha Hr Hs Hg. assert (Es : (if again then u16 (n_sent s - n_last s) else n_sent s) = a) by (destruct again; [destruct Hg as [-> Hg]; replace (a + n_last s - n_last s) with a by lia; apply Z.mod_small; lia|exact Hg]).
  unfold send_buf. rewrite Es, Ht. assert (El : u16 (zlen r - a) = zlen r - a) by (apply Z.mod_small; lia). rewrite El. destruct (Z.eqb_spec (zlen r - a) 0); [lia|].
  assert (Em : (if 29 <? zlen r - a then 29 else zlen r - a) = Z.min 29 (zlen r - a)) by (destruct (Z.ltb_spec 29 (zlen r - a)); lia). rewrite Em. set (l := Z.min 29 (zlen r - a)) in *. destruct (Z.ltb_spec 1342 (a + l)); [lia|].
  assert (E16 : u16 (a + l) = a + l) by (apply Z.mod_small; lia). rewrite E16. eexists. split; [f_equal; f_equal|].
  - unfold piece. fold l. f_equal. f_equal.
    + rewrite Hb. assert ((l <? zlen r - a) = (a + 29 <? zlen r)) as -> by lia. destruct (a + 29 <? zlen r); destruct Hn as [-> | ->]; reflexivity.
    + rewrite (slice_sub a l (zlen r)) by lia. rewrite Hs. reflexivity.
  - split; [|reflexivity]. unfold sending. cbn [n_block n_in n_buf n_rx n_tx n_sent n_last n_x]. do 10 (split; [assumption || reflexivity || lia|]). assumption.
Qed.
Lemma fetch_spec r cs : forall num a l (s : nfc (X := X)), (num = 0 \/ num = 1) -> sending r num a l s -> zlen r - a <= 29 * gots cs ->
  exists num' s', fetch cs num (slice 0 a r) (piece r num a) s = Some (r, num', s') /\ ready num' s' /\ n_x s' = n_x s.
Proof.
  induction cs as [|c cs IH]; intros num a l s Hn Hs Hc; pose proof Hs as (S1 & S2 & S3 & S4 & S5 & S6 & S7 & S8 & S9 & S10 & S11); [cbn [gots] in Hc; lia|].
  assert (Hagain : forall nak, exists s1, n_turn proc (rblock nak num ck) s = Some (piece r num a, s1) /\ sending r num a l s1 /\ n_x s1 = n_x s).
  { intros nak. unfold n_turn, rblock. destruct (frame_rx (0xA2 + num + (if nak then 0x10 else 0)) [] s S4 ltac:(change (zlen (@nil Z)) with 0; lia)) as (F1 & F2 & _ & F4). cbn [app] in F1, F2, F4. rewrite F1. unfold n_loop. cbn [n_send negb n_rx n_block n_inf]. rewrite F2.
    set (s0 := mkN _ _ _ _ _ _ _ _ _ _ _). destruct (send_spec r num a true s0) as (s1 & E1 & E2 & E3); try assumption; [cbn [s0 n_sent n_last]; lia|].
    exists s1. rewrite <- S8 in E2. split; [|auto]. rewrite S1. destruct nak; destruct Hn as [-> | ->]; exact E1. }
  cbn [fetch]. unfold piece at 1. destruct (Z.ltb_spec (a + 29) (zlen r)) as [El|El].
  - assert ((0x12 + num =? 2 + num) = false) as -> by lia. rewrite Z.eqb_refl. destruct c as [|nak]; cbn [gots] in Hc.
    + unfold n_turn, rblock. destruct (frame_rx (0xA2 + (1 - num) + 0) [] s S4 ltac:(change (zlen (@nil Z)) with 0; lia)) as (F1 & F2 & _ & F4). cbn [app] in F1, F2, F4. rewrite F1. unfold n_loop. cbn [n_send negb n_rx n_block n_inf]. rewrite F2.
      set (s0 := mkN _ _ _ _ _ _ _ _ _ _ _). destruct (send_spec r (1 - num) (a + l) false (n_flip s0)) as (s1 & E1 & E2 & E3); try assumption; [lia| |lia|].
      { cbn [n_flip s0 n_block]. rewrite S1. destruct Hn as [-> | ->]; reflexivity. }
      assert (Ef : slice 0 a r ++ slice a (Z.min 29 (zlen r - a)) r = slice 0 (a + l) r) by (rewrite <- S8; symmetry; apply slice_split; lia).
      destruct (IH (1 - num) (a + l) (Z.min 29 (zlen r - (a + l))) s1) as (num' & s' & G1 & G2 & G3); [lia|exact E2|lia|].
      exists num', s'. rewrite S1. split; [|split; [exact G2|rewrite G3, E3; reflexivity]]. rewrite Ef. destruct Hn as [-> | ->]; cbn [Z.land Z.eqb negb]; change (Z.land _ 192 =? 0) with false; cbv iota.
      * change (Z.land (0xA2 + (1 - 0) + 0) 192 =? 128) with true. change (Z.land (0xA2 + (1 - 0) + 0) 178 =? 162) with true. change (negb (Z.land (0xA2 + (1 - 0) + 0) 1 =? 0)) with true. cbv iota. rewrite E1. exact G1.
      * change (Z.land (0xA2 + (1 - 1) + 0) 192 =? 128) with true. change (Z.land (0xA2 + (1 - 1) + 0) 178 =? 162) with true. change (negb (Z.land (0xA2 + (1 - 1) + 0) 1 =? 1)) with true. cbv iota. rewrite E1. exact G1.
    + destruct (Hagain nak) as (s1 & -> & E2 & E3). destruct (IH num a l s1 Hn E2 Hc) as (num' & s' & G1 & G2 & G3). exists num', s'. rewrite <- E3. auto.
  - rewrite Z.eqb_refl. destruct c as [|nak]; cbn [gots] in Hc.
    + exists (1 - num), s. split; [|split; [|reflexivity]].
      * rewrite <- slice_split by lia. replace (a + Z.min 29 (zlen r - a)) with (zlen r) by lia. rewrite slice_all. reflexivity.
      * unfold ready. repeat (split; [assumption || lia|]). assumption.
    + destruct (Hagain nak) as (s1 & -> & E2 & E3). destruct (IH num a l s1 Hn E2 Hc) as (num' & s' & G1 & G2 & G3). exists num', s'. rewrite <- E3. auto.
Qed.
Lemma cmd_spec pieces : forall num pre (s : nfc (X := X)) x' r, pieces <> [] -> (num = 0 \/ num = 1) -> n_block s = 1 - num -> zlen (n_buf s) = 1342 -> zlen (n_rx s) = 32 -> n_in s = zlen pre -> slice 0 (zlen pre) (n_buf s) = pre ->
  Forall (fun c => zlen c <= 29) pieces -> zlen (pre ++ concat pieces) <= 1340 -> proc (n_x s) (pre ++ concat pieces) = (x', r) -> 1 <= zlen r <= 1342 ->
  exists num' s', (num' = 0 \/ num' = 1) /\ send_cmd num pieces s = Some (num', NExec (pre ++ concat pieces) r :: piece r num' 0, s') /\ sending r num' 0 (Z.min 29 (zlen r)) s' /\ n_x s' = x'.
Proof.
  induction pieces as [|c pieces IH]; intros num pre s x' r Hne Hn Hb Hz Hx Hi Hp Hf Hl Hpr Hr; [contradiction|]. inversion Hf as [|? ? Hc Hf']; subst. cbn [concat] in Hl, Hpr. rewrite app_assoc in Hl, Hpr. assert (Hlc : zlen pre + zlen c <= 1340) by (rewrite !zlen_app in Hl; pose proof (zlen_nonneg (concat pieces)); lia).
  pose proof (zlen_nonneg pre) as Hpre0. pose proof (zlen_nonneg c) as Hc0.
  assert (Hsp : slice 0 (zlen (pre ++ c)) (splice (n_buf s) (zlen pre) c) = pre ++ c) by (rewrite zlen_app, slice_splice by lia; rewrite Hp; reflexivity).
  destruct pieces as [|c2 pieces].
  - cbn [send_cmd concat] in *. rewrite app_nil_r in *. unfold n_turn, iblock. destruct (frame_rx (2 + num + 0) c s Hx Hc) as (F1 & F2 & F3 & F4). rewrite F1. unfold n_loop. cbn [n_send negb n_rx n_block n_inf]. rewrite F2.
    assert (Z.land (2 + num + 0) 0xC0 = 0 /\ Z.land (2 + num + 0) 0x10 = 0) as [-> ->] by (destruct Hn as [-> | ->]; split; reflexivity). rewrite Z.eqb_refl. unfold n_take. cbn [n_flip n_rxn n_in n_rx n_buf]. rewrite Hi. replace (zlen c + 3 - 3) with (zlen c) by lia.
    assert ((zlen c <? 0) || (1342 <? zlen pre + zlen c) = false) as -> by lia. cbn [n_in]. destruct (Z.ltb_spec 1340 (zlen pre + zlen c)); [lia|]. cbn [negb n_buf n_x n_send n_block n_rx n_rxn n_last n_flip]. rewrite F3. rewrite <- zlen_app, Hsp. rewrite Hpr. destruct (Z.ltb_spec 1342 (zlen r)); [lia|].
    set (s2 := mkN _ _ _ _ _ _ _ _ _ _ _). assert (Hz2 : zlen (splice (n_buf s) (zlen pre) c) = 1342) by (rewrite zlen_splice; lia).
    assert (Hb2 : n_block s2 = num) by (cbn [s2 n_block]; rewrite Hb; destruct Hn as [-> | ->]; reflexivity).
    destruct (send_spec r num 0 false s2) as (s3 & E1 & E2 & E3); try assumption; try reflexivity. { change (zlen (splice (splice (n_buf s) (zlen pre) c) 0 r) = 1342); rewrite zlen_splice; lia. } { lia. } {cbn [s2 n_buf]; pose proof (slice_splice 0 (splice (n_buf s) (zlen pre) c) r ltac:(lia) ltac:(lia)) as Hq; rewrite Z.add_0_l in Hq; rewrite Hq; reflexivity. }
    rewrite E1. exists num, s3. rewrite Z.sub_0_r in E2. split; [exact Hn|]. split; [reflexivity|]. split; [exact E2|exact E3].
  - assert (Hsc : send_cmd num (c :: c2 :: pieces) s = match n_turn proc (iblock num true c ck) s with Some ([NSend p []], s) => if p =? 0xA2 + num then send_cmd (1 - num) (c2 :: pieces) s else None | _ => None end) by reflexivity. rewrite Hsc.
    unfold n_turn, iblock. destruct (frame_rx (2 + num + 16) c s Hx Hc) as (F1 & F2 & F3 & F4). rewrite F1. unfold n_loop. cbn [n_send negb n_rx n_block n_inf]. rewrite F2.
    assert (Z.land (2 + num + 16) 0xC0 = 0 /\ Z.land (2 + num + 16) 0x10 = 16) as [-> ->] by (destruct Hn as [-> | ->]; split; reflexivity). rewrite Z.eqb_refl. change (16 =? 0) with false. unfold n_take. cbn [n_flip n_rxn n_in n_rx n_buf]. rewrite Hi. replace (zlen c + 3 - 3) with (zlen c) by lia.
    assert ((zlen c <? 0) || (1342 <? zlen pre + zlen c) = false) as -> by lia. cbn [n_in]. destruct (Z.ltb_spec 1340 (zlen pre + zlen c)); [lia|]. cbn [negb]. unfold n_ack. cbn [n_block n_flip]. rewrite Hb.
    assert ((Z.lor 162 (Z.lxor (1 - num) 1) =? 162 + num) = true) as -> by (destruct Hn as [-> | ->]; reflexivity). rewrite F3. set (s2 := mkN _ _ _ _ _ _ _ _ _ _ _).
    destruct (IH (1 - num) (pre ++ c) s2 x' r) as (num' & s' & G1 & G2 & G3 & G4); try assumption; [discriminate|lia|cbn [s2 n_block n_flip]; destruct Hn as [-> | ->]; reflexivity|cbn [s2 n_buf]; rewrite zlen_splice; lia|cbn [s2 n_in]; rewrite zlen_app; reflexivity|].
    exists num', s'. split; [exact G1|]. split; [|auto]. change (concat (c :: c2 :: pieces)) with (c ++ concat (c2 :: pieces)). rewrite (app_assoc pre). exact G2.
Qed.

(** ** C47 *)
(** A command of at most 1340 bytes, cut into any pieces of at most 29 bytes, is executed exactly once, with exactly its bytes, and
    whichever pieces of the response are lost, any number of times, the reader gets exactly the response.  The card is then ready
    for the next command.  Partial: the pieces of the command, their acknowledgements and the reader's R-blocks arrive. *)
Theorem C47_exchange_partial num pieces s x' r cs : ready num s -> pieces <> [] -> Forall (fun c => zlen c <= 29) pieces -> zlen (concat pieces) <= 1340 ->
  proc (n_x s) (concat pieces) = (x', r) -> 1 <= zlen r <= 1342 -> zlen r <= 29 * gots cs ->
  exists num1 o s1 num2 s2, send_cmd num pieces s = Some (num1, NExec (concat pieces) r :: o, s1) /\ fetch cs num1 [] o s1 = Some (r, num2, s2) /\ ready num2 s2 /\ n_x s2 = x'.
Proof.
  intros (R1 & R2 & R3 & R4 & R5) Hne Hf Hl Hp Hr Hc. destruct (cmd_spec pieces num [] s x' r) as (num1 & s1 & G1 & G2 & G3 & G4); try assumption; [reflexivity|].
  destruct (fetch_spec r cs num1 0 (Z.min 29 (zlen r)) s1 G1 G3 ltac:(lia)) as (num2 & s2 & H1 & H2 & H3). exists num1, (piece r num1 0), s1, num2, s2. split; [exact G2|]. split; [exact H1|]. split; [exact H2|congruence].
Qed.
End Reader.

(** ** Concrete runs *)
Definition echo (x : Z) (d : bytes) : Z * bytes := (x + 1, firstn 1340 d ++ [0x90; 0x00]).
Definition ck0 : bytes := [0; 0].
Definition cmd40 : bytes := map Z.of_nat (seq 0 40).
Definition cmd100 : bytes := map Z.of_nat (seq 0 100).
Fixpoint turns (fs : list bytes) (s : nfc (X := Z)) : option (list (list nout) * nfc (X := Z)) :=
  match fs with
  | [] => Some ([], s)
  | f :: fs => match n_turn echo f s with Some (o, s) => match turns fs s with Some (os, s) => Some (o :: os, s) | None => None end | None => None end
  end.
Definition nouts (z : option (list (list nout) * nfc (X := Z))) : option (list (list nout)) := option_map fst z.

Lemma ready_init x : ready (X := Z) 0 (n_init x).
Proof. unfold ready, n_init. cbn [n_block n_in n_buf n_rx]. rewrite !zlen_zeros by lia. lia. Qed.
(** A command of 100 bytes in four pieces; of the response's four pieces the second is lost twice *)
Example exchange_ex : let ps := [firstn 29 cmd100; firstn 29 (skipn 29 cmd100); firstn 20 (skipn 58 cmd100); skipn 78 cmd100] in concat ps = cmd100 /\ Forall (fun c => zlen c <= 29) ps /\
  match send_cmd echo ck0 0 ps (n_init 0) with
  | Some (num, NExec d r :: o, s) => d = cmd100 /\ r = cmd100 ++ [0x90; 0x00] /\ option_map (fun z => fst (fst z)) (fetch echo ck0 [Got; Lost true; Lost false; Got; Got; Got] num [] o s) = Some r
  | _ => False end.
Proof. cbv zeta. split; [vm_compute; reflexivity|]. split; [repeat constructor; vm_compute; discriminate|]. vm_compute. auto. Qed.

(** A frame of two bytes makes the card copy a negative number of bytes. *)
Theorem C47_short_frame_refuted : n_turn echo [2; 0] (n_init 0) = None.
Proof. vm_compute. reflexivity. Qed.
(** A command of more than 1342 bytes is written past the end of the buffer before its length is checked. *)
Theorem C47_overflow_refuted : exists fs, Forall (fun f => zlen f <= 32) fs /\ turns fs (n_init 0) = None.
Proof. exists (repeat (iblock 0 true (repeat 0xAA 29) ck0) 47). split; [apply Forall_forall; intros f Hf; apply repeat_spec in Hf; subst; vm_compute; discriminate|vm_compute; reflexivity]. Qed.
(** If the acknowledgement of a piece of a command is lost, the reader asks again with R(NAK) and gets, instead of the
    acknowledgement, an I-block that repeats the end of the previous response, whose place the command has taken meanwhile. *)
Theorem C47_lost_ack_refuted : exists o s,
  turns [iblock 0 false (firstn 20 cmd40) ck0; iblock 1 true (firstn 29 cmd100) ck0] (n_init 0) = Some (o, s) /\ nth 1 o [] = [NSend 0xA3 []] /\
   nouts (turns [rblock true 1 ck0] s) = Some [[NSend 3 (firstn 22 cmd100)]].
Proof. eexists _, _. split; [vm_compute; reflexivity|]. split; vm_compute; reflexivity. Qed.
(** With a chip that reports a corrupted block as an error (FM11NC) a command may be executed twice: its response is lost, the
    reader's R(NAK) is corrupted and resets the card, the card answers the next R(NAK) with R(ACK) and the other number, and
    so the reader must send its block again. *)
Theorem C47_executed_twice_refuted : exists o1 s1 o2 s2 o3 s3, let cmd := iblock 0 false (firstn 20 cmd40) ck0 in
  n_turn echo cmd (n_init 0) = Some (o1, s1) /\ n_turn echo (rblock true 0 ck0) (n_error s1) = Some (o2, s2) /\ o2 = [NSend 0xA3 []] /\ n_turn echo cmd s2 = Some (o3, s3) /\
  n_x s3 = 2 /\ In (NExec (firstn 20 cmd40) (firstn 20 cmd40 ++ [0x90; 0x00])) o1 /\ In (NExec (firstn 20 cmd40) (firstn 20 cmd40 ++ [0x90; 0x00])) o3.
Proof. eexists _, _, _, _, _, _. cbv zeta. split; [vm_compute; reflexivity|]. split; [vm_compute; reflexivity|]. split; [reflexivity|]. split; [vm_compute; reflexivity|]. split; [reflexivity|]. split; left; reflexivity. Qed.

(** ** C78 *)
(** C78 is violated: after a response was fetched, a reader that goes on sending acknowledgements is sent whatever lies behind the
    response in the buffer: here the rest of an earlier, longer response; *)
Definition ask (n : nat) : list bytes := map (fun i => rblock false (Z.of_nat i mod 2) ck0) (seq 0 n).
Theorem C78_reveals_refuted : exists fs s, nouts (turns fs (n_init 0)) <> None /\ turns fs (n_init 0) = Some ([[NSend 162 []]; [NSend 163 []]; [NSend 162 []]; [NExec cmd100 (cmd100 ++ [0x90; 0x00]); NSend 0x13 (firstn 29 cmd100)]; [NExec [1; 2; 3] [1; 2; 3; 0x90; 0x00]; NSend 2 [1; 2; 3; 0x90; 0x00]]; []], s) /\
  nouts (turns (ask 2) s) = Some [[NSend 2 (firstn 29 (skipn 5 cmd100))]; [NSend 3 (firstn 29 (skipn 34 cmd100))]].
Proof.
  exists [iblock 0 true (firstn 29 cmd100) ck0; iblock 1 true (firstn 29 (skipn 29 cmd100)) ck0; iblock 0 true (firstn 29 (skipn 58 cmd100)) ck0; iblock 1 false (skipn 87 cmd100) ck0; iblock 0 false [1; 2; 3] ck0; rblock false 1 ck0].
  eexists. split; [vm_compute; discriminate|]. split; [vm_compute; reflexivity|]. vm_compute. reflexivity.
Qed.
(** and in the end memory behind the buffer. *)
Theorem C78_overread_refuted : exists fs, Forall (fun f => zlen f <= 32) fs /\ turns fs (n_init 0) = None /\ Forall (fun f => 3 <= zlen f) fs.
Proof.
  exists ([iblock 0 false [1; 2; 3] ck0; rblock false 1 ck0] ++ ask 47). split; [|split; [vm_compute; reflexivity|]]; apply Forall_forall; intros f Hf; apply in_app_or in Hf; (destruct Hf as [[<-|[<-|[]]]|Hf]; [vm_compute; discriminate|vm_compute; discriminate|]); apply in_map_iff in Hf; destruct Hf as (i & <- & _); vm_compute; discriminate.
Qed.
(** A reader that follows the protocol (asks only for pieces that were announced, or again for the last one) gets only bytes of the
    response of its own command. *)
Theorem C78_fetch_partial X (proc : X -> bytes -> X * bytes) ck num pieces s x' r cs num1 o s1 b num2 s2 : zlen ck = 2 -> ready num s -> pieces <> [] -> Forall (fun c => zlen c <= 29) pieces -> zlen (concat pieces) <= 1340 ->
  proc (n_x s) (concat pieces) = (x', r) -> 1 <= zlen r <= 1342 -> send_cmd proc ck num pieces s = Some (num1, o, s1) -> fetch proc ck cs num1 [] (tl o) s1 = Some (b, num2, s2) -> b = r.
Proof.
  intros Hck Hr Hne Hf Hl Hp Hz Hs Hb. destruct (C47_exchange_partial proc ck Hck num pieces s x' r (cs ++ repeat Got 100) Hr Hne Hf Hl Hp Hz) as (n1 & o1 & t1 & n2 & t2 & E1 & E2 & _).
  { assert (G : forall a b, gots (a ++ b) = gots a + gots b) by (induction a as [|[|] a IH]; intros; cbn [gots app]; rewrite ?IH; lia). rewrite G. assert (0 <= gots cs) by (clear; induction cs as [|[|] cs IH]; cbn [gots]; lia). change (gots (repeat Got 100)) with 100. lia. }
  assert (n1 = num1 /\ o = NExec (concat pieces) r :: o1 /\ t1 = s1) as (-> & -> & ->) by (repeat split; congruence). cbn [tl] in Hb.
  assert (Hx : forall cs cs2 num got o (s : nfc (X := X)) z, fetch proc ck cs num got o s = Some z -> fetch proc ck (cs ++ cs2) num got o s = Some z).
  { clear. induction cs as [|c cs IH]; intros cs2 num got o s z H; cbn [fetch app] in H |- *; destruct o as [|[p d|] [|]]; try discriminate; (destruct (p =? 2 + num); [|destruct (p =? 18 + num); [|discriminate]]); try discriminate.
    - destruct c as [|nak]; [exact H|]. destruct (n_turn proc (rblock nak num ck) s) as [[o1 s1]|]; [|discriminate]. apply IH. exact H.
    - destruct c as [|nak]; [destruct (n_turn proc (rblock false (1 - num) ck) s) as [[o1 s1]|]|destruct (n_turn proc (rblock nak num ck) s) as [[o1 s1]|]]; try discriminate; apply IH; exact H. }
  rewrite (Hx _ _ _ _ _ _ _ Hb) in E2. congruence.
Qed.
Print Assumptions C47_exchange_partial. Print Assumptions C47_short_frame_refuted. Print Assumptions C47_overflow_refuted. Print Assumptions C47_lost_ack_refuted. Print Assumptions C47_executed_twice_refuted.
Print Assumptions C78_reveals_refuted. Print Assumptions C78_overread_refuted. Print Assumptions C78_fetch_partial.
