(** Model of src/common.c: BER-TLV length parsing. *)
From Verif Require Export Base.
Open Scope Z_scope.

(** Result of [tlv_get_length_safe]: the returned value, [*fail] and [*length_size] (when written);
    [TlvUB] when the code would read outside [data]. *)
Inductive tlv_res := TlvUB | Tlv (val : Z) (failed : bool) (size : option Z).

(** src/common.c:33-37, the final check *)
Definition tlv_finish (val len : Z) (size : Z) : tlv_res :=
  if len <? val + size then Tlv val true (Some size) else Tlv val false (Some size).

(** src/common.c:5-40 [tlv_get_length_safe] *)
Definition tlv_get_length_safe (data : bytes) (len : Z) : tlv_res :=
  if len <? 1 then Tlv 0 true None else
  match rd data 0 with
  | None => TlvUB
  | Some b0 =>
    if b0 <? 0x80 then tlv_finish b0 len 1
    else if b0 =? 0x81 then
      if len <? 2 then Tlv 0 true None else
      match rd data 1 with None => TlvUB | Some b1 => tlv_finish b1 len 2 end
    else if b0 =? 0x82 then
      if len <? 3 then Tlv 0 true None else
      match rd data 1, rd data 2 with
      | Some b1, Some b2 => tlv_finish (Z.lor (u16 (b1 * 256)) b2) len 3
      | _, _ => TlvUB
      end
    else Tlv 0 true None
  end.

(** Specification: the BER definite-length encodings of one, two and three bytes. *)
Inductive ber_length : bytes -> Z -> Prop :=
  | ber1 v : 0 <= v < 0x80 -> ber_length [v] v
  | ber2 v : 0 <= v < 0x100 -> ber_length [0x81; v] v
  | ber3 h l : 0 <= h < 0x100 -> 0 <= l < 0x100 -> ber_length [0x82; h; l] (h * 256 + l).

Lemma land_shift_byte a b n : 0 <= b < 256 -> 0 <= n ->
  Z.testbit (Z.shiftl a 8) n && Z.testbit b n = false.
Proof.
  intros Hb Hn. destruct (Z.lt_ge_cases n 8).
  - rewrite Z.shiftl_spec_low by lia. reflexivity.
  - destruct (Z.eq_dec b 0) as [->|]; [rewrite Z.bits_0; apply andb_false_r|].
    rewrite (Z.bits_above_log2 b n); [apply andb_false_r|lia|].
    apply Z.log2_lt_pow2; [lia|]. apply Z.lt_le_trans with (2 ^ 8); [lia|apply Z.pow_le_mono_r; lia].
Qed.
Lemma lor_byte a b : 0 <= b < 256 -> Z.lor (a * 256) b = a * 256 + b.
Proof.
  intros H. change 256 with (2 ^ 8). rewrite <- Z.shiftl_mul_pow2 by lia.
  assert (Z.land (Z.shiftl a 8) b = 0) as E.
  { apply Z.bits_inj'; intros n Hn. rewrite Z.land_spec, Z.bits_0. apply land_shift_byte; assumption. }
  rewrite <- Z.lxor_lor by exact E. rewrite Z.add_nocarry_lxor by exact E. reflexivity.
Qed.

(** Two bytes glued as the C code does are their big-endian value. *)
Lemma glue16 a b : is_byte a -> is_byte b -> Z.lor (u16 (a * 256)) b = a * 256 + b.
Proof. unfold is_byte, u16; intros. rewrite Z.mod_small by lia. apply lor_byte; lia. Qed.

Lemma tlv_no_ub data len : len <= zlen data -> tlv_get_length_safe data len <> TlvUB.
Proof.
  intros Hl. unfold tlv_get_length_safe, tlv_finish.
  destruct (Z.ltb_spec len 1); [discriminate|].
  destruct (rd_some data 0) as [b0 ->]; [lia|].
  destruct (b0 <? 0x80); [destruct (_ <? _); discriminate|].
  destruct (b0 =? 0x81).
  { destruct (Z.ltb_spec len 2); [discriminate|]. destruct (rd_some data 1) as [b1 ->]; [lia|]. destruct (_ <? _); discriminate. }
  destruct (b0 =? 0x82); [|discriminate].
  destruct (Z.ltb_spec len 3); [discriminate|].
  destruct (rd_some data 1) as [b1 ->]; [lia|]. destruct (rd_some data 2) as [b2 ->]; [lia|].
  destruct (_ <? _); discriminate.
Qed.

Lemma tlv_exact data len v n : 0 <= len <= zlen data -> all_bytes data ->
  tlv_get_length_safe data len = Tlv v false (Some n) <->
  exists enc rest, firstn (Z.to_nat len) data = enc ++ rest /\ ber_length enc v /\ n = zlen enc /\ v <= zlen rest.
Proof.
  intros Hl Hb. split.
  - unfold tlv_get_length_safe, tlv_finish.
    destruct (Z.ltb_spec len 1) as [|H1]; [discriminate|].
    destruct data as [|b0 data]; [change (zlen (@nil Z)) with 0 in Hl; lia|].
    inversion Hb as [|? ? Hb0 Hb1]; subst. rewrite rd_cons_0. rewrite zlen_cons in Hl. unfold is_byte in Hb0.
    destruct (Z.to_nat len) as [|k] eqn:Ek; [lia|]. cbn [firstn].
    destruct (Z.ltb_spec b0 0x80).
    { destruct (Z.ltb_spec len (b0 + 1)); [discriminate|]. intros [= <- <-].
      exists [b0], (firstn k data). split; [reflexivity|]. split; [constructor; lia|].
      split; [reflexivity|]. rewrite zlen_firstn. lia. }
    destruct (Z.eqb_spec b0 0x81) as [->|].
    { destruct (Z.ltb_spec len 2); [discriminate|].
      destruct data as [|b1 data]; [change (zlen (@nil Z)) with 0 in Hl; lia|]. rewrite zlen_cons in Hl.
      rewrite rd_cons_S, rd_cons_0 by lia. inversion Hb1 as [|? ? Hb1' Hb2]; subst.
      destruct (Z.ltb_spec len (b1 + 2)); [discriminate|]. intros [= <- <-].
      destruct k as [|k]; [lia|]. cbn [firstn].
      exists [0x81; b1], (firstn k data). split; [reflexivity|]. split; [constructor; exact Hb1'|].
      split; [reflexivity|]. rewrite zlen_firstn. lia. }
    destruct (Z.eqb_spec b0 0x82) as [->|]; [|discriminate].
    destruct (Z.ltb_spec len 3); [discriminate|].
    destruct data as [|b1 [|b2 data]]; rewrite ?zlen_cons in Hl; [change (zlen (@nil Z)) with 0 in Hl; lia|change (zlen (@nil Z)) with 0 in Hl; lia|].
    rewrite (rd_cons_S _ _ 1), (rd_cons_S _ _ 2), rd_cons_0, rd_cons_S, rd_cons_0 by lia.
    inversion Hb1 as [|? ? Hb1' Hb2]; subst. inversion Hb2 as [|? ? Hb2' Hb3]; subst.
    rewrite glue16 by assumption.
    destruct (Z.ltb_spec len (b1 * 256 + b2 + 3)); [discriminate|]. intros [= <- <-].
    destruct k as [|[|k]]; try lia. cbn [firstn].
    exists [0x82; b1; b2], (firstn k data). split; [reflexivity|]. split; [constructor; assumption|].
    split; [reflexivity|]. rewrite zlen_firstn. lia.
  - intros (enc & rest & Hf & He & -> & Hv).
    assert (zlen enc + zlen rest = len) as Hlen.
    { rewrite <- zlen_app, <- Hf, zlen_firstn. lia. }
    rewrite <- (firstn_skipn (Z.to_nat len) data), Hf, <- app_assoc.
    unfold tlv_get_length_safe, tlv_finish.
    inversion He; subst enc v; autorewrite with zlen in Hlen; pose proof (zlen_nonneg rest); pose proof (zlen_nonneg data);
      autorewrite with zlen; cbn [app]; rewrite rd_cons_0;
      (destruct (Z.ltb_spec len 1); [lia|]).
    + destruct (Z.ltb_spec v0 0x80); [|lia]. destruct (Z.ltb_spec len (v0 + 1)); [lia|]. reflexivity.
    + destruct (Z.ltb_spec 0x81 0x80); [lia|]. change (0x81 =? 0x81) with true. cbv iota.
      destruct (Z.ltb_spec len 2); [lia|]. rewrite rd_cons_S, rd_cons_0 by lia.
      destruct (Z.ltb_spec len (v0 + 2)); [lia|]. reflexivity.
    + change (0x82 <? 0x80) with false. change (0x82 =? 0x81) with false. change (0x82 =? 0x82) with true. cbv iota.
      destruct (Z.ltb_spec len 3); [lia|].
      rewrite (rd_cons_S _ _ 1), (rd_cons_S _ _ 2), rd_cons_0, rd_cons_S, rd_cons_0 by lia.
      rewrite glue16 by assumption.
      destruct (Z.ltb_spec len (h * 256 + l + 3)); [lia|]. reflexivity.
Qed.

(** What callers use: on success the value lies inside the input after the length field. *)
Lemma tlv_bounds data len v n : 0 <= len <= zlen data -> all_bytes data ->
  tlv_get_length_safe data len = Tlv v false (Some n) -> 0 <= v /\ 1 <= n <= 3 /\ v + n <= len /\ v < 65536.
Proof.
  intros Hl Hb H. apply tlv_exact in H; [|assumption|assumption].
  destruct H as (enc & rest & Hf & He & -> & Hv).
  assert (zlen enc + zlen rest = len) by (rewrite <- zlen_app, <- Hf, zlen_firstn; lia).
  inversion He; subst; autorewrite with zlen in *; lia.
Qed.
Lemma tlv_false_size data len v n : tlv_get_length_safe data len = Tlv v false n -> exists k, n = Some k.
Proof.
  unfold tlv_get_length_safe, tlv_finish.
  repeat match goal with |- context [if ?b then _ else _] => destruct b | |- context [match ?o with _ => _ end] => destruct o end;
    intros [= <- <-]; eauto.
Qed.
