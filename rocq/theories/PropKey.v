(** C41: imported private keys. *)
From Verif Require Import Base Sys Applet Tlv Key.
Open Scope string_scope. Open Scope list_scope. Open Scope Z_scope.

(** ** Specification *)
(** A data element: tag, BER length, value *)
Definition element_of (tag : Z) (v d : bytes) : Prop := exists l, d = tag :: l ++ v /\ ber_length l (zlen v).
(** A number of at most [size] bytes in a field of [size] bytes *)
Definition right_aligned (size : Z) (v field : bytes) : Prop := zlen v <= size /\ field = zeros (size - zlen v) ++ v.
Definition field (off : Z) (k : ckey) : bytes := slice off (PRIVATE_KEY_LENGTH (m_type (k_meta k))) (k_data k).

(** Policies after the key: elements AA (PIN policy) and AB (touch policy) with one byte in 1..3, up to the first other
    tag.  The arguments are the policies before and after. *)
Inductive policies : bytes -> Z * Z -> Z * Z -> Prop :=
  | pol_nil a : policies [] a a
  | pol_other b d a : b <> 0xAA -> b <> 0xAB -> policies (b :: d) a a
  | pol_pin v d pin touch a : 1 <= v <= 3 -> policies d (v, touch) a -> policies (0xAA :: 1 :: v :: d) (pin, touch) a
  | pol_touch v d pin touch a : 1 <= v <= 3 -> policies d (pin, v) a -> policies (0xAB :: 1 :: v :: d) (pin, touch) a.
Definition policy (k : ckey) : Z * Z := (m_pin (k_meta k), m_touch (k_meta k)).
(** The data stop inside a policy element. *)
Definition truncated (d : bytes) : Prop :=
  exists d' b, (b = 0xAA \/ b = 0xAB) /\ (d = d' ++ [b] \/ d = d' ++ [b; 1]).

(** What a PIV import of a key of type [t] over the slot's key [k] said, when it was accepted as [k'] *)
Definition piv_said (K : crypto) (k : ckey) (d : bytes) (k' : ckey) : Prop :=
  let t := m_type (k_meta k) in
  m_type (k_meta k') = t /\ m_origin (k_meta k') = KEY_ORIGIN_IMPORTED /\ m_usage (k_meta k') = m_usage (k_meta k) /\
  exists pol, policies pol (policy k) (policy k') /\
  if IS_RSA t then
    exists e1 e2 e3 e4 e5 p q dp dq qinv,
      d = e1 ++ e2 ++ e3 ++ e4 ++ e5 ++ pol /\
      element_of 1 p e1 /\ element_of 2 q e2 /\ element_of 3 dp e3 /\ element_of 4 dq e4 /\ element_of 5 qinv e5 /\
      let right := right_aligned (PRIVATE_KEY_LENGTH t) in
      right p (field O_P k') /\ right q (field O_Q k') /\ right dp (field O_DP k') /\ right dq (field O_DQ k') /\
      right qinv (field O_QINV k') /\ slice O_E 4 (k_data k') = [0; 1; 0; 1]
  else
    exists tag pri,
      d = [tag; PRIVATE_KEY_LENGTH t] ++ pri ++ pol /\ zlen pri = PRIVATE_KEY_LENGTH t /\
      (tag = 6 \/ t = ED25519 /\ tag = 7 \/ t = X25519 /\ tag = 8) /\
      field O_PRI k' = (if t =? X25519 then rev pri else pri) /\
      ecc_complete_key K t (field O_PRI k') = Some (pub_of t k').
(** What an OpenPGP import said: [hd] is the template, announcing the lengths of the parts of [dat]. *)
Definition openpgp_said (K : crypto) (t : Z) (d : bytes) (k' : ckey) : Prop :=
  if IS_RSA t then
    exists hd l e p q qinv dp dq rest,
      d = hd ++ [0x5F; 0x48] ++ l ++ (e ++ p ++ q ++ qinv ++ dp ++ dq) ++ rest /\
      ber_length l (zlen (e ++ p ++ q ++ qinv ++ dp ++ dq)) /\
      slice O_E 4 (k_data k') = e /\ field O_P k' = p /\ field O_Q k' = q /\
      let right := right_aligned (PRIVATE_KEY_LENGTH t) in
      right qinv (field O_QINV k') /\ right dp (field O_DP k') /\ right dq (field O_DQ k')
  else
    exists hd l pri pub rest,
      d = hd ++ [0x5F; 0x48] ++ l ++ (pri ++ pub) ++ rest /\ ber_length l (zlen (pri ++ pub)) /\
      right_aligned (PRIVATE_KEY_LENGTH t) pri (field O_PRI k') /\
      ecc_complete_key K t (field O_PRI k') = Some (pub_of t k').

(** The public keys computed by the library have the right size. *)
Definition crypto_sizes (K : crypto) : Prop :=
  forall t pri pub, ecc_complete_key K t pri = Some pub -> zlen pub = PUBLIC_KEY_LENGTH t.

(** ** Reading only what was received *)
Lemma rd_firstn buf len p : p < len -> rd (firstn (Z.to_nat len) buf) p = rd buf p.
Proof.
  intros H. unfold rd. destruct (Z.ltb_spec p 0); [reflexivity|].
  assert (Z.to_nat p < Z.to_nat len)%nat as Hn by lia. revert Hn. generalize (Z.to_nat p), (Z.to_nat len). clear.
  induction buf as [|x buf]; intros a b H; [rewrite firstn_nil; reflexivity|]. destruct b; [lia|]. cbn [firstn].
  destruct a; [reflexivity|]. cbn [nth_error]. apply IHbuf. lia.
Qed.
Lemma sub_firstn buf len p n : p + n <= len -> len <= zlen buf -> sub (firstn (Z.to_nat len) buf) p n = sub buf p n.
Proof.
  intros H Hl. unfold sub, slice. rewrite zlen_firstn.
  destruct (Z.ltb_spec p 0), (Z.ltb_spec n 0); cbn [orb]; try reflexivity.
  replace (Z.min (Z.of_nat (Z.to_nat len)) (zlen buf) <? p + n) with (zlen buf <? p + n) by lia.
  destruct (zlen buf <? p + n); [reflexivity|]. f_equal. rewrite skipn_firstn_comm, firstn_firstn. f_equal. lia.
Qed.
Lemma tlv_firstn buf len p : 0 <= p -> tlv_get_length_safe (drop p (firstn (Z.to_nat len) buf)) (len - p) = tlv_get_length_safe (drop p buf) (len - p).
Proof.
  intros H. assert (Hr : forall i, i < len - p -> rd (drop p (firstn (Z.to_nat len) buf)) i = rd (drop p buf) i).
  { intros i Hi. unfold drop. rewrite skipn_firstn_comm. replace (Z.to_nat len - Z.to_nat p)%nat with (Z.to_nat (len - p)) by lia.
    apply rd_firstn. lia. }
  unfold tlv_get_length_safe. destruct (Z.ltb_spec (len - p) 1); [reflexivity|]. rewrite Hr by lia.
  destruct (rd (drop p buf) 0); [|reflexivity]. destruct (z <? 128); [reflexivity|]. destruct (z =? 129).
  { destruct (Z.ltb_spec (len - p) 2); [reflexivity|]. rewrite Hr by lia. reflexivity. }
  destruct (z =? 130); [|reflexivity]. destruct (Z.ltb_spec (len - p) 3); [reflexivity|]. rewrite !Hr by lia. reflexivity.
Qed.

Section Bounds.
Variable K : crypto.
Variable buf : bytes.
Variable len : Z.
Hypothesis Hlen : 0 <= len <= zlen buf.
Hypothesis Hbuf : all_bytes buf.
Notation cut := (firstn (Z.to_nat len) buf).

(** A parser [f] works on [buf] as on the received part, and reads nothing outside it. *)
Definition inside {A} (f : bytes -> out A) (P : A -> Prop) : Prop :=
  f buf = f cut /\ f buf <> UB /\ (forall a, f buf = Ret a -> P a).
Lemma in_bind {A B} (f : bytes -> out A) (g : A -> bytes -> out B) P Q :
  inside f P -> (forall a, P a -> inside (g a) Q) -> inside (fun b => a <~ f b ;; g a b) Q.
Proof.
  intros (H1 & H2 & H3) Hg. unfold inside, obind. rewrite <- H1. destruct (f buf) as [a|w| |] eqn:E.
  - apply Hg, H3. reflexivity.
  - repeat split; discriminate.
  - repeat split; discriminate.
  - congruence.
Qed.
Lemma in_guard b e : inside (fun _ => oguard b e) (fun _ => b = true).
Proof. unfold inside. destruct b; cbn; repeat split; discriminate. Qed.
Lemma in_ret {A} (a : A) (P : A -> Prop) : P a -> inside (fun _ => Ret a) P.
Proof. intros H. repeat split; [discriminate|]. intros a' [= <-]. exact H. Qed.
Lemma in_exc {A} e (P : A -> Prop) : inside (fun _ => Exc e) P.
Proof. repeat split; discriminate. Qed.
Lemma in_rd p : 0 <= p < len -> inside (fun b => oneed (rd b p)) (fun v => is_byte v /\ rd cut p = Some v).
Proof.
  intros H. unfold inside. rewrite rd_firstn by lia. destruct (rd_some buf p) as [v Hv]; [lia|]. rewrite Hv. cbn.
  split; [reflexivity|]. split; [discriminate|]. intros a [= <-]. split; [eapply rd_byte; eauto|reflexivity].
Qed.
Lemma in_take p n : 0 <= p -> 0 <= n -> p + n <= len ->
  inside (fun b => take b p n) (fun d => zlen d = n /\ sub cut p n = Some d /\ all_bytes d).
Proof.
  intros H1 H2 H3. unfold inside, take. rewrite sub_firstn by lia. rewrite sub_ok by lia. cbn.
  split; [reflexivity|]. split; [discriminate|]. intros a [= <-]. split; [rewrite zlen_slice; lia|]. split; [reflexivity|apply all_bytes_slice, Hbuf].
Qed.
Lemma in_tlv p err : 0 <= p <= len ->
  inside (fun b => tlv_at b p len err)
    (fun r => exists l, drop p cut = l ++ drop (snd r) cut /\ ber_length l (fst r) /\ 0 <= fst r /\ p < snd r /\ fst r + snd r <= len /\ snd r = p + zlen l).
Proof.
  intros H. unfold inside, tlv_at. rewrite tlv_firstn by lia.
  assert (Hz : 0 <= len - p <= zlen (drop p buf)) by (rewrite zlen_drop; lia).
  assert (Hb : all_bytes (drop p buf)) by (unfold drop; apply all_bytes_skipn, Hbuf).
  pose proof (tlv_no_ub (drop p buf) (len - p) ltac:(lia)) as Hn.
  destruct (tlv_get_length_safe (drop p buf) (len - p)) as [|v [] [n|]] eqn:E; try congruence; try (repeat split; discriminate).
  2: { exfalso. apply tlv_false_size in E. destruct E; discriminate. }
  split; [reflexivity|]. split; [discriminate|]. intros [v' p'] [= <- <-]. cbn [fst snd].
  pose proof (tlv_bounds _ _ _ _ Hz Hb E) as (B1 & B2 & B3 & B4).
  apply tlv_exact in E; [|assumption|assumption]. destruct E as (l & rest & Hf & Hber & -> & Hv).
  exists l. split; [|split; [exact Hber|split; [lia|split; [lia|split; [lia|lia]]]]].
  assert (drop p cut = l ++ rest) as ->.
  { rewrite <- Hf. unfold drop. rewrite skipn_firstn_comm. f_equal. lia. }
  f_equal. rewrite <- drop_drop by lia.
  assert (drop p cut = l ++ rest) as -> by (rewrite <- Hf; unfold drop; rewrite skipn_firstn_comm; f_equal; lia).
  unfold drop, zlen. rewrite Nat2Z.id, skipn_app, skipn_all, Nat.sub_diag. reflexivity.
Qed.
Lemma in_mono {A} (f : bytes -> out A) (P Q : A -> Prop) : inside f P -> (forall a, P a -> Q a) -> inside f Q.
Proof. intros (H1 & H2 & H3) H. repeat split; auto. Qed.
Lemma rd_drop1 p v : rd cut p = Some v -> drop p cut = v :: drop (p + 1) cut.
Proof. apply rd_drop. Qed.

Lemma in_element tag p : 0 <= p ->
  inside (fun b => element tag b p len) (fun r => 0 <= fst r /\ p < snd r /\ fst r + snd r <= len).
Proof.
  intros Hp. unfold element.
  eapply in_bind; [apply in_guard|]; cbv beta; intros ? G1.
  eapply in_bind; [apply in_rd; lia|]; cbv beta; intros b _.
  eapply in_bind; [apply in_guard|]; cbv beta; intros ? G2.
  eapply in_mono; [apply in_tlv; lia|]; cbv beta; intros r (l & _ & _ & ? & ? & ? & ?). lia.
Qed.
Lemma in_tag2 a b p : 0 <= p ->
  inside (fun x => tag2 a b x p len) (fun _ => p + 2 < len /\ drop p cut = a :: b :: drop (p + 2) cut).
Proof.
  intros Hp. unfold tag2.
  eapply in_bind; [apply in_guard|]; cbv beta; intros ? G1.
  eapply in_bind; [apply in_rd; lia|]; cbv beta; intros x [_ Hx].
  eapply in_bind; [apply in_guard|]; cbv beta; intros ? G2.
  eapply in_bind; [apply in_rd; lia|]; cbv beta; intros y [_ Hy].
  eapply in_mono; [apply in_guard|]; cbv beta; intros ? G3. split; [lia|].
  rewrite (rd_drop _ _ _ Hx), (rd_drop _ _ _ Hy). replace (p + 1 + 1) with (p + 2) by lia. f_equal; [lia|]. f_equal. lia.
Qed.
End Bounds.

(** ** Fields of the key *)
Definition sized (k : ckey) : Prop := zlen (k_data k) = KEY_SIZE.
Lemma sized_put off d k : sized k -> 0 <= off -> off + zlen d <= KEY_SIZE -> sized (put_at off d k).
Proof. unfold sized, put_at. cbn [k_data]. intros H1 H2 H3. rewrite zlen_splice by lia. exact H1. Qed.
Lemma put_other off d k a n : sized k -> 0 <= off -> off + zlen d <= KEY_SIZE -> 0 <= a -> 0 <= n ->
  a + n <= off \/ off + zlen d <= a -> slice a n (k_data (put_at off d k)) = slice a n (k_data k).
Proof. unfold sized, put_at. cbn [k_data]. intros. apply slice_splice_disj; lia. Qed.
Lemma slice_sub_zero a n b m (l : bytes) : slice a n l = zeros n -> 0 <= n -> 0 <= a -> a <= b -> 0 <= m -> b + m <= a + n ->
  slice b m l = zeros m.
Proof.
  intros H Hn Ha Hb Hm Hbm. replace b with (a + (b - a)) by lia. rewrite <- (slice_slice a n (b - a) m) by lia. rewrite H.
  unfold slice, zeros. replace (Z.to_nat n) with (Z.to_nat (b - a) + (Z.to_nat m + Z.to_nat (n - m - (b - a))))%nat by lia.
  rewrite !repeat_app. rewrite skipn_app, skipn_all2, repeat_length by (rewrite repeat_length; lia).
  rewrite Nat.sub_diag. cbn [skipn app]. rewrite firstn_app, firstn_all2, repeat_length, Nat.sub_diag by (rewrite repeat_length; lia).
  cbn [firstn]. apply app_nil_r.
Qed.
Lemma put_right off size d k : sized k -> 0 <= off -> off + size <= KEY_SIZE -> zlen d <= size ->
  slice off size (k_data k) = zeros size ->
  right_aligned size d (slice off size (k_data (put_at (off + (size - zlen d)) d k))).
Proof.
  intros Hk Ho Hs Hd Hz. pose proof (zlen_nonneg d) as Hd0. split; [exact Hd|].
  replace size with ((size - zlen d) + zlen d) at 1 by lia. rewrite slice_split by lia. f_equal.
  - rewrite put_other by (assumption || lia). eapply slice_sub_zero; [exact Hz|lia..].
  - unfold put_at. cbn [k_data]. apply slice_splice_same; unfold sized in Hk; lia.
Qed.
Lemma zeros_field a n : 0 <= a -> 0 <= n -> a + n <= KEY_SIZE -> slice a n (zeros KEY_SIZE) = zeros n.
Proof.
  intros. apply (slice_sub_zero 0 KEY_SIZE); unfold KEY_SIZE in *; try lia. change 1286 with KEY_SIZE.
  replace KEY_SIZE with (zlen (zeros KEY_SIZE)) at 1 by (rewrite zlen_zeros; unfold KEY_SIZE; lia). apply slice_all.
Qed.
Lemma rsa_size t : IS_RSA t = true -> PRIVATE_KEY_LENGTH t = 128 \/ PRIVATE_KEY_LENGTH t = 192 \/ PRIVATE_KEY_LENGTH t = 256.
Proof.
  unfold IS_RSA, RSA2048, RSA4096. intros H. assert (t = 7 \/ t = 8 \/ t = 9) as [-> | [-> | ->]] by lia; cbn; tauto.
Qed.
Lemma ecc_size t : IS_ECC t = true -> 32 <= PRIVATE_KEY_LENGTH t <= 66 /\ 0 <= PUBLIC_KEY_LENGTH t <= 132.
Proof.
  unfold IS_ECC, X25519. intros H.
  assert (t = 0 \/ t = 1 \/ t = 2 \/ t = 3 \/ t = 4 \/ t = 5 \/ t = 6) as [-> | [-> | [-> | [-> | [-> | [-> | ->]]]]]] by lia; (split; vm_compute; split; discriminate).
Qed.

(** ** OpenPGP *)
Section OpenPGP.
Variable K : crypto.
Hypothesis HK : crypto_sizes K.
Variable buf : bytes.
Variable len : Z.
Hypothesis Hlen : 0 <= len <= zlen buf.
Hypothesis Hbuf : all_bytes buf.
Notation cut := (firstn (Z.to_nat len) buf).

Lemma in_finish t k : sized k -> IS_ECC t = true ->
  inside buf len (fun _ => finish_ecc K t k)
    (fun k' => k_meta k' = k_meta k /\ sized k' /\ pri_of t k' = pri_of t k /\ ecc_complete_key K t (pri_of t k') = Some (pub_of t k')).
Proof.
  intros Hk Ht. unfold finish_ecc. eapply in_bind; [apply in_guard|]; cbv beta; intros ? ?.
  destruct (ecc_complete_key K t (pri_of t k)) as [pub|] eqn:E; [|apply in_exc]. apply in_ret.
  pose proof (HK _ _ _ E) as Hp. pose proof (ecc_size t Ht) as [H1 H2].
  assert (pri_of t (put_at O_PUB pub k) = pri_of t k) as Ep.
  { unfold pri_of. apply put_other; unfold O_PUB, O_PRI, KEY_SIZE; try lia. exact Hk. }
  split; [reflexivity|]. split; [apply sized_put; [exact Hk|unfold O_PUB; lia|unfold O_PUB, KEY_SIZE; lia]|]. split; [exact Ep|].
  rewrite Ep, E. f_equal. unfold pub_of, put_at. cbn [k_data]. rewrite <- Hp. symmetry. apply slice_splice_same; unfold O_PUB, sized, KEY_SIZE in *; lia.
Qed.

Lemma drop_take p n d : sub cut p n = Some d -> drop p cut = d ++ drop (p + n) cut.
Proof. intros H. apply sub_drop in H. apply H. Qed.
Lemma hd_drop p : 0 <= p -> cut = firstn (Z.to_nat p) cut ++ drop p cut.
Proof. intros. unfold drop. symmetry. apply firstn_skipn. Qed.

Lemma openpgp_inside k :
  inside buf len (fun b => ck_parse_openpgp K k b len) (fun k' => openpgp_said K (m_type (k_meta k)) cut k').
Proof.
  unfold ck_parse_openpgp. set (t := m_type (k_meta k)). set (size := PRIVATE_KEY_LENGTH t).
  assert (Hz0 : sized (set_origin KEY_ORIGIN_IMPORTED (mkKey (k_meta k) (zeros KEY_SIZE)))) by (unfold sized; cbn [k_data set_origin]; rewrite zlen_zeros; unfold KEY_SIZE; lia).
  set (k0 := set_origin KEY_ORIGIN_IMPORTED (mkKey (k_meta k) (zeros KEY_SIZE))) in *.
  assert (Ht0 : m_type (k_meta k0) = t) by reflexivity.
  assert (Hzf : forall a n, 0 <= a -> 0 <= n -> a + n <= KEY_SIZE -> slice a n (k_data k0) = zeros n) by (intros; apply zeros_field; assumption).
  clearbody k0. cbv zeta.
  eapply in_bind; [apply in_tag2; try assumption; lia|]; cbv beta; intros ? [T1 _].
  eapply in_bind; [apply in_tlv; try assumption; lia|]; cbv beta; intros [n p] (l & _ & _ & N1 & N2 & N3 & _). cbn [fst snd] in *.
  eapply in_bind; [apply in_guard|]; cbv beta; intros ? ?.
  destruct (IS_ECC t) eqn:Et.
  { pose proof (ecc_size t Et) as [Hs1 Hs2]. fold size in Hs1.
    eapply in_bind; [apply in_element; try assumption; lia|]; cbv beta; intros [pl p2] (P1 & P2 & P3). cbn [fst snd] in *.
    eapply in_bind; [apply in_guard|]; cbv beta; intros ? G. cbv beta in G.
    eapply in_bind with (P := fun v => 0 <= v).
    { destruct (p2 <? p + n); [|apply in_ret; lia].
      eapply in_bind; [apply in_guard|]; cbv beta; intros ? G1. cbv beta in G1.
      eapply in_bind; [apply in_rd; try assumption; lia|]; cbv beta; intros b _. destruct (b =? 0x99); [|apply in_ret; lia].
      eapply in_bind; [apply in_tlv; try assumption; lia|]; cbv beta; intros r (l1 & _ & _ & R1 & _).
      eapply in_bind; [apply in_guard|]; cbv beta; intros ? ?. apply in_ret. exact R1. }
    intros pub_len Hpub. cbv beta in Hpub.
    eapply in_bind; [apply in_tag2; try assumption; lia|]; cbv beta; intros ? [D1 D2].
    eapply in_bind; [apply in_tlv; try assumption; lia|]; cbv beta; intros [n2 p3] (l2 & L1 & L2 & L3 & L4 & L5 & L6). cbn [fst snd] in *.
    eapply in_bind; [apply in_guard|]; cbv beta; intros ? G2. cbv beta in G2.
    eapply in_bind; [apply in_guard|]; cbv beta; intros ? G3. cbv beta in G3.
    eapply in_bind; [apply in_take; try assumption; lia|]; cbv beta; intros d (E1 & E2 & _).
    assert (zlen d <= size) as Hd by lia.
    assert (sized (put_at (O_PRI + (size - pl)) d k0)) as Hsz by (apply sized_put; unfold O_PRI, KEY_SIZE; try lia; exact Hz0).
    eapply in_mono; [apply in_finish; assumption|]; cbv beta; intros k' (M1 & M2 & M3 & M4).
    unfold openpgp_said. assert (IS_RSA t = false) as -> by (unfold IS_ECC, IS_RSA, X25519, RSA2048 in *; lia).
    assert (sub cut (p3 + pl) pub_len = Some (slice (p3 + pl) pub_len cut)) as Hpubd by (apply sub_ok; try lia; rewrite zlen_firstn; lia).
    assert (Hpt : m_type (k_meta k') = t) by (rewrite M1; exact Ht0).
    exists (firstn (Z.to_nat (p + n)) cut), l2, d, (slice (p3 + pl) pub_len cut), (drop (p3 + pl + pub_len) cut).
    split; [|split; [|split]].
    - rewrite (hd_drop (p + n)) at 1 by lia. f_equal. rewrite D2. cbn [app]. do 2 f_equal. rewrite L1. f_equal.
      rewrite (drop_take p3 pl d), (drop_take (p3 + pl) pub_len _ Hpubd) by (assumption || lia). rewrite <- app_assoc. reflexivity.
    - assert (zlen (d ++ slice (p3 + pl) pub_len cut) = n2) as ->; [|exact L2].
      rewrite zlen_app, zlen_slice by lia. rewrite zlen_firstn. lia.
    - unfold field. rewrite Hpt. fold size. change (slice O_PRI size (k_data k')) with (pri_of t k'). rewrite M3. unfold pri_of. fold size.
      rewrite <- E1. apply put_right; unfold O_PRI, KEY_SIZE; try lia; [exact Hz0|]. apply Hzf; unfold KEY_SIZE; lia.
    - unfold field. rewrite Hpt. exact M4. }
  destruct (IS_RSA t) eqn:Er; [|apply in_exc].
  pose proof (rsa_size t Er) as Hs. fold size in Hs.
  eapply in_bind; [apply in_element; try assumption; lia|]; cbv beta; intros [n1 p1] (A1 & A2 & A3). cbn [fst snd] in *.
  eapply in_bind; [apply in_guard|]; cbv beta; intros ? ?.
  eapply in_bind; [apply in_element; try assumption; lia|]; cbv beta; intros [n2 p2] (B1 & B2 & B3). cbn [fst snd] in *.
  eapply in_bind; [apply in_guard|]; cbv beta; intros ? ?.
  eapply in_bind; [apply in_element; try assumption; lia|]; cbv beta; intros [n3 p3] (C1 & C2 & C3). cbn [fst snd] in *.
  eapply in_bind; [apply in_guard|]; cbv beta; intros ? ?.
  eapply in_bind; [apply in_element; try assumption; lia|]; cbv beta; intros [nq p4] (D1 & D2 & D3). cbn [fst snd] in *.
  eapply in_bind; [apply in_guard|]; cbv beta; intros ? Gq. cbv beta in Gq.
  eapply in_bind; [apply in_element; try assumption; lia|]; cbv beta; intros [ndp p5] (F1 & F2 & F3). cbn [fst snd] in *.
  eapply in_bind; [apply in_guard|]; cbv beta; intros ? Gdp. cbv beta in Gdp.
  eapply in_bind; [apply in_element; try assumption; lia|]; cbv beta; intros [ndq p6] (J1 & J2 & J3). cbn [fst snd] in *.
  eapply in_bind; [apply in_guard|]; cbv beta; intros ? Gdq. cbv beta in Gdq.
  eapply in_bind; [apply in_tag2; try assumption; lia|]; cbv beta; intros ? [X1 X2].
  eapply in_bind; [apply in_tlv; try assumption; lia|]; cbv beta; intros [n7 p7] (l2 & L1 & L2 & L3 & L4 & L5 & L6). cbn [fst snd] in *.
  eapply in_bind; [apply in_guard|]; cbv beta; intros ? G7. cbv beta in G7.
  eapply in_bind; [apply in_guard|]; cbv beta; intros ? G8. cbv beta in G8. unfold E_LENGTH in *.
  eapply in_bind; [apply in_take; try assumption; lia|]; cbv beta; intros de (Ze & Se & _).
  eapply in_bind; [apply in_take; try assumption; lia|]; cbv beta; intros dp (Zp & Sp & _).
  eapply in_bind; [apply in_take; try assumption; lia|]; cbv beta; intros dq (Zq & Sq & _).
  eapply in_bind; [apply in_take; try assumption; lia|]; cbv beta; intros dqi (Zqi & Sqi & _).
  eapply in_bind; [apply in_take; try assumption; lia|]; cbv beta; intros ddp (Zdp & Sdp & _).
  eapply in_bind; [apply in_take; try assumption; lia|]; cbv beta; intros ddq (Zdq & Sdq & _).
  eapply in_bind; [apply in_guard|]; cbv beta; intros ? ?. apply in_ret.
  assert (zlen (nbits_of t) = 2) as Zn by reflexivity. set (nb := nbits_of t) in *. clearbody nb.
  set (k1 := put_at O_NBITS nb k0). assert (S1 : sized k1) by (apply sized_put; unfold O_NBITS, KEY_SIZE; try lia; exact Hz0).
  set (k2 := put_at O_E de k1). assert (S2 : sized k2) by (apply sized_put; unfold O_E, KEY_SIZE; try lia; exact S1).
  set (k3 := put_at O_P dp k2). assert (S3 : sized k3) by (apply sized_put; unfold O_P, KEY_SIZE; try lia; exact S2).
  set (k4 := put_at O_Q dq k3). assert (S4 : sized k4) by (apply sized_put; unfold O_Q, KEY_SIZE; try lia; exact S3).
  set (k5 := put_at (O_QINV + (size - nq)) dqi k4). assert (S5 : sized k5) by (apply sized_put; unfold O_QINV, KEY_SIZE; try lia; exact S4).
  set (k6 := put_at (O_DP + (size - ndp)) ddp k5). assert (S6 : sized k6) by (apply sized_put; unfold O_DP, KEY_SIZE; try lia; exact S5).
  set (k7 := put_at (O_DQ + (size - ndq)) ddq k6). assert (S7 : sized k7) by (apply sized_put; unfold O_DQ, KEY_SIZE; try lia; exact S6).
  assert (Hpt : m_type (k_meta k7) = t) by exact Ht0.
  unfold openpgp_said. rewrite Er. fold size.
  exists (firstn (Z.to_nat (p + n)) cut), l2, de, dp, dq, dqi, ddp, ddq, (drop (p7 + 4 + size + size + nq + ndp + ndq) cut).
  assert (Hother : forall a m, 0 <= a -> 0 <= m ->
    (a + m <= O_QINV + (size - nq) \/ O_QINV + size <= a) -> (a + m <= O_DP + (size - ndp) \/ O_DP + size <= a) -> (a + m <= O_DQ + (size - ndq) \/ O_DQ + size <= a) ->
    slice a m (k_data k7) = slice a m (k_data k4)).
  { intros y m Ha Hm Q1 Q2 Q3. unfold k7. rewrite put_other by (try assumption; unfold O_DQ, O_DP, O_QINV, KEY_SIZE in *; lia).
    unfold k6. rewrite put_other by (try assumption; unfold O_DQ, O_DP, O_QINV, KEY_SIZE in *; lia).
    unfold k5. rewrite put_other by (try assumption; unfold O_DQ, O_DP, O_QINV, KEY_SIZE in *; lia). reflexivity. }
  assert (Hbase : forall a m, 0 <= a -> 0 <= m -> O_Q + size <= a -> slice a m (k_data k4) = slice a m (k_data k0)).
  { intros y m Ha Hm Q1. unfold k4. rewrite put_other by (try assumption; unfold O_Q, O_P, O_E, O_NBITS, KEY_SIZE in *; lia).
    unfold k3. rewrite put_other by (try assumption; unfold O_Q, O_P, O_E, O_NBITS, KEY_SIZE in *; lia).
    unfold k2. rewrite put_other by (try assumption; unfold O_Q, O_P, O_E, O_NBITS, KEY_SIZE in *; lia).
    unfold k1. rewrite put_other by (try assumption; unfold O_Q, O_P, O_E, O_NBITS, KEY_SIZE in *; lia). reflexivity. }
  split; [|split; [|split; [|split; [|split]]]].
  - rewrite (hd_drop (p + n)) at 1 by lia. f_equal. rewrite X2. cbn [app]. do 2 f_equal. rewrite L1. f_equal.
    rewrite (drop_take _ _ _ Se), (drop_take _ _ _ Sp), (drop_take _ _ _ Sq), (drop_take _ _ _ Sqi), (drop_take _ _ _ Sdp), (drop_take _ _ _ Sdq).
    rewrite <- !app_assoc. reflexivity.
  - assert (zlen (de ++ dp ++ dq ++ dqi ++ ddp ++ ddq) = n7) as ->; [|exact L2]. rewrite !zlen_app. lia.
  - rewrite Hother by (unfold O_E, O_QINV, O_DP, O_DQ; lia). unfold k4. rewrite put_other by (try assumption; unfold O_Q, O_E, KEY_SIZE in *; lia).
    unfold k3. rewrite put_other by (try assumption; unfold O_P, O_E, KEY_SIZE in *; lia). unfold k2, put_at. cbn [k_data]. rewrite <- Ze.
    apply slice_splice_same; unfold sized, O_E, KEY_SIZE in *; lia.
  - unfold field. rewrite Hpt. fold size. rewrite Hother by (unfold O_P, O_QINV, O_DP, O_DQ; lia). unfold k4. rewrite put_other by (try assumption; unfold O_Q, O_P, KEY_SIZE in *; lia).
    unfold k3, put_at. cbn [k_data]. rewrite <- Zp. apply slice_splice_same; unfold sized, O_P, KEY_SIZE in *; lia.
  - unfold field. rewrite Hpt. fold size. rewrite Hother by (unfold O_Q, O_QINV, O_DP, O_DQ; lia). unfold k4, put_at. cbn [k_data].
    rewrite <- Zq. apply slice_splice_same; unfold sized, O_Q, KEY_SIZE in *; lia.
  - cbv zeta. unfold field. rewrite Hpt. fold size. split; [|split].
    + unfold k7. rewrite put_other by (try assumption; unfold O_DQ, O_QINV, KEY_SIZE in *; lia).
      unfold k6. rewrite put_other by (try assumption; unfold O_DP, O_QINV, KEY_SIZE in *; lia).
      unfold k5. rewrite <- Zqi. apply put_right; try assumption; unfold O_QINV, KEY_SIZE; try lia.
      rewrite Hbase by (unfold O_Q; lia). apply Hzf; unfold KEY_SIZE; lia.
    + unfold k7. rewrite put_other by (try assumption; unfold O_DQ, O_DP, KEY_SIZE in *; lia).
      unfold k6. rewrite <- Zdp. apply put_right; try assumption; unfold O_DP, KEY_SIZE; try lia.
      unfold k5. rewrite put_other by (try assumption; unfold O_DP, O_QINV, KEY_SIZE in *; lia). rewrite Hbase by (unfold O_Q; lia). apply Hzf; unfold KEY_SIZE; lia.
    + unfold k7. rewrite <- Zdq. apply put_right; try assumption; unfold O_DQ, KEY_SIZE; try lia.
      unfold k6. rewrite put_other by (try assumption; unfold O_DQ, O_DP, KEY_SIZE in *; lia).
      unfold k5. rewrite put_other by (try assumption; unfold O_DQ, O_QINV, KEY_SIZE in *; lia). rewrite Hbase by (unfold O_Q; lia). apply Hzf; unfold KEY_SIZE; lia.
Qed.
End OpenPGP.

(** ** PIV *)
Section PIV.
Variable K : crypto.
Hypothesis HK : crypto_sizes K.
Variable buf : bytes.
Variable len : Z.
Hypothesis Hlen : 0 <= len <= zlen buf.
Hypothesis Hbuf : all_bytes buf.
Notation cut := (firstn (Z.to_nat len) buf).
Lemma zlen_cut : zlen cut = len. Proof. rewrite zlen_firstn. lia. Qed.
Lemma cut_end p b : rd cut p = Some b -> p + 1 = len -> cut = firstn (Z.to_nat p) cut ++ [b].
Proof.
  intros H Hp. pose proof (rd_in _ _ _ H) as Hi. rewrite (hd_drop buf len p) at 1 by lia. f_equal.
  rewrite (rd_drop _ _ _ H), drop_end; [reflexivity|lia|rewrite zlen_cut; lia].
Qed.

Lemma pol_parse fuel : forall k p, 0 <= p <= len -> (Z.to_nat (len - p) <= fuel)%nat -> ~ truncated cut ->
  inside buf len (fun b => ck_parse_piv_policies fuel k b p len)
    (fun k' => k_data k' = k_data k /\ m_type (k_meta k') = m_type (k_meta k) /\ m_origin (k_meta k') = m_origin (k_meta k) /\
               m_usage (k_meta k') = m_usage (k_meta k) /\ policies (drop p cut) (policy k) (policy k')).
Proof.
  induction fuel as [|fuel IH]; intros k p Hp Hf Ht; cbn [ck_parse_piv_policies].
  { apply in_ret. do 4 (split; [reflexivity|]). rewrite drop_end; [constructor|lia|rewrite zlen_cut; lia]. }
  destruct (Z.ltb_spec p len) as [Hlt|Hge]; cbn [negb].
  2: { apply in_ret. do 4 (split; [reflexivity|]). rewrite drop_end; [constructor|lia|rewrite zlen_cut; lia]. }
  eapply in_bind; [apply in_rd; try assumption; lia|]; cbv beta; intros b [_ Hb].
  destruct ((b =? 0xAA) || (b =? 0xAB)) eqn:Eb.
  2: { apply in_ret. do 4 (split; [reflexivity|]). rewrite (rd_drop _ _ _ Hb). constructor; lia. }
  destruct (Z.ltb_spec (p + 1) len) as [Hlt1|Hge1].
  2: { exfalso. apply Ht. exists (firstn (Z.to_nat p) cut), b. split; [lia|]. left. apply cut_end; [exact Hb|lia]. }
  eapply in_bind with (P := fun q => q = p + 2 /\ rd cut (p + 1) = Some 1).
  { eapply in_bind; [apply in_rd; try assumption; lia|]; cbv beta; intros l [_ Hl].
    destruct (Z.eqb_spec l 1) as [->|]; cbn [negb]; [apply in_ret; split; [lia|exact Hl]|apply in_exc]. }
  intros q [-> Hl].
  destruct (Z.ltb_spec (p + 2) len) as [Hlt2|Hge2].
  2: { exfalso. apply Ht. exists (firstn (Z.to_nat p) cut), b. split; [lia|]. right.
       rewrite (hd_drop buf len p) at 1 by lia. f_equal. rewrite (rd_drop _ _ _ Hb), (rd_drop _ _ _ Hl), drop_end; [reflexivity|lia|rewrite zlen_cut; lia]. }
  eapply in_bind with (P := fun _ => exists v, rd cut (p + 2) = Some v /\ 1 <= v <= 3).
  { eapply in_bind; [apply in_rd; try assumption; lia|]; cbv beta; intros v [_ Hv].
    eapply in_mono; [apply in_guard|]. cbv beta. intros _ Hg. exists v. split; [exact Hv|].
    unfold PIN_POLICY_ALWAYS, TOUCH_POLICY_CACHED, PIN_POLICY_NEVER, TOUCH_POLICY_NEVER in Hg. destruct (b =? 0xAA); lia. }
  intros _ (v0 & Hv0 & Hr).
  eapply in_bind; [apply in_rd; try assumption; lia|]; cbv beta; intros v [_ Hv]. rewrite Hv in Hv0. injection Hv0 as <-.
  eapply in_mono; [apply IH; try lia; exact Ht|]. cbv beta. intros k' (Q1 & Q2 & Q3 & Q4 & Q5).
  rewrite (rd_drop _ _ _ Hb), (rd_drop _ _ _ Hl). replace (p + 1 + 1) with (p + 2) by lia. rewrite (rd_drop _ _ _ Hv).
  destruct (Z.eqb_spec b 0xAA) as [->|Hn].
  - do 4 (split; [assumption|]). constructor; [exact Hr|]. exact Q5.
  - assert (b = 0xAB) as -> by lia. do 4 (split; [assumption|]). constructor; [exact Hr|]. exact Q5.
Qed.

(** One component of an RSA key *)
Lemma component i off k p : 0 <= p <= len -> sized k -> IS_RSA (m_type (k_meta k)) = true -> 0 <= off -> off + 256 <= KEY_SIZE ->
  slice off 256 (k_data k) = zeros 256 -> forall l Q,
  (forall v e n p', element_of i v e -> drop p cut = e ++ drop p' cut -> p <= p' <= len ->
     let k' := put_at (off + (PRIVATE_KEY_LENGTH (m_type (k_meta k)) - n)) v k in
     right_aligned (PRIVATE_KEY_LENGTH (m_type (k_meta k))) v (field off k') -> sized k' ->
     (forall a m, 0 <= a -> 0 <= m -> a + m <= off \/ off + 256 <= a -> slice a m (k_data k') = slice a m (k_data k)) ->
     inside buf len (fun b => piv_components l k' b p' len) Q) ->
  inside buf len (fun b => piv_components ((i, off) :: l) k b p len) Q.
Proof.
  intros Hp Hk Ht Ho Ho2 Hz l Q H. cbn [piv_components]. pose proof (rsa_size _ Ht) as Hs. set (size := PRIVATE_KEY_LENGTH (m_type (k_meta k))) in *.
  eapply in_bind; [apply in_guard|]; cbv beta; intros _ G1.
  eapply in_bind; [apply in_rd; try assumption; lia|]; cbv beta; intros b [_ Hb].
  eapply in_bind; [apply in_guard|]; cbv beta; intros _ G2.
  eapply in_bind; [apply in_tlv; try assumption; lia|]; cbv beta; intros [n q] (lb & L1 & L2 & L3 & L4 & L5 & L6). cbn [fst snd] in *.
  eapply in_bind; [apply in_guard|]; cbv beta; intros _ G3.
  eapply in_bind; [apply in_take; try assumption; lia|]; cbv beta; intros v (V1 & V2 & V3).
  assert (Hsz : sized (put_at (off + (size - n)) v k)) by (apply sized_put; unfold KEY_SIZE in *; try assumption; lia).
  apply (H v (i :: lb ++ v)).
  - exists lb. split; [reflexivity|]. rewrite V1. exact L2.
  - rewrite (rd_drop _ _ _ Hb), L1, (drop_take buf len q n v V2). cbn [app]. rewrite <- app_assoc. f_equal. lia.
  - lia.
  - unfold field. change (m_type (k_meta (put_at (off + (size - n)) v k))) with (m_type (k_meta k)). fold size.
    rewrite <- V1. apply put_right; unfold KEY_SIZE in *; try assumption; try lia. eapply slice_sub_zero; [exact Hz|lia..].
  - exact Hsz.
  - intros a m Ha Hm Hd. apply put_other; unfold KEY_SIZE in *; try assumption; lia.
Qed.

Lemma piv_inside k : ~ truncated cut ->
  inside buf len (fun b => ck_parse_piv K k b len) (fun k' => piv_said K k cut k').
Proof.
  intros Htr. unfold ck_parse_piv. cbv zeta. set (t := m_type (k_meta k)). set (size := PRIVATE_KEY_LENGTH t).
  assert (Hz0 : sized (set_origin KEY_ORIGIN_IMPORTED (mkKey (k_meta k) (zeros KEY_SIZE)))) by (unfold sized; cbn [k_data set_origin]; rewrite zlen_zeros; unfold KEY_SIZE; lia).
  assert (Hzf : forall a n, 0 <= a -> 0 <= n -> a + n <= KEY_SIZE ->
     slice a n (k_data (set_origin KEY_ORIGIN_IMPORTED (mkKey (k_meta k) (zeros KEY_SIZE)))) = zeros n) by (intros; apply zeros_field; assumption).
  set (k0 := set_origin KEY_ORIGIN_IMPORTED (mkKey (k_meta k) (zeros KEY_SIZE))) in *.
  assert (Ht0 : m_type (k_meta k0) = t) by reflexivity.
  assert (Ho0 : m_origin (k_meta k0) = KEY_ORIGIN_IMPORTED) by reflexivity.
  assert (Hu0 : m_usage (k_meta k0) = m_usage (k_meta k)) by reflexivity.
  assert (Hp0 : policy k0 = policy k) by reflexivity. clearbody k0.
  destruct ((IS_ECC t) && negb (t =? SECP521R1)) eqn:Et.
  { assert (IS_ECC t = true) as Ee by (destruct (IS_ECC t); [reflexivity|discriminate]). pose proof (ecc_size t Ee) as [Hs1 Hs2]. fold size in Hs1.
    eapply in_bind; [apply in_guard|]; cbv beta; intros _ G1.
    eapply in_bind; [apply in_rd; try assumption; lia|]; cbv beta; intros b [_ Hb].
    eapply in_bind; [apply in_guard|]; cbv beta; intros _ G2.
    eapply in_bind; [apply in_rd; try assumption; lia|]; cbv beta; intros l [_ Hl].
    eapply in_bind; [apply in_guard|]; cbv beta; intros _ G3.
    eapply in_bind; [apply in_take; try assumption; lia|]; cbv beta; intros d (D1 & D2 & D3).
    set (pri := if t =? X25519 then swap d else d).
    assert (zlen pri = size) as Hpri by (unfold pri, swap; destruct (t =? X25519); rewrite ?zlen_rev; exact D1).
    eapply in_bind; [apply (in_finish K HK)|]; cbv beta; [apply sized_put; unfold O_PRI, KEY_SIZE; try lia; exact Hz0|exact Ee|].
    intros k1 (M1 & M2 & M3 & M4).
    eapply in_mono; [apply pol_parse; try assumption; lia|]. cbv beta. intros k' (P1 & P2 & P3 & P4 & P5).
    assert (Et' : m_type (k_meta k') = t) by (rewrite P2, M1; exact Ht0).
    assert (Ef : field O_PRI k' = pri).
    { unfold field. rewrite Et', P1. fold size. change (slice O_PRI size (k_data k1)) with (pri_of t k1). rewrite M3. unfold pri_of. fold size.
      unfold put_at. cbn [k_data]. rewrite <- Hpri. apply slice_splice_same; unfold sized, O_PRI, KEY_SIZE in *; lia. }
    unfold piv_said. cbv zeta. fold t. split; [exact Et'|]. split; [rewrite P3, M1; exact Ho0|]. split; [rewrite P4, M1; exact Hu0|].
    exists (drop (2 + size) cut). split.
    { replace (policy k) with (policy k1); [exact P5|]. rewrite <- Hp0. unfold policy. rewrite M1. reflexivity. }
    assert (IS_RSA t = false) as -> by (unfold IS_ECC, IS_RSA, X25519, RSA2048 in *; lia).
    exists b, d. split; [|split; [exact D1|split; [lia|split]]].
    - rewrite <- (drop_0 cut) at 1. rewrite (rd_drop _ _ _ Hb). change (0 + 1) with 1. rewrite (rd_drop _ _ _ Hl). change (1 + 1) with 2.
      rewrite (drop_take buf len 2 size d D2). cbn [app]. fold size. f_equal. f_equal. lia.
    - rewrite Ef. reflexivity.
    - unfold field. rewrite Et', P1. fold size. unfold pub_of. rewrite P1. exact M4. }
  destruct (IS_RSA t) eqn:Er; [|apply in_exc].
  pose proof (rsa_size t Er) as Hs. fold size in Hs.
  assert (zlen (nbits_of t) = 2) as Zn by reflexivity. set (nb := nbits_of t) in *. clearbody nb.
  set (k1 := put_at O_NBITS nb k0). assert (S1 : sized k1) by (apply sized_put; unfold O_NBITS, KEY_SIZE; try lia; exact Hz0).
  set (k2 := put_at O_E [0; 1; 0; 1] k1). assert (S2 : sized k2) by (apply sized_put; unfold O_E, KEY_SIZE; try exact S1; change (zlen [0; 1; 0; 1]) with 4; lia).
  assert (Hz2 : forall a n, 6 <= a -> 0 <= n -> a + n <= KEY_SIZE -> slice a n (k_data k2) = zeros n).
  { intros a n Ha Hn Han. unfold k2. rewrite put_other; try exact S1; unfold O_E, KEY_SIZE in *; change (zlen [0; 1; 0; 1]) with 4; try lia.
    unfold k1. rewrite put_other; try exact Hz0; unfold O_NBITS, KEY_SIZE in *; try lia. apply Hzf; unfold KEY_SIZE; lia. }
  assert (He2 : slice O_E 4 (k_data k2) = [0; 1; 0; 1]).
  { unfold k2, put_at. cbn [k_data]. change 4 with (zlen [0; 1; 0; 1]). apply slice_splice_same; unfold sized, O_E, KEY_SIZE in *; change (zlen [0; 1; 0; 1]) with 4; lia. }
  assert (Ht2 : k_meta k2 = k_meta k0) by reflexivity. clearbody k2.
  assert (Hrt : IS_RSA (m_type (k_meta k2)) = true) by (rewrite Ht2, Ht0; exact Er).
  eapply in_bind with (P := fun r => 0 <= snd r <= len /\ k_meta (fst r) = k_meta k2 /\
     exists e1 e2 e3 e4 e5 p q dp dq qinv,
      cut = e1 ++ e2 ++ e3 ++ e4 ++ e5 ++ drop (snd r) cut /\
      element_of 1 p e1 /\ element_of 2 q e2 /\ element_of 3 dp e3 /\ element_of 4 dq e4 /\ element_of 5 qinv e5 /\
      let right := right_aligned size in
      right p (field O_P (fst r)) /\ right q (field O_Q (fst r)) /\ right dp (field O_DP (fst r)) /\ right dq (field O_DQ (fst r)) /\
      right qinv (field O_QINV (fst r)) /\ slice O_E 4 (k_data (fst r)) = [0; 1; 0; 1]).
  { apply component; [lia|exact S2|exact Hrt|unfold O_P; lia|unfold O_P, KEY_SIZE; lia|apply Hz2; unfold O_P, KEY_SIZE; lia|].
    intros v1 e1 n1 q1 E1 D1 B1 k3 R1 S3 O3.
    apply component; [lia|exact S3|exact Hrt|unfold O_Q; lia|unfold O_Q, KEY_SIZE; lia|rewrite O3 by (unfold O_P, O_Q; lia); apply Hz2; unfold O_Q, KEY_SIZE; lia|].
    intros v2 e2 n2 q2 E2 D2 B2 k4 R2 S4 O4.
    apply component; [lia|exact S4|exact Hrt|unfold O_DP; lia|unfold O_DP, KEY_SIZE; lia|rewrite O4, O3 by (unfold O_P, O_Q, O_DP; lia); apply Hz2; unfold O_DP, KEY_SIZE; lia|].
    intros v3 e3 n3 q3 E3 D3 B3 k5 R3 S5 O5.
    apply component; [lia|exact S5|exact Hrt|unfold O_DQ; lia|unfold O_DQ, KEY_SIZE; lia|rewrite O5, O4, O3 by (unfold O_P, O_Q, O_DP, O_DQ; lia); apply Hz2; unfold O_DQ, KEY_SIZE; lia|].
    intros v4 e4 n4 q4 E4 D4 B4 k6 R4 S6 O6.
    apply component; [lia|exact S6|exact Hrt|unfold O_QINV; lia|unfold O_QINV, KEY_SIZE; lia|rewrite O6, O5, O4, O3 by (unfold O_P, O_Q, O_DP, O_DQ, O_QINV; lia); apply Hz2; unfold O_QINV, KEY_SIZE; lia|].
    intros v5 e5 n5 q5 E5 D5 B5 k7 R5 S7 O7.
    apply in_ret. cbn [fst snd]. split; [lia|]. split; [reflexivity|].
    assert (Hsz : forall kx, k_meta kx = k_meta k2 -> PRIVATE_KEY_LENGTH (m_type (k_meta kx)) = size) by (intros kx ->; rewrite Ht2, Ht0; reflexivity).
    assert (Q2 : k_meta k2 = k_meta k2) by reflexivity. assert (Q3 : k_meta k3 = k_meta k2) by reflexivity. assert (Q4 : k_meta k4 = k_meta k2) by reflexivity.
    assert (Q5 : k_meta k5 = k_meta k2) by reflexivity. assert (Q6 : k_meta k6 = k_meta k2) by reflexivity. assert (Q7 : k_meta k7 = k_meta k2) by reflexivity.
    rewrite (Hsz k2 Q2) in R1. rewrite (Hsz k3 Q3) in R2. rewrite (Hsz k4 Q4) in R3. rewrite (Hsz k5 Q5) in R4. rewrite (Hsz k6 Q6) in R5.
    unfold field in *. rewrite (Hsz k3 Q3) in R1. rewrite (Hsz k4 Q4) in R2. rewrite (Hsz k5 Q5) in R3. rewrite (Hsz k6 Q6) in R4. rewrite (Hsz k7 Q7) in *.
    clearbody k3 k4 k5 k6 k7.
    exists e1, e2, e3, e4, e5, v1, v2, v3, v4, v5.
    split; [rewrite drop_0 in D1; rewrite D1 at 1; rewrite D2, D3, D4, D5; reflexivity|].
    do 5 (split; [assumption|]). cbv zeta. unfold O_P, O_Q, O_DP, O_DQ, O_QINV, O_E in *. split; [|split; [|split; [|split; [|split]]]].
    - rewrite O7, O6, O5, O4 by lia. exact R1.
    - rewrite O7, O6, O5 by lia. exact R2.
    - rewrite O7, O6 by lia. exact R3.
    - rewrite O7 by lia. exact R4.
    - exact R5.
    - rewrite O7, O6, O5, O4, O3 by lia. exact He2. }
  intros [k3 p3]. cbn [fst snd]. intros (B3 & M3 & e1 & e2 & e3 & e4 & e5 & v1 & v2 & v3 & v4 & v5 & C0 & C1 & C2 & C3 & C4 & C5 & R).
  eapply in_bind; [apply in_guard|]; cbv beta; intros _ _.
  eapply in_mono; [apply pol_parse; try assumption; lia|]. cbv beta. intros k' (P1 & P2 & P3 & P4 & P5).
  assert (Et' : m_type (k_meta k') = t) by (rewrite P2, M3, Ht2; exact Ht0).
  unfold piv_said. cbv zeta. fold t. split; [exact Et'|]. split; [rewrite P3, M3, Ht2; exact Ho0|]. split; [rewrite P4, M3, Ht2; exact Hu0|].
  exists (drop p3 cut). split.
  { replace (policy k) with (policy k3); [exact P5|]. rewrite <- Hp0. unfold policy. rewrite M3, Ht2. reflexivity. }
  rewrite Er. fold size. exists e1, e2, e3, e4, e5, v1, v2, v3, v4, v5. split; [exact C0|]. do 5 (split; [assumption|]).
  unfold field in *. rewrite P1, Et' in *. rewrite M3, Ht2, Ht0 in R. exact R.
Qed.
End PIV.

(** ** C41 *)
Theorem C41_openpgp : forall K k buf len, crypto_sizes K -> 0 <= len <= zlen buf -> all_bytes buf ->
  ck_parse_openpgp K k buf len = ck_parse_openpgp K k (firstn (Z.to_nat len) buf) len /\
  ck_parse_openpgp K k buf len <> UB /\
  forall k', ck_parse_openpgp K k buf len = Ret k' -> openpgp_said K (m_type (k_meta k)) (firstn (Z.to_nat len) buf) k'.
Proof. intros K k buf len HK Hlen Hb. exact (openpgp_inside K HK buf len Hlen Hb k). Qed.
Print Assumptions C41_openpgp.

(** Missing for PIV: data which stop inside a policy element, see [C41_piv_overread_refuted]. *)
Theorem C41_piv_partial : forall K k buf len, crypto_sizes K -> 0 <= len <= zlen buf -> all_bytes buf ->
  ~ truncated (firstn (Z.to_nat len) buf) ->
  ck_parse_piv K k buf len = ck_parse_piv K k (firstn (Z.to_nat len) buf) len /\
  ck_parse_piv K k buf len <> UB /\
  forall k', ck_parse_piv K k buf len = Ret k' -> piv_said K k (firstn (Z.to_nat len) buf) k'.
Proof. intros K k buf len HK Hlen Hb Ht. exact (piv_inside K HK buf len Hlen Hb k Ht). Qed.
Print Assumptions C41_piv_partial.

(** A toy library for the examples *)
Definition toy : crypto := mkCrypto
  (fun _ _ => true) (fun t _ => Some (repeat 9 (Z.to_nat (PUBLIC_KEY_LENGTH t))))
  (fun t seed => Some (firstn (Z.to_nat (PRIVATE_KEY_LENGTH t)) (seed ++ zeros 66), repeat 9 (Z.to_nat (PUBLIC_KEY_LENGTH t))))
  (fun _ seed => Some (seed ++ zeros (KEY_SIZE - 32))) (fun _ => []) (fun _ k i => Some (i ++ k)) (fun _ i => Some i)
  (fun _ i => Some i) (fun _ i => inl i) (fun s => s) (fun _ k _ => Some k) (fun k b => Some (map (fun x => Z.lxor x (nth 0 k 0)) b)).
Example toy_sizes : crypto_sizes toy.
Proof. intros t pri pub [= <-]. rewrite zlen_repeat. unfold PUBLIC_KEY_LENGTH.
  assert (H : forall n, 0 <= nth n [64; 64; 96; 132; 64; 32; 32; 256; 384; 512] 0) by (do 10 (destruct n as [|n]; [cbn; lia|]); destruct n; cbn; lia).
  specialize (H (Z.to_nat t)). lia. Qed.
Definition empty_slot (t : Z) : ckey := mkKey (mkMeta t KEY_ORIGIN_NOT_PRESENT SIGN PIN_POLICY_ONCE TOUCH_POLICY_NEVER) (zeros KEY_SIZE).

(** An accepted import with policies (PIN always, touch cached) *)
Example piv_import_ex :
  exists k', ck_parse_piv toy (empty_slot SECP256R1) ([6; 32] ++ repeat 7 32 ++ [0xAA; 1; 3; 0xAB; 1; 3]) 40 = Ret k' /\
  field O_PRI k' = repeat 7 32 /\ policy k' = (3, 3).
Proof. eexists. split; [vm_compute; reflexivity|]. split; vm_compute; reflexivity. Qed.
Example piv_import_ex_complete : ~ truncated ([6; 32] ++ repeat 7 32 ++ [0xAA; 1; 3; 0xAB; 1; 3]).
Proof.
  intros (d & b & [-> | ->] & [H|H]); apply (f_equal (@rev Z)) in H; rewrite (rev_app_distr d) in H; cbn in H; discriminate.
Qed.
Example openpgp_import_ex :
  exists k', ck_parse_openpgp toy (empty_slot SECP256R1) ([0x7F; 0x48; 2; 0x92; 31; 0x5F; 0x48; 31] ++ repeat 7 31) 39 = Ret k' /\
  field O_PRI k' = 0 :: repeat 7 31.
Proof. eexists. split; [vm_compute; reflexivity|]. vm_compute; reflexivity. Qed.

(** The same 36 received bytes store different PIN policies, depending on what an earlier command left in the buffer: one
    that needs no PIN at all, and one that is not a policy. *)
Theorem C41_piv_overread_refuted :
  exists d k1 k2, zlen d = 36 /\
    ck_parse_piv toy (empty_slot SECP256R1) (d ++ [1]) 36 = Ret k1 /\ policy k1 = (PIN_POLICY_NEVER, TOUCH_POLICY_NEVER) /\
    ck_parse_piv toy (empty_slot SECP256R1) (d ++ [0x77]) 36 = Ret k2 /\ policy k2 = (0x77, TOUCH_POLICY_NEVER).
Proof.
  exists ([6; 32] ++ repeat 7 32 ++ [0xAA; 1]). eexists _, _. split; [reflexivity|].
  split; [vm_compute; reflexivity|]. split; [vm_compute; reflexivity|]. split; [vm_compute; reflexivity|]. vm_compute; reflexivity.
Qed.
Print Assumptions C41_piv_overread_refuted.
