(** C59: the RP ID that is stored with a credential. *)
From Verif Require Import CtapParse CtapFrame CtapToy.
Open Scope string_scope. Open Scope list_scope. Open Scope Z_scope.

(** ** Specification (CTAP 2.1, 6.8.7) *)
(** The protocol of an RP ID: up to and with its first colon, if it has one *)
Definition protocol (rp prot : bytes) : Prop :=
  (exists a b, rp = a ++ 58 :: b /\ ~ In 58 a /\ prot = a ++ [58]) \/ ~ In 58 rp /\ prot = [].
Definition ellipsis : bytes := [0xe2; 0x80; 0xa6].
Definition stored_as (rp st : bytes) : Prop :=
  (length rp <= 32)%nat /\ st = rp \/
  (32 < length rp)%nat /\ exists prot, protocol rp prot /\
    ((30 <= length prot)%nat /\ st = firstn 32 prot \/
     (length prot < 30)%nat /\ exists pre tail, rp = pre ++ tail /\ st = prot ++ ellipsis ++ tail /\ length st = 32%nat).

(** ** Proof *)
Lemma memchr_some c l i : memchr c l = Some i -> exists a b, l = a ++ c :: b /\ ~ In c a /\ i = zlen a.
Proof.
  revert i. induction l as [|x l IH]; intros i H; cbn [memchr] in H; [discriminate|]. destruct (x =? c) eqn:E.
  - injection H as <-. exists [], l. split; [replace x with c by lia; reflexivity|]. split; [intros []|reflexivity].
  - destruct (memchr c l) as [j|]; [|discriminate]. injection H as <-. destruct (IH j eq_refl) as (a & b & -> & N & ->). exists (x :: a), b.
    split; [reflexivity|]. split; [intros [->|H]; [lia|auto]|]. unfold zlen. cbn [length]. lia.
Qed.
Lemma memchr_none c l : memchr c l = None -> ~ In c l.
Proof.
  induction l as [|x l IH]; intros H; cbn [memchr] in H; [intros []|]. destruct (x =? c) eqn:E; [discriminate|]. destruct (memchr c l); [discriminate|].
  intros [->|Hi]; [lia|exact (IH eq_refl Hi)].
Qed.
Lemma put0 src buf : firstn (length src) (put_at 0 src buf) = src.
Proof. unfold put_at. cbn [Z.to_nat firstn app]. rewrite firstn_app, Nat.sub_diag, firstn_all. cbn [firstn]. apply app_nil_r. Qed.
Lemma put_len off src buf : 0 <= off -> off + zlen src <= zlen buf -> length (put_at off src buf) = length buf.
Proof. intros H1 H2. unfold put_at, zlen in *. rewrite !app_length, firstn_length, skipn_length. lia. Qed.
Lemma put_app a src buf : firstn (length a) buf = a -> (length a <= length buf)%nat -> firstn (length a + length src) (put_at (zlen a) src buf) = a ++ src.
Proof.
  intros H1 H2. unfold put_at, zlen. rewrite Nat2Z.id, H1. rewrite firstn_app. rewrite firstn_all2 by lia. replace (length a + length src - length a)%nat with (length src + 0)%nat by lia.
  rewrite firstn_app_2. cbn [firstn]. rewrite app_nil_r. reflexivity.
Qed.
Theorem C59_truncation (buf rp : bytes) : length buf = 32%nat ->
  let '(b, n) := maybe_truncate_rpid buf rp in length b = 32%nat /\ 0 <= n <= 32 /\ stored_as rp (firstn (Z.to_nat n) b).
Proof.
  intros Hb. unfold maybe_truncate_rpid, MAX_STORED_RPID_LENGTH. destruct (zlen rp <=? 32) eqn:El.
  - unfold zlen in *. split; [rewrite put_len; unfold zlen; lia|]. split; [lia|]. left. rewrite Nat2Z.id, put0. split; [lia|reflexivity].
  - assert (X : exists prot b1 used, match memchr 58 rp with
      | Some i => (put_at 0 (slice 0 (if i + 1 <=? 32 then i + 1 else 32) rp) buf, if i + 1 <=? 32 then i + 1 else 32)
      | None => (buf, 0) end = (b1, used) /\ protocol rp prot /\ used = Z.min (zlen prot) 32 /\ length b1 = 32%nat /\ firstn (Z.to_nat used) b1 = firstn 32 prot).
    { destruct (memchr 58 rp) as [i|] eqn:M.
      - destruct (memchr_some 58 rp i M) as (a & b & E & N & ->). exists (a ++ [58]). do 2 eexists. cbv zeta. split; [reflexivity|].
        split; [left; eauto|]. assert (Ep : rp = (a ++ [58]) ++ b) by (rewrite <- app_assoc; exact E).
        set (u := if zlen a + 1 <=? 32 then zlen a + 1 else 32). assert (Eu : u = Z.min (zlen (a ++ [58])) 32) by (subst u; unfold zlen; rewrite app_length; cbn [length]; clear; destruct (Z.leb_spec (Z.of_nat (length a) + 1) 32); lia).
        assert (Es : slice 0 u rp = firstn 32 (a ++ [58])).
        { unfold slice. cbn [Z.to_nat skipn]. rewrite Ep, firstn_app. assert (Eu' : Z.to_nat u = Nat.min (length (a ++ [58])) 32) by (rewrite Eu; unfold zlen; lia). rewrite Eu'.
          destruct (Nat.le_gt_cases (length (a ++ [58])) 32).
          - rewrite Nat.min_l by lia. rewrite Nat.sub_diag. rewrite firstn_O, app_nil_r. rewrite !firstn_all2 by lia. reflexivity.
          - rewrite Nat.min_r by lia. replace (32 - length (a ++ [58%Z]))%nat with O by lia. rewrite firstn_O. apply app_nil_r. }
        split; [exact Eu|]. rewrite Es. split; [rewrite put_len; unfold zlen; rewrite ?firstn_length; lia|].
        replace (Z.to_nat u) with (length (firstn 32 (a ++ [58]))); [apply put0|]. rewrite firstn_length, Eu. unfold zlen. lia.
      - exists [], buf, 0. split; [reflexivity|]. split; [right; split; [apply memchr_none, M|reflexivity]|]. split; [reflexivity|]. split; [exact Hb|reflexivity]. }
    cbv zeta. destruct X as (prot & b1 & used & -> & Hp & Eu & Hl & Hf).
    assert (Hlen : (length prot <= length rp)%nat) by (destruct Hp as [(a & b & -> & _ & ->)|(_ & ->)]; rewrite ?app_length; cbn [length]; lia).
    destruct (32 - used <? 3) eqn:E3.
    + split; [exact Hl|]. unfold zlen in *. split; [lia|]. right. split; [lia|]. exists prot. split; [exact Hp|]. left. split; [lia|exact Hf].
    + assert (Hu : used = zlen prot) by (unfold zlen in *; lia). assert (Hp29 : (length prot <= 29)%nat) by (unfold zlen in *; lia). subst used. rewrite Hu in *.
      assert (Hf' : firstn (length prot) b1 = prot) by (unfold zlen in Hf; rewrite Nat2Z.id in Hf; rewrite Hf; apply firstn_all2; lia).
      pose proof (put_app prot ellipsis b1 Hf' ltac:(lia)) as P1. unfold ellipsis in P1. set (b2 := put_at (zlen prot) [226; 128; 166] b1) in *.
      assert (L2 : length b2 = 32%nat) by (unfold b2; rewrite put_len; unfold zlen in *; cbn [length]; lia).
      set (tl := slice (zlen rp - (32 - (zlen prot + 3))) (32 - (zlen prot + 3)) rp).
      assert (Htl : length tl = (29 - length prot)%nat) by (unfold tl, slice, zlen in *; rewrite firstn_length, skipn_length; lia).
      assert (Etl : rp = firstn (length rp - length tl) rp ++ tl).
      { rewrite <- (firstn_skipn (length rp - length tl) rp) at 1. f_equal. unfold tl at 2, slice. rewrite Htl.
        replace (Z.to_nat (zlen rp - (32 - (zlen prot + 3)))) with (length rp - (29 - length prot))%nat by (unfold zlen in *; lia).
        symmetry. apply firstn_all2. rewrite skipn_length. unfold zlen in *. lia. }
      set (a2 := prot ++ [226; 128; 166]) in *. assert (La2 : length a2 = (length prot + 3)%nat) by (unfold a2; rewrite app_length; reflexivity).
      assert (P1' : firstn (length a2) b2 = a2) by (rewrite La2; exact P1).
      pose proof (put_app a2 tl b2 P1' ltac:(lia)) as P2. replace (zlen a2) with (zlen prot + 3) in P2 by (unfold zlen; lia).
      split; [rewrite put_len; unfold zlen in *; lia|]. split; [lia|]. right. split; [unfold zlen in *; lia|]. exists prot. split; [exact Hp|]. right. split; [lia|].
      exists (firstn (length rp - length tl) rp), tl. split; [exact Etl|]. change (Z.to_nat 32) with 32%nat. replace 32%nat with (length a2 + length tl)%nat at 1 2 by lia. rewrite P2.
      split; [unfold a2; rewrite <- app_assoc; reflexivity|]. rewrite app_length. lia.
Qed.
Print Assumptions C59_truncation.

Section S.
Variable K : fcrypto.
Lemma rp_no_id l st st' : (forall k v, In (CText k, v) l -> key_is k "id" = false) -> rp_loop K l st = inr st' -> st' = st.
Proof.
  revert st. induction l as [|[k v] l IH]; intros st Hn H; cbn [rp_loop] in H; [injection H as <-; reflexivity|].
  destruct k as [|?|k| | | | ]; try discriminate. destruct (4 <? zlen k); [discriminate|]. destruct v as [|?|v| | | | ]; try discriminate.
  rewrite (Hn k (CText v)) in H by (left; reflexivity). apply (IH st); [|exact H]. intros k' v' Hi. apply (Hn k' v'). right. exact Hi.
Qed.
Lemma rp_app l1 l2 st st' : rp_loop K (l1 ++ l2) st = inr st' -> exists st1, rp_loop K l1 st = inr st1 /\ rp_loop K l2 st1 = inr st'.
Proof.
  revert st. induction l1 as [|[k v] l IH]; intros st H; cbn [app rp_loop] in *; [eauto|].
  destruct k as [|?|k| | | | ]; try discriminate. destruct (4 <? zlen k); [discriminate|]. destruct v as [|?|v| | | | ]; try discriminate.
  destruct (key_is k "id"); [|apply IH, H]. destruct (_ <? zlen v); [discriminate|]. destruct (maybe_truncate_rpid (rp_buf st) v). apply IH, H.
Qed.
Lemma rp_buf_len l st st' : length (rp_buf st) = 32%nat -> rp_loop K l st = inr st' -> length (rp_buf st') = 32%nat.
Proof.
  revert st. induction l as [|[k v] l IH]; intros st Hl H; cbn [rp_loop] in *; [injection H as <-; exact Hl|].
  destruct k as [|?|k| | | | ]; try discriminate. destruct (4 <? zlen k); [discriminate|]. destruct v as [|?|v| | | | ]; try discriminate.
  destruct (key_is k "id"); [|eapply IH; eauto]. destruct (_ <? zlen v); [discriminate|]. pose proof (C59_truncation (rp_buf st) v Hl) as W. destruct (maybe_truncate_rpid (rp_buf st) v) as [b n].
  apply IH in H; [exact H|]. apply W.
Qed.
(** The RP of a makeCredential request, a map whose (last) entry "id" is [rp]: the hash is that of the whole RP ID, and what will be stored
    is at most 32 bytes, as specified. *)
Theorem C59_request l1 l2 k rp st st' : length (rp_buf st) = 32%nat -> key_is k "id" = true -> (forall k v, In (CText k, v) l2 -> key_is k "id" = false) ->
  parse_rp K (CMap (l1 ++ (CText k, CText rp) :: l2)) st = inr st' ->
  0 <= rp_len st' <= 32 /\ stored_as rp (firstn (Z.to_nat (rp_len st')) (rp_buf st')) /\ rp_hash st' = f_sha K rp.
Proof.
  intros Hl Hk Hn H. cbn [parse_rp] in H. apply rp_app in H. destruct H as (st1 & H1 & H2). pose proof (rp_buf_len _ _ _ Hl H1) as Hl1. cbn [rp_loop] in H2.
  destruct (4 <? zlen k); [discriminate|]. rewrite Hk in H2. destruct (_ <? zlen rp); [discriminate|].
  pose proof (C59_truncation (rp_buf st1) rp Hl1) as W. destruct (maybe_truncate_rpid (rp_buf st1) rp) as [b n]. apply rp_no_id in H2; [|exact Hn]. subst st'. cbn [rp_len rp_buf rp_hash]. destruct W as (_ & W2 & W3). auto.
Qed.
(** and requests whose RP ID is at most 254 bytes are not refused for it. *)
Theorem C59_accepted rp st : zlen rp <= 254 -> exists st', parse_rp K (CMap [(txt "id", CText rp)]) st = inr st'.
Proof. intros H. unfold parse_rp, rp_loop, txt. change (4 <? zlen (chars "id")) with false. change (key_is (chars "id") "id") with true. cbn match. unfold DOMAIN_NAME_MAX_SIZE. destruct (254 <? zlen rp) eqn:E; [lia|]. destruct (maybe_truncate_rpid (rp_buf st) rp). eauto. Qed.

(** ** The stored RP ID is the one of the request *)
Lemma wp_true {A} (m : Mc A) s e : wp m (fun _ _ _ => True) s e.
Proof. unfold wp. destruct (m s e) as [[o s'] e']. exact I. Qed.
Lemma wp_skip {A B} (m : Mc A) (k : A -> Mc B) (Q : out B -> ctap -> env -> Prop) s e :
  (forall w s e, Q (Exc w) s e) -> (forall s e, Q Fail s e) -> (forall s e, Q UB s e) -> (forall a s e, wp (k a) Q s e) -> wp (bind m k) Q s e.
Proof. intros H1 H2 H3 H4. apply wp_bind. eapply wp_mono; [apply wp_true|]. intros [a|w| |] s' e' _; auto. Qed.
Definition meta_at (F : fs) (m : bytes) : Prop := exists i, 0 <= i /\ fread F "ctap_dm" (i * 76) 76 = Some m.
Definition ok_if {A} (P : fs -> Prop) (o : out A) (_ : ctap) (e : env) : Prop := match o with Ret _ => P (e_fs e) | _ => True end.
Lemma find_meta_pos n pos fd rp s e : 0 <= pos -> 0 <= fd -> wp (find_meta n pos fd rp) (fun o _ _ => match o with Ret (p, f, _) => 0 <= p /\ 0 <= f | _ => True end) s e.
Proof.
  revert pos fd s e. induction n as [|n IH]; intros pos fd s e Hp Hf; cbn [find_meta]; [apply wp_ret; auto|]. apply wp_skip; [auto..|]. intros m s1 e1. destruct (m_slots m =? 0).
  - apply IH; [lia|]. destruct (fd =? MAX_DC_NUM); lia.
  - destruct (beqb rp (m_hash m)); [apply wp_ret; auto|]. apply IH; lia.
Qed.
Lemma slice_write_at c off d : 0 <= off -> slice off (zlen d) (write_at c off d) = d.
Proof.
  intros H. unfold write_at, slice. cbv zeta. set (c' := c ++ zeros (off - zlen c)).
  assert (L : (Z.to_nat off <= length c')%nat) by (unfold c', zeros, zlen; rewrite app_length, repeat_length; lia).
  rewrite skipn_app, firstn_length, Nat.min_l by exact L. rewrite Nat.sub_diag, skipn_all2 by (rewrite firstn_length; lia). cbn [skipn app]. unfold zlen. rewrite Nat2Z.id.
  rewrite firstn_app, Nat.sub_diag, firstn_all, firstn_O. apply app_nil_r.
Qed.
Lemma meta_len h b n sl : zlen h = 32 -> zlen b = 32 -> zlen (meta_make h b n sl) = 76.
Proof. intros H1 H2. unfold meta_make. rewrite !zlen_app, H1, H2. unfold to_le. rewrite !zlen_rev. unfold zlen. rewrite !to_be_length. reflexivity. Qed.
Lemma fread_fwrite F p d off : 0 <= off -> d <> [] -> fread (fwrite F p d off false) p off (zlen d) = Some d.
Proof.
  intros H N. unfold fread, fwrite, fcreate. assert (L : (length d =? 0)%nat = false) by (destruct d; [congruence|reflexivity]). rewrite L.
  destruct (F p) as [f|] eqn:Ef.
  - rewrite Ef, fset_same. cbn [f_data]. destruct (off <? 0) eqn:E; [lia|]. rewrite slice_write_at by exact H. reflexivity.
  - rewrite fset_same, fset_same. cbn [f_data]. destruct (off <? 0) eqn:E; [lia|]. rewrite slice_write_at by exact H. reflexivity.
Qed.
Lemma store_meta q id s e : zlen (mc_rphash q) = 32 -> wp (mc_store q id)
  (ok_if (fun F => exists sl, meta_at F (meta_make (mc_rphash q) (attr_buf 32 (mc_rp q)) (zlen (mc_rp q)) sl))) s e.
Proof.
  intros Hh. unfold mc_store. apply wp_skip; [exact (fun _ _ _ => I)|exact (fun _ _ => I)|exact (fun _ _ => I)|intros n s1 e1]. apply wp_skip; [exact (fun _ _ _ => I)|exact (fun _ _ => I)|exact (fun _ _ => I)|]. intros [[pos fd] old] s2 e2. cbv zeta.
  do 5 (apply wp_skip; [exact (fun _ _ _ => I)|exact (fun _ _ => I)|exact (fun _ _ => I)|intros ? ? ?]).
  apply wp_bind. eapply wp_mono; [apply find_meta_pos; unfold MAX_DC_NUM; lia|]. intros [[[mpos mfd] slots]|w| |] s9 e9 Hp; try exact I. destruct Hp as (Hp1 & Hp2).
  set (mp := if present slots then mpos else if mfd =? MAX_DC_NUM then mpos else mfd). assert (Hmp : 0 <= mp) by (subst mp; destruct (present slots); [lia|]; destruct (mfd =? MAX_DC_NUM); lia).
  set (m := meta_make _ _ _ _). assert (Lm : zlen m = 76) by (apply meta_len; [exact Hh|unfold attr_buf, zlen, zeros; rewrite firstn_length, app_length, repeat_length; lia]).
  unfold must. apply wp_bind, wp_bind. destruct e9 as [F L X R T O]. apply wp_write_file; [intros X' _|intros _ X'|intros _ X']; try (apply wp_except; exact I). cbn [guard]. apply wp_ret. apply wp_bind.
  apply wp_write_attr; [intros V X2 _|intros _ X2 _]; cbn [guard]; [apply wp_ret|apply wp_except; exact I]. cbn [ok_if e_fs].
  eexists. exists mp. split; [exact Hmp|]. match goal with |- fread (fsetattr ?G _ _ _) _ _ _ = _ => assert (R0 : fread G "ctap_dm" (mp * 76) 76 = Some m) end.
  - rewrite <- Lm at 2. apply fread_fwrite; [lia|]. intros E. rewrite E in Lm. discriminate.
  - unfold fread in *. rewrite fsetattr_other by discriminate. exact R0.
Qed.
(** Afterwards a credential is created: storing the certificate data and signing do not touch the metadata. *)
Definition has_meta (m : bytes) (F : fs) : Prop := meta_at F m.
Lemma meta_items h rp sl : zlen h = 32 -> zlen rp <= 32 -> rp_items (meta_make h (attr_buf 32 rp) (zlen rp) sl) = [(CInt 3, CMap [(txt "id", CText rp)]); (CInt 4, CBytes h)].
Proof.
  intros H1 H2. assert (L : zlen (attr_buf 32 rp) = 32) by (unfold attr_buf, zlen, zeros; rewrite firstn_length, app_length, repeat_length; lia).
  assert (M1 : m_hash (meta_make h (attr_buf 32 rp) (zlen rp) sl) = h) by (unfold m_hash, meta_make; rewrite <- H1; apply slice_0_app).
  assert (M2 : m_rpid (meta_make h (attr_buf 32 rp) (zlen rp) sl) = attr_buf 32 rp) by (unfold m_rpid, meta_make; rewrite <- H1 at 1; rewrite <- L at 1; apply slice_mid).
  assert (M3 : m_len (meta_make h (attr_buf 32 rp) (zlen rp) sl) = zlen rp).
  { unfold m_len, meta_make. rewrite slice_app_r by lia. rewrite slice_app_r by lia. rewrite H1, L. change (64 - 32 - 32) with 0.
    assert (T : zlen (to_le 4 (zlen rp)) = 4) by (unfold to_le; rewrite zlen_rev; unfold zlen; rewrite to_be_length; reflexivity). rewrite <- T at 1. rewrite slice_0_app. unfold le, to_le. rewrite rev_involutive, be_to_be. pose proof (zlen_nonneg rp). try (apply Z.mod_small; change (2 ^ (8 * Z.of_nat 4)) with 4294967296; lia). }
  unfold rp_items. rewrite M1, M2, M3. do 4 f_equal. unfold attr_buf, slice. cbn [Z.to_nat skipn]. unfold zlen. rewrite Nat2Z.id. rewrite firstn_firstn, Nat.min_l by (unfold zlen in *; lia). rewrite firstn_app, Nat.sub_diag, firstn_all, firstn_O. rewrite app_nil_r; reflexivity.
Qed.
Definition kept (P : fs -> Prop) {A} (m : Mc A) : Prop := forall s e, P (e_fs e) -> wp m (ok_if P) s e.
Lemma kept_bind P {A B} (m : Mc A) (k : A -> Mc B) : kept P m -> (forall a, kept P (k a)) -> kept P (bind m k).
Proof. intros Hm Hk s e H. apply wp_bind. eapply wp_mono; [apply Hm, H|]. intros [a|w| |] s' e' H'; try exact I. apply Hk, H'. Qed.
Lemma kept_same P {A} (m : Mc A) : (forall s e, e_fs (snd (m s e)) = e_fs e) -> kept P m.
Proof. intros H s e HP. unfold wp, ok_if. specialize (H s e). destruct (m s e) as [[[] s'] e']; try exact I. cbn [snd] in H. rewrite H. exact HP. Qed.
Lemma same_read_attr p a (s : ctap) e : e_fs (snd (read_attr p a s e)) = e_fs e.
Proof. unfold read_attr, pop_fault. destruct (e_flt e) as [|[] l]; cbn; try reflexivity; destruct (e_fs e p); reflexivity. Qed.
Lemma same_read_file p o n (s : ctap) e : e_fs (snd (read_file p o n s e)) = e_fs e.
Proof. unfold read_file, pop_fault. destruct (e_flt e) as [|[] l]; cbn; try reflexivity; destruct (e_fs e p); reflexivity. Qed.
Lemma kept_if P {A} (b : bool) (m m' : Mc A) : kept P m -> kept P m' -> kept P (if b then m else m'). Proof. destruct b; auto. Qed.
Ltac kt := repeat first [
    lazymatch goal with
    | |- kept _ (bind _ _) => apply kept_bind; [|intros ?]
    | |- kept _ (read_attr _ _) => apply kept_same; intros ? ?; apply same_read_attr
    | |- kept _ (read_file _ _ _) => apply kept_same; intros ? ?; apply same_read_file
    | |- kept _ (match ?x with _ => _ end) => destruct x
    | |- kept _ (guard ?b _) => destruct b
    end | apply kept_same; intros ? ?; reflexivity ].
(** After a makeCredential of a resident credential that is answered with success, the storage holds a record of the metadata that
    enumerateRPs shows with the RP ID of the request (as it was parsed) and with its hash. *)
Theorem C59_stored d x q v s e : x_op x = OCbor (RMake (inr q)) -> mc_rk q = 1 -> mc_ok q -> exec K d x = (Some (ACbor 0 (Some v)), s, e) ->
  exists i m, 0 <= i /\ fread (e_fs e) "ctap_dm" (i * 76) 76 = Some m /\ rp_items m = [(CInt 3, CMap [(txt "id", CText (mc_rp q))]); (CInt 4, CBytes (mc_rphash q))].
Proof.
  intros Hx Hr Hq E. destruct Hq as (_ & (Hh & _) & _ & _ & Hn & _).
  set (P := fun F => exists sl, meta_at F (meta_make (mc_rphash q) (attr_buf 32 (mc_rp q)) (zlen (mc_rp q)) sl)).
  pose proof (exec_wp K d x (fun o _ e => match o with Some (ACbor _ (Some _)) => P (e_fs e) | _ => True end)) as W. rewrite E, Hx in W.
  assert (X : P (e_fs e)).
  { apply W.
    assert (Y : wp (cbor_cmd K (x_nfc x) (x_t1 x) (x_t2 x) (x_junk x) (RMake (inr q))) (ok_if P) (d_ram d) (start (d_fs d) (x_flt x) (x_rnd x) (x_tch x))).
    { unfold cbor_cmd. apply wp_skip; [exact (fun _ _ _ => I)|exact (fun _ _ => I)|exact (fun _ _ => I)|intros _ s1 e1].
      unfold ctap_make_credential. rewrite Hr. change (1 =? 1) with true. cbv iota.
      apply wp_bind. eapply wp_mono with (Q := ok_if P); [|intros [a|?| |] s2 e2 H2; try exact I; apply wp_ret; exact H2].
      do 8 (apply wp_skip; [exact (fun _ _ _ => I)|exact (fun _ _ => I)|exact (fun _ _ => I)|intros ? ? ?]). destruct a6 as [ad id].
      apply wp_bind. eapply wp_mono; [apply store_meta; exact Hh|]. intros [a6|?| |] s10 e10 H10; try exact I. cbn [ok_if] in H10.
      match goal with |- wp ?m _ _ _ => assert (Km : kept P m) end; [|apply Km; exact H10].
      unfold mc_att, sign_with_device_key, make_large_blob_key, read_key32, got. kt. }
    unfold cbor_body, process_cbor, wp in *. destruct (cbor_cmd _ _ _ _ _ _ _ _) as [[[o|c| |] s'] e']; try exact I.
    destruct (_ <=? _); [|exact I]. destruct o; [exact Y|exact I]. }
  destruct X as (sl & i & Hi & Hf). exists i. eexists. split; [exact Hi|]. split; [exact Hf|]. apply meta_items; assumption.
Qed.
End S.
(** Instances: RP IDs of 32 and 33 bytes, one with a protocol, and one whose protocol is longer than the record *)
Definition stored_of (rp : string) : bytes := let '(b, n) := maybe_truncate_rpid (zeros 32) (chars rp) in firstn (Z.to_nat n) b.
Example C59_cases :
  stored_of "abcdefghijklmnopqrstuvwxyz.12345" = chars "abcdefghijklmnopqrstuvwxyz.12345" /\
  stored_of "abcdefghijklmnopqrstuvwxyz.123456" = ellipsis ++ chars "efghijklmnopqrstuvwxyz.123456" /\
  stored_of "https://abcdefghijklmnopqrstuvwxyz.12" = chars "https:" ++ ellipsis ++ chars "ghijklmnopqrstuvwxyz.12" /\
  stored_of "abcdefghijklmnopqrstuvwxyzabcdefghij:x" = chars "abcdefghijklmnopqrstuvwxyzabcdef".
Proof. vm_compute. repeat split. Qed.
Definition got_meta (x : option ans * ctap * env) : bool * option bytes :=
  let '(o, s, e) := x in (match o with Some (ACbor 0 (Some _)) => true | _ => false end, match fread (e_fs e) "ctap_dm" 0 76 with Some m => Some (m_rpid m) | None => None end).
Definition played (r : option (list entry * dev)) : dev := match r with Some (_, d) => d | None => fresh_dev end.
Definition keyed_dev : dev := played (play toyf fresh_dev [do_at 20000 (OKey (repeat 6 32))]).
Example C59_stored_case : mc_ok (mc_of 7 1 1 None) /\ got_meta (exec toyf keyed_dev (cmd_at 20001 (OCbor (RMake (inr (mc_of 7 1 1 None)))))) = (true, Some (attr_buf 32 (mc_rp (mc_of 7 1 1 None)))).
Proof. split; [apply (creq_okb_ok (RMake (inr (mc_of 7 1 1 None)))); vm_compute; reflexivity|vm_compute; reflexivity]. Qed.
Print Assumptions C59_truncation.
Print Assumptions C59_request.
Print Assumptions C59_accepted.
Print Assumptions C59_stored.
