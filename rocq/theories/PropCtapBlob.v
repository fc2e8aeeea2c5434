(** C52: the large-blob array of the FIDO applet. *)
From Verif Require Import CtapSpec CtapFrame CtapToy PropCtapToken PropCtapReset.
Open Scope string_scope. Open Scope list_scope. Open Scope Z_scope.

(** ** Specification *)
(** The stored array (the file that authenticatorLargeBlobs reads) *)
Definition array (F : fs) : option bytes := fdata F "ctap_lb".
(** CTAP 2.1, 6.10: the last 16 bytes are the first 16 of the SHA-256 of the others. *)
Definition integral (sha : bytes -> bytes) (a : bytes) : Prop := exists d, 1 <= zlen d /\ a = d ++ firstn 16 (sha d) /\ zlen a = zlen d + 16.
(** The fragments that were accepted (answered with success) since the device was powered up, in order *)
Definition accept (acc : list lbreq) (e : entry) : list lbreq :=
  match e with
  | (_, Do x, Some (ACbor c _)) => if c =? 0 then match x_op x with OCbor (RLarge (inr q)) => match lb_get q with None => acc ++ [q] | _ => acc end | _ => acc end else acc
  | (_, Cut _ _ _ _, _) => []
  | _ => acc
  end.
Definition accepted (tr : list entry) : list lbreq := fold_left accept tr [].
(** Fragments that make up one write: the first has offset 0 and announces the length, each other one continues at the end of the one before *)
Fixpoint contiguous (off : Z) (fs : list lbreq) : Prop :=
  match fs with [] => True | q :: r => lb_off q = off /\ contiguous (off + zlen (lb_set q)) r end.
Definition write_of (len : Z) (fs : list lbreq) : Prop :=
  match fs with [] => False | q :: r => lb_off q = 0 /\ lb_len q = len /\ contiguous (zlen (lb_set q)) r /\ Forall (fun p => lb_off p <> 0) r end.
Definition sent (fs : list lbreq) : bytes := concat (map lb_set fs).
(** The fragment that an event sends *)
Definition fragment (v : ev) (q : lbreq) : Prop :=
  match v with Do x | Cut x _ _ _ => x_op x = OCbor (RLarge (inr q)) /\ lb_get q = None | Other _ => False end.
(** [a] was written by the fragments accepted before, with the present one as the last, and they add up to the announced length. *)
Definition committed (tr : list entry) (v : ev) (a : bytes) : Prop :=
  exists q old fs, fragment v q /\ accepted tr ++ [q] = old ++ fs /\ write_of (zlen a) fs /\ sent fs = a.
Definition success (v : ev) (o : option ans) : Prop := match v with Do _ => o = Some (ACbor 0 None) | _ => True end.
(** A reset, by command or because the storage failed when the device was powered up *)
Definition resets (v : ev) : Prop :=
  match v with Do x => is_reset x | Cut x _ flt _ => is_reset x \/ flt <> [] | Other _ => False end.

(** ** Proof *)
Lemma write_at_end c d : write_at c (zlen c) d = c ++ d.
Proof.
  unfold write_at, zeros. replace (zlen c - zlen c) with 0 by lia. cbn [Z.to_nat repeat]. rewrite app_nil_r. unfold zlen. rewrite Nat2Z.id, firstn_all, skipn_all2 by lia. rewrite app_nil_r. reflexivity.
Qed.
Section S.
Variable K : fcrypto.
Lemma lbt_write F data d : (fdata F "ctap_lbt" = Some data) -> fdata (fwrite F LB_FILE_TMP d (zlen data) false) "ctap_lbt" = Some (data ++ d).
Proof.
  intros H. unfold fwrite, fdata, fcreate in *. change "ctap_lbt" with LB_FILE_TMP in *. destruct (F LB_FILE_TMP) as [f|] eqn:E; [|discriminate]. rewrite E, fset_same. cbn [option_map f_data] in *. injection H as <-.
  destruct d as [|x d]; [cbn [length Nat.eqb]; rewrite app_nil_r; reflexivity|]. cbn [length Nat.eqb]. rewrite write_at_end. reflexivity.
Qed.
Lemma lbt_first F d : fdata (fwrite F LB_FILE_TMP d 0 true) "ctap_lbt" = Some d.
Proof.
  unfold fwrite, fdata. change "ctap_lbt" with LB_FILE_TMP in *. destruct (fcreate F LB_FILE_TMP LB_FILE_TMP) as [f|] eqn:E.
  - rewrite fset_same. cbn [option_map f_data]. f_equal. destruct d as [|x d]; [reflexivity|]. cbn [length Nat.eqb]. apply write_at_nil.
  - unfold fcreate in E. destruct (F LB_FILE_TMP) eqn:E2; [congruence|]. rewrite fset_same in E. discriminate.
Qed.
Lemma array_write F d o t : array (fwrite F LB_FILE_TMP d o t) = array F.
Proof.
  unfold fwrite, array, fdata, fcreate. destruct (F LB_FILE_TMP) as [f|] eqn:E; [rewrite E|rewrite fset_same]; rewrite !fset_other by discriminate; reflexivity.
Qed.
Lemma array_create F : array (fcreate F LB_FILE_TMP) = array F.
Proof. unfold array, fdata, fcreate. destruct (F LB_FILE_TMP) as [f|] eqn:E; [reflexivity|]. rewrite !fset_other by discriminate; reflexivity. Qed.
Lemma contiguous_snoc off fs q : contiguous off fs -> lb_off q = off + zlen (sent fs) -> contiguous off (fs ++ [q]).
Proof.
  revert off. induction fs as [|p fs IH]; intros off H Hq; cbn [app contiguous sent map concat] in *.
  - change (zlen (@nil Z)) with 0 in Hq. split; [lia|exact Logic.I].
  - destruct H as (H1 & H2). split; [exact H1|]. apply IH; [exact H2|]. unfold sent in *. cbn [map concat] in Hq. rewrite zlen_app in Hq. lia.
Qed.
Lemma sent_snoc fs q : sent (fs ++ [q]) = sent fs ++ lb_set q.
Proof. unfold sent. rewrite map_app, concat_app. cbn. rewrite app_nil_r. reflexivity. Qed.
Lemma write_of_snoc len fs q : write_of len fs -> lb_off q = zlen (sent fs) -> lb_off q <> 0 -> write_of len (fs ++ [q]).
Proof.
  destruct fs as [|p r]; [intros []|]. intros (H1 & H2 & H3 & H4) Hq Hz. cbn [app write_of]. split; [exact H1|]. split; [exact H2|]. split.
  - apply contiguous_snoc; [exact H3|]. unfold sent in Hq. cbn [map concat] in Hq. rewrite zlen_app in Hq. exact Hq.
  - apply Forall_app. split; [exact H4|]. constructor; [exact Hz|constructor].
Qed.

(** What the two counters say about the file being written *)
Definition pending (acc : list lbreq) (s : ctap) (F : fs) : Prop :=
  17 <= c_len s <= 4096 /\ 0 < c_next s < c_len s /\
  exists old fs, acc = old ++ fs /\ write_of (c_len s) fs /\ zlen (sent fs) = c_next s /\ fdata F "ctap_lbt" = Some (sent fs).
Definition J (acc : list lbreq) (s : ctap) (F : fs) : Prop := c_next s = 0 \/ c_len s < c_next s \/ pending acc s F.
Definition done (acc : list lbreq) (q : lbreq) (F : fs) : Prop :=
  exists old fs, acc ++ [q] = old ++ fs /\ write_of (zlen (sent fs)) fs /\ array F = Some (sent fs) /\ integral (f_sha K) (sent fs).
Definition img (F0 : fs) (acc : list lbreq) (q : lbreq) (F : fs) : Prop := array F = array F0 \/ done acc q F.
Definition stored (acc : list lbreq) (q : lbreq) (F F' : fs) : Prop :=
  exists old fs len, acc ++ [q] = old ++ fs /\ write_of len fs /\
    (zlen (sent fs) < len /\ array F' = array F \/ zlen (sent fs) = len /\ array F' = Some (sent fs) /\ integral (f_sha K) (sent fs)).
Definition at_lb (n l : Z) (s : ctap) : Prop := c_next s = n /\ c_len s = l.

Lemma lb_read_wp F n off len data s L X R T O : fdata F "ctap_lbt" = Some data -> 0 <= off <= len -> len <= zlen data -> len - off <= Z.of_nat n * 256 ->
  wp (lb_read n off len) (fun o s' e' => s' = s /\ e_fs e' = F /\ e_log e' = L /\ match o with Ret d => d = slice off (len - off) data | _ => True end) s (mkE F L X R T O).
Proof.
  intros Hd. revert off X. induction n as [|n IH]; intros off X Ho Hl Hn; cbn [lb_read].
  - assert (len = off) as -> by lia. apply wp_ret. replace (off - off) with 0 by lia. unfold slice. cbn. auto.
  - destruct (len <=? off) eqn:E; [assert (len = off) as -> by lia; apply wp_ret; replace (off - off) with 0 by lia; unfold slice; cbn; auto|].
    cbv zeta. set (k := Z.min 256 (len - off)). apply wp_bind. unfold got. apply wp_bind. apply wp_read_file. intros X' r _ [->|Hr]; [cbn; auto|].
    assert (Hf : fread F LB_FILE_TMP off k = Some (slice off k data)).
    { unfold fread, fdata in *. change LB_FILE_TMP with "ctap_lbt". destruct (F "ctap_lbt") as [f|]; [|discriminate]. cbn [option_map] in *. injection Hd as <-. destruct (off <? 0) eqn:En; [lia|reflexivity]. }
    rewrite Hf in Hr. subst r. apply wp_ret. destruct (negb _) eqn:Ek; [cbn; auto|]. apply wp_bind. eapply wp_mono; [apply IH; lia|].
    intros [d|w| |] s' e' (H1 & H2 & H3 & H4); try (repeat split; assumption). apply wp_ret. split; [exact H1|]. split; [exact H2|]. split; [exact H3|]. subst d.
    replace (len - off) with (k + (len - (off + k))) by lia. rewrite (slice_split off k) by lia. reflexivity.
Qed.
Lemma store_wp t2 q acc s F L X R T O : lb_ok q -> lb_get q = None -> J acc s F -> Forall (img F acc q) L -> 
  wp (lb_store K t2 q) (fun o s' e' => Forall (img F acc q) (e_log e') /\ img F acc q (e_fs e') /\
      match o with
      | Ret _ => stored acc q F (e_fs e') /\ J (acc ++ [q]) s' (e_fs e')
      | Exc _ => array (e_fs e') = array F /\ J acc s' (e_fs e')
      | _ => True end) s (mkE F L X R T O).
Proof.
  intros (Hoff & _ & Hset & Hlen) Hg HJ HL. rewrite Hg in Hlen. pose proof (zlen_nonneg (lb_set q)) as Hz.
  assert (I0 : img F acc q F) by (left; reflexivity).
  unfold lb_store. apply wp_bind. 
  apply wp_mono with (Q := fun o s1 e1 => e1 = mkE F L X R T O /\ o = Ret tt /\ J acc s1 F /\ (lb_off q = 0 -> c_next s1 = 0 /\ c_len s1 = lb_len q)).
  { destruct (lb_off q =? 0) eqn:E0; [apply wp_modify|apply wp_ret]; (split; [reflexivity|]); (split; [reflexivity|]).
    - split; [left; reflexivity|]. intros _. split; reflexivity.
    - split; [exact HJ|lia]. }
  intros o s1 e1 (-> & -> & HJ1 & H0). clear HJ s. apply wp_bind, wp_get. apply wp_bind. apply wp_guard; intros E1; [|cbn; auto]. apply Z.eqb_eq in E1.
  apply wp_bind. eapply wp_mono.
  { apply (kp_lb_auth K t2 (at_lb (c_next s1) (c_len s1)) (fun G => G = F) (img F acc q)).
    - intros f s H. exact H.
    - split; [split; reflexivity|]. split; [reflexivity|exact HL]. }
  clear L HL X R T O. intros [[]|w| |] s2 e2 ((N2 & L2) & HF & HL); try (split; [exact HL|]; rewrite HF; split; [exact I0|exact Logic.I]).
  2: { split; [exact HL|]. rewrite HF. split; [exact I0|]. split; [reflexivity|]. unfold J, pending in *. rewrite N2, L2. exact HJ1. }
  assert (HJ2 : J acc s2 F) by (unfold J, pending in *; rewrite N2, L2; exact HJ1). rewrite <- N2 in *. rewrite <- L2 in *. clear HJ1 N2 L2 s1.
  destruct e2 as [G L X R T O]. cbn [e_fs e_log] in *. subst G.
  apply wp_bind, wp_get. apply wp_bind. apply wp_guard; intros E2; [|cbn; auto]. apply Z.leb_le in E2.
  assert (HJc : forall G, (lb_off q = 0 \/ fdata G "ctap_lbt" = fdata F "ctap_lbt") -> J acc s2 G).
  { intros G [Z0|Hd]; [left; apply H0; exact Z0|]. unfold J, pending in *. rewrite Hd. exact HJ2. }
  assert (HP : lb_off q = 0 \/ pending acc s2 F) by (destruct HJ2 as [H|[H|H]]; [left; lia|lia|right; exact H]).
  apply wp_bind. unfold must at 1. apply wp_bind. apply wp_write_file; [intros X' _|intros _ X'|intros _ X'].
  2: { cbn. split; [exact HL|]. split; [exact I0|]. split; [reflexivity|exact HJ2]. }
  2: { assert (HC : Forall (img F acc q) (lcreate F L LB_FILE_TMP)) by (unfold lcreate; destruct (F LB_FILE_TMP) eqn:EF; [exact HL|]; constructor; [left; apply array_create|exact HL]).
       apply wp_guard; intros Eg; [discriminate|]. cbn [e_log e_fs]. split; [exact HC|]. split; [left; apply array_create|]. split; [apply array_create|]. apply HJc.
       destruct HP as [H|(_ & _ & old & fs & _ & _ & _ & Hd)]; [left; exact H|right]. unfold fdata, fcreate in *. change "ctap_lbt" with LB_FILE_TMP in *. destruct (F LB_FILE_TMP) eqn:EF; [rewrite EF; reflexivity|discriminate]. }
  apply wp_guard; intros Eg; [clear Eg|discriminate]. set (F2 := fwrite F LB_FILE_TMP (lb_set q) (lb_off q) (lb_off q =? 0)).
  assert (A2 : array F2 = array F) by apply array_write.
  assert (HL2 : Forall (img F acc q) (F2 :: lcreate F L LB_FILE_TMP)).
  { constructor; [left; exact A2|]. unfold lcreate. destruct (F LB_FILE_TMP) eqn:EF; [exact HL|]. constructor; [left; apply array_create|exact HL]. }
  assert (W : exists old fs, acc ++ [q] = old ++ fs /\ write_of (c_len s2) fs /\ zlen (sent fs) = lb_off q + zlen (lb_set q) /\ fdata F2 "ctap_lbt" = Some (sent fs)).
  { destruct (Z.eq_dec (lb_off q) 0) as [Z0|Z0].
    - exists acc, [q]. split; [reflexivity|]. destruct (H0 Z0) as (_ & HQ). split; [cbn; auto|]. assert (sent [q] = lb_set q) as -> by (unfold sent; cbn; apply app_nil_r). split; [lia|]. unfold F2. rewrite Z0. apply lbt_first.
    - destruct HP as [H|(_ & _ & old & fs & Ha & Hw & Hs & Hd)]; [lia|]. exists old, (fs ++ [q]). split; [rewrite Ha, app_assoc; reflexivity|]. split; [apply write_of_snoc; [exact Hw|lia|exact Z0]|].
      rewrite sent_snoc, zlen_app. split; [lia|]. unfold F2. destruct (lb_off q =? 0) eqn:E0; [lia|]. assert (lb_off q = zlen (sent fs)) as -> by lia. apply lbt_write. exact Hd. }
  destruct W as (old & fs & Wa & Ww & Ws & Wd).
  assert (Hlim : 17 <= c_len s2 <= 4096). { destruct HP as [H|(H & _)]; [|exact H]. destruct (H0 H) as (_ & ->). exact (Hlen H). }
  cbv zeta. assert (u16 (c_next s2 + zlen (lb_set q)) = lb_off q + zlen (lb_set q)) as -> by (unfold u16; rewrite Z.mod_small; lia).
  set (nx := lb_off q + zlen (lb_set q)) in *. clearbody F2. apply wp_bind, wp_modify. destruct (negb (nx =? c_len s2)) eqn:E3.
  { apply wp_ret. cbn [e_log e_fs]. split; [exact HL2|]. split; [left; exact A2|]. split; [exists old, fs, (c_len s2); split; [exact Wa|]; split; [exact Ww|]; left; split; [lia|exact A2]|]. destruct (Z.eq_dec nx 0) as [N0|N0]; [left; exact N0|]. right; right. split; [exact Hlim|]. split; [cbn [c_next c_len set_lb]; lia|].
    exists old, fs. cbn [c_len c_next set_lb]. auto. }
  assert (u16 (c_len s2 - 16) = c_len s2 - 16) as -> by (unfold u16; rewrite Z.mod_small; lia). apply wp_bind, wp_modify. set (s3 := set_lb _ _ _).
  assert (HJ3 : forall a G, J a s3 G) by (intros a G; right; left; cbn [s3 c_len c_next set_lb]; lia). clearbody s3. apply wp_bind. eapply wp_mono.
  { apply (lb_read_wp F2 4096 0 (c_len s2 - 16) (sent fs)); [exact Wd|lia|lia|lia]. }
  intros [d|w| |] s4 e4 (-> & HF4 & HL4 & Hd); try (rewrite HL4, HF4; split; [exact HL2|split; [left; exact A2|first [exact Logic.I|split; [exact A2|apply HJ3]]]]).
  destruct e4 as [G L4 X4 R4 T4 O4]. cbn [e_fs e_log] in *. subst G L4. apply wp_bind. unfold got. apply wp_bind. apply wp_read_file. intros X5 r _ [->|Hr].
  { cbn. split; [exact HL2|]. split; [left; exact A2|]. split; [exact A2|apply HJ3]. }
  assert (Hf : fread F2 LB_FILE_TMP (c_len s2 - 16) 16 = Some (slice (c_len s2 - 16) 16 (sent fs))).
  { unfold fread, fdata in *. change LB_FILE_TMP with "ctap_lbt". destruct (F2 "ctap_lbt") as [f|]; [|discriminate]. cbn [option_map] in *. injection Wd as <-. destruct (_ <? 0) eqn:En; [lia|reflexivity]. }
  rewrite Hf in Hr. subst r. apply wp_ret.
  destruct (negb (zlen (slice (c_len s2 - 16) 16 (sent fs)) =? 16)) eqn:E16; [unfold wp, ub, lift; cbn [e_log e_fs]; split; [exact HL2|]; split; [left; exact A2|exact Logic.I]|].
  apply wp_bind. apply wp_guard; intros Eh; [|cbn; split; [exact HL2|]; split; [left; exact A2|]; split; [exact A2|apply HJ3]].
  apply beqb_eq in Eh. unfold must. apply wp_bind. unfold wp at 1, fs_rename, pop_fault. 
  assert (Hno : Forall (img F acc q) (F2 :: lcreate F L LB_FILE_TMP) /\ img F acc q F2 /\ array F2 = array F /\ J acc s3 F2) by (split; [exact HL2|]; split; [left; exact A2|]; split; [exact A2|apply HJ3]).
  assert (Hi3 : integral (f_sha K) (sent fs)).
  { exists d. assert (Hz0 : zlen d = c_len s2 - 16). { rewrite Hd. replace (c_len s2 - 16 - 0) with (c_len s2 - 16) by lia. unfold zlen, slice. cbn [Z.to_nat skipn]. rewrite firstn_length. unfold zlen in Ws. lia. }
    split; [lia|]. split; [|lia]. rewrite Eh, Hd. replace (c_len s2 - 16 - 0) with (c_len s2 - 16) by lia. change (c_len s2 - 16) with (0 + (c_len s2 - 16)) at 2. rewrite <- slice_split by lia.
    unfold slice. cbn [Z.to_nat skipn]. rewrite firstn_all2; [reflexivity|unfold zlen in *; lia]. }
  assert (Ha3 : forall f, F2 LB_FILE_TMP = Some f -> array (fset (fset F2 LB_FILE_TMP None) LB_FILE (Some f)) = Some (sent fs)).
  { intros f Ef. unfold array, fdata. change "ctap_lb" with LB_FILE. rewrite fset_same. unfold fdata in Wd. change "ctap_lbt" with LB_FILE_TMP in Wd. rewrite Ef in Wd. exact Wd. }
  assert (Hyes : forall f, F2 LB_FILE_TMP = Some f -> done acc q (fset (fset F2 LB_FILE_TMP None) LB_FILE (Some f))).
  { intros f Ef. exists old, fs. split; [exact Wa|]. assert (zlen (sent fs) = c_len s2) as -> by lia. split; [exact Ww|]. split.
    - apply Ha3, Ef.
    - exact Hi3. }
  destruct X5 as [|[| |] X5]; cbn [e_flt e_fs]; try exact Hno.
  1,2: destruct (F2 LB_FILE_TMP) as [f|] eqn:Ef; [|exact Hno]; specialize (Hyes f eq_refl); specialize (Ha3 f eq_refl); change (String.eqb LB_FILE_TMP LB_FILE) with false; cbv iota; unfold wp, guard, ret; cbn [commit e_log e_fs]; split; [constructor; [right; exact Hyes|exact HL2]|]; split; [right; exact Hyes|]; split; [|apply HJ3]; exists old, fs, (c_len s2); split; [exact Wa|]; split; [exact Ww|]; right; split; [lia|];
    split; [exact Ha3|exact Hi3].
Qed.

(** ** All other commands *)
Definition alike (F0 F : fs) : Prop := F LB_FILE = F0 LB_FILE /\ F LB_FILE_TMP = F0 LB_FILE_TMP.
Lemma alike_array F0 F : alike F0 F -> array F = array F0.
Proof. intros (H & _). unfold array, fdata. change "ctap_lb" with LB_FILE. rewrite H. reflexivity. Qed.
Lemma alike_J acc s F0 F : alike F0 F -> J acc s F0 -> J acc s F.
Proof. intros (_ & H). unfold J, pending, fdata. change "ctap_lbt" with LB_FILE_TMP. rewrite H. auto. Qed.
Lemma alike_indep F0 p : p <> LB_FILE -> p <> LB_FILE_TMP -> indep (alike F0) p.
Proof. intros H1 H2 F x (A & B). split; rewrite fset_other by congruence; assumption. Qed.
Definition is_store (x : cmd) : Prop := exists q, x_op x = OCbor (RLarge (inr q)) /\ lb_get q = None.
Lemma kp_count n l F0 : keep (at_lb n l) (alike F0) (alike F0) increase_counter.
Proof.
  unfold increase_counter. apply kp_bind; [apply kp_got, kp_read_attr|intros v]. cbv zeta.
  apply kp_bind; [apply kp_must, kp_write_attr; [auto|apply alike_indep; discriminate]|intros _; apply kp_ret].
Qed.
Lemma exec_other d x : ~ is_reset x -> ~ is_store x -> let '(o, s, e) := exec K d x in at_lb (c_next (d_ram d)) (c_len (d_ram d)) s /\ alike (d_fs d) (e_fs e) /\ Forall (alike (d_fs d)) (e_log e).
Proof.
  intros Hr Hs. set (n := c_next (d_ram d)). set (l := c_len (d_ram d)). set (F0 := d_fs d).
  pose proof (exec_wp K d x (fun _ s e => kgood (at_lb n l) (alike F0) (alike F0) s e)) as W. destruct (exec K d x) as [[o s] e]. apply W. clear W o s e.
  assert (PQ : forall F, alike F0 F -> alike F0 F) by auto.
  assert (P1 : indep (alike F0) DC_FILE) by (apply alike_indep; discriminate). assert (P2 : indep (alike F0) DC_META_FILE) by (apply alike_indep; discriminate).
  assert (P3 : indep (alike F0) CTAP_CERT_FILE) by (apply alike_indep; discriminate). pose proof (kp_count n l F0) as P4.
  assert (PA : forall a v, keep (at_lb n l) (alike F0) (alike F0) (write_attr CTAP_CERT_FILE a v)) by (intros a v; apply kp_write_attr; [exact PQ|exact P3]).
  assert (G : kgood (at_lb n l) (alike F0) (alike F0) (d_ram d) (start (d_fs d) (x_flt x) (x_rnd x) (x_tch x))).
  { split; [split; reflexivity|]. split; [split; reflexivity|]. constructor; [split; reflexivity|constructor]. }
  assert (B : forall m : Mc Z, keep (at_lb n l) (alike F0) (alike F0) m -> wp m (fun o s e => match o with Ret _ | Exc _ => kgood (at_lb n l) (alike F0) (alike F0) s e | Fail => kgood (at_lb n l) (alike F0) (alike F0) s e | UB => kgood (at_lb n l) (alike F0) (alike F0) s e end)
      (d_ram d) (start (d_fs d) (x_flt x) (x_rnd x) (x_tch x))).
  { intros m Hm. eapply wp_mono; [apply Hm, G|]. intros [] s e H; exact H. }
  destruct (x_op x) as [q|da|p1 da| |da|da|da] eqn:Ex.
  - eapply wp_mono; [refine (kp_process K _ _ _ _ (at_lb n l) (alike F0) (alike F0) (fun _ _ H => H) (x_cap x) q _ _ _ G)|intros [[c v]| | |] s e H; exact H].
    unfold cbor_cmd. apply kp_bind; [unfold cp_observer; apply kp_modify; intros ? H; exact H|intros _].
    destruct q as [p|p| | |p| |p| |[err|q]| ].
    + apply kp_bind; [|intros v; apply kp_ret]. apply kp_make; auto.
    + apply kp_bind; [|intros v; apply kp_ret]. eapply kp_ga with (okq := fun _ => True); auto. 
    + apply kp_bind; [|intros v; apply kp_ret]. eapply kp_gna with (okq := fun _ => True); auto. 
    + apply kp_bind; [apply kp_info|intros v; apply kp_ret].
    + apply kp_pin; auto.
    + elim Hr. right. exact Ex.
    + apply kp_cm; auto.
    + apply kp_bind; [|intros v; apply kp_ret]. unfold WAIT. destruct (x_nfc x); [apply kp_ret|]. apply kp_bind; [apply kp_wait|intros r]. destruct (r =? _); [apply kp_except|]. destruct (r =? _); [apply kp_except|apply kp_ret].
    + apply kp_except.
    + unfold ctap_large_blobs. destruct (lb_get q) as [z|] eqn:Eg; [|elim Hs; exists q; auto]. apply kp_bind; [|intros v; apply kp_ret].
      unfold lb_fetch. apply kp_bind; [apply kp_got, kp_size|intros size]. apply kp_bind; [apply kp_guard|intros _]. cbv zeta. apply kp_bind; [apply kp_got, kp_read_file|intros dd]. destruct (zlen dd =? _); [apply kp_ret|apply kp_ub].
    + apply kp_except.
  - unfold body. rewrite Ex. apply B. apply kp_bind; [apply kp_register|intros; apply kp_ret].
  - unfold body. rewrite Ex. apply B. apply kp_bind; [apply kp_auth; exact P4|intros; apply kp_ret].
  - elim Hr. left. exact Ex.
  - unfold body. rewrite Ex. apply B. apply kp_bind; [|intros; apply kp_ret]. unfold install_private_key. apply kp_bind; [apply kp_guard|intros _]. apply kp_bind; [apply kp_modify; intros ? H; exact H|intros _].
    apply kp_bind; [apply kp_must, PA|intros _; apply kp_must, PA].
  - unfold body. rewrite Ex. apply B. apply kp_bind; [|intros; apply kp_ret]. unfold install_cert. apply kp_bind; [apply kp_guard|intros _]. apply kp_must, kp_write_file; [exact PQ|exact P3].
  - unfold body. rewrite Ex. apply B. apply kp_bind; [|intros; apply kp_ret]. unfold write_sm2_config. apply kp_bind; [apply kp_guard|intros _]. apply kp_bind; [apply PA|intros ok]. apply kp_bind; [apply kp_modify; intros ? H; exact H|intros _; apply kp_guard].
Qed.
(** Resets, and the start of the device *)
Definition renewed (F0 F : fs) : Prop := (array F = array F0 \/ array F = Some initial_blob) /\ F LB_FILE <> None /\ F LB_FILE_TMP = F0 LB_FILE_TMP.
Lemma renewed_indep F0 p : p <> LB_FILE -> p <> LB_FILE_TMP -> indep (renewed F0) p.
Proof. intros H1 H2 F x (A & B & C). unfold renewed, array, fdata in *. change "ctap_lb" with LB_FILE in *. rewrite !fset_other by congruence. auto. Qed.
Ltac uk := repeat lazymatch goal with
    | |- keep _ _ _ (bind _ _) => apply kp_bind; [|intros ?]
    | |- keep _ _ _ (modify _) => apply kp_modify; intros ? HI; exact HI
    | |- keep _ _ _ (ret _) => apply kp_ret
    | |- keep _ _ _ (must (write_file LB_FILE _ _ _)) => idtac
    | |- keep _ _ _ (must (write_file _ _ _ _)) => apply kp_must, kp_write_file; [auto|apply renewed_indep; discriminate]
    | |- keep _ _ _ (must (write_attr _ _ _)) => apply kp_must, kp_write_attr; [auto|apply renewed_indep; discriminate]
    | |- keep _ _ _ (got _) => apply kp_got
    | |- keep _ _ _ (random_buffer _) => apply kp_random
    | |- keep _ _ _ (read_attr _ _) => apply kp_read_attr
    | |- keep _ _ _ (get_file_size _) => apply kp_size
    | |- keep _ _ _ (if ?b then _ else _) => destruct b
    | |- keep _ _ _ (match ?b with _ => _ end) => destruct b
    end.
Lemma kp_install b n l F0 : keep (at_lb n l) (renewed F0) (renewed F0) (ctap_install K b).
Proof.
  unfold ctap_install, cp_initialize, cp_regenerate, cp_reset_token. uk.
  intros s e (H1 & H2 & H3). unfold must. apply wp_bind. destruct e as [F L X R T O]. cbn [e_fs e_log] in *. pose proof H2 as (HA & HN & HT).
  assert (fcreate F LB_FILE = F) as EC by (unfold fcreate; destruct (F LB_FILE); [reflexivity|congruence]). assert (lcreate F L LB_FILE = L) as EL by (unfold lcreate; destruct (F LB_FILE); [reflexivity|congruence]).
  apply wp_write_file; [intros X' _|intros _ X'|intros _ X']; rewrite ?EC, ?EL; [|split; [exact H1|split; assumption]|split; [exact H1|split; assumption]].
  assert (N : renewed F0 (fwrite F LB_FILE initial_blob 0 true)).
  { unfold fwrite. rewrite EC. destruct (F LB_FILE) as [f|] eqn:Ef; [|congruence]. split; [right; unfold array, fdata; change "ctap_lb" with LB_FILE; rewrite fset_same; reflexivity|]. rewrite fset_same. split; [discriminate|]. rewrite fset_other by discriminate. exact HT. }
  apply wp_guard; intros _; (split; [exact H1|split; [exact N|constructor; [exact N|exact H3]]]).
Qed.
Lemma exec_reset d x : is_reset x -> d_fs d LB_FILE <> None -> let '(o, s, e) := exec K d x in at_lb (c_next (d_ram d)) (c_len (d_ram d)) s /\ renewed (d_fs d) (e_fs e) /\ Forall (renewed (d_fs d)) (e_log e).
Proof.
  intros Hr Hn. set (n := c_next (d_ram d)). set (l := c_len (d_ram d)). set (F0 := d_fs d) in *.
  pose proof (exec_wp K d x (fun _ s e => kgood (at_lb n l) (renewed F0) (renewed F0) s e)) as W. destruct (exec K d x) as [[o s] e]. apply W. clear W o s e.
  assert (R0 : renewed F0 F0) by (split; [left; reflexivity|]; split; [exact Hn|reflexivity]).
  assert (G : kgood (at_lb n l) (renewed F0) (renewed F0) (d_ram d) (start (d_fs d) (x_flt x) (x_rnd x) (x_tch x))) by (split; [split; reflexivity|]; split; [exact R0|constructor; [exact R0|constructor]]).
  destruct Hr as [Hr|Hr]; rewrite Hr.
  - unfold body. rewrite Hr. apply wp_bind. eapply wp_mono; [apply (kp_install true n l F0), G|]. intros [u|w| |] s1 e1 H1; exact H1.
  - eapply wp_mono; [refine (kp_process K _ _ _ _ (at_lb n l) (renewed F0) (renewed F0) (fun _ _ H => H) (x_cap x) RReset _ _ _ G)|intros [[c v]| | |] s e H; exact H].
    unfold cbor_cmd, ctap_reset_data, cp_observer. apply kp_bind; [apply kp_modify; intros ? H; exact H|intros _]. apply kp_bind; [|intros _; apply kp_ret]. apply kp_bind; [apply kp_guard|intros _]. apply kp_install.
Qed.
Lemma boot_array F flt rnd : F LB_FILE <> None -> let d := boot K F flt rnd in
  at_lb 0 0 (d_ram d) /\ d_fs d LB_FILE <> None /\ (array (d_fs d) = array F \/ flt <> [] /\ array (d_fs d) = Some initial_blob).
Proof.
  intros HF. unfold boot. cbv zeta. assert (R0 : renewed F F) by (split; [left; reflexivity|]; split; [exact HF|reflexivity]).
  pose proof (kp_run (at_lb 0 0) (renewed F) (renewed F) (fun _ H => H) (ctap_install K false) ctap_boot F flt rnd [] (kp_install false 0 0 F) (conj eq_refl eq_refl) R0) as W.
  destruct flt as [|x flt].
  - assert (V : wp (ctap_install K false) (fun _ _ e => e_fs e = F) ctap_boot (start F [] rnd [])).
    { unfold ctap_install. apply wp_bind, wp_modify. apply wp_bind, wp_modify. apply wp_bind. set (s0 := set_last _ _). clearbody s0. apply wp_mono with (Q := fun o _ e => e_fs e = F /\ e_flt e = [] /\ match o with Ret _ => True | _ => False end).
      - unfold cp_initialize, cp_regenerate, cp_reset_token. apply wp_bind, wp_bind. unfold wp at 1, random_buffer. apply wp_modify. apply wp_bind. unfold wp at 1, random_buffer. apply wp_modify. cbn. auto.
      - intros [u|w| |] s e (H1 & H2 & H3); try destruct H3. destruct e as [G L X R T O]. cbn [e_fs e_flt] in *. subst G X. apply wp_bind. apply wp_get_file_size. intros X' r Hr _. destruct (Hr eq_refl) as (-> & ->). unfold fsize. destruct (F LB_FILE) as [f|]; [|congruence].
        apply wp_bind. unfold got. apply wp_bind. apply wp_read_attr. intros X2 r2 _ _. destruct r2; [apply wp_ret; apply wp_modify; reflexivity|reflexivity]. }
    unfold wp in V. destruct (ctap_install K false ctap_boot _) as [[o s] e]. cbn [d_ram d_fs]. subst F. destruct W as (W1 & W2 & _). split; [exact W1|]. split; [apply W2|left; reflexivity].
  - destruct (ctap_install K false ctap_boot _) as [[o s] e]. cbn [d_ram d_fs]. destruct W as (W1 & (W2 & W3 & _) & _). split; [exact W1|]. split; [exact W3|]. destruct W2 as [W2|W2]; [left; exact W2|right; split; [discriminate|exact W2]].
Qed.

(** ** Histories *)
Definition Inv (tr : list entry) (d : dev) : Prop := J (accepted tr) (d_ram d) (d_fs d) /\ d_fs d LB_FILE <> None.
Lemma accepted_snoc tr e : accepted (tr ++ [e]) = accept (accepted tr) e.
Proof. unfold accepted. rewrite fold_left_app. reflexivity. Qed.
Lemma exec_store d x q acc : x_op x = OCbor (RLarge (inr q)) -> lb_get q = None -> lb_ok q -> J acc (d_ram d) (d_fs d) ->
  let '(o, s, e) := exec K d x in Forall (img (d_fs d) acc q) (e_log e) /\ img (d_fs d) acc q (e_fs e) /\
    match o with
    | Some (ACbor c v) => if c =? 0 then v = None /\ stored acc q (d_fs d) (e_fs e) /\ J (acc ++ [q]) s (e_fs e) else array (e_fs e) = array (d_fs d) /\ J acc s (e_fs e)
    | Some (AApdu _) => False | None => True end.
Proof.
  intros Hx Hg Hq HJ.
  pose proof (exec_wp K d x (fun o s e => Forall (img (d_fs d) acc q) (e_log e) /\ img (d_fs d) acc q (e_fs e) /\
    match o with
    | Some (ACbor c v) => if c =? 0 then v = None /\ stored acc q (d_fs d) (e_fs e) /\ J (acc ++ [q]) s (e_fs e) else array (e_fs e) = array (d_fs d) /\ J acc s (e_fs e)
    | Some (AApdu _) => False | None => True end)) as W. destruct (exec K d x) as [[o s] e]. apply W. clear W o s e. rewrite Hx.
  unfold cbor_body, wp, process_cbor.
  assert (N : wp (cbor_cmd K (x_nfc x) (x_t1 x) (x_t2 x) (x_junk x) (RLarge (inr q))) (fun o _ _ => match o with Exc c => c <> 0 | _ => True end) (d_ram d) (start (d_fs d) (x_flt x) (x_rnd x) (x_tch x))) by apply (nz_lb K).
  assert (V : wp (cbor_cmd K (x_nfc x) (x_t1 x) (x_t2 x) (x_junk x) (RLarge (inr q))) (fun o s e => Forall (img (d_fs d) acc q) (e_log e) /\ img (d_fs d) acc q (e_fs e) /\
      match o with Ret v => v = None /\ stored acc q (d_fs d) (e_fs e) /\ J (acc ++ [q]) s (e_fs e) | Exc _ => array (e_fs e) = array (d_fs d) /\ J acc s (e_fs e) | _ => True end)
      (d_ram d) (start (d_fs d) (x_flt x) (x_rnd x) (x_tch x))).
  { unfold cbor_cmd, cp_observer. apply wp_bind, wp_modify. unfold ctap_large_blobs. rewrite Hg. apply wp_bind. unfold start. eapply wp_mono.
    - apply (store_wp (x_t2 x) q acc); [exact Hq|exact Hg|exact HJ|constructor; [left; reflexivity|constructor]].
    - intros [u|w| |] s e H; try exact H. destruct H as (H1 & H2 & H3 & H4). apply wp_ret. auto. }
  unfold wp in N, V. destruct (cbor_cmd K _ _ _ _ _ _ _) as [[[v|c| |] s] e]; destruct V as (V1 & V2 & V3).
  - destruct (_ <=? x_cap x); split; try exact V1; (split; [exact V2|]); [|exact Logic.I]. exact V3.
  - split; [exact V1|]. split; [exact V2|]. destruct (c =? 0) eqn:E; [lia|exact V3].
  - auto.
  - auto.
Qed.
Definition changes (tr : list entry) (d : dev) (v : ev) (o : option ans) (d' : dev) : Prop :=
  array (d_fs d') = array (d_fs d) \/ resets v /\ array (d_fs d') = Some initial_blob \/
  exists a, array (d_fs d') = Some a /\ committed tr v a /\ success v o /\ integral (f_sha K) a.
Lemma is_reset_dec x : is_reset x \/ ~ is_reset x.
Proof. unfold is_reset. destruct (x_op x) as [[]| | | | | |]; try (left; auto; fail); right; intros [H|H]; discriminate. Qed.
Lemma is_store_dec x : is_store x \/ ~ is_store x.
Proof.
  unfold is_store. destruct (x_op x) as [[]| | | | | |]; try (right; intros (q & H & _); discriminate). destruct p as [err|q]; [right; intros (q & H & _); discriminate|].
  destruct (lb_get q) as [z|] eqn:E; [right; intros (q' & H & E2); injection H as <-; congruence|left; eauto].
Qed.
Lemma done_committed tr v q F : fragment v q -> done (accepted tr) q F -> exists a, array F = Some a /\ committed tr v a /\ integral (f_sha K) a.
Proof. intros Hv (old & fs & H1 & H2 & H3 & H4). exists (sent fs). split; [exact H3|]. split; [|exact H4]. exists q, old, fs. auto. Qed.
Lemma accept_other acc d x a : ~ is_store x -> accept acc (d, Do x, Some a) = acc.
Proof.
  intros H. cbn [accept]. destruct a as [c v|r]; [|reflexivity]. destruct (c =? 0); [|reflexivity]. destruct (x_op x) as [[]| | | | | |] eqn:E; try reflexivity. destruct p as [|q]; [reflexivity|]. destruct (lb_get q) eqn:Eg; [reflexivity|]. elim H. exists q. auto.
Qed.
Lemma nn F : F LB_FILE <> None <-> array F <> None.
Proof. unfold array, fdata. change "ctap_lb" with LB_FILE. destruct (F LB_FILE); split; intros H; try discriminate; exfalso; apply H; reflexivity. Qed.
Lemma step_inv tr d v o d' : Inv tr d -> ev_ok d v -> step K d v = Some (o, d') -> changes tr d v o d' /\ Inv (tr ++ [(d, v, o)]) d'.
Proof.
  intros (HJ & Hn) Hv Hs. unfold Inv. rewrite accepted_snoc. destruct v as [x|x n flt rnd|F].
  - cbn [step] in Hs. destruct (is_reset_dec x) as [Hr|Hr]; [|destruct (is_store_dec x) as [Hst|Hst]].
    + pose proof (exec_reset d x Hr Hn) as W. destruct (exec K d x) as [[[a|] s] e]; [|discriminate]. injection Hs as <- <-. destruct W as ((W1 & W2) & (W3 & W4 & W5) & _). cbn [d_fs d_ram]. split.
      * destruct W3 as [W3|W3]; [left; exact W3|right; left; split; [exact Hr|exact W3]].
      * split; [|exact W4]. rewrite accept_other by (intros (q & Hq & _); destruct Hr; congruence). unfold J, pending, fdata in *. change "ctap_lbt" with LB_FILE_TMP in *. rewrite W1, W2, W5. exact HJ.
    + destruct Hst as (q & Hx & Hg). cbn [ev_ok] in Hv. rewrite Hx in Hv. pose proof (exec_store d x q (accepted tr) Hx Hg Hv HJ) as W. destruct (exec K d x) as [[[a|] s] e]; [|discriminate]. injection Hs as <- <-. destruct W as (_ & W1 & W2). cbn [d_fs d_ram].
      destruct a as [c v|r]; [|destruct W2]. cbn [accept]. rewrite Hx, Hg. destruct (c =? 0) eqn:Ec.
      * assert (c = 0) as -> by lia. destruct W2 as (-> & (old & fs & len & H1 & H2 & H3) & H4). split.
        -- destruct H3 as [(_ & H3)|(H3 & H5 & H6)]; [left; exact H3|right; right]. exists (sent fs). split; [exact H5|]. split; [|split; [reflexivity|exact H6]]. exists q, old, fs. split; [split; assumption|]. split; [exact H1|]. split; [rewrite H3; exact H2|reflexivity].
        -- split; [exact H4|]. apply nn. apply nn in Hn. cbn [d_fs]. destruct H3 as [(_ & ->)|(_ & -> & _)]; [exact Hn|discriminate].
      * destruct W2 as (H1 & H2). split; [left; exact H1|]. split; [exact H2|]. apply nn. cbn [d_fs]. rewrite H1. apply nn. exact Hn.
    + pose proof (exec_other d x Hr Hst) as W. destruct (exec K d x) as [[[a|] s] e]; [|discriminate]. injection Hs as <- <-. destruct W as ((W1 & W2) & W3 & _). cbn [d_fs d_ram]. split; [left; apply alike_array; exact W3|]. rewrite accept_other by exact Hst. split.
      * apply (alike_J _ _ _ _ W3). unfold J, pending in *. rewrite W1, W2. exact HJ.
      * rewrite (proj1 W3). exact Hn.
  - cbn [step] in Hs. cbn [accept].
    assert (Hi : let '(_, _, e) := exec K d x in let F := nth n (e_log e) (e_fs e) in F LB_FILE <> None /\ (array F = array (d_fs d) \/ is_reset x /\ array F = Some initial_blob \/ exists a, array F = Some a /\ committed tr (Cut x n flt rnd) a /\ integral (f_sha K) a)).
    { destruct (is_reset_dec x) as [Hr|Hr]; [|destruct (is_store_dec x) as [Hst|Hst]].
      - pose proof (exec_reset d x Hr Hn) as W. destruct (exec K d x) as [[o1 s] e]. destruct W as (_ & W1 & W2). destruct (Forall_nth_default _ _ n _ W2 W1) as (H1 & H2 & _). split; [exact H2|]. destruct H1 as [H1|H1]; auto.
      - destruct Hst as (q & Hx & Hg). cbn [ev_ok] in Hv. rewrite Hx in Hv. pose proof (exec_store d x q (accepted tr) Hx Hg Hv HJ) as W. destruct (exec K d x) as [[o1 s] e]. destruct W as (W1 & W2 & _).
        assert (HI : img (d_fs d) (accepted tr) q (nth n (e_log e) (e_fs e))) by (apply Forall_nth_default; assumption). cbv zeta. apply nn in Hn. split.
        + apply nn. destruct HI as [->|(old & fs & _ & _ & -> & _)]; [exact Hn|discriminate].
        + destruct HI as [->|Hd]; [left; reflexivity|right; right]. apply (done_committed tr (Cut x n flt rnd) q); [split; assumption|exact Hd].
      - pose proof (exec_other d x Hr Hst) as W. destruct (exec K d x) as [[o1 s] e]. destruct W as (_ & W1 & W2). assert (HI : alike (d_fs d) (nth n (e_log e) (e_fs e))) by (apply Forall_nth_default; assumption). cbv zeta. split; [rewrite (proj1 HI); exact Hn|]. left. apply alike_array. exact HI. }
    destruct (exec K d x) as [[o1 s] e]. injection Hs as <- <-. cbv zeta in Hi. set (F := nth n (e_log e) (e_fs e)) in *. destruct Hi as (H1 & H2). destruct (boot_array F flt rnd H1) as ((B1 & B2) & B3 & B4). split; [|split; [left; exact B1|exact B3]].
    destruct B4 as [B4|(B4 & B5)]; [|right; left; split; [right; exact B4|exact B5]]. unfold changes. rewrite B4. destruct H2 as [H2|[(H2 & H3)|(a & H2 & H3 & H4)]]; [left; exact H2|right; left; split; [left; exact H2|exact H3]|right; right; exists a; auto].
    split; [exact H2|]. split; [exact H3|]. split; [exact Logic.I|exact H4].
  - injection Hs as <- <-. cbn [accept d_ram d_fs]. cbn [ev_ok] in Hv. assert (HA : alike (d_fs d) F) by (split; apply Hv; cbn; tauto). split; [left; apply alike_array; exact HA|]. split; [exact (alike_J _ _ _ _ HA HJ)|]. rewrite (proj1 HA). exact Hn.
Qed.
Lemma hist_inv F flt rnd tr d : array F <> None -> hist K (boot K F flt rnd) tr d -> Inv tr d.
Proof.
  intros HF. remember (boot K F flt rnd) as d0 eqn:E. intros H. induction H as [d|d0 tr d v o d' H IH Hv Hs].
  - subst d. apply nn in HF. destruct (boot_array F flt rnd HF) as ((B1 & B2) & B3 & _). split; [left; exact B1|exact B3].
  - apply (step_inv tr d v o d' (IH E) Hv Hs).
Qed.
(** Only a reset and a completed write change the array; after power loss it is the old or the new one. *)
Theorem C52_changes F flt rnd tr d v o d' : array F <> None -> hist K (boot K F flt rnd) tr d -> ev_ok d v -> step K d v = Some (o, d') -> changes tr d v o d'.
Proof. intros HF H Hv Hs. apply (step_inv tr d v o d' (hist_inv F flt rnd tr d HF H) Hv Hs). Qed.
(** Once it is integral it always is. *)
Theorem C52_integral_partial F a flt rnd tr d : firstn 16 (f_sha K [0x80]) = tl initial_blob -> array F = Some a -> integral (f_sha K) a -> hist K (boot K F flt rnd) tr d ->
  exists a', array (d_fs d) = Some a' /\ integral (f_sha K) a'.
Proof.
  intros HK HF Ha H. assert (HN : array F <> None) by (rewrite HF; discriminate).
  assert (Hi : integral (f_sha K) initial_blob) by (exists [0x80]; rewrite HK; repeat split; reflexivity || (cbn; lia)).
  remember (boot K F flt rnd) as d0 eqn:E. revert E. induction H as [d|d0 tr d v o d' H IH Hv Hs]; intros E.
  - subst d. destruct (boot_array F flt rnd (proj2 (nn F) HN)) as (_ & _ & [B|(_ & B)]); rewrite B; [exists a; auto|exists initial_blob; auto].
  - destruct (IH E) as (a1 & H1 & H2). subst d0. destruct (C52_changes F flt rnd tr d v o d' HN H Hv Hs) as [C|[(_ & C)|(a2 & C & _ & _ & C2)]]; rewrite C; eauto.
Qed.
(** A write whose last fragment is answered with success is committed. *)
Lemma write_of_eq l1 f1 o1 l2 f2 o2 : write_of l1 f1 -> write_of l2 f2 -> o1 ++ f1 = o2 ++ f2 -> f1 = f2 /\ l1 = l2.
Proof.
  intros W1 W2 H. assert (E : f1 = f2).
  { revert o2 H. induction o1 as [|a o1 IH]; intros o2 H; cbn [app] in H.
    - destruct o2 as [|b o2]; [exact H|]. subst f1. cbn [app write_of] in W1. destruct W1 as (_ & _ & _ & W1). apply Forall_app in W1. destruct W1 as (_ & W1). destruct f2 as [|q r]; [destruct W2|]. inversion W1; subst. destruct W2. contradiction.
    - destruct o2 as [|b o2]; [|cbn [app] in H; injection H as _ H; apply (IH o2 H)]. cbn [app] in H. subst f2. cbn [write_of] in W2. destruct W2 as (_ & _ & _ & W2). apply Forall_app in W2. destruct W2 as (_ & W2). destruct f1 as [|q r]; [destruct W1|]. inversion W2; subst. destruct W1. contradiction. }
  subst f2. split; [reflexivity|]. destruct f1 as [|q r]; [destruct W1|]. destruct W1 as (_ & <- & _). destruct W2 as (_ & <- & _). reflexivity.
Qed.
Theorem C52_commits F flt rnd tr d x v d' q old fs : array F <> None -> hist K (boot K F flt rnd) tr d -> ev_ok d (Do x) -> fragment (Do x) q -> step K d (Do x) = Some (Some (ACbor 0 v), d') ->
  accepted tr ++ [q] = old ++ fs -> write_of (zlen (sent fs)) fs -> array (d_fs d') = Some (sent fs).
Proof.
  intros HF H Hv (Hx & Hg) Hs Ha Hw. destruct (hist_inv F flt rnd tr d HF H) as (HJ & _). cbn [ev_ok] in Hv. rewrite Hx in Hv. pose proof (exec_store d x q (accepted tr) Hx Hg Hv HJ) as W. cbn [step] in Hs. destruct (exec K d x) as [[[a|] s] e]; [|discriminate]. injection Hs as -> <-.
  destruct W as (_ & _ & W). cbn in W. destruct W as (_ & (old2 & fs2 & len & H1 & H2 & H3) & _). rewrite Ha in H1. destruct (write_of_eq _ _ _ _ _ _ Hw H2 H1) as (-> & <-). cbn [d_fs]. destruct H3 as [(H3 & _)|(_ & H3 & _)]; [lia|exact H3].
Qed.
(** Reading gives the bytes of the array. *)
Theorem C52_reads d x q n v s e a : x_op x = OCbor (RLarge (inr q)) -> lb_ok q -> lb_get q = Some n -> array (d_fs d) = Some a -> exec K d x = (Some (ACbor 0 v), s, e) ->
  lb_off q <= zlen a /\ v = Some (CMap [(CInt 1, CBytes (slice (lb_off q) (Z.min n (zlen a - lb_off q)) a))]).
Proof.
  intros Hx (Ho & _ & _ & Hq) Hg Ha E. rewrite Hg in Hq. set (G := _ /\ _). apply (exec_nz K d x (RLarge (inr q)) (fun v' => v' = v -> G) v s e Hx E (nz_lb K _ _ _ _ q)); [|reflexivity].
  unfold cbor_cmd, cp_observer. apply wp_bind, wp_modify. unfold ctap_large_blobs. rewrite Hg. apply wp_bind. unfold lb_fetch. apply wp_bind. unfold got. apply wp_bind. unfold start. apply wp_get_file_size. intros X' r _ [->|Hr]; [exact Logic.I|].
  assert (Hf : exists f, d_fs d LB_FILE = Some f /\ f_data f = a) by (unfold array, fdata in Ha; change "ctap_lb" with LB_FILE in Ha; destruct (d_fs d LB_FILE) as [f|]; [exists f; split; congruence|discriminate]). destruct Hf as (f & Hf & Hd).
  unfold fsize in Hr. rewrite Hf in Hr. subst r. apply wp_ret. rewrite Hd. apply wp_bind. apply wp_guard; intros E1; [|exact Logic.I]. cbv zeta. apply wp_bind. apply wp_bind. apply wp_read_file. intros X2 r _ [->|Hr]; [exact Logic.I|]. unfold fread in Hr. rewrite Hf, Hd in Hr.
  destruct (lb_off q <? 0) eqn:E2; [lia|]. subst r. apply wp_ret. set (k := if _ <? _ then _ else _) in *. destruct (zlen _ =? k); [|exact Logic.I]. apply wp_ret. apply wp_ret. intros <-. split; [lia|].
  assert (Hk : k = Z.min n (zlen a - lb_off q)) by (subst k; destruct (zlen a <? lb_off q + n) eqn:E3; lia). rewrite Hk. reflexivity.
Qed.
End S.

(** A cryptography with the value of SHA-256 that the initial array has *)
Definition toyl : fcrypto := mkFC (fun d => if beqb d [0x80] then tl initial_blob ++ repeat 0 16 else toy_sha d) (f_hmac toyf) (f_gen toyf) (f_ecdh toyf) (f_aes_enc toyf) (f_aes_dec toyf) (f_pub toyf) (f_sign toyf).
Definition newl : dev := boot toyl blank [] (repeat 5 100 ++ repeat 9 100).
Definition frag (off len : Z) (d : bytes) : op := OCbor (RLarge (inr (mkLb None d off len None None))).
Definition get_at (off n : Z) : op := OCbor (RLarge (inr (mkLb (Some n) [] off 0 None None))).
Definition blob52 (b : Z) : bytes := Eval cbv [app repeat] in repeat b 30.
Definition whole52 (b : Z) : bytes := blob52 b ++ firstn 16 (toy_sha (blob52 b)).
Definition w1 := Eval vm_compute in whole52 7.
Definition w2 := Eval vm_compute in whole52 8.
(** Two arrays are written; the power fails when the second one is committed, and again when a third write is half done; then it is read. *)
Definition case52 : list ev :=
  [do_at 1 (frag 0 46 (firstn 20 w1)); do_at 2 (frag 20 0 (skipn 20 w1)); do_at 3 (frag 0 46 (firstn 20 w2)); Cut (cmd_at 4 (frag 20 0 (skipn 20 w2))) 0 [] (repeat 5 100);
   do_at 5 (frag 0 46 (firstn 20 w1)); Cut (cmd_at 6 (frag 20 0 (skipn 20 w1))) 1 [] (repeat 5 100); do_at 7 (get_at 10 100)].
Definition test52 (tr : list entry) (d : dev) : bool :=
  forallb (fun e => match e with (_, Do _, Some (ACbor c _)) => c =? 0 | (_, Cut _ _ _ _, _) => true | _ => false end) tr && match array (d_fs d) with Some a => beqb a w2 | None => false end &&
  match rev tr with (_, _, Some (ACbor _ (Some (CMap [(CInt 1, CBytes b)])))) :: _ => beqb b (skipn 10 w2) | _ => false end.
Example C52_case : exists tr d, hist toyl newl tr d /\ test52 tr d = true /\ map (fun e => snd (fst e)) tr = case52.
Proof. apply play_case. vm_compute. reflexivity. Qed.
Example C52_case_sha : firstn 16 (f_sha toyl [0x80]) = tl initial_blob /\ (exists a, array (d_fs newl) = Some a /\ integral (f_sha toyl) a).
Proof. split; [vm_compute; reflexivity|]. exists initial_blob. split; [vm_compute; reflexivity|]. exists [0x80]. split; [discriminate|]. split; vm_compute; reflexivity. Qed.
(** The first boot, and power loss when the file of the array has been created but not written: the next boot finds the file and leaves it empty. *)
Definition first_boot : list fs := let '(_, _, e) := ctap_install toyl false ctap_boot (start blank [] (repeat 5 100 ++ repeat 9 100) []) in e_log e.
Theorem C52_first_boot_refuted : exists F, In F first_boot /\ array (d_fs (boot toyl F [] (repeat 5 100))) = Some [] /\ ~ integral (f_sha toyl) [].
Proof.
  exists (nth 1 first_boot blank). split; [apply nth_In; apply Nat.ltb_lt; vm_compute; reflexivity|]. split; [vm_compute; reflexivity|]. intros (d & H1 & H2 & H3). change (zlen (@nil Z)) with 0 in H3. lia.
Qed.
Print Assumptions C52_changes. Print Assumptions C52_integral_partial. Print Assumptions C52_commits. Print Assumptions C52_reads. Print Assumptions C52_first_boot_refuted.
