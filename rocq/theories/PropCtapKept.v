(** C95: a resident credential is kept until it is deleted, replaced by its own account, or the device is reset. *)
From Verif Require Import CtapSpec CtapFrame CtapExec CtapRel CtapCred CtapToy CtapStore PropCtapPin PropCtapToken PropCtapCred PropCtapReset PropCtapBlob PropCtapCrash PropCtapOwn.
Open Scope string_scope. Open Scope list_scope. Open Scope Z_scope.

(** ** Specification *)
(** The same credential, perhaps with another name of the user: the id (with the RP, and so the key) and the user id are the same. *)
Definition same_cred (r r' : bytes) : Prop :=
  dc_id r' = dc_id r /\ u_size (dc_user r') = u_size (dc_user r) /\ slice 0 (u_size (dc_user r)) (u_id (dc_user r')) = slice 0 (u_size (dc_user r)) (u_id (dc_user r)).
(** The request is not one to remove the credential [r]: no reset, no deletion of its id, no new resident credential of the same RP and user id *)
Definition op_spares (r : bytes) (o : op) : Prop :=
  match o with
  | OCbor (RMake (inr q)) => mc_rk q = 1 -> ~ account q r
  | OCbor (RCm (inr q)) => cm_sub q = 6 -> cm_id q <> dc_id r
  | OCbor RReset | OReset => False
  | _ => True
  end.
(** ... and not one to change its user information *)
Definition op_leaves (r : bytes) (o : op) : Prop := match o with OCbor (RCm (inr q)) => cm_sub q = 7 -> cm_id q <> dc_id r | _ => True end.
(** The same for an event, completed or cut off at any write.  Storage errors may happen, but not in a command that begins with the roll-back of an
    interrupted operation, and not at boot (cf. C53_storage_error_refuted). *)
Definition of_op (P : op -> Prop) (e : entry) : Prop :=
  let '(d, v, _) := e in
  match v with
  | Do x => P (x_op x) /\ (unfinished (d_fs d) = None \/ x_flt x = [])
  | Cut x _ flt _ => P (x_op x) /\ (unfinished (d_fs d) = None \/ x_flt x = []) /\ flt = []
  | Other _ => True
  end.

Section S.
Variable K : fcrypto.
Lemma same_cred_refl r : same_cred r r. Proof. repeat split. Qed.
Lemma same_cred_trans a b c : same_cred a b -> same_cred b c -> same_cred a c.
Proof. intros (A1 & A2 & A3) (B1 & B2 & B3). split; [congruence|]. split; [congruence|]. rewrite <- A3, <- A2. exact B3. Qed.
Lemma account_same q r r' : same_cred r r' -> account q r' -> account q r.
Proof. intros (H1 & H2 & H3) (A1 & A2 & A3). split; [congruence|]. split; [congruence|]. assert (E : u_size (dc_user r) = u_size (mc_user q)) by congruence. rewrite E in H3. congruence. Qed.
Lemma spares_same r r' o : same_cred r r' -> op_spares r o -> op_spares r' o.
Proof.
  intros HS H. destruct o as [[[w|q]|p| | |p| |[w|q]| |p| ]|da|p1 da| |da|da|da]; try exact H; cbn [op_spares] in *.
  - intros Hk Ha. exact (H Hk (account_same q r r' HS Ha)).
  - destruct HS as (-> & _). exact H.
Qed.
Lemma shown_cell F j r : shown_at F j = Some r -> cell F j = Some r /\ dc_deleted r = false.
Proof.
  unfold shown_at. intros H. assert (C : credential F j = Some r) by (destruct (unfinished F) as [i|]; [destruct (i =? j); [discriminate|]|]; exact H). unfold credential in C. destruct (cell F j) as [d|]; [|discriminate]. destruct (nth 265 d 0 =? 0) eqn:E; [|discriminate]. injection C as <-. split; [reflexivity|]. unfold dc_deleted. rewrite E. reflexivity.
Qed.
Lemma splice_parts r u : zlen r = 300 -> zlen u = 195 -> dc_id (splice r 70 u) = dc_id r /\ dc_user (splice r 70 u) = u.
Proof.
  intros Hl Hu. split.
  - unfold dc_id, splice, slice. change (Z.to_nat 70) with 70%nat. change (Z.to_nat 0) with 0%nat. rewrite ?skipn_O. rewrite firstn_app. assert (L : length r = 300%nat) by (unfold zlen in Hl; lia). rewrite firstn_length, L. change (70 - Nat.min 70 300)%nat with 0%nat. rewrite firstn_O, app_nil_r, firstn_firstn, Nat.min_id. reflexivity.
  - unfold dc_user, splice. apply mid; [|exact Hu]. rewrite zlen_firstn. lia.
Qed.
(** One command *)
Lemma allowed_kept x F F' j r : match x_op x with OCbor q => creq_ok q | _ => True end -> allowed x F F' -> op_spares r (x_op x) -> shown_at F j = Some r ->
  exists r', shown_at F' j = Some r' /\ same_cred r r' /\ (op_leaves r (x_op x) -> r' = r).
Proof.
  intros Hok HA HS Hj. assert (S0 : shown_at F' j = Some r -> exists r', shown_at F' j = Some r' /\ same_cred r r' /\ (op_leaves r (x_op x) -> r' = r)) by (intros H; exists r; split; [exact H|split; [apply same_cred_refl|reflexivity]]).
  unfold allowed in HA. destruct HA as [HA|HA]; [apply S0; rewrite HA; exact Hj|].
  destruct (x_op x) as [[[w|q]|p| | |p| |[w|q]| |p| ]|da|p1 da| |da|da|da]; try destruct HA; cbn [op_spares op_leaves] in *.
  - destruct H0 as [(id & k & r1 & (O1 & O2) & _ & _ & _ & C)|(k & old & C1 & C2 & O1 & O2)]; (destruct (Z.eq_dec j k) as [->|N]; [exfalso|apply S0; rewrite O2 by exact N; exact Hj]).
    + destruct C as [(C & _)|(old & C1 & C2)]; [congruence|]. apply (HS H). congruence.
    + apply (HS H). congruence.
  - destruct H as (Hs & k & d & D1 & D2 & O1 & O2). destruct (Z.eq_dec j k) as [->|N]; [exfalso; apply (HS Hs); congruence|apply S0; rewrite O2 by exact N; exact Hj].
  - destruct H as (Hs & k & d & D1 & D2 & (O1 & O2) & U1 & U2). destruct (Z.eq_dec j k) as [->|N]; [|apply S0; rewrite O2 by exact N; exact Hj]. assert (d = r) as -> by congruence.
    destruct (shown_cell F k r Hj) as (Hc & _). destruct (cell_len F k r Hc) as (Hl & _). destruct Hok as (_ & _ & (Hu & _) & _). destruct (splice_parts r (cm_user q) Hl Hu) as (P1 & P2). eexists. split; [exact O1|]. split; [|intros HL; elim (HL Hs); congruence].
    split; [exact P1|]. rewrite P2. split; [congruence|]. rewrite U1. symmetry. exact U2.
Qed.
Lemma step_kept d v o d' j r : hmac_sized K -> ev_ok d v -> step K d v = Some (o, d') -> array (d_fs d) <> None -> shown_at (d_fs d) j = Some r -> of_op (op_spares r) (d, v, o) ->
  array (d_fs d') <> None /\ exists r', shown_at (d_fs d') j = Some r' /\ same_cred r r' /\ (of_op (op_leaves r) (d, v, o) -> r' = r).
Proof.
  intros Hsz Hv Hs HA Hj HO. assert (NR : forall x, op_spares r (x_op x) -> ~ is_reset x) by (intros x H [E|E]; rewrite E in H; exact H).
  destruct v as [x|x n flt rnd|G]; cbn [of_op] in HO.
  - destruct HO as (HO & HX). pose proof (images_installed K d x (proj2 (nn _) HA) (NR x HO)) as HI. cbn [step] in Hs. pose proof (exec_all K d x Hsz (NR x HO) Hv HX) as W. destruct (exec K d x) as [[[a1|] s] e]; [|discriminate]. injection Hs as _ <-. destruct W as (_ & W & _). cbn [d_fs].
    split; [apply nn, HI|]. destruct (allowed_kept x (d_fs d) (e_fs e) j r Hv W HO Hj) as (r' & H1 & H2 & H3). exists r'. split; [exact H1|]. split; [exact H2|]. intros (H4 & _). exact (H3 H4).
  - destruct HO as (HO & HX & ->). pose proof (C53_power_loss_partial K d x n rnd o d' Hsz HA Hv (NR x HO) HX Hs) as W. pose proof (images_installed K d x (proj2 (nn _) HA) (NR x HO)) as HI.
    split. { cbn [step] in Hs. destruct (exec K d x) as [[o1 s] e]. injection Hs as _ <-. destruct HI as (I1 & I2). assert (HI : nth n (e_log e) (e_fs e) LB_FILE <> None) by (apply (Forall_nth_default installed); assumption). rewrite boot_same by exact HI. apply nn, HI. }
    destruct (allowed_kept x (d_fs d) (d_fs d') j r Hv W HO Hj) as (r' & H1 & H2 & H3). exists r'. split; [exact H1|]. split; [exact H2|]. intros (H4 & _). exact (H3 H4).
  - cbn [step ev_ok] in *. injection Hs as _ <-. cbn [d_fs]. split; [unfold array, fdata in *; rewrite (Hv "ctap_lb") by (cbn; tauto); exact HA|]. exists r. split; [|split; [apply same_cred_refl|reflexivity]]. rewrite <- Hj. apply same_dc. apply Hv. cbn; tauto.
Qed.
Lemma of_op_mono (P Q : op -> Prop) e : (forall o, P o -> Q o) -> of_op P e -> of_op Q e.
Proof. intros H. destruct e as [[d v] o]. destruct v; cbn [of_op]; intuition. Qed.
(** ** The theorems *)
(** Whatever else is done, and wherever the power fails, the credential stays in its slot. *)
Theorem C95_kept d1 tr d2 j r : hmac_sized K -> array (d_fs d1) <> None -> hist K d1 tr d2 -> shown_at (d_fs d1) j = Some r -> Forall (of_op (op_spares r)) tr ->
  exists r', shown_at (d_fs d2) j = Some r' /\ same_cred r r'.
Proof.
  intros Hsz HA Hh Hj HT. assert (W : array (d_fs d2) <> None /\ exists r', shown_at (d_fs d2) j = Some r' /\ same_cred r r'); [|exact (proj2 W)].
  induction Hh as [d|d0 tr d v o d' H IH Hv Hs]; [split; [exact HA|exists r; split; [exact Hj|apply same_cred_refl]]|]. apply Forall_app in HT. destruct HT as (T1 & T2). inversion T2 as [|? ? T3 _]; subst. destruct (IH HA Hj T1) as (HA' & r1 & H1 & H2).
  destruct (step_kept d v o d' j r1 Hsz Hv Hs HA' H1 (of_op_mono _ _ _ (fun o => spares_same r r1 o H2) T3)) as (H3 & r2 & H4 & H5 & _). split; [exact H3|]. exists r2. split; [exact H4|]. exact (same_cred_trans r r1 r2 H2 H5).
Qed.
(** Without an update of its user information it stays as it is, byte for byte. *)
Theorem C95_unchanged d1 tr d2 j r : hmac_sized K -> array (d_fs d1) <> None -> hist K d1 tr d2 -> shown_at (d_fs d1) j = Some r -> Forall (of_op (fun o => op_spares r o /\ op_leaves r o)) tr ->
  shown_at (d_fs d2) j = Some r.
Proof.
  intros Hsz HA Hh Hj HT. assert (W : array (d_fs d2) <> None /\ shown_at (d_fs d2) j = Some r); [|exact (proj2 W)].
  induction Hh as [d|d0 tr d v o d' H IH Hv Hs]; [split; [exact HA|exact Hj]|]. apply Forall_app in HT. destruct HT as (T1 & T2). inversion T2 as [|? ? T3 _]; subst. destruct (IH HA Hj T1) as (HA' & H1).
  destruct (step_kept d v o d' j r Hsz Hv Hs HA' H1) as (H3 & r2 & H4 & _ & H5); [eapply of_op_mono; [|exact T3]; intros ? HH; apply HH|]. split; [exact H3|]. rewrite H4. f_equal. apply H5. eapply of_op_mono; [|exact T3]. intros ? HH; apply HH.
Qed.
(** So it is among the credentials that getAssertion without a list goes through (C57): with any request of its RP that satisfies its protection level. *)
Theorem C95_listed d1 tr d2 j r x q v s e L : hmac_sized K -> array (d_fs d1) <> None -> hist K d1 tr d2 -> shown_at (d_fs d1) j = Some r -> Forall (of_op (op_spares r)) tr ->
  x_op x = OCbor (RGet (inr q)) -> ga_ok q -> (unfinished (d_fs d2) = None \/ x_flt x = []) -> exec K d2 x = (Some (ACbor 0 (Some v)), s, e) -> id_rp (dc_id r) = ga_rphash q -> may_use (id_cp (dc_id r)) false (says_uv v) ->
  eligible (e_fs e) (ga_rphash q) (says_uv v) (slots_of (e_fs e)) L -> In j L.
Proof.
  intros Hsz HA Hh Hj HT Hx Hq HX E Hr Hm (_ & HL).
  assert (Hh2 : hist K d1 (tr ++ [(d2, Do x, Some (ACbor 0 (Some v)))]) (mkD s (e_fs e))) by (econstructor; [exact Hh|cbn [ev_ok]; rewrite Hx; exact Hq|cbn [step]; rewrite E; reflexivity]).
  destruct (C95_kept d1 _ _ j r Hsz HA Hh2 Hj) as (r' & H1 & H2 & _). { apply Forall_app. split; [exact HT|]. constructor; [|constructor]. cbn [of_op]. rewrite Hx. split; [exact Logic.I|exact HX]. }
  cbn [d_fs] in H1. destruct (shown_cell _ _ _ H1) as (Hc & Hd). destruct (cell_len _ _ _ Hc) as (Hl & Hj0). apply HL. unfold cell, fdata in Hc. unfold slots_of, fsize. destruct (e_fs e "ctap_dc") as [f|] eqn:Ef; [|discriminate].
  destruct ((0 <=? j) && ((j + 1) * 300 <=? zlen (f_data f))) eqn:Eb; [|discriminate]. apply andb_true_iff in Eb. destruct Eb as (_ & Eb). apply Z.leb_le in Eb. cbn [option_map]. split; [split; [exact Hj0|]|].
  - pose proof (Z.div_le_lower_bound (zlen (f_data f)) 300 (j + 1)). lia.
  - exists r'. split; [split; [unfold fread; rewrite Ef; destruct (j * 300 <? 0) eqn:E3; [lia|exact Hc]|split; [exact Hl|exact Hd]]|]. rewrite H2. split; assumption.
Qed.
End S.
Print Assumptions C95_kept.
Print Assumptions C95_unchanged.
Print Assumptions C95_listed.

(** A credential for user 1 of RP 7; then one for user 2, one for user 1 of another RP that is cut off, and an assertion *)
Definition more95 : list ev := [Do (make53 20002 7 2); Cut (make53 20003 8 1) 2 [] (repeat 5 100); Do (cmd_at 20004 (OCbor (RGet (inr (ga_of 7 [] None)))))].
Definition accountb (q : mcreq) (d : bytes) : bool := beqb (mc_rphash q) (id_rp (dc_id d)) && (u_size (mc_user q) =? u_size (dc_user d)) && beqb (slice 0 (u_size (mc_user q)) (u_id (mc_user q))) (slice 0 (u_size (mc_user q)) (u_id (dc_user d))).
Definition ready95 (tr : list entry) (d : dev) : bool :=
  match skipn 2 tr with
  | (d1, _, _) :: _ => match shown_at (d_fs d1) 0 with Some r => negb (accountb (mc_of 7 2 1 None) r) && negb (accountb (mc_of 8 1 1 None) r) && is_some (array (d_fs d1)) | None => false end
  | [] => false
  end.
Example C95_case : hmac_sized toyf /\ exists tr1 d1 tr d2 r, hist toyf fresh_dev tr1 d1 /\ array (d_fs d1) <> None /\ shown_at (d_fs d1) 0 = Some r /\ hist toyf d1 tr d2 /\ map (fun e => snd (fst e)) tr = more95 /\ Forall (of_op (fun o => op_spares r o /\ op_leaves r o)) tr.
Proof.
  split; [apply C53_case_sized|]. destruct (play_case toyf fresh_dev (h53 ++ more95) ready95) as (tr0 & d2 & H1 & H2 & H3); [vm_compute; reflexivity|].
  destruct tr0 as [|[[da va] oa] [|[[db vb] ob] [|[[d1 v1] o1] [|[[dc vc] oc] [|[[dd vd] od] [|? ?]]]]]]; try discriminate H3. cbn [ready95 skipn] in H2. destruct (shown_at (d_fs d1) 0) as [r|] eqn:Er; [|discriminate]. apply andb_true_iff in H2. destruct H2 as (H2 & H4). apply andb_true_iff in H2. destruct H2 as (H2 & H5).
  assert (E1 : v1 = Do (make53 20002 7 2)) by exact (f_equal (fun l => nth 2 l v1) H3). assert (E2 : vc = Cut (make53 20003 8 1) 2 [] (repeat 5 100)) by exact (f_equal (fun l => nth 3 l v1) H3). assert (E3 : vd = Do (cmd_at 20004 (OCbor (RGet (inr (ga_of 7 [] None)))))) by exact (f_equal (fun l => nth 4 l v1) H3). clear H3.
  change (hist toyf fresh_dev ([(da, va, oa); (db, vb, ob)] ++ [(d1, v1, o1); (dc, vc, oc); (dd, vd, od)]) d2) in H1. apply hist_app in H1. destruct H1 as (dx & G1 & G2). pose proof G2 as G3. change (hist toyf dx ([(d1, v1, o1)] ++ [(dc, vc, oc); (dd, vd, od)]) d2) in G3. apply hist_app in G3. destruct G3 as (dy & G3 & _). apply hist_one in G3. destruct G3 as (v & o & G3 & _). assert (ED : dx = d1) by exact (eq_sym (f_equal (fun e : entry => fst (fst e)) G3)). subst dx. clear G3.
  do 5 eexists. split; [exact G1|]. split; [destruct (array (d_fs d1)); [discriminate|discriminate H4]|]. split; [exact Er|]. split; [exact G2|]. split; [subst; reflexivity|]. subst v1 vc vd.
  assert (A : forall q, negb (accountb q r) = true -> ~ account q r) by (intros q Hb Ha; apply account_dec in Ha; unfold accountb in Hb; rewrite Ha in Hb; discriminate).
  constructor; [|constructor; [|constructor; [|constructor]]]; cbn [of_op].
  - split; [split; [intros _; apply A; assumption|exact Logic.I]|right; reflexivity].
  - split; [split; [intros _; apply A; assumption|exact Logic.I]|split; [right; reflexivity|reflexivity]].
  - split; [split; exact Logic.I|right; reflexivity].
Qed.

(** ** What does not hold *)
(** One storage error at boot, when the size of the large-blob file is asked for (ctap.c:71), is taken for a device that was never installed: whatever the
    storage holds, all resident credentials are dropped and the PIN is removed. *)
Definition wiped (F : fs) : Prop := no_creds F /\ fattr F "ctap_cert" 2 = Some [].
Lemma must_wf p d o t (Q : out unit -> ctap -> env -> Prop) s F L R T O : (forall L', Q (Ret tt) s (mkE (fwrite F p d o t) L' [] R T O)) -> wp (must (write_file p d o t)) Q s (mkE F L [] R T O).
Proof. intros H. unfold must. apply wp_bind. apply wp_write_file; [intros X' HX; rewrite (HX eq_refl)|congruence|congruence]. apply wp_guard; intros E; [apply H|discriminate]. Qed.
Lemma must_wa p b v (Q : out unit -> ctap -> env -> Prop) s F L R T O : F p <> None -> (forall L', Q (Ret tt) s (mkE (fsetattr F p b v) L' [] R T O)) -> wp (must (write_attr p b v)) Q s (mkE F L [] R T O).
Proof. intros HF H. unfold must. apply wp_bind. apply wp_write_attr; [intros _ X' HX; rewrite (HX eq_refl)|intros [E|E] X' _; congruence]. apply wp_guard; intros E; [apply H|discriminate]. Qed.
Lemma fwrite_other F p d o t q : q <> p -> fwrite F p d o t q = F q.
Proof. intros H. unfold fwrite, fcreate. destruct (F p) as [f|] eqn:E; rewrite ?E, ?fset_same; [rewrite fset_other by exact H; reflexivity|]. rewrite !fset_other by exact H. reflexivity. Qed.
Lemma fwrite_some F p d o t : fwrite F p d o t p <> None.
Proof. unfold fwrite, fcreate. destruct (F p) as [f|] eqn:E; rewrite ?E, ?fset_same; repeat match goal with |- context [match ?x with _ => _ end] => destruct x end; rewrite ?fset_same; congruence. Qed.
Lemma fsetattr_other F p b v q : q <> p -> fsetattr F p b v q = F q.
Proof. intros H. unfold fsetattr. destruct (F p); [apply fset_other; exact H|reflexivity]. Qed.
Lemma fsetattr_some F p b v : F p <> None -> fsetattr F p b v p <> None.
Proof. intros H. unfold fsetattr. destruct (F p); [rewrite fset_same; discriminate|congruence]. Qed.
Theorem C95_boot_error_refuted K F rnd : wiped (d_fs (boot K F [FEarly] rnd)).
Proof.
  unfold boot. assert (V : wp (ctap_install K false) (fun _ _ e => wiped (e_fs e)) ctap_boot (start F [FEarly] rnd [])).
  { unfold ctap_install, cp_initialize, cp_regenerate, cp_reset_token. do 2 (apply wp_bind; apply wp_modify). unfold start. apply wp_bind, wp_bind, wp_bind, wp_random. intros r1 R1. apply wp_modify. apply wp_bind, wp_random. intros r2 R2. apply wp_modify.
    apply wp_bind. unfold wp at 1, get_file_size, pop_fault. cbn [e_flt e_fs e_log e_rnd e_tch e_out].
    apply wp_bind, must_wf. intros L1. set (F1 := fwrite F DC_FILE [] 0 true). assert (B1 : no_creds F1).
    { unfold F1, fwrite. destruct (fcreate F DC_FILE DC_FILE) as [f|] eqn:E; [|exfalso; unfold fcreate in E; destruct (F DC_FILE) eqn:E2; [congruence|rewrite fset_same in E; discriminate]]. eapply no_creds_empty; [apply fset_same| |reflexivity]. reflexivity. }
    assert (N1 : F1 DC_FILE <> None) by apply fwrite_some. clearbody F1. apply wp_bind, must_wa; [exact N1|]. intros L2. set (F2 := fsetattr F1 _ _ _). assert (B2 : no_creds F2) by (intros j; unfold F2; rewrite cred_attr; apply B1). clearbody F2.
    apply wp_bind, must_wf. intros L3. set (F3 := fwrite F2 _ _ _ _). assert (B3 : no_creds F3) by (intros j; rewrite <- (B2 j); apply cred_dc, fwrite_other; discriminate). clearbody F3.
    apply wp_bind, must_wf. intros L4. set (F4 := fwrite F3 _ _ _ _). assert (B4 : no_creds F4) by (intros j; rewrite <- (B3 j); apply cred_dc, fwrite_other; discriminate). assert (N4 : F4 CTAP_CERT_FILE <> None) by apply fwrite_some. clearbody F4.
    apply wp_bind, must_wa; [exact N4|]. intros L5. set (F5 := fsetattr F4 _ _ _). assert (B5 : no_creds F5) by (intros j; rewrite <- (B4 j); apply cred_dc, fsetattr_other; discriminate). assert (N5 : F5 CTAP_CERT_FILE <> None) by apply (fsetattr_some _ _ _ _ N4). clearbody F5.
    apply wp_bind, must_wa; [exact N5|]. intros L6. set (F6 := fsetattr F5 _ _ _). assert (B6 : wiped F6).
    { split; [intros j; rewrite <- (B5 j); apply cred_dc, fsetattr_other; discriminate|]. unfold F6, fattr, fsetattr. change "ctap_cert" with CTAP_CERT_FILE. destruct (F5 CTAP_CERT_FILE) as [f|]; [|congruence]. rewrite fset_same. cbn [f_attr]. apply aset_same. }
    clearbody F6. match goal with |- wp ?m _ ?s ?e => assert (W : CtapFrame.keep anyc wiped (fun _ => True) m) end.
    { assert (A : forall b v, b <> PIN_ATTR -> CtapFrame.keep anyc wiped (fun _ => True) (must (write_attr CTAP_CERT_FILE b v))).
      { intros b v Hb. apply kp_must, kp_write_attr_at; [auto|]. intros G f (G1 & G2) Ef. split; [intros j; rewrite <- (G1 j); apply cred_dc, fset_other; discriminate|]. unfold fattr in *. change "ctap_cert" with CTAP_CERT_FILE in *. rewrite fset_same. rewrite Ef in G2. cbn [f_attr]. unfold aset. change PIN_ATTR with 2 in Hb. destruct (2 =? b) eqn:E; [lia|]. exact G2. }
      apply kp_bind; [apply kp_random|intros kh]. apply kp_bind; [apply A; discriminate|intros _]. apply kp_bind; [apply kp_random|intros he]. apply kp_bind; [apply A; discriminate|intros _].
      apply kp_must, kp_write_file; [auto|]. intros G y (G1 & G2). split; [intros j; rewrite <- (G1 j); apply cred_dc, fset_other; discriminate|]. unfold fattr in *. rewrite fset_other by discriminate. exact G2. }
    eapply wp_mono; [apply W; split; [exact Logic.I|split; [exact B6|apply Forall_forall; auto]]|]. intros o s e (_ & H & _). exact H. }
  unfold wp in V. destruct (ctap_install K false ctap_boot (start F [FEarly] rnd [])) as [[o s] e]. exact V.
Qed.
Print Assumptions C95_boot_error_refuted.
