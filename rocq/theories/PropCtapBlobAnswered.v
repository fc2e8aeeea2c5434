(** C90, the writes: on a device that was started with a large-blob array and then used in any way, every fragment that is written gets an answer.  The check of the hash reads
    back what the fragments before left in the temporary file (ctap.c:2140-2150), so this is not true of every state of the memory. *)
From Verif Require Import CtapSpec CtapFrame CtapToy PropCtapToken PropCtapReset PropCtapAnswered PropCtapBlob.
Open Scope string_scope. Open Scope list_scope. Open Scope Z_scope.

Section S.
Variable K : fcrypto.
Definition ends {A} (o : out A) : Prop := match o with Ret _ | Exc _ => True | Fail | UB => False end.

Lemma lb_read_ends F n off len data s L X R T O : fdata F "ctap_lbt" = Some data -> 0 <= off <= len -> len <= zlen data -> wp (lb_read n off len) (fun o s' e' => ends o /\ e_fs e' = F) s (mkE F L X R T O).
Proof.
  intros Hd. revert off X. induction n as [|n IH]; intros off X Ho Hl; cbn [lb_read]; [apply wp_ret; cbn; auto|].
  destruct (len <=? off) eqn:E; [apply wp_ret; cbn; auto|].
  cbv zeta. set (k := Z.min 256 (len - off)). apply wp_bind. unfold got. apply wp_bind. apply wp_read_file. intros X' r _ [->|Hr]; [cbn; auto|].
  assert (Hf : fread F LB_FILE_TMP off k = Some (slice off k data)).
  { unfold fread, fdata in *. change LB_FILE_TMP with "ctap_lbt". destruct (F "ctap_lbt") as [f|]; [|discriminate]. cbn [option_map] in *. injection Hd as <-. destruct (off <? 0) eqn:En; [lia|reflexivity]. }
  rewrite Hf in Hr. subst r. apply wp_ret.
  assert (Hk : zlen (slice off k data) = k) by (unfold slice, zlen in *; rewrite firstn_length, skipn_length; lia). rewrite Hk, Z.eqb_refl. cbn [negb]. apply wp_bind. eapply wp_mono; [apply IH; lia|].
  intros [d|w| |] s' e' (H1 & H2); cbn [ends] in *; try tauto. apply wp_ret. cbn; auto.
Qed.
Lemma cl_lb_auth N t2 q : 0 <= N -> calm N false any (lb_auth K t2 q).
Proof.
  intros HN. unfold lb_auth, has_pin, cp_verify_token, cp_has_permission.
  repeat match goal with
  | |- calm _ _ _ (bind _ _) => eapply cl_any; [|intros ?]
  | |- calm _ _ _ (ret _) => apply cl_ret; exact I
  | |- calm _ _ _ (except _) => apply cl_exc
  | |- calm _ _ _ get => apply cl_get
  | |- calm _ _ _ (gets _) => apply cl_gets
  | |- calm _ _ _ (modify _) => apply cl_modify
  | |- calm _ _ _ (guard _ _) => apply cl_guard
  | |- calm _ _ _ (read_attr _ _) => apply cl_read_attr
  | |- calm _ _ _ (if ?b then _ else _) => destruct b
  | |- calm _ _ _ (match ?x with _ => _ end) => destruct x
  end.
Qed.
Lemma store_ends t2 q acc s F L X R T O : lb_ok q -> lb_get q = None -> J acc s F -> wp (lb_store K t2 q) (fun o _ _ => ends o) s (mkE F L X R T O).
Proof.
  intros (Hoff & _ & Hset & Hlen) Hg HJ. rewrite Hg in Hlen. pose proof (zlen_nonneg (lb_set q)) as Hz.
  unfold lb_store. apply wp_bind. 
  apply wp_mono with (Q := fun o s1 e1 => e1 = mkE F L X R T O /\ o = Ret tt /\ J acc s1 F /\ (lb_off q = 0 -> c_next s1 = 0 /\ c_len s1 = lb_len q)).
  { destruct (lb_off q =? 0) eqn:E0; [apply wp_modify|apply wp_ret]; (split; [reflexivity|]); (split; [reflexivity|]).
    - split; [left; reflexivity|]. intros _. split; reflexivity.
    - split; [exact HJ|lia]. }
  intros o s1 e1 (-> & -> & HJ1 & H0). clear HJ s. apply wp_bind, wp_get. apply wp_bind. apply wp_guard; intros E1; [|exact I]. apply Z.eqb_eq in E1.
  apply wp_bind.
  assert (A1 : wp (lb_auth K t2 q) (fun o s e => at_lb (c_next s1) (c_len s1) s /\ e_fs e = F /\ Forall (fun _ => True) (e_log e)) s1 (mkE F L X R T O)).
  { apply (kp_lb_auth K t2 (at_lb (c_next s1) (c_len s1)) (fun G => G = F) (fun _ => True)); [intros f s H; exact H|]. split; [split; reflexivity|]. split; [reflexivity|]. apply Forall_forall. auto. }
  assert (A2 : wp (lb_auth K t2 q) (fun o _ e' => small 1152 e' /\ fine false any o) s1 (mkE F L X R T O)) by (apply cl_lb_auth; [lia|apply small_wide; lia]).
  unfold wp in A1, A2 |- *. destruct (lb_auth K t2 q s1 (mkE F L X R T O)) as [[o s2] e2]. destruct A1 as ((N2 & L2) & HF & _), A2 as (_ & A2). destruct o as [[]|w| |]; cbn [fine] in A2; try exact I; try discriminate; try destruct A2.
  clear L X R T O. destruct e2 as [G L X R T O]. cbn [e_fs] in HF. subst G.
  match goal with |- match ?m ?s ?e with _ => _ end => change (wp m (fun o _ _ => ends o) s e) end.
  assert (HJ2 : J acc s2 F) by (unfold J, pending in *; rewrite N2, L2; exact HJ1). rewrite <- N2 in *. rewrite <- L2 in *. clear HJ1 N2 L2 s1.
  apply wp_bind, wp_get. apply wp_bind. apply wp_guard; intros E2; [|exact I]. apply Z.leb_le in E2.
  assert (HP : lb_off q = 0 \/ pending acc s2 F) by (destruct HJ2 as [H|[H|H]]; [left; lia|lia|right; exact H]).
  apply wp_bind. unfold must at 1. apply wp_bind. apply wp_write_file; [intros X' _|intros _ X'|intros _ X']; [|exact I|exact I].
  apply wp_guard; intros Eg; [clear Eg|discriminate]. set (F2 := fwrite F LB_FILE_TMP (lb_set q) (lb_off q) (lb_off q =? 0)).
  assert (W : exists w, zlen w = lb_off q + zlen (lb_set q) /\ fdata F2 "ctap_lbt" = Some w).
  { destruct (Z.eq_dec (lb_off q) 0) as [Z0|Z0].
    - exists (lb_set q). split; [lia|]. unfold F2. rewrite Z0. apply lbt_first.
    - destruct HP as [H|(_ & _ & old & fs & Ha & Hw & Hs & Hd)]; [lia|]. exists (sent fs ++ lb_set q). rewrite zlen_app. split; [lia|].
      unfold F2. destruct (lb_off q =? 0) eqn:E0; [lia|]. assert (lb_off q = zlen (sent fs)) as -> by lia. apply lbt_write. exact Hd. }
  destruct W as (w & Ws & Wd).
  assert (Hlim : 17 <= c_len s2 <= 4096). { destruct HP as [H|(H & _)]; [|exact H]. destruct (H0 H) as (_ & ->). exact (Hlen H). }
  cbv zeta. assert (u16 (c_next s2 + zlen (lb_set q)) = lb_off q + zlen (lb_set q)) as -> by (unfold u16; rewrite Z.mod_small; lia).
  set (nx := lb_off q + zlen (lb_set q)) in *. clearbody F2. apply wp_bind, wp_modify. destruct (negb (nx =? c_len s2)) eqn:E3; [exact I|].
  assert (u16 (c_len s2 - 16) = c_len s2 - 16) as -> by (unfold u16; rewrite Z.mod_small; lia). apply wp_bind, wp_modify. apply wp_bind. eapply wp_mono.
  { apply (lb_read_ends F2 4096 0 (c_len s2 - 16) w); [exact Wd|lia|lia]. }
  intros [d|c| |] s4 e4 (He & HF4); cbn [ends] in *; try tauto.
  destruct e4 as [G L4 X4 R4 T4 O4]. cbn [e_fs] in HF4. subst G. apply wp_bind. unfold got. apply wp_bind. apply wp_read_file. intros X5 r _ [->|Hr]; [exact I|].
  assert (Hf : fread F2 LB_FILE_TMP (c_len s2 - 16) 16 = Some (slice (c_len s2 - 16) 16 w)).
  { unfold fread, fdata in *. change LB_FILE_TMP with "ctap_lbt". destruct (F2 "ctap_lbt") as [f|]; [|discriminate]. cbn [option_map] in *. injection Wd as <-. destruct (_ <? 0) eqn:En; [lia|reflexivity]. }
  rewrite Hf in Hr. subst r. apply wp_ret.
  assert (H16 : zlen (slice (c_len s2 - 16) 16 w) = 16) by (unfold slice, zlen in *; rewrite firstn_length, skipn_length; lia). rewrite H16. change (negb (16 =? 16)) with false. cbv iota.
  apply wp_bind. apply wp_guard; intros Eh; [|exact I]. unfold must. apply wp_bind. unfold wp at 1, fs_rename, pop_fault.
  destruct X5 as [|[| |] X5]; cbn [e_flt e_fs]; try exact I; destruct (F2 LB_FILE_TMP); exact I.
Qed.

Theorem C90_blob_writes F flt rnd tr d x q : array F <> None -> hist K (boot K F flt rnd) tr d -> ev_ok d (Do x) -> fragment (Do x) q -> 1 <= x_cap x -> exists r, fst (fst (exec K d x)) = Some r.
Proof.
  intros HF Hh Hok (Hx & Hg) Hc. destruct (hist_inv K F flt rnd tr d HF Hh) as (HJ & _).
  assert (Hq : lb_ok q). { cbn [ev_ok] in Hok. rewrite Hx in Hok. exact Hok. }
  unfold exec. rewrite Hx. unfold cbor_body, process_cbor.
  assert (E : wp (cbor_cmd K (x_nfc x) (x_t1 x) (x_t2 x) (x_junk x) (RLarge (inr q))) (fun o _ _ => match o with Ret v => v = None | Exc _ => True | _ => False end) (d_ram d) (start (d_fs d) (x_flt x) (x_rnd x) (x_tch x))).
  { unfold cbor_cmd, cp_observer. apply wp_bind, wp_modify. unfold ctap_large_blobs. rewrite Hg. apply wp_bind. unfold start. eapply wp_mono; [apply (store_ends (x_t2 x) q (accepted tr)); [exact Hq|exact Hg|exact HJ]|].
    intros [u|w| |] s e H; cbn [ends] in H; try tauto. apply wp_ret. reflexivity. }
  unfold wp in E. destruct (cbor_cmd K _ _ _ _ _ _ _) as [[[v|w| |] s'] e']; [subst v|eexists; reflexivity|destruct E|destruct E].
  assert (Hm : zlen (message (0, None)) <= x_cap x) by (unfold message, zlen; cbn; lia). apply Z.leb_le in Hm. rewrite Hm. eexists; reflexivity.
Qed.
End S.
Print Assumptions C90_blob_writes.

(** The hypotheses are met: a device with an array, and the last fragment of a new one after the first was accepted; the answer is a success. *)
Definition again90 : dev := boot toyl (d_fs newl) [] (repeat 5 100).
Definition last90 : cmd := cmd_at 2 (frag 20 0 (skipn 20 w1)).
Example C90_blob_case : array (d_fs newl) <> None /\ exists tr d q, hist toyl again90 tr d /\ map (fun e => snd (fst e)) tr = [do_at 1 (frag 0 46 (firstn 20 w1))] /\
  ev_ok d (Do last90) /\ fragment (Do last90) q /\ 1 <= x_cap last90 /\ fst (fst (exec toyl d last90)) = Some (ACbor 0 None).
Proof.
  split; [vm_compute; discriminate|].
  destruct (play_case toyl again90 [do_at 1 (frag 0 46 (firstn 20 w1))] (fun _ d => match fst (fst (exec toyl d last90)) with Some (ACbor 0 None) => true | _ => false end)) as (tr & d & H1 & H2 & H3); [vm_compute; reflexivity|].
  exists tr, d. eexists. split; [exact H1|]. split; [exact H3|]. split; [apply ev_okb_ok; vm_compute; reflexivity|]. split; [split; reflexivity|]. split; [vm_compute; discriminate|].
  destruct (fst (fst (exec toyl d last90))) as [[[| |] [|]|]|]; try discriminate. reflexivity.
Qed.
