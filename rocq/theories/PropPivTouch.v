(** C79: the touch policies of PIV keys. *)
From Verif Require Import Sys Apdu Applet Frame Pin Tlv Key PropKey Piv PivSpec PropPivGa PivFrame PropPivAuth PropPivPin.
Open Scope string_scope. Open Scope list_scope. Open Scope Z_scope.

(** The user touches the device during this command: the first request for a touch is neither cancelled (1) nor does it time out (2). *)
Definition touched (x : cmd) : Prop := exists t l, x_tch x = t :: l /\ t <> 1 /\ t <> 2.
(** GENERAL AUTHENTICATE with a touch, after which the clock shows [T] *)
Definition touch_at (e : entry) (T : Z) : Prop := match e with (_, Do x, _) => is_ga (x_apdu x) /\ touched x /\ x_t2 x = T | _ => False end.
Definition powered (e : entry) : Prop := match e with (_, Cut _ _ _ _, _) | (_, InstallCut _ _ _ _ _, _) => False | _ => True end.
(** The user touched the device for PIV when the clock was [T], in this power cycle. *)
Definition last_touch (tr : list entry) (T : Z) : Prop := exists tr1 e tr2, tr = tr1 ++ [e] ++ tr2 /\ touch_at e T /\ Forall powered tr2.
(** the touch policy of a key slot: 1 never, 2 always, 3 cached for 15 seconds *)
Definition touch_policy (d : dev) (id : Z) : option Z :=
  match slot_file id with Some p => option_map m_touch (slot_meta d p) | None => None end.

Section T.
Variable K : crypto.
Section G.
Variable nfc : bool.
Variables t1 t2 : Z.
Notation ga := (piv_general_authenticate K nfc t1 t2).
Definition tin (T : list Z) : Prop := exists t l, T = t :: l /\ t <> 1 /\ t <> 2.
Definition fresh (s : piv) : Prop := v_touch s < t1 < v_touch s + 15000.
Lemma tin_hd T : (hd USER_PRESENCE_TIMEOUT T =? USER_PRESENCE_CANCEL) || (hd USER_PRESENCE_TIMEOUT T =? USER_PRESENCE_TIMEOUT) = false -> tin T.
Proof. unfold USER_PRESENCE_CANCEL, USER_PRESENCE_TIMEOUT. destruct T as [|t l]; cbn; [discriminate|]. intros H. exists t, l. split; [reflexivity|]. lia. Qed.
Definition touch_ok (m : Z) (s : piv) (T : list Z) : Prop :=
  nfc = true \/ (m <> TOUCH_POLICY_ALWAYS /\ m <> TOUCH_POLICY_CACHED) \/ tin T \/ m = TOUCH_POLICY_CACHED /\ fresh s.
Definition touch_post (c : capdu) (s : piv) (F : fs) (T : list Z) (o : out Z) (s' : piv) (e' : env) : Prop :=
  (v_touch s' = v_touch s \/ v_touch s' = t2 /\ tin T) /\
  (forall sw, o = Ret sw -> exists p a, get_key_path (c_p2 c) = Some p /\ fattr F p KEY_META_ATTR = Some a /\ touch_ok (m_touch (meta_of a)) s T).
Lemma ga_touch c tail s F L X R T : wp (ga c tail) (touch_post c s F T) s (mkE F L X R T []).
Proof.
  unfold piv_general_authenticate. cbv zeta.
  assert (Hn : forall o e', (forall sw, o <> Ret sw) -> touch_post c s F T o s e').
  { intros o e' Ho. split; [left; reflexivity|]. intros sw W. elim (Ho sw W). }
  apply wp_bind, wp_guard; intros G1; [|apply Hn; discriminate].
  apply wp_bind, wp_need_any; [intros b Hb0|intros; apply Hn; discriminate].
  apply wp_bind, wp_guard; intros G2; [|apply Hn; discriminate].
  destruct (get_key_path (c_p2 c)) as [p|] eqn:Hp; [|apply wp_except; apply Hn; discriminate].
  apply wp_bind, wp_guard; intros G3; [|apply Hn; discriminate].
  apply wp_bind, wp_got. unfold ck_read_key_metadata. apply wp_bind, wp_read_attr. intros X' r _ Va. apply wp_ret.
  destruct r as [a|]; cbn [option_map]; [|apply Hn; discriminate].
  destruct Va as [Va|Va]; [discriminate|]. symmetry in Va.
  apply wp_bind, wp_guard; intros G4; [|apply Hn; discriminate].
  apply wp_bind, wp_get, wp_bind, wp_guard; intros G5; [|apply Hn; discriminate].
  apply wp_bind, wp_lift.
  destruct (ga_template (c_data c ++ tail) (c_lc c)) as [t|w| |] eqn:Eg; [|apply Hn; discriminate..].
  set (m := meta_of a) in *.
  apply wp_bind.
  (* what the touch step leaves *)
  assert (HC : forall s1 T', (v_touch s1 = v_touch s \/ v_touch s1 = t2 /\ tin T) -> touch_ok (m_touch m) s T -> wp (
    if negb (fst (t_w t) >? 0) && (fst (t_c t) >? 0) && (snd (t_c t) >? 0) && (fst (t_r t) >? 0) && (snd (t_r t) =? 0) then ga_internal K p m (c_data c ++ tail) t
    else if (fst (t_c t) >? 0) && (snd (t_c t) =? 0) then ga_external_request K p (c_p2 c)
    else if (fst (t_r t) >? 0) && (snd (t_r t) >? 0) then ga_external_response (c_p2 c) (c_data c ++ tail) t
    else if (fst (t_w t) >? 0) && (snd (t_w t) =? 0) then ga_mutual_request K p (c_p2 c) (c_data c ++ tail)
    else if (fst (t_w t) >? 0) && (snd (t_w t) >? 0) && (fst (t_c t) >? 0) && (snd (t_c t) >? 0) then ga_mutual_response K p (c_p2 c) (c_data c ++ tail) t
    else if (fst (t_r t) >? 0) && (snd (t_r t) =? 0) && (fst (t_x t) >? 0) && (snd (t_x t) >? 0) then ga_ecdh K p m (c_data c ++ tail) t
    else modify authenticate_reset ;;; except SW_WRONG_DATA) (touch_post c s F T) s1 (mkE F L X' R T' [])).
  { intros s1 T' H1 H2. apply (wp_mono _ (fun _ s' _ => v_touch s' = v_touch s1)).
    - apply (fr_any (fun s' => v_touch s' = v_touch s1)); [|reflexivity].
      unfold ga_internal, ga_external_request, ga_external_response, ga_mutual_request, ga_mutual_response, ga_ecdh, piv_security_status_check; piv_unfold. cbv zeta.
      repeat first [frame1 | apply fr_modify; exact (fun _ H => H)].
    - intros o s' e' W. split; [rewrite W; exact H1|]. intros sw _. rewrite Hp. exists p, a. auto. }
  wif E1; [|apply wp_ret; apply HC; [left; reflexivity|right; left; split; lia]].
  unfold piv_touch. destruct nfc eqn:En; [apply wp_ret; apply HC; [left; reflexivity|left; exact En]|].
  apply wp_bind, wp_get. wif E2.
  { apply wp_ret. apply HC; [left; reflexivity|]. right; right; right. unfold fresh. lia. }
  apply wp_bind, wp_wait_touch. wif E3; [apply wp_except, Hn; discriminate|]. apply tin_hd in E3.
  apply wp_modify. apply HC; [right; split; [reflexivity|exact E3]|]. right; right; left. exact E3.
Qed.
End G.

Lemma fr_touch nfc t1 t2 v c tail : c_ins c <> 0x87 -> frame (fun s => v_touch s = v) (fun _ => True) (piv_body K nfc t1 t2 c tail).
Proof.
  intros N1. unfold piv_body. pose proof anyfs as A.
  apply fr_bind; [apply fr_guard|intros _]. apply fr_bind; [destruct (_ =? _); fr A|intros _]. apply fr_bind; [destruct (_ =? _); fr A|intros _].
  destruct (c_ins c =? 0xA4); [unfold piv_select; fr A|].
  destruct (c_ins c =? 0xCB); [unfold piv_get_data, piv_get_large_data; piv_unfold; fr A|].
  destruct (c_ins c =? 0xC0); [unfold piv_get_data_response; piv_unfold; fr A|].
  destruct (c_ins c =? 0x20); [unfold piv_verify; piv_unfold; fr A|].
  destruct (c_ins c =? 0x24); [unfold piv_change_reference_data; piv_unfold; destruct (c_p2 c =? 0x80); fr A|].
  destruct (c_ins c =? 0x2C); [unfold piv_reset_retry_counter; piv_unfold; fr A|].
  destruct (Z.eqb_spec (c_ins c) 0x87); [contradiction|].
  destruct (c_ins c =? 0xDB); [unfold piv_put_data, admin_only; piv_unfold; fr A|].
  destruct (c_ins c =? 0x47); [unfold piv_generate, admin_only; piv_unfold; fr A|].
  destruct (c_ins c =? 0xFF); [unfold piv_set_management_key, admin_only; piv_unfold; fr A|].
  destruct (c_ins c =? 0xFB).
  { unfold piv_reset; piv_unfold. repeat first [apply fr_ignore, fr_install_tail; [exact A|exact (fun _ H => H)|exact (fun _ _ H => H)] | frame1
     | apply fr_modify; exact (fun _ H => H)]. }
  destruct (c_ins c =? 0xFE); [unfold piv_import, admin_only; piv_unfold; fr A|].
  destruct (c_ins c =? 0xFD); [unfold piv_get_version; piv_unfold; fr A|].
  destruct (c_ins c =? 0xF8); [unfold piv_get_serial; piv_unfold; fr A|].
  destruct (c_ins c =? 0xF7); [unfold piv_get_metadata; piv_unfold; fr A|].
  destruct (c_ins c =? 0xEE); [unfold piv_algorithm_extension, admin_only; piv_unfold; fr A|].
  apply fr_except.
Qed.

Lemma do_touch d x r d' : step K d (Do x) = Some (r, d') ->
  (v_touch (d_ram d') = v_touch (d_ram d) \/ is_ga (x_apdu x) /\ touched x /\ v_touch (d_ram d') = x_t2 x) /\
  (is_ga (x_apdu x) -> option_map r_sw r = Some 0x9000 -> exists p a, slot_file (c_p2 (x_apdu x)) = Some p /\
     fattr (d_fs d) p KEY_META_ATTR = Some a /\ touch_ok (x_nfc x) (x_t1 x) (m_touch (meta_of a)) (d_ram d) (x_tch x)).
Proof.
  intros Hs. cbn [step] in Hs.
  pose proof (exec_wp K d x (fun r' s' e' => (v_touch s' = v_touch (d_ram d) \/ is_ga (x_apdu x) /\ touched x /\ v_touch s' = x_t2 x) /\
    (is_ga (x_apdu x) -> option_map r_sw r' = Some 0x9000 -> exists p a, get_key_path (c_p2 (x_apdu x)) = Some p /\
     fattr (d_fs d) p KEY_META_ATTR = Some a /\ touch_ok (x_nfc x) (x_t1 x) (m_touch (meta_of a)) (d_ram d) (x_tch x)))) as W.
  destruct (exec K d x) as [[[r'|] s'] e']; [|discriminate]. injection Hs as <- <-. rewrite <- slot_file_eq. apply W. clear W s' e' r'.
  destruct (Z.eq_dec (c_ins (x_apdu x)) 0x87) as [E|N].
  - unfold piv_body. rewrite E. apply wp_bind, wp_guard; intros G.
    2: { split; [left; reflexivity|]. intros [W _]. rewrite W in G. discriminate. }
    assert (Hc : c_cla (x_apdu x) = 0) by (cbn in G; lia).
    cbn [Z.eqb Pos.eqb]. apply wp_bind, wp_modify, wp_bind, wp_modify. unfold start.
    pose proof (ga_used K (x_nfc x) (x_t1 x) (x_t2 x) (x_apdu x) (x_tail x) (set_read (-1) (set_write (-1) (d_ram d))) (d_fs d) [d_fs d] (x_flt x) (x_rnd x) (x_tch x)) as U.
    pose proof (ga_touch (x_nfc x) (x_t1 x) (x_t2 x) (x_apdu x) (x_tail x) (set_read (-1) (set_write (-1) (d_ram d))) (d_fs d) [d_fs d] (x_flt x) (x_rnd x) (x_tch x)) as V.
    unfold wp in *. destruct (piv_general_authenticate _ _ _ _ _ _ _ _) as [[o s'] e']. destruct U as (_ & _ & _ & U). destruct V as [V1 V2].
    split.
    + destruct V1 as [V1|[V1 V3]]; [left; exact V1|]. right. split; [split; assumption|]. split; [exact V3|exact V1].
    + intros _ Hw. destruct o as [sw|sw| |]; cbn in Hw; try discriminate.
      * exact (V2 sw eq_refl).
      * injection Hw as Hw. elim (U sw eq_refl Hw).
  - apply (wp_mono _ (fun _ s' _ => v_touch s' = v_touch (d_ram d))).
    + apply (fr_any (fun s' => v_touch s' = v_touch (d_ram d))); [apply fr_touch; exact N|reflexivity].
    + intros o s' e' H. split; [left; exact H|]. intros [_ W]. contradiction.
Qed.

Definition tinv (tr : list entry) (d : dev) : Prop := v_touch (d_ram d) = UINT32_MAX \/ last_touch tr (v_touch (d_ram d)).
Lemma boot_tinv tr F flt rnd : tinv tr (boot F flt rnd).
Proof.
  left. unfold boot, installed. pose proof (fr_any (fun s => v_touch s = UINT32_MAX) (piv_install false) piv_boot (start F flt rnd [])) as H. unfold wp in H.
  destruct (piv_install _ _ _) as [[o s'] e']. cbn [d_ram]. apply H; [|reflexivity]. apply fr_install_tail; [exact anyfs|exact (fun _ H => H)|exact (fun _ _ H => H)].
Qed.
Lemma tinv_more tr d e d' : tinv tr d -> powered e -> v_touch (d_ram d') = v_touch (d_ram d) -> tinv (tr ++ [e]) d'.
Proof.
  intros [H|(tr1 & e1 & tr2 & -> & H1 & H2)] He Ht; [left; congruence|right]. exists tr1, e1, (tr2 ++ [e]). rewrite Ht. split; [rewrite <- !app_assoc; reflexivity|].
  split; [exact H1|]. apply Forall_app. auto.
Qed.
Lemma hist_tinv tr d : since_boot K tr d -> tinv tr d.
Proof.
  intros (F0 & flt0 & rnd0 & H). remember (boot F0 flt0 rnd0) as d0 eqn:E0. induction H as [d0|d0 tr d v o d' H IH Hok Hst].
  - subst. apply boot_tinv.
  - specialize (IH E0). destruct v as [x|x n flt rnd| |flt rnd|flt rnd n flt' rnd'|F].
    + destruct (do_touch d x o d' Hst) as [[W|(W1 & W2 & W3)] _]; [eapply tinv_more; [exact IH|exact I|exact W]|].
      right. exists tr, (d, Do x, o), []. split; [reflexivity|]. split; [|constructor]. cbn. auto.
    + cbn [step] in Hst. destruct (exec K d x) as [[? ?] e]. injection Hst as _ <-. apply boot_tinv.
    + injection Hst as _ <-. eapply tinv_more; [exact IH|exact I|reflexivity].
    + cbn [step] in Hst. unfold installed in Hst.
      pose proof (fr_any (fun s => v_touch s = v_touch (d_ram d)) (piv_install true) (d_ram d) (start (d_fs d) flt rnd [])) as W. unfold wp in W.
      destruct (piv_install _ _ _) as [[o' s'] e']. injection Hst as _ <-. eapply tinv_more; [exact IH|exact I|]. apply W; [|reflexivity].
      apply fr_install_tail; [exact anyfs|exact (fun _ H => H)|exact (fun _ _ H => H)].
    + cbn [step] in Hst. destruct (installed _ _ _ _ _) as [[? ?] e]. injection Hst as _ <-. apply boot_tinv.
    + injection Hst as _ <-. eapply tinv_more; [exact IH|exact I|reflexivity].
Qed.
End T.

(** GENERAL AUTHENTICATE succeeds with a key whose policy asks for a touch (over USB) only with a touch during this command or, with the
    policy "cached", in this power cycle and, by the device's clock, less than 15 seconds ago.  The clock has 32 bits. *)
Theorem C79_touch_policy_partial : forall K tr d x r d', since_boot K tr d -> step K d (Do x) = Some (Some r, d') ->
  is_ga (x_apdu x) -> r_sw r = 0x9000 -> x_nfc x = false -> 0 <= x_t1 x < 2 ^ 32 ->
  (touch_policy d (c_p2 (x_apdu x)) = Some 2 -> touched x) /\
  (touch_policy d (c_p2 (x_apdu x)) = Some 3 -> touched x \/ exists T, last_touch tr T /\ T < x_t1 x < T + 15000).
Proof.
  intros K tr d x r d' Hb Hs Hga Hw Hnfc Ht. destruct (do_touch K d x _ d' Hs) as [_ W].
  destruct (W Hga ltac:(cbn; rewrite Hw; reflexivity)) as (p & a & H1 & H2 & H3). unfold touch_policy, slot_meta. rewrite H1, H2. cbn [option_map].
  unfold touch_ok, TOUCH_POLICY_ALWAYS, TOUCH_POLICY_CACHED in H3.
  set (m := m_touch (meta_of a)) in *. clearbody m. clear W. split; intros Hm; injection Hm as Hm; destruct H3 as [H3|[[H3 H4]|[H3|[H3 H4]]]]; try (exfalso; congruence).
  - exact H3.
  - left. exact H3.
  - right. exists (v_touch (d_ram d)). split; [|exact H4]. destruct (hist_tinv K tr d Hb) as [V|V]; [|exact V].
  unfold fresh in H4. rewrite V in H4. unfold UINT32_MAX in H4. exfalso. lia.
Qed.
Print Assumptions C79_touch_policy_partial.

(** A key with the policy "cached": refused without a touch, used with one, and used again 14 seconds later; not after 15 seconds. *)
Definition at_time (t1 t2 : Z) (tch : list Z) (c : capdu) : cmd := mkCmd c (zeros 100) false t1 t2 [] (repeat 0xA5 100) tch.
Definition ex_cached : list ev :=
  ex_external ++ [Do (plain (mkC 0 0x47 0 0x9A [0xAC; 9; 0x80; 1; 0x11; 0xAA; 1; 1; 0xAB; 1; 3] 256)); Do (at_time 100000 101000 [2] sign_cmd); Do (at_time 200000 201000 [0] sign_cmd);
    Do (at_time 216000 0 [] sign_cmd)].
Example C79_ex : exists tr d, since_boot toy tr d /\ touch_policy d 0x9A = Some 3 /\
  map (fun e => option_map r_sw (snd e)) (skipn 4 tr) = [Some 0x6600; Some 0x9000; Some 0x6600] /\
  option_map (fun x => option_map r_sw (fst x)) (step toy d (Do (at_time 215000 0 [] sign_cmd))) = Some (Some 0x9000).
Proof.
  destruct (sees_ran (run_all toy (boot fs_empty [] []) ex_cached)
    (fun tr d => (map (fun e => option_map r_sw (snd e)) (skipn 4 tr), touch_policy d 0x9A, option_map (fun x => option_map r_sw (fst x)) (step toy d (Do (at_time 215000 0 [] sign_cmd)))))
    ([Some 0x6600; Some 0x9000; Some 0x6600], Some 3, Some (Some 0x9000))) as (tr & d & E & H);
    [vm_compute; reflexivity|].
  apply pair_equal_spec in H. destruct H as [H H3]. apply pair_equal_spec in H. destruct H as [H1 H2].
  exists tr, d. split; [eapply run_all_since; [|exact E]; unfold ex_cached, ex_external; cbn [app]; bytes_ok|]. auto.
Qed.

(** The clock wraps after 49.7 days: a touch is then taken for a recent one.  [real]: milliseconds since power-up (the clocks of the
    history have not wrapped). *)
Theorem C79_touch_policy_refuted : exists tr d x real, since_boot toy tr d /\ is_ga (x_apdu x) /\ x_nfc x = false /\
  touch_policy d (c_p2 (x_apdu x)) = Some 3 /\ ~ touched x /\ x_t1 x = real mod 2 ^ 32 /\
  (forall T, last_touch tr T -> T + 15000 < real) /\
  option_map (fun x => option_map r_sw (fst x)) (step toy d (Do x)) = Some (Some 0x9000).
Proof.
  set (x := at_time 215000 0 [] sign_cmd).
  destruct (sees_ran (run_all toy (boot fs_empty [] []) ex_cached)
    (fun tr d => (map (fun e => match e with (_, Do x, _) => x_t2 x | _ => 0 end) tr, touch_policy d 0x9A, option_map (fun x => option_map r_sw (fst x)) (step toy d (Do x))))
    ([1000; 1000; 1000; 1000; 101000; 201000; 0], Some 3, Some (Some 0x9000))) as (tr & d & E & H);
    [vm_compute; reflexivity|].
  apply pair_equal_spec in H. destruct H as [H H3]. apply pair_equal_spec in H. destruct H as [H1 H2].
  exists tr, d, x, (2 ^ 32 + 215000). split; [eapply run_all_since; [|exact E]; unfold ex_cached, ex_external; cbn [app]; bytes_ok|]. clear E.
  split; [split; reflexivity|]. split; [reflexivity|]. split; [exact H2|]. split; [intros (t & l & W & _); discriminate W|]. split; [reflexivity|]. split; [|exact H3].
  intros T (tr1 & e & tr2 & -> & W & _). rewrite !map_app in H1. destruct e as [[d0 v] o]. destruct v; try contradiction. destruct W as (_ & _ & W). cbn [map] in H1.
  assert (Hin : In T [1000; 1000; 1000; 1000; 101000; 201000; 0]).
  { rewrite <- H1, in_app_iff. right. left. exact W. }
  cbn in Hin. lia.
Qed.
Print Assumptions C79_touch_policy_refuted.
