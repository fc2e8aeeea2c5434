(** C80: the PIN-protected data objects of PIV. *)
From Verif Require Import Sys Apdu Applet Frame NonInt Pin Tlv Key PropKey Piv PivSpec PropPivGa PivFrame PropPivAuth PropPivPin PropPivData.
Open Scope string_scope. Open Scope list_scope. Open Scope Z_scope.

(** printed information, fingerprints, facial image *)
Definition protected (p : path) : Prop := p = "piv-pi" \/ p = "piv-fig" \/ p = "piv-face".
Lemma protected_dec p : protected p \/ ~ protected p.
Proof. unfold protected. destruct (string_dec p "piv-pi"), (string_dec p "piv-fig"), (string_dec p "piv-face"); intuition. Qed.
(** The storage may differ in the protected objects. *)
Definition same_unprotected (F G : fs) : Prop := forall q, ~ protected q -> F q = G q.

Ltac not_protected := let W := fresh in intros W; unfold protected in W; cbn in W; intuition discriminate.
Lemma key_unprotected id p : get_key_path id = Some p -> ~ protected p.
Proof. unfold get_key_path, CARD_ADMIN_KEY_PATH. repeat (destruct (_ =? _); [intros [= <-]; not_protected|]). discriminate. Qed.
Lemma slot_unprotected id p : key_slot id = Some p -> ~ protected p.
Proof. unfold key_slot. destruct (_ =? _); [discriminate|apply key_unprotected]. Qed.
Ltac np := first [assumption | not_protected | eapply key_unprotected; eassumption | eapply slot_unprotected; eassumption].
Ltac nis := repeat
  match goal with
  | |- ni _ _ (read_file _ _ _) => apply ni_read_file; np
  | |- ni _ _ (get_file_size _) => apply ni_size; np
  | |- ni _ _ (read_attr _ _) => apply ni_read_attr; np
  | |- ni _ _ (write_attr _ _ _) => apply ni_write_attr; np
  | |- ni _ _ (write_file _ _ _ _) => apply ni_write_file; exact protected_dec
  | |- ni _ _ (append_file _ _) => apply ni_append_file; exact protected_dec
  | _ => ni1
  end.
Notation ni0 := (ni protected (fun _ : piv => True)).
Lemma ni_install r : ni0 (piv_install r).
Proof. unfold piv_install; piv_unfold; piv_unfold. nis. Qed.
Lemma ni_ignore (m : M piv unit) : ni0 m -> ni0 (ignore m).
Proof.
  intros Hm s e f Is E. specialize (Hm s e f Is E). unfold ignore. destruct (m s e) as [[o1 s1] e1], (m s f) as [[o2 s2] e2].
  destruct Hm as (-> & H2 & H3 & H4). destruct o2; auto.
Qed.
Section P.
Variable K : crypto.


Lemma obj_unprotected tag (s : piv) p : negb (((tag =? 0x09) || (tag =? 0x03) || (tag =? 0x08)) && negb (v_pin s)) = true -> v_pin s = false ->
  get_object_path_by_tag tag = Some p -> ~ protected p.
Proof.
  intros G Hp. rewrite Hp in G. unfold get_object_path_by_tag.
  do 8 match goal with |- (if ?b then _ else _) = _ -> _ => destruct b; [intros [= <-]; not_protected|] end.
  do 3 match goal with |- (if ?b then _ else _) = _ -> _ => destruct b eqn:?; [exfalso; lia|] end. discriminate.
Qed.
Lemma ni_get_data c : ni protected (fun s => v_pin s = false) (piv_get_data c).
Proof.
  unfold piv_get_data, piv_get_large_data, got.
  repeat match goal with
  | |- ni _ _ (bind (guard _ _) _) => apply ni_guard_bind; intros ?
  | |- ni _ _ (get_file_size _) => apply ni_size; eapply obj_unprotected; eassumption
  | |- ni _ _ (read_file _ _ _) => apply ni_read_file; eapply obj_unprotected; eassumption
  | |- _ => ni1
  end.
Qed.
Lemma ni_response c : ni protected (fun s => ~ protected (v_path s)) (piv_get_data_response c).
Proof.
  unfold piv_get_data_response, got.
  repeat match goal with
  | |- ni _ _ (modify (fun s => set_path "" _)) => apply ni_modify; intros ? ?; not_protected
  | |- ni _ _ (get_file_size _) => apply ni_size; assumption
  | |- ni _ _ (read_file _ _ _) => apply ni_read_file; assumption
  | |- _ => ni1
  end.
Qed.
Lemma ni_body nfc t1 t2 c tail : c_ins c <> 0xCB -> c_ins c <> 0xC0 -> ni0 (piv_body K nfc t1 t2 c tail).
Proof.
  intros N1 N2. unfold piv_body. ni1; [ni1|]. ni1; [nis|]. ni1; [nis|].
  destruct (c_ins c =? 0xA4); [unfold piv_select; nis|].
  destruct (Z.eqb_spec (c_ins c) 0xCB); [contradiction|].
  destruct (Z.eqb_spec (c_ins c) 0xC0); [contradiction|].
  destruct (c_ins c =? 0x20); [unfold piv_verify; piv_unfold; nis|].
  destruct (c_ins c =? 0x24); [unfold piv_change_reference_data; piv_unfold; destruct (c_p2 c =? 0x80); nis|].
  destruct (c_ins c =? 0x2C); [unfold piv_reset_retry_counter; piv_unfold; nis|].
  destruct (c_ins c =? 0x87).
  { unfold piv_general_authenticate, ga_internal, ga_external_request, ga_external_response, ga_mutual_request, ga_mutual_response, ga_ecdh,
        piv_security_status_check, piv_touch; piv_unfold. cbv zeta. nis. }
  destruct (c_ins c =? 0xDB); [unfold piv_put_data, admin_only; piv_unfold; nis|].
  destruct (c_ins c =? 0x47); [unfold piv_generate, admin_only; piv_unfold; nis|].
  destruct (c_ins c =? 0xFF); [unfold piv_set_management_key, admin_only; piv_unfold; nis|].
  destruct (c_ins c =? 0xFB); [unfold piv_reset; piv_unfold; repeat first [apply ni_ignore, ni_install|nis]|].
  destruct (c_ins c =? 0xFE); [unfold piv_import, admin_only; piv_unfold; nis|].
  destruct (c_ins c =? 0xFD); [unfold piv_get_version; piv_unfold; nis|].
  destruct (c_ins c =? 0xF8); [unfold piv_get_serial; piv_unfold; nis|].
  destruct (c_ins c =? 0xF7); [unfold piv_get_metadata; piv_unfold; cbv zeta; destruct (c_p2 c =? 0x80); nis|].
  destruct (c_ins c =? 0xEE); [unfold piv_algorithm_extension, admin_only; piv_unfold; nis|].
  ni1.
Qed.

(** a continued GET DATA of a protected object is open only with the PIN *)
Definition rinv (s : piv) : Prop := v_read s = -1 \/ v_pin s = true \/ ~ protected (v_path s).
Lemma fr_read nfc t1 t2 c tail s e : c_ins c <> 0xCB -> c_ins c <> 0xC0 -> rinv s -> wp (piv_body K nfc t1 t2 c tail) (fun _ s' _ => rinv s') s e.
Proof.
  intros N1 N2 Hr. unfold piv_body. pose proof anyfs as A.
  apply wp_bind, wp_guard; intros G; [|exact Hr]. replace (c_ins c =? 0xC0) with false by lia.
  apply wp_bind.
  assert (E : wp (if c_ins c =? 0xDB then ret tt else modify (set_write (-1))) (fun o s' e' => exists s0, o = Ret tt /\ s' = s0 /\ e' = e) s e).
  { destruct (c_ins c =? 0xDB); [apply wp_ret|apply wp_modify]; eauto. }
  eapply wp_mono; [exact E|]. clear E. intros o s' e' (s0 & -> & -> & ->). apply wp_bind, wp_modify.
  assert (W : v_read (set_read (-1) s0) = -1) by reflexivity. revert W. generalize (set_read (-1) s0). clear s0. intros s1 W.
  apply (wp_mono _ (fun _ s' _ => v_read s' = -1)); [|intros ? ? ? ?; left; assumption].
  assert (F : forall B (m : M piv B), frame (fun s => v_read s = -1) (fun _ => True) m -> wp m (fun _ s1 _ => v_read s1 = -1) s1 e)
      by (intros B m Hm; apply fr_any; assumption).
  apply F. clear F.
  destruct (c_ins c =? 0xA4); [unfold piv_select; fr A; apply fr_modify; intros ? ?; reflexivity|].
  destruct (Z.eqb_spec (c_ins c) 0xCB); [contradiction|].
  destruct (c_ins c =? 0x20); [unfold piv_verify; piv_unfold; fr A|].
  destruct (c_ins c =? 0x24); [unfold piv_change_reference_data; piv_unfold; destruct (c_p2 c =? 0x80); fr A|].
  destruct (c_ins c =? 0x2C); [unfold piv_reset_retry_counter; piv_unfold; fr A|].
  destruct (c_ins c =? 0x87).
  { unfold piv_general_authenticate, ga_internal, ga_external_request, ga_external_response, ga_mutual_request, ga_mutual_response, ga_ecdh,
        piv_security_status_check, piv_touch; piv_unfold. cbv zeta. repeat first [frame1 | apply fr_modify; exact (fun _ H => H)]. }
  destruct (c_ins c =? 0xDB); [unfold piv_put_data, admin_only; piv_unfold; fr A|].
  destruct (c_ins c =? 0x47); [unfold piv_generate, admin_only; piv_unfold; fr A|].
  destruct (c_ins c =? 0xFF); [unfold piv_set_management_key, admin_only; piv_unfold; fr A|].
  destruct (c_ins c =? 0xFB).
  { unfold piv_reset; piv_unfold. repeat first [apply fr_ignore, fr_install_tail; [exact A|reflexivity|exact (fun _ _ H => H)] | frame1
     | apply fr_modify; first [exact (fun _ H => H)|intros ? ?; reflexivity]]. }
  destruct (c_ins c =? 0xFE); [unfold piv_import, admin_only; piv_unfold; fr A|].
  destruct (c_ins c =? 0xFD); [unfold piv_get_version; piv_unfold; fr A|].
  destruct (c_ins c =? 0xF8); [unfold piv_get_serial; piv_unfold; fr A|].
  destruct (c_ins c =? 0xF7); [unfold piv_get_metadata; piv_unfold; fr A|].
  destruct (c_ins c =? 0xEE); [unfold piv_algorithm_extension, admin_only; piv_unfold; fr A|].
  apply fr_except.
Qed.
Lemma read_more nfc t1 t2 c tail s e : rinv s -> wp (piv_body K nfc t1 t2 c tail) (fun _ s' _ => rinv s') s e.
Proof.
  intros Hr. destruct (Z.eq_dec (c_ins c) 0xCB) as [E1|E1]; [|destruct (Z.eq_dec (c_ins c) 0xC0) as [E2|E2]; [|apply fr_read; assumption]].
  - unfold piv_body. rewrite E1. apply wp_bind, wp_guard; intros G; [|exact Hr]. cbn [Z.eqb Pos.eqb]. apply wp_bind, wp_modify, wp_bind, wp_modify.
    set (s1 := set_read (-1) _). assert (W : v_read s1 = -1) by reflexivity. generalize dependent s1. clear s Hr. intros s Hr.
    assert (R : rinv s) by (left; exact Hr).
    unfold piv_get_data. apply wp_bind, wp_guard; intros _; [|exact R]. apply wp_bind, wp_guard; intros _; [|exact R].
    apply wp_bind, wp_need_any; [intros ? _|intros _; exact R]. apply wp_bind, wp_guard; intros _; [|exact R].
    apply wp_bind, wp_need_any; [intros ? _|intros _; exact R]. apply wp_bind, wp_guard; intros _; [|exact R].
    wif H1.
    { apply wp_bind, wp_need_any; [intros ? _|intros _; exact R]. apply wp_bind, wp_guard; intros _; [|exact R]. exact R. }
    wif H3; [|apply wp_except; exact R].
    apply wp_bind, wp_need_any; [intros ? _|intros _; exact R]. apply wp_bind, wp_need_any; [intros ? _|intros _; exact R].
    apply wp_bind, wp_guard; intros _; [|exact R].
    apply wp_bind, wp_need_any; [intros tag _|intros _; exact R]. apply wp_bind, wp_get. apply wp_bind, wp_guard; intros Gt; [|exact R].
    destruct (get_object_path_by_tag tag) as [p|] eqn:Ep; [|apply wp_except; exact R].
    assert (Fin : v_pin s = true \/ ~ protected p).
    { destruct (v_pin s) eqn:V; [left; reflexivity|right]. eapply (obj_unprotected tag s); [rewrite V; exact Gt|exact V|exact Ep]. }
    assert (F : frame (fun s' => rinv s' /\ v_pin s' = v_pin s) (fun _ => True)
      (size <- got (get_file_size p);; guard (negb (size =? 0)) SW_FILE_NOT_FOUND;;; piv_get_large_data c p size)).
    { unfold piv_get_large_data; piv_unfold. cbv zeta. repeat first [frame1 | apply fr_modify; intros s' [_ V]; split; [|exact V]; right; cbn; rewrite V; exact Fin]. }
    apply (wp_mono _ (fun _ s' _ => rinv s' /\ v_pin s' = v_pin s)); [apply fr_any; auto|intros ? ? ? [W _]; exact W].
  - unfold piv_body. rewrite E2. apply wp_bind, wp_guard; intros G; [|exact Hr]. cbn [Z.eqb Pos.eqb]. apply wp_bind, wp_modify, wp_bind, wp_ret.
    set (s1 := set_write (-1) s). assert (R : rinv s1) by exact Hr. generalize dependent s1. clear s Hr. intros s R.
    destruct (Z.eq_dec (v_read s) (-1)) as [V|V].
    { unfold piv_get_data_response. apply wp_bind, wp_get. rewrite V. apply wp_bind, wp_guard; [discriminate|intros _; exact R]. }
    assert (Fin : v_pin s = true \/ ~ protected (v_path s)) by (destruct R as [R|R]; [contradiction|exact R]).
    apply (wp_mono _ (fun _ s' _ => v_pin s' = true \/ ~ protected (v_path s'))); [|intros ? ? ? W; right; exact W].
    assert (F : frame (fun s' => v_pin s' = true \/ ~ protected (v_path s')) (fun _ => True) (piv_get_data_response c)).
    { unfold piv_get_data_response; piv_unfold. cbv zeta. repeat first [frame1 | apply fr_modify; intros ? ?; right; not_protected]. }
    apply fr_any; assumption.
Qed.
Lemma boot_rinv F flt rnd : rinv (d_ram (boot F flt rnd)).
Proof.
  unfold boot, installed. pose proof (fr_any (fun s => v_path s = "") (piv_install false) piv_boot (start F flt rnd [])) as H. unfold wp in H.
  destruct (piv_install _ _ _) as [[o s'] e']. cbn [d_ram]. right. right. rewrite H; [not_protected| |reflexivity].
  apply fr_install_tail; [exact anyfs|reflexivity|exact (fun _ _ H => H)].
Qed.
Lemma hist_rinv tr d : since_boot K tr d -> rinv (d_ram d).
Proof.
  intros (F0 & flt0 & rnd0 & H). remember (boot F0 flt0 rnd0) as d0 eqn:E0. induction H as [d0|d0 tr d v o d' H IH Hok Hst].
  - subst. apply boot_rinv.
  - specialize (IH E0). destruct v as [x|x n flt rnd| |flt rnd|flt rnd n flt' rnd'|F]; cbn [step] in Hst.
    + pose proof (exec_wp K d x (fun _ s' _ => rinv s')) as W. destruct (exec K d x) as [[[r|] s'] e']; [|discriminate]. injection Hst as _ <-.
      apply W. eapply wp_mono; [apply read_more; exact IH|]. cbv beta. auto.
    + destruct (exec K d x) as [[? ?] e]. injection Hst as _ <-. apply boot_rinv.
    + injection Hst as _ <-. left. reflexivity.
    + unfold installed in Hst. pose proof (fr_any rinv (piv_install true) (d_ram d) (start (d_fs d) flt rnd [])) as W. unfold wp in W.
      destruct (piv_install _ _ _) as [[o' s'] e']. injection Hst as _ <-. apply W; [|exact IH].
      apply fr_install_tail; [exact anyfs|intros ? ?; left; reflexivity|exact (fun _ _ H => H)].
    + destruct (installed _ _ _ _ _) as [[? ?] e]. injection Hst as _ <-. apply boot_rinv.
    + injection Hst as _ <-. exact IH.
Qed.
Lemma ealike_start F G flt rnd tch : same_unprotected F G -> ealike protected (start F flt rnd tch) (start G flt rnd tch).
Proof. intros H. repeat split; auto. Qed.
End P.

(** Nobody who has not given the PIN in this session learns anything about the protected objects: if these had other contents, the card would
    give the same answer to the next command, whatever it is (and whatever happens to it); and everything else would be the same after it.
    So this holds for the next command, too. *)
Theorem C80_protected_objects : forall K tr d F x,
  since_boot K tr d -> ~ pin_given tr False -> same_unprotected (d_fs d) F ->
  match step K d (Do x), step K (mkD (d_ram d) F) (Do x) with
  | Some (r, d1), Some (r', d2) => r = r' /\ d_ram d1 = d_ram d2 /\ same_unprotected (d_fs d1) (d_fs d2)
  | None, None => True
  | _, _ => False
  end.
Proof.
  intros K tr d F x Hb Hn HF.
  assert (Hp : v_pin (d_ram d) = false).
  { destruct (v_pin (d_ram d)) eqn:E; [|reflexivity]. elim Hn. destruct (hist_pinv K tr d Hb E) as (tr1 & e & tr2 & H1 & H2 & H3 & _).
    exists tr1, e, tr2. repeat (split; [assumption|]). intros []. }
  pose proof (hist_rinv K tr d Hb) as Hr.
  cbn [step]. unfold exec, run_apdu. cbn [d_ram d_fs].
  pose proof (ealike_start (d_fs d) F (x_flt x) (x_rnd x) (x_tch x) HF) as E.
  unfold start in *. cbn [e_fs e_log e_flt e_rnd e_tch] in *. set (e1 := mkE (d_fs d) _ _ _ _ _) in *. set (e2 := mkE F _ _ _ _ _) in *.
  set (m := piv_body _ _ _ _ _ _).
  assert (N : let '(o1, s1, f1) := m (d_ram d) e1 in let '(o2, s2, f2) := m (d_ram d) e2 in o1 = o2 /\ s1 = s2 /\ ealike protected f1 f2).
  { subst m. destruct (Z.eq_dec (c_ins (x_apdu x)) 0xCB) as [Q1|Q1]; [|destruct (Z.eq_dec (c_ins (x_apdu x)) 0xC0) as [Q2|Q2]].
    - unfold piv_body. rewrite Q1. cbn [Z.eqb Pos.eqb]. assert (G : forall m : M piv Z, ni protected (fun s => v_pin s = false) m ->
        let '(o1, s1, f1) := m (d_ram d) e1 in let '(o2, s2, f2) := m (d_ram d) e2 in o1 = o2 /\ s1 = s2 /\ ealike protected f1 f2).
      { intros m Hm. specialize (Hm (d_ram d) e1 e2 Hp E). destruct (m (d_ram d) e1) as [[? ?] ?], (m (d_ram d) e2) as [[? ?] ?]. tauto. }
      apply G. ni1; [ni1|]. ni1; [ni1|]. ni1; [ni1|]. apply ni_get_data.
    - unfold piv_body. rewrite Q2. cbn [Z.eqb Pos.eqb].
      destruct (Z.eq_dec (v_read (d_ram d)) (-1)) as [V|V].
      + unfold piv_get_data_response. unfold bind, guard, modify, get, ret, except. destruct (_ || _); [|auto]. cbn [v_read set_write]. rewrite V. cbn. auto.
      + assert (Hq : ~ protected (v_path (d_ram d))) by (destruct Hr as [Hr|[Hr|Hr]]; [contradiction|congruence|exact Hr]).
        assert (G : forall m : M piv Z, ni protected (fun s => ~ protected (v_path s)) m ->
          let '(o1, s1, f1) := m (d_ram d) e1 in let '(o2, s2, f2) := m (d_ram d) e2 in o1 = o2 /\ s1 = s2 /\ ealike protected f1 f2).
        { intros m Hm. specialize (Hm (d_ram d) e1 e2 Hq E). destruct (m (d_ram d) e1) as [[? ?] ?], (m (d_ram d) e2) as [[? ?] ?]. tauto. }
        apply G. ni1; [ni1|]. ni1; [ni1|]. ni1; [ni1|]. apply ni_response.
    - pose proof (ni_body K (x_nfc x) (x_t1 x) (x_t2 x) (x_apdu x) (x_tail x) Q1 Q2 (d_ram d) e1 e2 I E) as N.
      destruct (piv_body _ _ _ _ _ _ (d_ram d) e1) as [[? ?] ?], (piv_body _ _ _ _ _ _ (d_ram d) e2) as [[? ?] ?]. tauto. }
  destruct (m (d_ram d) e1) as [[o1 s1] f1], (m (d_ram d) e2) as [[o2 s2] f2]. destruct N as (-> & -> & E1 & _ & _ & _ & E5).
  destruct o2; rewrite ?E5; auto.
Qed.
Print Assumptions C80_protected_objects.


(** Before the PIN is given GET DATA of the printed information is refused; with the PIN, it is not, and a large object can be read in
    pieces; the logout in between ends the reading. *)
Definition ex_secret : list ev :=
  [Do (plain (get_data 0x09 256)); Do (plain verify_default); Do (plain (get_data 0x09 3)); Do (plain (mkC 0 0x20 0xFF 0x80 [] 256));
   Do (plain (get_response 0 0 [] 256))].
Definition seen (e : entry) : Z * Z * option (bytes * Z) :=
  match e with (_, Do x, o) => (c_ins (x_apdu x), c_p1 (x_apdu x), option_map (fun r => (r_data r, r_sw r)) o) | _ => (0, 0, None) end.
Lemma right_seen e : right_pin e -> fst (seen e) = (0x20, 0) \/ fst (seen e) = (0x24, 0).
Proof. intros (d & x & r & -> & _ & [((_ & H1 & H2 & _) & _)|((_ & H1 & H2 & _) & _)]); cbn; rewrite H1, H2; auto. Qed.
Lemma logout_seen e d : seen e = (0x20, 0xFF, Some (d, 0x9000)) -> ~ session_goes_on e.
Proof.
  destruct e as [[d0 [x| | | | |]] [r|]]; try discriminate. cbn. intros H [_ (W & _)]. apply W. injection H as H1 H2 H3 H4. auto.
Qed.
Definition ex_seen : list (Z * Z * option (bytes * Z)) :=
  [(0xCB, 0x3F, Some ([], 0x6982)); (0x20, 0, Some ([], 0x9000)); (0xCB, 0x3F, Some ([0x53; 5; 1], 0x6104)); (0x20, 0xFF, Some ([], 0x9000));
   (0xC0, 0, Some ([], 0x6985))].
Example C80_ex : exists tr d, since_boot toy tr d /\ ~ pin_given tr False /\ map seen (skipn 4 tr) = ex_seen.
Proof.
  destruct (sees_ran (run_all toy (boot fs_empty [] []) (ex_external ++ [Do (put_cmd 0 (hdr 0x09 ++ [0x53; 5; 1; 2; 3; 4; 5]))] ++ ex_secret))
    (fun tr d => (map (fun e => fst (seen e)) (firstn 4 tr), map seen (skipn 4 tr))) ([(0xA4, 4); (0x87, 3); (0x87, 3); (0xDB, 0x3F)], ex_seen)) as (tr & d & E & H);
    [vm_compute; reflexivity|].
  apply pair_equal_spec in H. destruct H as [H1 H2]. exists tr, d.
  split; [eapply run_all_since; [|exact E]; unfold ex_external, ex_secret; cbn [app]; bytes_ok|]. split; [|exact H2]. clear E.
  destruct tr as [|a0 [|a1 [|a2 [|a3 [|a4 [|a5 [|a6 [|a7 [|a8 [|]]]]]]]]]]; try discriminate H2. cbn [firstn skipn map] in H1, H2.
  injection H1 as A0 A1 A2 A3. unfold ex_seen in H2. injection H2 as A4 A5 A6 A7 A8.
  intros (tr1 & e & tr2 & Htr & Hr & Hs & _). apply right_seen in Hr. pose proof A7 as A9. apply logout_seen in A7.
  do 9 (destruct tr1 as [|? tr1]; cbn [app] in Htr;
    [injection Htr as <- <-; first [rewrite A0 in Hr; destruct Hr; discriminate|rewrite A1 in Hr; destruct Hr; discriminate|rewrite A2 in Hr; destruct Hr; discriminate
      |rewrite A3 in Hr; destruct Hr; discriminate|rewrite A4 in Hr; destruct Hr; discriminate|rewrite A6 in Hr; destruct Hr; discriminate|rewrite A8 in Hr; destruct Hr; discriminate|rewrite A9 in Hr; destruct Hr; discriminate
      |apply A7; inversion Hs as [|? ? _ Hs1]; inversion Hs1 as [|? ? Hs2 _]; exact Hs2]
    |injection Htr as _ Htr]).
  destruct tr1; discriminate.
Qed.
