(** C87: an authenticator that already has a credential of the excludeList does not register another one. *)
From Verif Require PropCtapCount.
From Verif Require Import CtapSpec CtapFrame CtapRel CtapCred CtapToy CtapExec CtapStore PropCtapPin PropCtapToken PropCtapCred PropCtapCrash PropCtapSign.
Notation no_reset := PropCtapCount.no_reset.
Open Scope string_scope. Open Scope list_scope. Open Scope Z_scope.

(** ** Proof *)
Section S.
Variable K : fcrypto.
Notation genuine := (genuine K).
Ltac skip := apply wp_skip; [exact (fun _ _ _ => Logic.I)|exact (fun _ _ => Logic.I)|exact (fun _ _ => Logic.I)|].
(** The id is for the RP of the request, and has the tag that the key [kh] of the device gives it. *)
Definition own (kh : bytes) (q : mcreq) (id : bytes) : Prop := zlen id = 70 /\ id_rp id = mc_rphash q /\ id_tag id = firstn 16 (f_hmac K (f_hmac K (attr_buf 32 kh) (id_nonce id)) (id_rp id)).
(** Errors other than 0x19 *)
Definition noex {A} (m : Mc A) : Prop := forall s e, wp m (fun o _ _ => match o with Exc w => w <> 0 /\ w <> 0x19 | _ => True end) s e.
Lemma ne_bind {A B} (m : Mc A) (k : A -> Mc B) : noex m -> (forall a, noex (k a)) -> noex (bind m k).
Proof. intros Hm Hk s e. apply wp_bind. eapply wp_mono; [apply Hm|]. intros [a|w| |] s' e' H; try exact H. apply Hk. Qed.
Lemma ne_out {A} (m : Mc A) : (forall s e, match fst (fst (m s e)) with Exc w => w <> 0 /\ w <> 0x19 | _ => True end) -> noex m.
Proof. intros H s e. unfold wp. specialize (H s e). destruct (m s e) as [[o s'] e']. exact H. Qed.
Ltac sm := apply ne_out; intros s e; unfold read_file, read_attr, get_file_size, write_file, write_attr, pop_fault; destruct (e_flt e) as [|[] ?]; cbn; try exact Logic.I; repeat (match goal with |- context [match ?x with _ => _ end] => lazymatch x with context [match _ with _ => _ end] => fail | _ => destruct x end end; cbn; try exact Logic.I).
Lemma ne_read_file p o n : noex (read_file p o n). Proof. sm. Qed.
Lemma ne_read_attr p a : noex (read_attr p a). Proof. sm. Qed.
Lemma ne_size p : noex (get_file_size p). Proof. sm. Qed.
Lemma ne_write_file p d o t : noex (write_file p d o t). Proof. sm. Qed.
Lemma ne_write_attr p a v : noex (write_attr p a v). Proof. sm. Qed.
Lemma ne_wait : noex wait_touch. Proof. apply ne_out; intros s e; unfold wait_touch; destruct (e_tch e); exact Logic.I. Qed.
Lemma ne_except {A} w : w <> 0 /\ w <> 0x19 -> noex (@except ctap A w). Proof. intros H. apply ne_out; intros s e; exact H. Qed.
Lemma ne_guard b w : w <> 0 /\ w <> 0x19 -> noex (@guard ctap b w). Proof. intros H. apply ne_out; intros s e. destruct b; [exact Logic.I|exact H]. Qed.
Ltac er := split; first [discriminate|match goal with |- context [if ?b then _ else _] => destruct b; discriminate end].
Ltac fc1 :=
  lazymatch goal with
  | |- noex (bind _ _) => apply ne_bind; [|intros ?]
  | |- noex (got _) => unfold got
  | |- noex (must _) => unfold must
  | |- noex (gets _) => unfold gets
  | |- noex (except _) => apply ne_except; er
  | |- noex (guard _ _) => apply ne_guard; er
  | |- noex wait_touch => apply ne_wait
  | |- noex (read_file _ _ _) => apply ne_read_file
  | |- noex (read_attr _ _) => apply ne_read_attr
  | |- noex (get_file_size _) => apply ne_size
  | |- noex (write_file _ _ _ _) => apply ne_write_file
  | |- noex (write_attr _ _ _) => apply ne_write_attr
  | |- noex (ret _) => apply ne_out; intros; exact Logic.I
  | |- noex get => apply ne_out; intros; exact Logic.I
  | |- noex ub => apply ne_out; intros; exact Logic.I
  | |- noex (modify _) => apply ne_out; intros; exact Logic.I
  | |- noex (random_buffer _) => apply ne_out; intros; exact Logic.I
  | |- noex (let _ := _ in _) => cbv zeta
  | |- noex (let '(_, _) := ?x in _) => destruct x
  | |- noex (match ?x with _ => _ end) => destruct x
  | |- noex _ => match goal with H : context [@noex] |- _ => simple apply H end
  end.
Ltac fc := repeat fc1.
Ltac un := unfold WAIT, has_pin, cp_user_present, cp_user_verified,
   cp_clear_flags, cp_has_permission, cp_has_rp, cp_verify_rp, cp_associate_rp, cp_verify_token, verify_key_handle,
   sign_with_device_key, make_large_blob_key, read_rec, count_recs, read_general, read_key32, cose_alg_to_key_type.
Lemma ne_drop n i idx : noex (drop_slot n i idx).
Proof. revert i; induction n; intros i; cbn [drop_slot]; un; fc. Qed.
Lemma ne_consistency : noex consistency_check.
Proof. pose proof ne_drop. unfold consistency_check. un. fc. Qed.
Lemma ne_probe nfc p : noex (touch_probe nfc p). Proof. unfold touch_probe. un. fc. Qed.
Lemma ne_auth t2 q : noex (mc_auth K t2 q). Proof. unfold mc_auth, mc_token. un. fc. Qed.
Lemma ne_ask nfc b : noex (ask_presence nfc b). Proof. unfold ask_presence. un. fc. Qed.
Lemma ne_derive n kt kh rp alg dc cp : noex (derive K n kt kh rp alg dc cp).
Proof. induction n; cbn [derive]; cbv zeta; fc. Qed.
Lemma ne_generate rp alg dc cp : noex (generate_key_handle K rp alg dc cp).
Proof. pose proof (ne_derive 64). unfold generate_key_handle. un. fc. Qed.
Lemma ne_data rp fl ext at_ : noex (make_auth_data K rp fl ext at_).
Proof. pose proof ne_generate. unfold make_auth_data, increase_counter. cbv zeta. fc. Qed.
Lemma ne_find_slot n pos fd rp user buf : noex (find_slot n pos fd rp user buf).
Proof. revert pos fd buf; induction n; intros pos fd buf; cbn [find_slot]; un; fc. Qed.
Lemma ne_find_meta n pos fd rp : noex (find_meta n pos fd rp).
Proof. revert pos fd; induction n; intros pos fd; cbn [find_meta]; un; fc. Qed.
Lemma ne_store q id : noex (mc_store q id).
Proof. pose proof ne_find_slot. pose proof ne_find_meta. unfold mc_store. cbv zeta. un. fc. Qed.
Lemma ne_att q ad : noex (mc_att K q ad). Proof. unfold mc_att. un. fc. Qed.
Lemma ne_blob n : noex (make_large_blob_key K n). Proof. un. fc. Qed.

Definition res {B} (R : B -> Prop) (E : Prop) (o : out B) (_ : ctap) (_ : env) : Prop := match o with Ret b => R b | Exc w => w <> 0 /\ (w = 0x19 -> E) | _ => True end.
Lemma nb F0 {A B} (m : Mc A) (k : A -> Mc B) (R : B -> Prop) E s e : kc F0 m -> noex m -> PC F0 (e_fs e) -> (forall a s' e', PC F0 (e_fs e') -> wp (k a) (res R E) s' e') -> wp (bind m k) (res R E) s e.
Proof.
  intros Hm Hn Hp Hk. apply wp_bind. eapply wp_mono; [apply wp_and; [apply Hm; split; [exact Logic.I|split; [exact Hp|apply Forall_forall; auto]]|apply Hn]|]. intros [a|w| |] s' e' H; try exact Logic.I.
  - destruct H as ((_ & H & _) & _). apply Hk; assumption.
  - destruct H as (_ & H1 & H2). split; [exact H1|]. intros ->. elim H2. reflexivity.
Qed.
Lemma nb' {A B} (m : Mc A) (k : A -> Mc B) (R : B -> Prop) E s e : noex m -> (forall a s' e', wp (k a) (res R E) s' e') -> wp (bind m k) (res R E) s e.
Proof. intros Hn Hk. apply wp_bind. eapply wp_mono; [apply Hn|]. intros [a|w| |] s' e' H; try exact Logic.I; [apply Hk|]. destruct H as (H1 & H2). split; [exact H1|]. intros ->. elim H2. reflexivity. Qed.

(** What the list excludes *)
Definition refuses (F : fs) (q : mcreq) (uv : bool) : Prop := exists id pri, shown (mc_excl q) id /\ id_rp id = mc_rphash q /\ genuine F id pri /\ (id_cp id = 3 -> uv = true).
Lemma load_whole buf i : zlen buf = 70 -> zlen i = 70 -> load_id buf i = i.
Proof. intros H1 H2. unfold load_id, ID_SIZE. rewrite H2. cbn [Z.ltb Z.eqb Z.compare Pos.compare Pos.compare_cont Pos.eqb]. unfold overlay. rewrite skipn_all2 by (unfold zlen in *; lia). apply app_nil_r. Qed.
Lemma exclude_spec nfc q uv F kh l buf s e : e_fs e = F -> fattr F "ctap_cert" 4 = Some kh -> zlen buf = 70 -> (forall i, In i l -> In i (mc_excl q)) ->
  wp (exclude K nfc q uv l buf) (fun o s' e' => e_fs e' = F /\ res (fun _ => forall id, In id l -> own kh q id -> id_cp id = 3 /\ uv = false) (refuses F q uv) o s' e') s e.
Proof.
  intros He Hk. revert buf e He. induction l as [|i r IH]; intros buf e He Hb Hi; cbn [exclude]; [apply wp_ret; split; [exact He|intros id []]|].
  set (id := load_id buf i). assert (Hid : zlen id = 70) by (apply zlen_load; exact Hb). assert (Hsh : shown (mc_excl q) id) by (exists i, buf; split; [apply Hi; left; reflexivity|auto]).
  assert (Hr : forall j, In j r -> In j (mc_excl q)) by (intros j Hj; apply Hi; right; exact Hj).
  assert (W : forall e1, e_fs e1 = F -> (own kh q id -> id_cp id = 3 /\ uv = false) -> wp (exclude K nfc q uv r id) (fun o s' e' => e_fs e' = F /\ res (fun _ => forall j, In j (i :: r) -> own kh q j -> id_cp j = 3 /\ uv = false) (refuses F q uv) o s' e') s e1).
  { intros e1 He1 Ho. eapply wp_mono; [apply (IH id e1 He1 Hid Hr)|]. intros [u|w| |] s' e' (H1 & H2); try (split; [exact H1|exact H2]). split; [exact H1|]. intros j [<-|Hj] Hoj; [|apply H2; assumption].
    assert (id = i) as Eid by (apply load_whole; [exact Hb|apply Hoj]). rewrite Eid in Ho. apply Ho, Hoj. }
  clearbody id. cbv zeta. destruct (beqb (id_rp id) (mc_rphash q)) eqn:Er; cbn [negb]; [|apply W; [exact He|]; intros (_ & H & _); rewrite H, beqb_refl in Er; discriminate]. apply beqb_eq in Er.
  apply wp_bind. unfold verify_key_handle, read_key32. apply wp_bind, wp_bind. destruct e as [F' L X R T O]. cbn [e_fs] in He. subst F'. apply wp_read_attr. intros X' v _ Hv. apply wp_ret, wp_ret. destruct v as [kh'|]; cbn [option_map]; [|split; [reflexivity|split; [discriminate|discriminate]]].
  assert (kh' = kh) as -> by (destruct Hv as [Hv|Hv]; [discriminate|]; change CTAP_CERT_FILE with "ctap_cert" in Hv; change KH_KEY_ATTR with 4 in Hv; congruence).
  destruct (beqb _ _) eqn:Et; [|apply W; [reflexivity|]; intros (_ & _ & H); rewrite <- H, beqb_refl in Et; discriminate]. apply beqb_eq in Et.
  destruct (negb (id_cp id =? 3) || uv) eqn:Ec; [|apply W; [reflexivity|]; intros _; apply orb_false_iff in Ec; destruct Ec as (E1 & E2); split; [lia|exact E2]].
  assert (HR : refuses F q uv). { exists id, (f_hmac K (attr_buf 32 kh) (id_nonce id)). split; [exact Hsh|]. split; [exact Er|]. split; [exists kh; auto|]. intros E3. rewrite E3 in Ec. exact Ec. }
  assert (G : forall s1 e1 b, e_fs e1 = F -> wp ((if b : bool then ret tt else WAIT nfc ERR_EXCLUDED) ;;; @except ctap unit ERR_EXCLUDED) (fun o s' e' => e_fs e' = F /\ res (fun _ => forall j, In j (i :: r) -> own kh q j -> id_cp j = 3 /\ uv = false) (refuses F q uv) o s' e') s1 e1).
  { intros s1 e1 b He1. apply wp_bind. destruct b; [apply wp_ret; split; [exact He1|split; [discriminate|intros _; exact HR]]|]. unfold WAIT. destruct nfc; [apply wp_ret; split; [exact He1|split; [discriminate|intros _; exact HR]]|].
    apply wp_bind. destruct e1 as [F1 L1 X1 R1 T1 O1]. apply wp_wait_touch. cbn [e_fs] in He1. subst F1. destruct (_ =? USER_PRESENCE_CANCEL); [split; [reflexivity|split; discriminate]|]. destruct (_ =? USER_PRESENCE_TIMEOUT); [split; [reflexivity|split; [discriminate|intros _; exact HR]]|].
    apply wp_ret. split; [reflexivity|]. split; [discriminate|intros _; exact HR]. }
  apply wp_bind. destruct (present (mc_param q)); [|apply wp_ret; exact (G s (mkE F L X' R T O) false eq_refl)]. unfold cp_user_present, gets. apply wp_bind, wp_get, wp_ret. exact (G s (mkE F L X' R T O) _ eq_refl).
Qed.
Lemma wp_any {A} (m : Mc A) s e : wp m (fun _ _ _ => True) s e. Proof. unfold wp. destruct (m s e) as [[o s'] e']. exact Logic.I. Qed.
Lemma auth_present t2 q s e : wp (mc_auth K t2 q) (on_ret (fun uv => uv = true -> present (mc_param q) = true)) s e.
Proof.
  unfold mc_auth. do 3 (skip; intros ? ? ?). skip. intros p sa ea. skip. intros ? sb eb.
  destruct (mc_param q) as [sig|]; [|destruct (_ && _); [apply wp_ret; discriminate|]; skip; intros ? ? ?; apply wp_ret; discriminate].
  eapply wp_mono; [apply wp_any|]. intros [z|?| |] ? ? _; try exact Logic.I. cbn. auto.
Qed.
Lemma data_flags rp fl ext at_ s e : zlen rp = 32 -> wp (make_auth_data K rp fl ext at_) (on_ret (fun r => nth 32 (fst r) 0 = fl)) s e.
Proof.
  intros H. unfold make_auth_data. assert (L : length rp = 32%nat) by (unfold zlen in H; lia). skip. intros c s1 e1. cbv zeta.
  assert (N : forall l, nth 32 ((rp ++ [fl] ++ to_be 4 c) ++ l) 0 = fl) by (intros l; rewrite <- !app_assoc; rewrite app_nth2 by lia; replace (32 - length rp)%nat with O by lia; reflexivity).
  destruct at_ as [[[alg dc] cp]|]; [|apply wp_ret; apply N]. skip. intros [[i p]|] s2 e2; [|exact Logic.I].
  skip. intros x s3 e3. skip. intros y s4 e4.
  skip. intros z s5 e5. apply wp_ret. cbn [on_ret fst]. apply N.
Qed.
Lemma make_spec nfc t2 junk q F kh s e : e_fs e = F -> fattr F "ctap_cert" 4 = Some kh -> zlen (mc_rphash q) = 32 ->
  wp (ctap_make_credential K nfc t2 junk (inr q)) (res (fun v => forall id, In id (mc_excl q) -> own kh q id -> id_cp id = 3 /\ says_uv v = false) (exists uv, refuses F q uv /\ (uv = true -> present (mc_param q) = true))) s e.
Proof.
  intros He Hk Hz. set (E := exists uv, _). assert (H1 : PC F (e_fs e)) by (rewrite He; split; reflexivity). clear He. unfold ctap_make_credential.
  eapply nb; [|apply ne_consistency|exact H1|]. { apply kp_consistency; [auto|apply PC_indep; discriminate|apply PC_indep; discriminate]. } clear s e H1. intros _ s e H1.
  eapply nb; [apply kp_touch_probe|apply ne_probe|exact H1|]. clear s e H1. intros _ s e H1.
  assert (KA : kc F (mc_auth K t2 q)) by (apply kp_mc_auth; auto). apply wp_bind. eapply wp_mono; [apply wp_and; [apply KA; split; [exact Logic.I|split; [exact H1|apply Forall_forall; auto]]|apply wp_and; [apply ne_auth|apply auth_present]]|].
  intros [uv|w| |] s1 e1 (H2 & H3 & H4); try exact Logic.I; [|destruct H3 as (H3 & H5); split; [exact H3|intros ->; elim H5; reflexivity]]. clear s e H1 H3. destruct H2 as (_ & H2 & _). cbn [on_ret] in H4.
  assert (Hk1 : fattr (e_fs e1) "ctap_cert" 4 = Some kh) by (rewrite (proj1 H2) by discriminate; exact Hk).
  apply wp_bind. eapply wp_mono; [apply (exclude_spec nfc q uv (e_fs e1) kh (mc_excl q) _ s1 e1 eq_refl Hk1); [apply attr_buf_len; unfold ID_SIZE; lia|auto]|].
  intros [u|w| |] s2 e2 (H5 & H6); try exact Logic.I; cbn [res] in H6.
  2: { destruct H6 as (H6 & H7). split; [exact H6|]. intros Hw. destruct (H7 Hw) as (id & pri & A1 & A2 & (kh' & A3 & A4) & A5). exists uv. split; [|exact H4]. exists id, pri. split; [exact A1|]. split; [exact A2|]. split; [|exact A5]. exists kh'. split; [rewrite <- (proj1 H2) by discriminate; exact A3|exact A4]. }
  apply nb'; [apply ne_ask|]. intros _ s3 e3. apply nb'; [un; fc|]. intros _ s4 e4. apply nb'; [apply ne_guard; er|]. intros _ s5 e5. cbv zeta.
  apply wp_bind. eapply wp_mono; [apply wp_and; [apply data_flags; exact Hz|apply ne_data]|]. intros [[ad id0]|w| |] s6 e6 (H7 & H8); try exact Logic.I; [|destruct H8 as (H8 & H9); split; [exact H8|intros ->; elim H9; reflexivity]]. cbn [on_ret fst] in H7.
  assert (Huv : Z.testbit (nth 32 ad 0) 2 = uv). { rewrite H7. destruct (mc_ext q), uv; reflexivity. }
  apply nb'; [destruct (mc_rk q =? 1); [apply ne_store|fc]|]. intros _ s7 e7. apply nb'; [apply ne_att|]. intros att s8 e8. apply nb'; [destruct (mc_lbk q); [pose proof ne_blob|]; fc|]. intros lbk s9 e9.
  apply wp_ret. cbn [res app says_uv]. rewrite Huv. exact H6.
Qed.
(** With an id of the list that is not of level 3, nothing is stored. *)
Lemma make_kept nfc t2 junk q kh id F L X R T O s : In id (mc_excl q) -> own kh q id -> id_cp id <> 3 -> fattr F "ctap_cert" 4 = Some kh -> (unfinished F = None \/ X = []) ->
  wp (ctap_make_credential K nfc t2 junk (inr q)) (fun _ _ e' => same_shown F (e_fs e')) s (mkE F L X R T O).
Proof.
  intros Hin Hown H3 Hk HX. assert (KC : kc F consistency_check) by (apply kp_consistency; [auto|apply PC_indep; discriminate|apply PC_indep; discriminate]). unfold ctap_make_credential. apply wp_bind. eapply wp_mono; [apply wp_and; [apply (check_wp (fun _ => True) F s L X R T O HX); [auto|apply Forall_forall; auto]|apply KC; split; [exact Logic.I|split; [split; reflexivity|apply Forall_forall; auto]]]|].
  intros o s1 e1 ((_ & S1 & _) & (_ & P1 & _)). destruct o as [u|w| |]; try exact S1. set (F1 := e_fs e1) in *.
  set (P := fun G : fs => G DC_FILE = F1 DC_FILE /\ fattr G "ctap_cert" 4 = Some kh).
  assert (HP : forall G, P G -> same_shown F G) by (intros G (HG & _); eapply same_trans; [exact S1|apply same_dc; exact HG]).
  assert (B : forall {A} (m : Mc A) (k : A -> Mc cbor) s e, keep (fun _ => True) P (fun _ => True) m -> P (e_fs e) -> (forall a s' e', P (e_fs e') -> wp (k a) (fun _ _ e' => same_shown F (e_fs e')) s' e') -> wp (bind m k) (fun _ _ e' => same_shown F (e_fs e')) s e).
  { intros A m k s0 e0 Km P0 Wk. apply wp_bind. eapply wp_mono; [apply Km; split; [exact Logic.I|split; [exact P0|apply Forall_forall; auto]]|]. intros [a|w| |] s' e' (_ & H & _); try (apply HP; exact H). apply Wk, H. }
  assert (P2 : P (e_fs e1)) by (split; [reflexivity|rewrite (proj1 P1) by discriminate; exact Hk]). clearbody F1. clear P1.
  apply B; [apply kp_touch_probe|exact P2|]. clear P2. intros _ s2 e2 P2. apply B; [apply kp_mc_auth; auto|exact P2|]. clear P2. intros uv s3 e3 P3.
  apply wp_bind. eapply wp_mono; [apply (exclude_spec nfc q uv (e_fs e3) kh (mc_excl q) _ s3 e3 eq_refl (proj2 P3)); [apply attr_buf_len; unfold ID_SIZE; lia|auto]|].
  intros [x|w| |] s4 e4 (H5 & H6); try (rewrite H5; apply HP; exact P3). cbn [res] in H6. destruct (H6 id Hin Hown). contradiction.
Qed.
Lemma exec_make d x q a s e (Q : out cbor -> fs -> Prop) : x_op x = OCbor (RMake (inr q)) -> exec K d x = (Some a, s, e) ->
  (forall s0, wp (ctap_make_credential K (x_nfc x) (x_t2 x) (x_junk x) (inr q)) (fun o _ e => Q o (e_fs e)) s0 (start (d_fs d) (x_flt x) (x_rnd x) (x_tch x))) ->
  exists o, Q o (e_fs e) /\ match o with Ret v => a = ACbor 0 (Some v) | Exc w => a = ACbor w None | _ => False end.
Proof.
  intros Hx E W. unfold exec in E. rewrite Hx in E. unfold cbor_body, process_cbor, cbor_cmd, cp_observer, bind at 1, modify in E. cbv beta iota zeta in E.
  match type of E with context [ctap_make_credential _ _ _ _ _ _] => idtac | _ => idtac end. unfold bind in E. set (s1 := set_tok _ _) in E. specialize (W s1). unfold wp in W. destruct (ctap_make_credential K (x_nfc x) (x_t2 x) (x_junk x) (inr q) s1 _) as [[o s2] e2]. exists o.
  destruct o as [v|w| |]; try discriminate; cbn [ret] in E.
  - destruct (_ <=? _); [|discriminate]. injection E as <- _ <-. split; [exact W|reflexivity].
  - injection E as <- _ <-. split; [exact W|reflexivity].
Qed.
Lemma registers_own d v o d' id alg rp pub0 : hmac_sized K -> points_sized K -> ev_ok d v -> step K d v = Some (o, d') -> registers (d, v, o) id alg rp pub0 -> alg = -7 \/ alg = -8 ->
  exists kh, fattr (d_fs d) "ctap_cert" 4 = Some kh /\ forall q, mc_rphash q = rp -> own kh q id.
Proof.
  intros Hz Hp Hv Hs HR Ha. inversion HR as [d1 x q c ad l id1 pub1 ext Hx H70 Had Hrp E|d1 x data r id1 pub1 rest Hx Hsw H64 H70 Hd E]; subst; cbn [step ev_ok] in *; destruct (exec K d x) as [[[a|] s] e] eqn:Ee; try discriminate; injection Hs as -> <-; rewrite Hx in Hv.
  - destruct (C86_make_credential K d x q _ s e Hz Hx Hv Ha Ee) as (ad' & att & l' & id' & pub & ext' & E1 & E2 & E3 & (E4 & E5 & E6 & pri & (kh & G1 & -> & G3) & G2) & _). injection E1 as -> -> _.
    assert (id' = id) as ->.
    { pose proof E2 as E7. rewrite Had in E7 at 1. apply app_inv_head in E7. apply (app_inv_head [0; 70]) in E7. apply app_eq_len in E7; [symmetry; apply E7|unfold zlen in *; lia]. }
    exists kh. split; [exact G1|]. intros q' Hq. split; [exact E4|]. split; [congruence|exact G3].
  - destruct (C86_u2f_register K d x data r s e Hz Hx Ee Hsw) as (id' & pub & cert & sg & E1 & (E4 & E5 & E6 & pri & (kh & G1 & -> & G3) & G2) & _). pose proof (Hp _ _ G2) as L64.
    pose proof E1 as E7. rewrite Hd in E7. apply (app_inv_head [5; 4]) in E7. apply app_eq_len in E7; [|unfold zlen in *; lia]. destruct E7 as (-> & E7). apply (app_inv_head [70]) in E7. apply app_eq_len in E7; [|unfold zlen in *; lia]. destruct E7 as (-> & E7).
    exists kh. split; [exact G1|]. intros q' Hq. split; [exact E4|]. split; [congruence|exact G3].
Qed.

(** ** C87 *)
(** A registration of [id] for an RP, anything but a reset, and an authenticatorMakeCredential for this RP that names [id] in its excludeList: it does not succeed, and the resident credentials stay as they are
    (if the storage works, or no operation on them was interrupted before).  The exception is a credential of credProtect level 3 (userVerificationRequired): a request without user
    verification is not told of it. *)
Theorem C87_not_repeated d1 v1 o1 tr d2 x a d3 q id alg rp pub :
  hmac_sized K -> points_sized K -> d_fs d1 "ctap_lb" <> None ->
  hist K d1 ((d1, v1, o1) :: tr ++ [(d2, Do x, Some a)]) d3 -> Forall no_reset ((d1, v1, o1) :: tr) ->
  registers (d1, v1, o1) id alg rp pub -> alg = -7 \/ alg = -8 ->
  x_op x = OCbor (RMake (inr q)) -> mc_rphash q = rp -> In id (mc_excl q) ->
  (forall v, a = ACbor 0 v -> id_cp id = 3 /\ exists w, v = Some w /\ says_uv w = false) /\
  (id_cp id <> 3 -> unfinished (d_fs d2) = None \/ x_flt x = [] -> same_shown (d_fs d2) (d_fs d3)).
Proof.
  intros Hz Hp HL H Hr HR Ha Hx Hq Hin. change ((d1, v1, o1) :: tr ++ [(d2, Do x, Some a)]) with ([(d1, v1, o1)] ++ tr ++ [(d2, Do x, Some a)]) in H.
  apply hist_app in H. destruct H as (da & H1 & H). apply hist_app in H. destruct H as (db & H2 & H3). destruct (hist_one _ _ _ _ H1) as (w1 & p1 & E1 & V1 & S1). injection E1 as <- <-. destruct (hist_one _ _ _ _ H3) as (w2 & p2 & E2 & V2 & S2). injection E2 as <- <- <-.
  destruct (registers_own _ _ _ _ _ _ _ _ Hz Hp V1 S1 HR Ha) as (kh & R2 & R3). specialize (R3 q Hq). inversion Hr as [|? ? N1 N2]; subst.
  assert (HF : kept (d_fs d1) (d_fs d1)). { split; [exact HL|]. split; [|reflexivity]. intros E. unfold fattr in R2. rewrite E in R2. discriminate. }
  pose proof (hist_kept K _ _ _ _ H2 N2 (step_kept K _ _ _ _ _ HF V1 N1 S1)) as (_ & _ & B3). rewrite R2 in B3.
  cbn [step ev_ok] in S2, V2. rewrite Hx in V2. destruct V2 as (_ & (Hh & _) & _). destruct (exec K d2 x) as [[[a'|] s] e] eqn:Ee; [|discriminate]. injection S2 as -> <-. cbn [d_fs]. split.
  - intros v ->. destruct (exec_make d2 x q _ s e (fun o _ => res (fun v => forall id, In id (mc_excl q) -> own kh q id -> id_cp id = 3 /\ says_uv v = false) True o s e) Hx Ee) as (o & Ho & Eo).
    { intros s0. eapply wp_mono; [apply (make_spec _ _ _ q (d_fs d2) kh); [reflexivity|exact B3|exact Hh]|]. intros [v'|w| |] s' e' Hs; try exact Logic.I; [exact Hs|]. split; [apply Hs|auto]. }
    destruct o as [v'|w| |]; [|injection Eo as <- _; destruct Ho as (Ho & _); elim Ho; reflexivity|destruct Eo|destruct Eo]. injection Eo as ->. destruct (Ho id Hin R3) as (A1 & A2). split; [exact A1|]. exists v'. auto.
  - intros H3' HX. destruct (exec_make d2 x q a s e (fun _ F => same_shown (d_fs d2) F) Hx Ee) as (o & Ho & _); [|exact Ho]. intros s0. eapply make_kept; eauto.
Qed.
(** The other direction: the error 0x19 (CTAP2_ERR_CREDENTIAL_EXCLUDED) is given only if the excludeList contains an id with the right tag for this RP, and if its level is 3 only to requests with a
    pinUvAuthParam.  (Ids that are shorter than 70 bytes are completed with the rest of the one before: [shown].) *)
Theorem C87_only_own d x q v s e : x_op x = OCbor (RMake (inr q)) -> mc_ok q -> fattr (d_fs d) "ctap_cert" 4 <> None -> exec K d x = (Some (ACbor 0x19 v), s, e) ->
  exists id pri, shown (mc_excl q) id /\ id_rp id = mc_rphash q /\ genuine (d_fs d) id pri /\ (id_cp id = 3 -> present (mc_param q) = true).
Proof.
  intros Hx Hq Hk Ee. destruct Hq as (_ & (Hh & _) & _). destruct (fattr (d_fs d) "ctap_cert" 4) as [kh|] eqn:Ek; [|congruence]. set (E := exists uv, refuses (d_fs d) q uv /\ (uv = true -> present (mc_param q) = true)).
  destruct (exec_make d x q _ s e (fun o _ => match o with Exc w => w = 0x19 -> E | _ => True end) Hx Ee) as (o & Ho & Eo).
  { intros s0. eapply wp_mono; [apply (make_spec _ _ _ q (d_fs d) kh); [reflexivity|exact Ek|exact Hh]|]. intros [v'|w| |] s' e' Hs; try exact Logic.I. apply Hs. }
  destruct o as [v'|w| |]; [discriminate| |destruct Eo|destruct Eo]. injection Eo as <- _. destruct (Ho eq_refl) as (uv & (id & pri & A1 & A2 & A3 & A4) & A5). exists id, pri. split; [exact A1|]. split; [exact A2|]. split; [exact A3|]. intros H3. apply A5, A4, H3.
Qed.
End S.

(** ** Examples *)
(** A registration by U2F and one by makeCredential; each of the ids excludes, but not for another RP. *)
Definition mk_ex (rp : Z) (l : list bytes) : mcreq := let q := mc_of rp 1 0 None in mkMc (mc_cdh q) (mc_rphash q) (mc_rp q) (mc_user q) (-7) l 0 2 2 None None false false 0 None.
Definition case87 : list ev := start86 ++ [do_at 20010 (OCbor (RMake (inr (mk_ex 7 [nth 0 ids86 []])))); do_at 20011 (OCbor (RMake (inr (mk_ex 7 [repeat 0 64; nth 1 ids86 []])))); do_at 20012 (OCbor (RMake (inr (mk_ex 8 ids86))))].
Example C87_case : hmac_sized toyk /\ points_sized toyk /\ d_fs dev86 "ctap_lb" <> None /\ unfinished (d_fs dev86) = None /\
  exists tr d, hist toyk dev86 tr d /\ Forall no_reset tr /\ map (fun e => snd (fst e)) tr = case87 /\ map code_of tr = [-1; -1; 0; 0; 0x19; 0x19; 0].
Proof.
  split; [intros k m; apply toy_sha_length|]. split; [intros pri pub E; cbn [toyk f_pub] in E; injection E as <-; rewrite zlen_app, !attr_buf_len by lia; reflexivity|]. split; [vm_compute; discriminate|]. split; [vm_compute; reflexivity|].
  destruct (play_case toyk dev86 case87 (fun tr d => beqb (map code_of tr) [-1; -1; 0; 0; 0x19; 0x19; 0])) as (tr & d & H1 & H2 & H3); [vm_compute; reflexivity|]. apply beqb_eq in H2. exists tr, d. split; [exact H1|]. split; [|auto].
  apply Forall_forall. intros [[d1 v] o] Hin. assert (Hv : In v case87) by (rewrite <- H3; apply in_map_iff; exists (d1, v, o); auto). clear - Hv. unfold case87, start86 in Hv. cbn [app map] in Hv.
  repeat (destruct Hv as [<-|Hv]; [exact Logic.I|]). destruct Hv.
Qed.
(** The device does not look whether it still has the credential: after it was deleted with authenticatorCredentialManagement, getAssertion finds no credential (0x2E), and still
    makeCredential refuses (0x19). *)
Definition case87d : list ev := del81 ++ [do_at 20006 (OCbor (RGet (inr (ga_of 7 [id81] None)))); do_at 20007 (OCbor (RMake (inr (mk_ex 7 [id81]))))].
Theorem C87_deleted_refuted : exists tr d, hist toyf fresh_dev tr d /\ map (fun e => snd (fst e)) tr = case87d /\ map code_of tr = [-1; 0; 0; 0; 0; 0; 0x2E; 0x19].
Proof. destruct (play_case toyf fresh_dev case87d (fun tr d => beqb (map code_of tr) [-1; 0; 0; 0; 0; 0; 0x2E; 0x19])) as (tr & d & H1 & H2 & H3); [vm_compute; reflexivity|]. apply beqb_eq in H2. exists tr, d. auto. Qed.
Print Assumptions C87_not_repeated.
Print Assumptions C87_only_own.
Print Assumptions C87_deleted_refuted.
