(** C57, continued: no credential is left out. *)
From Verif Require PropCtapAnswered.
From Verif Require Import CtapSpec CtapFrame CtapRel CtapCred CtapToy PropCtapPin PropCtapToken PropCtapCred PropCtapNext.
From Coq Require Import Sorted.
Open Scope string_scope. Open Scope list_scope. Open Scope Z_scope.
Notation aes_works := PropCtapAnswered.aes_works.
Notation keys_work := PropCtapAnswered.keys_work.

(** ** Specification *)
(** The storage has the signature counter and the key of the hmac-secret extension, which are there from the installation on (ctap.c:98-109). *)
Definition stocked (F : fs) : Prop := fattr F "ctap_cert" 1 <> None /\ fattr F "ctap_cert" 5 <> None.
(** The getNextAssertion commands [xs], each within 30 s of the answer before, without errors of the storage *)
Fixpoint in_time (t : Z) (xs : list cmd) : Prop :=
  match xs with
  | [] => True
  | x :: r => x_op x = OCbor RNext /\ x_flt x = [] /\ 1300 <= x_cap x /\ u32 (x_t1 x - t) <= 30000 /\ in_time (x_t2 x) r
  end.
Section S.
Variable K : fcrypto.
(** The device can sign with the credential in a slot: it is one of its own, with ES256 or EdDSA. *)
Definition usable (F : fs) (j : Z) : Prop := exists d pri, live F j d /\ genuine K F (dc_id d) pri /\ (id_alg (dc_id d) = -7 \/ id_alg (dc_id d) = -8).

(** ** Proof *)
Definition hs_fine (h : option hsreq) : Prop := match h with None => True | Some h => salt_len h = 32 \/ salt_len h = 64 end.
Definition hsg (s : ctap) : Prop := hs_fine (ga_hs (g_req (c_ga s))).

Ltac uk := repeat lazymatch goal with
  | |- keep _ _ _ (bind _ _) => apply kp_bind; [|intros ?]
  | |- keep _ _ _ (ret _) => apply kp_ret
  | |- keep _ _ _ (got _) => apply kp_got
  | |- keep _ _ _ (gets _) => apply kp_gets
  | |- keep _ _ _ get => apply kp_get
  | |- keep _ _ _ ub => apply kp_ub
  | |- keep _ _ _ (except _) => apply kp_except
  | |- keep _ _ _ (guard _ _) => apply kp_guard
  | |- keep _ _ _ (random_buffer _) => apply kp_random
  | |- keep _ _ _ (read_file _ _ _) => apply kp_read_file
  | |- keep _ _ _ (read_attr _ _) => apply kp_read_attr
  | |- keep _ _ _ (ask_presence _ _) => apply kp_ask
  | |- keep _ _ _ (modify (set_ga (gs_up _))) => apply kp_modify; intros ? H; exact H
  | |- keep _ _ _ (modify (set_tok _)) => apply kp_modify; intros ? H; exact H
  | |- keep _ _ _ (match ?x with _ => _ end) => destruct x
  end.
(** After the first answer the salts of hmac-secret, if there are any, are one or two. *)
Lemma ext_hs q dc s e : g_req (c_ga s) = q -> g_ctr (c_ga s) = 0 -> wp (ga_ext K q dc) (fin (fun _ s' _ => hsg s')) s e.
Proof.
  intros Hq Hc. unfold ga_ext. cbv zeta. apply wp_bind. destruct (ga_hs q) as [h|] eqn:Eh.
  2: { apply wp_ret, wp_ret. cbn [fin]. unfold hsg. rewrite Hq, Eh. exact Logic.I. }
  apply wp_bind. unfold ga_hmac_secret, gets. apply wp_bind, wp_bind, wp_get, wp_ret. rewrite Hc. cbn [Z.eqb].
  apply wp_bind. eapply wp_mono with (Q := fin (fun h' s' _ => ga_hs (g_req (c_ga s')) = Some h')).
  { apply wp_bind, wp_guard; [intros _|exact (fun _ => Logic.I)]. apply wp_bind. unfold cp_decapsulate. apply wp_bind, wp_get. destruct (f_ecdh _ _ _); [|exact Logic.I]. apply wp_ret. apply wp_bind, wp_guard; [intros _|exact (fun _ => Logic.I)].
    destruct (cp_decrypt _ _ _ _); [|exact Logic.I]. cbv zeta. apply wp_bind, wp_modify, wp_ret. reflexivity. }
  intros [h'|?| |] s1 e1 H1; try exact Logic.I. cbn [fin] in H1. destruct e1 as [F L X R T O]. unfold read_key32. apply wp_bind, wp_bind, wp_read_attr. intros X' r _ _. apply wp_ret. destruct (option_map _ r); [|exact Logic.I]. cbv zeta.
  destruct ((salt_len h' =? 32) || (salt_len h' =? 64)) eqn:El; [|exact Logic.I]. cbn [negb]. apply wp_bind.
  assert (G : hsg s1) by (unfold hsg; rewrite H1; cbn [hs_fine]; lia).
  eapply wp_mono with (Q := fun o s' _ => s' = s1); [unfold cp_encrypt; destruct (_ =? 1); [apply wp_ret; reflexivity|]; apply wp_bind, wp_random; intros; apply wp_ret; reflexivity|].
  intros [o|?| |] s2 e2 ->; try exact Logic.I. destruct o as [o|]; [|exact Logic.I]. do 3 apply wp_ret. exact G.
Qed.
Lemma rest_hs nfc t2 s e : g_ctr (c_ga s) = 0 -> wp (ga_rest K nfc t2) (fin (fun _ s' _ => hsg s')) s e.
Proof.
  intros Hc. set (F := e_fs e). unfold ga_rest. apply wp_bind. unfold gets at 1. apply wp_bind, wp_get, wp_ret. set (q := g_req (c_ga s)). apply wp_bind. eapply wp_mono; [apply select_spec|]. intros [[d pri]|?| |] s1 e1 H1; try exact Logic.I.
  cbn [fst snd] in H1. destruct H1 as (f & _ & (C1 & C2 & _) & He1). fold q in C1. rewrite Hc in C2. pose (I0 := fun s => g_req (c_ga s) = q /\ g_ctr (c_ga s) = 0).
  assert (P1 : PS F (e_fs e1)) by (rewrite He1; apply PS_eq). apply wp_bind. unfold gets at 1. apply wp_bind, wp_get, wp_ret.
  eapply gk_bind with (I := I0) (F0 := F); [unfold gk, cp_clear_flags; uk|split; assumption|exact P1|]. intros _ s2 e2 (G1 & G2) P2.
  apply wp_bind. apply wp_guard; [intros _|exact (fun _ => Logic.I)]. apply wp_bind. eapply wp_mono; [apply ext_hs; assumption|]. intros [ext|?| |] s3 e3 G3; try exact Logic.I. cbn [fin] in G3.
  apply wp_bind. unfold gets at 1. apply wp_bind, wp_get, wp_ret. cbv zeta.
  eapply gk_bind with (I := hsg) (F0 := e_fs e3); [apply kp_auth_data, gk_count|exact G3|apply PS_eq|]. intros r s4 e4 G4 P4.
  eapply gk_bind with (I := hsg) (F0 := e_fs e3); [unfold gk, sign_with_private_key, cose_alg_to_key_type; uk|exact G4|exact P4|]. intros [sig|] s5 e5 G5 P5; [|exact Logic.I].
  eapply gk_bind with (I := hsg) (F0 := e_fs e3); [unfold gk, make_large_blob_key, read_key32; uk|exact G5|exact P5|]. intros lbk s6 e6 G6 P6. apply wp_bind, wp_modify, wp_ret. exact G6.
Qed.
Lemma first_hs d x q v s e : x_op x = OCbor (RGet (inr q)) -> exec K d x = (Some (ACbor 0 (Some v)), s, e) -> hsg s.
Proof.
  intros Hx E. apply (exec_fin K d x _ (fun _ s _ => hsg s) v s e Hx E). unfold cbor_cmd, cp_observer. apply wp_bind, wp_modify, wp_bind. unfold ctap_get_assertion. apply wp_bind, wp_modify. apply wp_bind. eapply wp_mono; [apply (rl_consistency RE); [apply RE_refl|apply RE_trans]|].
  intros [u|?| |] s2 e2 H2; try exact Logic.I. unfold RE in H2. subst s2. apply wp_bind. eapply wp_mono; [apply begin_ctr|]. intros [u'|?| |] s3 e3 H3; try exact Logic.I. destruct H3 as (Hc & _).
  eapply wp_mono; [apply rest_hs; exact Hc|]. intros [w|?| |] s4 e4 H4; try exact Logic.I. apply wp_ret. exact H4.
Qed.

(** *** Without errors of the storage *)
Lemma bump F L R T O s : stocked F -> exists c L' F', increase_counter s (mkE F L [] R T O) = (Ret c, s, mkE F' L' [] R T O) /\ stocked F' /\ PS F F'.
Proof.
  intros (H1 & H2). pose (Q := fun (o : out Z) (s' : ctap) e' => exists c L' F', o = Ret c /\ s' = s /\ e' = mkE F' L' [] R T O /\ stocked F' /\ PS F F').
  assert (W : wp increase_counter Q s (mkE F L [] R T O)).
  { unfold increase_counter, got, must. apply wp_bind, wp_bind, wp_read_attr. intros X' r Hr _. destruct (Hr eq_refl) as (-> & ->). change CTAP_CERT_FILE with "ctap_cert". change SIGN_CTR_ATTR with 1. destruct (fattr F "ctap_cert" 1) as [v|] eqn:Ev; [|congruence]. apply wp_ret. cbv zeta.
    apply wp_bind, wp_bind, wp_write_attr.
    - intros N X' HX. rewrite (HX eq_refl). apply wp_guard; [intros _|discriminate]. apply wp_ret. do 3 eexists. split; [reflexivity|]. split; [reflexivity|]. split; [reflexivity|]. unfold fsetattr, stocked, PS, fattr in *. destruct (F "ctap_cert") as [f|] eqn:Ef; [|congruence].
      rewrite !fset_same, fset_other by discriminate. cbn [f_attr]. rewrite aset_same, !aset_other by discriminate. split; [split; [discriminate|exact H2]|auto].
    - intros [N|N]; [congruence|]. exfalso. unfold fattr in Ev. rewrite N in Ev. discriminate. }
  unfold wp in W. destruct (increase_counter _ _) as [[o s'] e']. destruct W as (c & L' & F' & -> & -> & -> & W). exists c, L', F'. auto.
Qed.
Lemma until0_le l : zlen (until0 l) <= zlen l.
Proof. induction l as [|a l IH]; [cbn; lia|]. cbn [until0]. destruct (a =? 0); rewrite ?zlen_cons; [unfold zlen; cbn [length]; lia|lia]. Qed.
Lemma random16 (Q : out bytes -> ctap -> env -> Prop) s F L X R T O : (forall r R', zlen r <= 16 -> Q (Ret r) s (mkE F L X R' T O)) -> wp (random_buffer 16) Q s (mkE F L X R T O).
Proof. intros H. unfold wp, random_buffer. cbn [e_fs e_log e_flt e_rnd e_tch e_out]. apply H. unfold zlen. rewrite firstn_length. lia. Qed.
Hypothesis AW : aes_works K.
Hypothesis KW : keys_work K.
Hypothesis HZ : hmac_sized K.
Lemma ext_live q dc s F L R T O : hs_fine (ga_hs q) -> g_ctr (c_ga s) <> 0 -> stocked F ->
  wp (ga_ext K q dc) (fun o s' e' => exists ext R', o = Ret ext /\ zlen ext <= 300 /\ s' = s /\ e' = mkE F L [] R' T O) s (mkE F L [] R T O).
Proof.
  intros Hh Hc (H1 & H2). unfold ga_ext. cbv zeta. apply wp_bind.
  eapply wp_mono with (Q := fun o s' e' => exists l R', o = Ret l /\ (l = [] \/ exists b, l = [(txt "hmac-secret", CBytes b)] /\ zlen b <= 80) /\ s' = s /\ e' = mkE F L [] R' T O).
  { destruct (ga_hs q) as [h|]; [|apply wp_ret; eauto 7]. cbn [hs_fine] in Hh. apply wp_bind. unfold ga_hmac_secret, gets. apply wp_bind, wp_bind, wp_get, wp_ret. destruct (g_ctr (c_ga s) =? 0) eqn:E0; [lia|]. apply wp_bind, wp_ret.
    unfold read_key32. apply wp_bind, wp_bind, wp_read_attr. intros X' r Hr _. destruct (Hr eq_refl) as (-> & ->). change CTAP_CERT_FILE with "ctap_cert". change HE_KEY_ATTR with 5. destruct (fattr F "ctap_cert" 5) as [he|]; [|congruence]. apply wp_ret. cbn [option_map]. cbv zeta.
    assert ((salt_len h =? 32) || (salt_len h =? 64) = true) as -> by lia. cbn [negb]. set (o := hmac_secret_output _ _ _ _ _ _). assert (Ho : zlen o <= 64).
    { unfold o, hmac_secret_output. cbv zeta. rewrite zlen_app, HZ. destruct (_ =? 64); [rewrite HZ; lia|unfold zlen; cbn [length]; lia]. }
    apply wp_bind. unfold cp_encrypt. destruct (hs_proto h =? 1).
    - apply wp_ret. destruct (AW (hs_key h) (zeros 16) o) as (c & -> & Hl). apply wp_ret, wp_ret. do 2 eexists. split; [reflexivity|]. split; [right; eexists; split; [reflexivity|lia]|]. auto.
    - apply wp_bind, random16. intros iv R' Hiv. apply wp_ret. destruct (AW (skipn 32 (hs_key h)) iv o) as (c & -> & Hl). cbn [option_map]. apply wp_ret, wp_ret. do 2 eexists. split; [reflexivity|]. split; [right; eexists; split; [reflexivity|]|auto].
      destruct (_ =? 2); [rewrite zlen_app; lia|lia]. }
  intros o s1 e1 (l & R' & -> & Hl & -> & ->). apply wp_ret. do 2 eexists. split; [reflexivity|]. split; [|auto].
  set (blob := if ga_blob q then _ else _). assert (Hb : blob = [] \/ exists b, blob = [(txt "credBlob", CBytes b)] /\ zlen b <= 32).
  { unfold blob. destruct (ga_blob q); [|auto]. right. eexists. split; [reflexivity|]. unfold slice at 1, dc_blob, zlen. rewrite firstn_length, skipn_length. pose proof (PropCtapAnswered.slice_le 268 32 dc ltac:(lia)) as Hs. unfold zlen in Hs. lia. }
  clearbody blob. match goal with |- zlen (match ?m with [] => [] | _ => _ end) <= _ => assert (Hm : zlen (enc (CMap m)) <= 300) end.
  { eapply Z.le_trans; [apply PropCtapAnswered.enc_bound|]. destruct Hb as [->|(b & -> & Hb)], Hl as [->|(c & -> & Hl)]; unfold txt; cbn [app PropCtapAnswered.bound]; change (zlen (chars "credBlob")) with 8; change (zlen (chars "hmac-secret")) with 11; lia. }
  destruct (blob ++ l); [vm_compute; discriminate|exact Hm].
Qed.
Lemma rest_live nfc t2 s F L R T O dc pri : let g := c_ga s in let q := g_req g in
  ga_allow q = [] -> hs_fine (ga_hs q) -> zlen (ga_rphash q) = 32 -> g_ctr g <> 0 -> stocked F ->
  live F (nth (Z.to_nat (g_ctr g)) (g_list g) 0) dc -> genuine K F (dc_id dc) pri -> may_use (id_cp (dc_id dc)) false (g_uv g) -> id_alg (dc_id dc) = -7 \/ id_alg (dc_id dc) = -8 ->
  wp (ga_rest K nfc t2) (fun o s' e' => exists v, o = Ret v /\ zlen (enc v) <= 1200 /\ stocked (e_fs e') /\ ga_hs (g_req (c_ga s')) = ga_hs q) s (mkE F L [] R T O).
Proof.
  intros g q Hal Hh Hr Hc HS (L1 & L2 & L3) (kh & G1 & G2 & G3) Hm Ha. unfold ga_rest. apply wp_bind. unfold gets at 1. apply wp_bind, wp_get, wp_ret. fold g. fold q. apply wp_bind. unfold ga_select. rewrite Hal. unfold gets at 1. apply wp_bind, wp_bind, wp_get, wp_ret. fold g.
  destruct (g_ctr g =? 0) eqn:E0; [lia|]. apply wp_bind, wp_ret. unfold gets at 1. apply wp_bind, wp_bind, wp_get, wp_ret. fold g. apply wp_bind. unfold read_rec, got. apply wp_bind, wp_bind, wp_read_file. intros X' r Hr' _. destruct (Hr' eq_refl) as (-> & ->). clear Hr'.
  change DC_FILE with "ctap_dc". change DC_SIZE with 300. rewrite L1. apply wp_ret. rewrite L2. cbn [Z.eqb Pos.eqb]. apply wp_ret. unfold verify_key_handle, read_key32. apply wp_bind, wp_bind, wp_bind, wp_read_attr. intros X' r Hr' _. destruct (Hr' eq_refl) as (-> & ->). clear Hr'.
  change CTAP_CERT_FILE with "ctap_cert". change KH_KEY_ATTR with 4. rewrite G1. apply wp_ret, wp_ret. cbn [option_map]. rewrite <- G2, G3, beqb_refl. apply wp_ret. cbv beta iota.
  apply wp_bind. unfold gets at 1. apply wp_bind, wp_get, wp_ret. fold g. rewrite E0. cbn [andb]. apply wp_bind, wp_ret. apply protect_may in Hm. rewrite ?Hal. cbv iota. rewrite Hm. apply wp_bind, wp_guard; [intros _|discriminate].
  apply wp_bind. eapply wp_mono; [apply ext_live; assumption|]. intros o s1 e1 (ext & R' & -> & Hx & -> & ->). apply wp_bind. unfold gets at 1. apply wp_bind, wp_get, wp_ret. fold g. cbv zeta. unfold make_auth_data. apply wp_bind, wp_bind. unfold wp at 1.
  destruct (bump F L R' T O s HS) as (c & L' & F' & -> & HS' & HP). cbv zeta. apply wp_ret. cbv beta iota. cbn [fst]. set (ad := _ ++ ext). assert (Had : zlen ad <= 337) by (unfold ad; rewrite !zlen_app; change (zlen [_]) with 1; unfold zlen at 2; rewrite to_be_length; lia). clearbody ad.
  apply wp_bind. unfold sign_with_private_key, cose_alg_to_key_type, gets. apply wp_bind, wp_bind, wp_get, wp_ret, wp_ret. change ALG_ES256 with (-7). change ALG_EDDSA with (-8).
  assert (Ek : exists kt, (if id_alg (dc_id dc) =? -7 then Some KP256 else if id_alg (dc_id dc) =? -8 then Some KEd25519 else if sm2_enabled (c_sm2 s) && (id_alg (dc_id dc) =? sm2_algo (c_sm2 s)) then Some KSm2 else None) = Some kt) by (destruct Ha as [-> | ->]; eexists; reflexivity).
  destruct Ek as (kt & ->). destruct (proj2 KW kt pri (ad ++ ga_cdh q)) as (sig & -> & Hsg). cbn [andb]. apply wp_bind.
  eapply wp_mono with (Q := fun o s' e' => exists l, o = Ret l /\ s' = s /\ e_fs e' = F' /\ (l = [] \/ exists b, l = [(CInt 7, CBytes b)] /\ zlen b <= 32)).
  { destruct (dc_lbk dc =? 0); [apply wp_ret; eauto 6|]. unfold make_large_blob_key, read_key32. apply wp_bind, wp_bind, wp_bind, wp_read_attr. intros X' r Hr' _. destruct (Hr' eq_refl) as (-> & ->). change CTAP_CERT_FILE with "ctap_cert". change HE_KEY_ATTR with 5. destruct HS' as (_ & HS'). destruct (fattr F' "ctap_cert" 5) as [he|]; [|congruence].
    apply wp_ret. cbn [option_map]. apply wp_ret, wp_ret. eexists. split; [reflexivity|]. split; [reflexivity|]. split; [reflexivity|]. right. eexists. split; [reflexivity|]. unfold large_blob_key. cbv zeta. rewrite HZ. lia. }
  intros o s2 e2 (lbk & -> & -> & He2 & Hl). apply wp_bind, wp_modify, wp_ret. eexists. split; [reflexivity|]. split; [|split; [rewrite He2; exact HS'|reflexivity]].
  eapply Z.le_trans; [apply PropCtapAnswered.enc_bound|].
  rewrite ?E0; set (user := if id_dc (dc_id dc) =? 0 then [] else _). assert (Hu : user = [] \/ exists u, user = [(CInt 4, u)] /\ PropCtapAnswered.bound u <= 300).
  { unfold user. destruct (id_dc (dc_id dc) =? 0); [auto|]. right. eexists. split; [reflexivity|]. set (ur := dc_user dc). unfold user_map, txt, u_name, u_display.
    assert (N1 : zlen (slice 0 (u_size ur) (u_id ur)) <= 64). { unfold slice at 1, u_id, zlen. rewrite firstn_length, skipn_length. pose proof (PropCtapAnswered.slice_le 0 64 ur ltac:(lia)) as Hs. unfold zlen in Hs. lia. }
    pose proof (until0_le (slice 65 65 ur)) as N2. pose proof (PropCtapAnswered.slice_le 65 65 ur ltac:(lia)) as N3. pose proof (until0_le (slice 130 65 ur)) as N4. pose proof (PropCtapAnswered.slice_le 130 65 ur ltac:(lia)) as N5.
    destruct (_ && _); cbn [PropCtapAnswered.bound]; change (zlen (chars "id")) with 2; change (zlen (chars "name")) with 4; change (zlen (chars "displayName")) with 11; lia. }
  assert (N6 : zlen (dc_id dc) <= 70) by (apply PropCtapAnswered.slice_le; lia). clearbody user.
  destruct Hu as [->|(u & -> & Hu)], Hl as [->|(b & -> & Hb)]; unfold cred_map, txt; cbn [andb app PropCtapAnswered.bound]; change (zlen (chars "id")) with 2; change (zlen (chars "type")) with 4; change (zlen (chars "public-key")) with 10; lia.
Qed.
(** One getNextAssertion *)
Lemma next_live F q uv L m t d x : eligible F (ga_rphash q) uv (slots_of F) L -> 0 < zlen L < 256 -> ga_allow q = [] -> zlen (ga_rphash q) = 32 -> (forall j, In j L -> usable F j) ->
  alive F q uv L m t d -> open_ d -> hsg (d_ram d) -> stocked (d_fs d) -> (S m < length L)%nat ->
  x_op x = OCbor RNext -> x_flt x = [] -> 1300 <= x_cap x -> u32 (x_t1 x - t) <= 30000 ->
  exists v s e, exec K d x = (Some (ACbor 0 (Some v)), s, e) /\ hsg s /\ stocked (e_fs e) /\ c_last s = 8.
Proof.
  intros HL Hlen Hal Hrp HU ((A1 & A2 & A3 & A4 & A5) & At & Ap) Ho Hh HS Hm Hx HX Hcap Ht. unfold sel in A5. injection A5 as B1 B2 B3.
  assert (Hin : In (nth (S m) L 0) L) by (apply nth_In; exact Hm). destruct (HU _ Hin) as (dc & pri & U1 & U2 & U3). apply HL in Hin. destruct Hin as (_ & d2 & L1 & L2 & L3).
  assert (d2 = dc) as -> by (destruct L1 as (L1 & _), U1 as (U1 & _); congruence).
  set (s0 := set_tok (fun t => if negb (t_use t) then t else if t_end t <? x_t1 x then tok_stop t else t) (d_ram d)).
  assert (W : wp (ga_rest K (x_nfc x) (x_t2 x)) (fun o s' e' => exists v, o = Ret v /\ zlen (enc v) <= 1200 /\ stocked (e_fs e') /\ ga_hs (g_req (c_ga s')) = ga_hs (g_req (c_ga s0))) s0 (start (d_fs d) (x_flt x) (x_rnd x) (x_tch x))).
  { rewrite HX. unfold start. apply (rest_live (x_nfc x) (x_t2 x) s0 (d_fs d) _ _ _ _ dc pri).
    - change (c_ga s0) with (c_ga (d_ram d)). rewrite B3. exact Hal.
    - exact Hh.
    - change (c_ga s0) with (c_ga (d_ram d)). rewrite B1. exact Hrp.
    - change (c_ga s0) with (c_ga (d_ram d)). lia.
    - exact HS.
    - change (c_ga s0) with (c_ga (d_ram d)). rewrite A3, A1, Nat2Z.id. eapply live_PS; [exact Ap|exact L1].
    - eapply genuine_PS; [exact Ap|exact U2].
    - change (c_ga s0) with (c_ga (d_ram d)). rewrite A4. exact L3.
    - exact U3. }
  unfold exec. rewrite Hx. unfold cbor_body, process_cbor, cbor_cmd, cp_observer. unfold bind at 1, modify at 1. fold s0. unfold bind at 1. unfold ctap_get_next_assertion. unfold bind at 1, get at 1.
  assert (Ho' : (c_last s0 =? CTAP_GET_ASSERTION) || (c_last s0 =? CTAP_GET_NEXT_ASSERTION) = true) by (change (c_last s0) with (c_last (d_ram d)); unfold open_, CTAP_GET_ASSERTION, CTAP_GET_NEXT_ASSERTION in *; lia). rewrite Ho'. unfold bind at 1, guard at 1, ret at 1.
  assert (Hn : g_ctr (c_ga s0) <? g_n (c_ga s0) = true) by (change (c_ga s0) with (c_ga (d_ram d)); rewrite A2, A3; unfold zlen; lia). rewrite Hn. unfold bind at 1, guard at 1, ret at 1.
  assert (Ht' : u32 (x_t1 x - g_timer (c_ga s0)) <=? 30000 = true) by (change (c_ga s0) with (c_ga (d_ram d)); rewrite At; lia). rewrite Ht'. unfold bind at 1, guard at 1, ret at 1.
  unfold wp in W. destruct (ga_rest K _ _ s0 _) as [[o s1] e1]. destruct W as (v & -> & Hl & HS1 & Hh1). unfold ret. unfold message. cbn [fst snd]. rewrite zlen_cons. assert (El : 1 + zlen (enc v) <=? x_cap x = true) by lia. rewrite El. do 3 eexists. split; [reflexivity|]. split; [|split; [exact HS1|reflexivity]].
  unfold hsg in *. change (c_ga (set_last _ s1)) with (c_ga s1). rewrite Hh1. exact Hh.
Qed.
Lemma sofar_alive F q uv L v t tr d : sofar K F q uv L v t tr d -> open_ d -> alive F q uv L (length (flat_map served tr)) (last_t t tr) d.
Proof. intros (_ & _ & _ & H). exact H. Qed.
Lemma run_live F q uv L v0 t0 d0 : eligible F (ga_rphash q) uv (slots_of F) L -> 0 < zlen L < 256 -> ga_allow q = [] -> zlen (ga_rphash q) = 32 -> (forall j, In j L -> usable F j) ->
  sofar K F q uv L v0 t0 [] d0 ->
  forall xs tr d, hist K d0 tr d -> Forall calm tr -> open_ d -> hsg (d_ram d) -> stocked (d_fs d) -> (length (flat_map served tr) + length xs < length L)%nat -> in_time (last_t t0 tr) xs ->
  exists tr' d', hist K d0 (tr ++ tr') d' /\ Forall calm tr' /\ map (fun e => snd (fst e)) tr' = map Do xs /\ length (flat_map served tr') = length xs.
Proof.
  intros HL Hlen Hal Hrp HU H0. induction xs as [|x xs IH]; intros tr d H Hc Ho Hh HS Hn Hi.
  - exists [], d. rewrite app_nil_r. auto.
  - cbn [in_time length] in *. destruct Hi as (X1 & X2 & X3 & X4 & X5). pose proof (sofar_step K F q uv L v0 t0 HL Hlen (conj Hal Hrp) _ _ _ H Hc H0) as Hs. pose proof (sofar_alive _ _ _ _ _ _ _ _ Hs Ho) as Ha.
    destruct (next_live F q uv L _ _ d x HL Hlen Hal Hrp HU Ha Ho Hh HS) as (v & s & e & E & N1 & N2 & N3); try assumption; [lia|].
    assert (H' : hist K d0 (tr ++ [(d, Do x, Some (ACbor 0 (Some v)))]) (mkD s (e_fs e))) by (apply h_snoc; [exact H|cbn [ev_ok]; rewrite X1; exact Logic.I|cbn [step]; rewrite E; reflexivity]).
    assert (Hc1 : calm (d, Do x, Some (ACbor 0 (Some v)))) by (exists x; split; [reflexivity|rewrite X1; exact Logic.I]).
    destruct (IH _ _ H') as (tr' & d' & R1 & R2 & R3 & R4).
    + apply Forall_app. split; [exact Hc|constructor; [exact Hc1|constructor]].
    + right. exact N3.
    + exact N1.
    + exact N2.
    + rewrite flat_map_app, app_length. cbn [flat_map served app length]. lia.
    + rewrite last_app. exact X5.
    + exists ((d, Do x, Some (ACbor 0 (Some v))) :: tr'), d'. rewrite <- app_assoc in R1. split; [exact R1|]. split; [constructor; assumption|]. cbn [map fst snd flat_map served app length]. rewrite R3, R4. auto.
Qed.
End S.

(** getAssertion without a list, and then up to as many getNextAssertion commands as there are further slots with a fitting credential: each one of them is answered with the credential of the next slot.
    So with one command for each further slot, all the credentials are given. *)
Theorem C57_complete K d x q v s e xs : aes_works K -> keys_work K -> hmac_sized K ->
  x_op x = OCbor (RGet (inr q)) -> ga_ok q -> ga_allow q = [] -> exec K d x = (Some (ACbor 0 (Some v)), s, e) -> slots_of (e_fs e) < 256 -> stocked (e_fs e) ->
  (forall j, fits (e_fs e) (ga_rphash q) (says_uv v) j -> usable K (e_fs e) j) -> in_time (x_t2 x) xs ->
  exists L, eligible (e_fs e) (ga_rphash q) (says_uv v) (slots_of (e_fs e)) L /\ (if 1 <? zlen L then counted_as v (zlen L) else bare v) /\
    ((length xs < length L)%nat -> exists tr d2, hist K (mkD s (e_fs e)) tr d2 /\ map (fun en => snd (fst en)) tr = map Do xs /\
       Forall2 (of_slot K (e_fs e) q (says_uv v)) (firstn (S (length xs)) L) (v :: flat_map served tr)).
Proof.
  intros AW KW HZ Hx Hq Hal E Hn HS HU Hi. destruct (ga_answer K d x q v s e Hx Hq E) as (dc & pri & g0 & g1 & H1 & H2 & H3 & H4 & H5 & H6 & H7 & H8). destruct H3 as (_ & _ & _ & _ & _ & H3). rewrite H1, H2, Hal in H3. cbn [Z.eqb] in H3. destruct H3 as (A & B & C & D1 & D3 & D4).
  set (L := g_list g1) in *. pose proof D1 as (D1a & D1b). assert (Hlen : 0 < zlen L < 256).
  { split; [destruct L; [rewrite D3 in D4; elim D4; reflexivity|rewrite zlen_cons; unfold zlen; lia]|]. pose proof (desc_length (slots_of (e_fs e)) L D1a (fun j Hj => proj1 (proj1 (D1b j) Hj))). lia. }
  assert (D5 : g_n g1 = zlen L) by (rewrite D3; unfold u8; apply Z.mod_small; lia). assert (Hrp : zlen (ga_rphash q) = 32) by (destruct Hq as (_ & (Hh & _)); exact Hh).
  assert (Hne : L <> []) by (intros En; rewrite En in Hlen; unfold zlen in Hlen; cbn in Hlen; lia). pose proof (StronglySorted_nth0 _ Hne) as Hz. apply D1b in Hz. destruct Hz as (_ & d' & L1 & L2 & L3). assert (d' = dc) as -> by (destruct L1 as (L1 & _); congruence).
  assert (S0 : sofar K (e_fs e) q (says_uv v) L v (x_t2 x) [] (mkD s (e_fs e))).
  { unfold sofar. cbn [flat_map length timely last_t]. split; [unfold zlen in Hlen; lia|]. split; [|split; [exact Logic.I|intros _]].
    - rewrite (firstn_nth L 0) by (unfold zlen in Hlen; lia). cbn [firstn app]. constructor; [|constructor]. exists dc, pri. auto.
    - unfold alive. cbn [d_ram d_fs]. rewrite D5 in H5. split; [exact H5|]. split; [exact H6|apply PS_eq]. }
  exists L. split; [exact D1|]. specialize (H8 Hal). rewrite D5 in H8. split; [exact H8|]. intros Hxs.
  destruct (run_live K AW KW HZ (e_fs e) q (says_uv v) L v (x_t2 x) (mkD s (e_fs e)) D1 Hlen Hal Hrp (fun j Hj => HU j (proj2 (proj1 (D1b j) Hj))) S0 xs [] (mkD s (e_fs e))) as (tr & d2 & R1 & R2 & R3 & R4).
  - apply h_nil.
  - constructor.
  - left. exact H7.
  - exact (first_hs K d x q v s e Hx E).
  - exact HS.
  - exact Hxs.
  - exact Hi.
  - exists tr, d2. cbn [app] in R1. split; [exact R1|]. split; [exact R3|]. destruct (sofar_step K (e_fs e) q (says_uv v) L v (x_t2 x) D1 Hlen (conj Hal Hrp) _ _ _ R1 R2 S0) as (_ & T2 & _). rewrite R4 in T2. exact T2.
Qed.
Print Assumptions C57_complete.
(** Three credentials of the RP and one of another one: two further commands *)
Definition toyn : fcrypto := PropCtapAnswered.toy90.
Definition get57 : cmd := cmd_at 20005 (OCbor (RGet (inr (ga_of 7 [] None)))).
Definition more57 : list cmd := [cmd_at 30000 (OCbor RNext); cmd_at 60000 (OCbor RNext)].
Definition usableb (F : fs) (j : Z) : bool :=
  match fread F "ctap_dc" (j * 300) 300, fattr F "ctap_cert" 4 with
  | Some d, Some kh => (zlen d =? 300) && negb (dc_deleted d) && beqb (id_tag (dc_id d)) (firstn 16 (f_hmac toyn (f_hmac toyn (attr_buf 32 kh) (id_nonce (dc_id d))) (id_rp (dc_id d)))) && ((id_alg (dc_id d) =? -7) || (id_alg (dc_id d) =? -8))
  | _, _ => false
  end.
Lemma usableb_ok F j : usableb F j = true -> usable toyn F j.
Proof.
  unfold usableb. destruct (fread F _ _ _) as [d|] eqn:Ed; [|discriminate]. destruct (fattr F _ _) as [kh|] eqn:Ek; [|discriminate]. intros H. repeat (apply andb_true_iff in H; let T := fresh "T" in destruct H as (H & T)). apply beqb_eq in T0.
  exists d. eexists. split; [split; [exact Ed|split; [lia|destruct (dc_deleted d); [discriminate|reflexivity]]]|]. split; [exists kh; split; [exact Ek|split; [reflexivity|exact T0]]|lia].
Qed.
Definition three (p : cbor * cbor) : bool := match p with (CInt a, CInt b) => (a =? 5) && (b =? 3) | _ => false end.
Definition ready57 (d : dev) : bool :=
  match exec toyn d get57 with
  | (Some (ACbor 0 (Some (CMap l))), _, e) =>
      existsb three l && match fsize (e_fs e) "ctap_dc" with Some z => z =? 1200 | None => false end && match fattr (e_fs e) "ctap_cert" 1, fattr (e_fs e) "ctap_cert" 5 with Some _, Some _ => true | _, _ => false end && forallb (usableb (e_fs e)) [0; 1; 2; 3]
  | _ => false
  end.
Example C57_complete_case : aes_works toyn /\ keys_work toyn /\ hmac_sized toyn /\ exists tr d v s e, hist toyn fresh_dev tr d /\ exec toyn d get57 = (Some (ACbor 0 (Some v)), s, e) /\ counted_as v 3 /\ slots_of (e_fs e) = 4 /\ stocked (e_fs e) /\
  (forall j, fits (e_fs e) (repeat 7 32) (says_uv v) j -> usable toyn (e_fs e) j) /\ in_time (x_t2 get57) more57 /\ ga_ok (ga_of 7 [] None).
Proof.
  destruct PropCtapAnswered.C90_case as (C1 & C2 & C3 & _). split; [exact C1|]. split; [exact C2|]. split; [exact C3|].
  destruct (play_case toyn fresh_dev (firstn 5 case57) (fun _ d => ready57 d)) as (tr & d & H1 & H2 & _); [vm_compute; reflexivity|]. exists tr, d.
  unfold ready57 in H2. destruct (exec toyn d get57) as [[o s] e] eqn:E. destruct o as [[c o|]|]; try discriminate. destruct c; try discriminate. destruct o as [[| | | | |m|]|]; try discriminate.
  apply andb_true_iff in H2. destruct H2 as (H2 & H3). apply andb_true_iff in H2. destruct H2 as (H2 & H4). apply andb_true_iff in H2. destruct H2 as (H0 & H2). do 3 eexists. split; [exact H1|]. split; [reflexivity|]. split.
  { apply existsb_exists in H0. destruct H0 as ([k w] & Hin & Ht). unfold three in Ht. destruct k as [a| | | | | |]; try discriminate. destruct w as [b| | | | | |]; try discriminate. assert (a = 5) as -> by lia. assert (b = 3) as -> by lia. exact Hin. }
  destruct (fsize (e_fs e) "ctap_dc") as [z|] eqn:Ez; [|discriminate]. assert (z = 1200) as -> by lia. split; [unfold slots_of; rewrite Ez; reflexivity|].
  split; [unfold stocked; destruct (fattr _ _ 1); [|discriminate]; destruct (fattr _ _ 5); [split; discriminate|discriminate]|]. split; [|split; [repeat split; vm_compute; discriminate|]].
  2: { split; split; try reflexivity; apply all_bytesb; reflexivity. }
  intros j (dj & (J1 & J2 & _) & _). assert (Hj : 0 <= j <= 3).
  { unfold fread, fsize in *. destruct (e_fs e "ctap_dc") as [f|]; [|discriminate]. cbn [option_map] in Ez. assert (Ef : zlen (f_data f) = 1200) by congruence. destruct (j * 300 <? 0) eqn:Ej; [discriminate|]. assert (Ed : dj = slice (j * 300) 300 (f_data f)) by congruence.
    subst dj. unfold slice, zlen in *. rewrite firstn_length, skipn_length in J2. lia. }
  cbn [forallb] in H3. repeat (apply andb_true_iff in H3; let T := fresh "T" in destruct H3 as (T & H3)). assert (j = 0 \/ j = 1 \/ j = 2 \/ j = 3) as [->|[->|[->| ->]]] by lia; apply usableb_ok; assumption.
Qed.
