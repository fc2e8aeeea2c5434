(** C34: PIV RESET. *)
From Verif Require Import Sys Apdu Applet Frame Pin PinProofs PinWp Tlv Key PropKey Piv PivSpec PropPivGa PivFrame PropPivAuth PropPivPin PivPins PropPivPuk.
Open Scope string_scope. Open Scope list_scope. Open Scope Z_scope.

(** The private key of slot file [p] is gone: the key material is all zeros. *)
Definition erased (G : fs) (p : path) : Prop := fdata G p = Some (zeros KEY_SIZE).
(** ... and the slot says it has no key. *)
Definition empty_slot (G : fs) (p : path) : Prop := erased G p /\ exists a, fattr G p KEY_META_ATTR = Some a /\ m_type (meta_of a) = KEY_TYPE_PKC_END.

Lemma stored_same F F' dp cp dk ck : stored F dp cp dk ck -> F' "piv-pin" = F "piv-pin" -> F' "piv-puk" = F "piv-puk" -> F' "piv-alg" <> None -> stored F' dp cp dk ck.
Proof. intros (Q1 & Q2 & Q3) P1 P2 P3. unfold stored, pin_inv, fdata, fattr in *. cbn [pin_path pin puk] in *. rewrite P1, P2. auto. Qed.

Section Reset.
Variable F0 : fs.
Variable X0 : list fault.
Definition img (G : fs) : Prop := pins_are F0 G \/ Forall (erased G) piv_keys.
Definition st (E : list path) (e : env) : Prop :=
  pins_are F0 (e_fs e) /\ Forall (empty_slot (e_fs e)) E /\ Forall img (e_log e) /\ (X0 = [] -> e_flt e = []).
Definition failed (e : env) : Prop := img (e_fs e) /\ Forall img (e_log e) /\ X0 <> [].
Lemma st_failed E e : st E e -> X0 <> [] -> failed e.
Proof. intros (H1 & _ & H2 & _) N. split; [left; exact H1|]. auto. Qed.
Lemma pins_set p G G' : pfile p -> (forall q, q <> p -> G' q = G q) -> pins_are F0 G -> pins_are F0 G'.
Proof. intros (N1 & N2 & N3) H (H1 & H2 & H3). unfold pins_are. rewrite !H by congruence. auto. Qed.
Lemma empty_set p E G G' : ~ In p E -> (forall q, q <> p -> G' q = G q) -> Forall (empty_slot G) E -> Forall (empty_slot G') E.
Proof.
  intros N H HE. rewrite Forall_forall in *. intros q Hq. specialize (HE q Hq). unfold empty_slot, erased, fdata, fattr in *.
  rewrite H by congruence. exact HE.
Qed.
Lemma img_lcreate p F L : pfile p -> pins_are F0 F -> Forall img L -> Forall img (lcreate F L p).
Proof.
  intros Hp HF HL. unfold lcreate. destruct (F p) eqn:E; [exact HL|]. constructor; [|exact HL]. left.
  apply (pins_set p F); [exact Hp| |exact HF]. intros q N. apply fcreate_other, N.
Qed.
Lemma must_write {A} p d E (k : M piv A) Q s e : pfile p -> ~ In p E -> st E e ->
  (forall e', st E e' -> e_rnd e' = e_rnd e -> wp k Q s e') -> (forall e', failed e' -> Q Fail s e') -> wp (must (write_file p d 0 true) ;;; k) Q s e.
Proof.
  intros Hp HE (H1 & H2 & H3 & H4) Hk Hf. destruct e as [F L X R T O]. cbn [e_fs e_log e_flt] in *.
  unfold must. apply wp_bind, wp_bind, wp_write_file.
  - intros X' HX. apply wp_ret, Hk; [|reflexivity].
    assert (pins_are F0 (fwrite F p d 0 true)) by (apply (pins_set p F); [exact Hp|intros; apply fwrite_other; assumption|exact H1]).
    split; [assumption|]. split; [apply (empty_set p E F); auto; intros; apply fwrite_other; assumption|].
    split; [constructor; [left; assumption|apply img_lcreate; assumption]|]. cbn. auto.
  - intros N X'. apply Hf. apply (st_failed E); [|intros W; apply N, H4, W]. split; [exact H1|]. split; [exact H2|]. split; [exact H3|].
    intros W. elim N. auto.
  - intros N X'. apply Hf. split; [left|split; [apply img_lcreate; assumption|intros W; apply N, H4, W]].
    apply (pins_set p F); [exact Hp|intros; apply fcreate_other; assumption|exact H1].
Qed.
Lemma must_key {A} p usage pol E (k : M piv A) Q s e : pfile p -> ~ In p E -> st E e ->
  (forall e', st (p :: E) e' -> wp k Q s e') -> (forall e', failed e' -> Q Fail s e') -> wp (must (create_key p usage pol) ;;; k) Q s e.
Proof.
  intros Hp HE (H1 & H2 & H3 & H4) Hk Hf. destruct e as [F L X R T O]. cbn [e_fs e_log e_flt] in *.
  unfold must, create_key, ck_write_key, ck_write_key_metadata. cbn [k_data k_meta]. set (z := zeros KEY_SIZE). apply wp_bind, wp_bind, wp_bind, wp_write_file.
  - intros X' HX. cbn [negb].
    assert (P1 : pins_are F0 (fwrite F p z 0 true)) by (apply (pins_set p F); [exact Hp|intros; apply fwrite_other; assumption|exact H1]).
    apply wp_write_attr.
    + intros _ X2 HX2. set (b := meta_bytes _). set (F1 := fwrite F p z 0 true) in *. apply wp_ret, Hk.
      assert (P2 : pins_are F0 (fsetattr F1 p KEY_META_ATTR b)) by (apply (pins_set p F1); [exact Hp|intros; apply fsetattr_other; assumption|exact P1]).
      split; [exact P2|]. cbn [e_fs e_log e_flt]. split.
      * constructor.
        -- split; [unfold erased; rewrite fdata_fsetattr; apply fdata_fwrite_trunc|]. exists b.
           split; [rewrite fattr_fsetattr by apply fwrite_some; reflexivity|reflexivity].
        -- apply (empty_set p E F1); [exact HE|intros; apply fsetattr_other; assumption|]. apply (empty_set p E F); [exact HE|intros; apply fwrite_other; assumption|exact H2].
      * split; [constructor; [left; exact P2|constructor; [left; exact P1|apply img_lcreate; assumption]]|]. auto.
    + intros N X2 HX2. apply wp_fail, Hf. split; [left; exact P1|]. split; [constructor; [left; exact P1|apply img_lcreate; assumption]|].
      intros W. destruct N as [N|N]; [apply N; auto|]. elim (fwrite_some F p z 0 true N).
  - intros N X'. apply wp_ret, wp_fail, Hf. split; [left; exact H1|]. split; [exact H3|]. intros W; apply N; auto.
  - intros N X'. apply wp_ret, wp_fail, Hf. split; [left|split; [apply img_lcreate; assumption|intros W; apply N; auto]].
    apply (pins_set p F); [exact Hp|intros; apply fcreate_other; assumption|exact H1].
Qed.

(** once the keys are gone *)
Definition nokeys (e : env) : Prop := Forall (empty_slot (e_fs e)) piv_keys /\ Forall img (e_log e) /\ (X0 = [] -> e_flt e = []).
Lemma empty_img G : Forall (empty_slot G) piv_keys -> img G.
Proof. intros H. right. eapply Forall_impl; [|exact H]. intros q [W _]. exact W. Qed.
Lemma keys_set p G G' : ~ In p piv_keys -> (forall q, q <> p -> G' q = G q) -> Forall (empty_slot G) piv_keys -> Forall (empty_slot G') piv_keys.
Proof. apply empty_set. Qed.
Lemma lcreate_img p F L : ~ In p piv_keys -> Forall (empty_slot F) piv_keys -> Forall img L -> Forall img (lcreate F L p).
Proof.
  intros Hp HF HL. unfold lcreate. destruct (F p) eqn:E; [exact HL|]. constructor; [|exact HL].
  apply empty_img, (keys_set p F); [exact Hp|intros; apply fcreate_other; assumption|exact HF].
Qed.
Lemma write2 {A} p d (k : bool -> M piv A) Q s e : ~ In p piv_keys -> nokeys e ->
  (forall e', nokeys e' -> e_fs e' = fwrite (e_fs e) p d 0 true -> wp (k true) Q s e') -> (forall e', failed e' -> wp (k false) Q s e') ->
  wp (b <- write_file p d 0 true ;; k b) Q s e.
Proof.
  intros Hp (H2 & H3 & H4) Hk Hf. destruct e as [F L X R T O]. cbn [e_fs e_log e_flt] in *. apply wp_bind, wp_write_file.
  - intros X' HX. apply Hk; [|reflexivity].
    assert (Forall (empty_slot (fwrite F p d 0 true)) piv_keys) by (apply (keys_set p F); auto; intros; apply fwrite_other; assumption).
    split; [assumption|]. split; [constructor; [apply empty_img; assumption|apply lcreate_img; assumption]|]. cbn. auto.
  - intros N X'. apply Hf. split; [apply empty_img, H2|]. split; [exact H3|]. intros W; apply N; auto.
  - intros N X'. apply Hf. split; [apply empty_img, (keys_set p F); auto; intros; apply fcreate_other; assumption|].
    split; [apply lcreate_img; assumption|]. intros W; apply N; auto.
Qed.
Lemma attr1 p a v (Q : out bool -> piv -> env -> Prop) s e : ~ In p piv_keys -> nokeys e -> e_fs e p <> None ->
  (forall e', nokeys e' -> e_fs e' = fsetattr (e_fs e) p a v -> Q (Ret true) s e') -> (forall e', failed e' -> Q (Ret false) s e') ->
  wp (write_attr p a v) Q s e.
Proof.
  intros Hp (H2 & H3 & H4) HF Hk Hf. destruct e as [F L X R T O]. cbn [e_fs e_log e_flt] in *. apply wp_write_attr.
  - intros _ X' HX. apply Hk; [|reflexivity].
    assert (Forall (empty_slot (fsetattr F p a v)) piv_keys) by (apply (keys_set p F); auto; intros; apply fsetattr_other; assumption).
    split; [assumption|]. split; [constructor; [apply empty_img; assumption|assumption]|]. cbn. auto.
  - intros N X' _. apply Hf. split; [apply empty_img, H2|]. split; [exact H3|]. intros W; destruct N as [N|N]; [apply N; auto|contradiction].
Qed.
Lemma attr2 {A} p a v (k : bool -> M piv A) Q s e : ~ In p piv_keys -> nokeys e -> e_fs e p <> None ->
  (forall e', nokeys e' -> e_fs e' = fsetattr (e_fs e) p a v -> wp (k true) Q s e') -> (forall e', failed e' -> wp (k false) Q s e') ->
  wp (b <- write_attr p a v ;; k b) Q s e.
Proof. intros. apply wp_bind. apply attr1; assumption. Qed.
Lemma pin2 p buf {A} (k : M piv A) Q s e d n : ~ In (pin_path p) piv_keys -> nokeys e -> pin_inv p 3 d n (e_fs e) -> zlen buf <= 64 ->
  (forall e', nokeys e' -> pin_inv p 3 buf 3 (e_fs e') -> (forall q, q <> pin_path p -> e_fs e' q = e_fs e q) -> wp k Q s e') ->
  (forall e', failed e' -> Q Fail s e') ->
  wp (mustz (pin_create p buf 3) ;;; k) Q s e.
Proof.
  intros Hp (H2 & H3 & H4) Hi Hb Hk Hf. destruct e as [F L X R T O]. cbn [e_fs e_log e_flt] in *. unfold mustz. apply wp_bind, wp_bind.
  eapply wp_pin_create; [exact Hi|exact Hb|]. intros X' F' L' r HX HF _ HL Hr.
  assert (E2 : Forall (empty_slot F') piv_keys) by (apply (keys_set (pin_path p) F); auto).
  assert (L2 : Forall img L').
  { rewrite Forall_forall in *. intros G HG. destruct (HL G HG) as [W|[W _]]; [apply H3, W|]. apply empty_img, (keys_set (pin_path p) F); auto. rewrite Forall_forall. exact H2. }
  destruct Hr as [[-> Hi']|[-> N]].
  - apply wp_ret. apply Hk; [split; [exact E2|split; [exact L2|]]; cbn; auto|exact Hi'|exact HF].
  - apply wp_fail, Hf. split; [apply empty_img, E2|]. split; [exact L2|]. intros W; apply N; auto.
Qed.

Variables (dp dk : bytes) (cp ck : Z).
Hypothesis Hst : stored F0 dp cp dk ck.
Definition wiped (G : fs) : Prop :=
  Forall (empty_slot G) piv_keys /\ stored G DEFAULT_PIN 3 DEFAULT_PUK 3 /\ exists m, fdata G "piv-admk" = Some (DEFAULT_MGMT_KEY ++ m).
Definition iq (o : out unit) (s : piv) (e : env) : Prop :=
  Forall img (e_log e) /\ img (e_fs e) /\ (X0 = [] -> o = Ret tt /\ wiped (e_fs e)) /\ (o = Ret tt \/ o = Fail).
Lemma failed_iq s e : failed e -> iq Fail s e.
Proof. intros (H1 & H2 & H3). split; [exact H2|]. split; [exact H1|]. split; [intros W; contradiction|auto]. Qed.

Ltac notin := unfold piv_keys, piv_objects; cbn; intuition discriminate.
Ltac wr := apply must_write with (E := []); [repeat split; discriminate|intros []|eassumption| |intros ? ?; apply failed_iq; assumption].
Lemma install_wp s e : st [] e -> wp (piv_install true) iq s e.
Proof.
  intros S0. unfold piv_install. apply wp_bind, wp_modify, wp_bind, wp_ret.
  wr; intros e1 S1 _. wr; intros e2 S2 _. wr; intros e3 S3 _. wr; intros e4 S4 _. wr; intros e5 S5 _. wr; intros e6 S6 _. wr; intros e7 S7 _. wr; intros e8 S8 _. wr; intros e9 S9 _.
  clear S0 S1 S2 S3 S4 S5 S6 S7 S8.
  apply wp_bind. destruct e9 as [F L X R T O]. apply wp_random. intros r R1. wr; intros e10 S10 _.
  apply wp_bind. destruct e10 as [F1 L1 X1 R2 T1 O1]. apply wp_random. intros r2 R3. wr; intros e11 S11 _. clear S9 S10 e e1 e2 e3 e4 e5 e6 e7 e8. rename e11 into e2, S11 into S2.
  apply must_key with (E := []); [repeat split; discriminate|notin|exact S2| |intros; apply failed_iq; assumption]. intros e3 S3.
  eapply must_key; [repeat split; discriminate| |exact S3| |intros; apply failed_iq; assumption]; [notin|]. intros e4 S4.
  eapply must_key; [repeat split; discriminate| |exact S4| |intros; apply failed_iq; assumption]; [notin|]. intros e5 S5.
  eapply must_key; [repeat split; discriminate| |exact S5| |intros; apply failed_iq; assumption]; [notin|]. intros e6 S6.
  eapply must_key; [repeat split; discriminate| |exact S6| |intros; apply failed_iq; assumption]; [notin|]. intros e7 S7.
  eapply must_key; [repeat split; discriminate| |exact S7| |intros; apply failed_iq; assumption]; [notin|]. intros e8 S8.
  clear S2 S3 S4 S5 S6 S7 e2 e3 e4 e5 e6 e7.
  destruct S8 as (P8 & E8 & L8 & X8).
  assert (N8 : nokeys e8).
  { split; [|split; [exact L8|exact X8]]. rewrite Forall_forall in *. intros q Hq. apply E8. unfold piv_keys in Hq. cbn in *. intuition. }
  assert (T8 : stored (e_fs e8) dp cp dk ck).
  { destruct Hst as (Q1 & Q2 & Q3). destruct P8 as (P1 & P2 & P3). unfold stored, pin_inv, fdata, fattr in *. cbn [pin_path pin puk] in *. rewrite P1, P2. auto. }
  clear P8 E8 L8 X8.
  apply wp_bind. unfold must, ck_write_key, ck_write_key_metadata. cbn [k_data k_meta]. apply wp_bind.
  assert (HK : overlay DEFAULT_MGMT_KEY (zeros KEY_SIZE) = DEFAULT_MGMT_KEY ++ zeros 1262) by reflexivity. rewrite HK. set (key := DEFAULT_MGMT_KEY ++ zeros 1262) in *.
  unfold CARD_ADMIN_KEY_PATH.
  apply write2; [notin|exact N8| |]; [|intros e' Fe; cbn [negb]; apply wp_ret, wp_fail, failed_iq, Fe].
  intros e9 N9 F9. cbn [negb].
  assert (D9 : fdata (e_fs e9) "piv-admk" = Some key) by (rewrite F9; apply fdata_fwrite_trunc).
  assert (T9 : stored (e_fs e9) dp cp dk ck) by (eapply stored_same; [exact T8| | |]; rewrite F9; rewrite ?fwrite_other by discriminate; [reflexivity|reflexivity|apply T8]).
  assert (A9 : e_fs e9 "piv-admk" <> None) by (apply (fdata_some _ _ _ D9)). clear F9 N8 T8.
  apply attr1; [notin|exact N9|exact A9| |intros e' Fe; apply wp_fail, failed_iq, Fe]. intros e10 N10 F10. apply wp_ret.
  assert (D10 : fdata (e_fs e10) "piv-admk" = Some key) by (rewrite F10, fdata_fsetattr; exact D9).
  assert (T10 : stored (e_fs e10) dp cp dk ck) by (eapply stored_same; [exact T9| | |]; rewrite F10; rewrite ?fsetattr_other by discriminate; [reflexivity|reflexivity|apply T9]).
  assert (A10 : e_fs e10 "piv-admk" <> None) by (apply (fdata_some _ _ _ D10)). clear F10 N9 T9 D9 A9.
  apply wp_bind. apply attr2; [notin|exact N10|exact A10| |intros e' Fe; apply wp_fail, failed_iq, Fe]. intros e11 N11 F11. apply wp_ret.
  assert (D11 : fdata (e_fs e11) "piv-admk" = Some key) by (rewrite F11, fdata_fsetattr; exact D10).
  assert (T11 : stored (e_fs e11) dp cp dk ck) by (eapply stored_same; [exact T10| | |]; rewrite F11; rewrite ?fsetattr_other by discriminate; [reflexivity|reflexivity|apply T10]).
  clear F11 N10 T10 D10 A10.
  eapply pin2; [notin|exact N11|apply T11|unfold zlen; cbn [length DEFAULT_PIN DEFAULT_PUK]; lia| |intros e' Fe; apply failed_iq, Fe]. intros e12 N12 I12 O12. cbn [pin_path pin] in O12.
  assert (D12 : fdata (e_fs e12) "piv-admk" = Some key) by (unfold fdata in *; rewrite O12 by discriminate; exact D11).
  assert (T12 : stored (e_fs e12) DEFAULT_PIN 3 dk ck) by (eapply stored_pin; [exact T11|exact I12|exact O12]).
  clear O12 N11 T11 D11.
  assert (A12 : e_fs e12 "piv-pin" <> None) by (destruct I12 as (W & _); apply (fdata_some _ _ _ W)).
  apply wp_bind. apply attr2; [notin|exact N12|exact A12| |intros e' Fe; apply wp_fail, failed_iq, Fe]. intros e13 N13 F13. apply wp_ret.
  assert (D13 : fdata (e_fs e13) "piv-admk" = Some key) by (rewrite F13, fdata_fsetattr; exact D12).
  assert (T13 : stored (e_fs e13) DEFAULT_PIN 3 dk ck).
  { eapply stored_pin; [exact T12| |]; rewrite F13; [apply (flag_inv pin), I12|intros; apply fsetattr_other; assumption]. }
  clear F13 N12 T12 D12 A12 I12.
  eapply pin2; [notin|exact N13|apply T13|unfold zlen; cbn [length DEFAULT_PIN DEFAULT_PUK]; lia| |intros e' Fe; apply failed_iq, Fe]. intros e14 N14 I14 O14. cbn [pin_path puk] in O14.
  assert (D14 : fdata (e_fs e14) "piv-admk" = Some key) by (unfold fdata in *; rewrite O14 by discriminate; exact D13).
  assert (T14 : stored (e_fs e14) DEFAULT_PIN 3 DEFAULT_PUK 3) by (eapply stored_puk; [exact T13|exact I14|exact O14]).
  clear O14 N13 T13 D13.
  assert (A14 : e_fs e14 "piv-puk" <> None) by (destruct I14 as (W & _); apply (fdata_some _ _ _ W)).
  apply wp_bind. apply attr2; [notin|exact N14|exact A14| |intros e' Fe; apply wp_fail, failed_iq, Fe]. intros e15 N15 F15. apply wp_ret.
  assert (D15 : fdata (e_fs e15) "piv-admk" = Some key) by (rewrite F15, fdata_fsetattr; exact D14).
  assert (T15 : stored (e_fs e15) DEFAULT_PIN 3 DEFAULT_PUK 3).
  { eapply stored_puk; [exact T14| |]; rewrite F15; [apply (flag_inv puk), I14|intros; apply fsetattr_other; assumption]. }
  clear F15 N14 T14 D14 A14 I14.
  assert (Hend : forall e s, nokeys e -> stored (e_fs e) DEFAULT_PIN 3 DEFAULT_PUK 3 -> fdata (e_fs e) "piv-admk" = Some key -> iq (Ret tt) s e).
  { intros e s0 (W1 & W2 & W3) W4 W5. split; [exact W2|]. split; [apply empty_img, W1|]. split; [|auto]. intros _. split; [reflexivity|]. split; [exact W1|]. split; [exact W4|]. exists (zeros 1262). exact W5. }
  destruct e15 as [F15 L15 X15 R15 T15' O15]. cbn [e_fs] in *. apply wp_bind, wp_get_file_size. intros X16 r16 C16 _.
  assert (N16 : nokeys (mkE F15 L15 X16 R15 T15' O15)).
  { destruct N15 as (W1 & W2 & W3). split; [exact W1|]. split; [exact W2|]. cbn in *. intros W. apply C16, W3, W. }
  wif Ga; [apply wp_ret, Hend; assumption|].
  apply wp_bind, wp_modify. apply write2; [notin|exact N16| |intros e' Fe; apply wp_fail, failed_iq, Fe]. intros e17 N17 F17. apply wp_ret, Hend; [exact N17| |].
  - eapply stored_same; [exact T15| | |]; rewrite F17; [apply fwrite_other; discriminate|apply fwrite_other; discriminate|apply fwrite_some].
  - unfold fdata in *. rewrite F17, fwrite_other by discriminate. exact D15.
Qed.
End Reset.

(** ** The command *)
Definition reset_cmd (c : capdu) : Prop := c_cla c = 0 /\ c_ins c = 0xFB /\ c_p1 c = 0 /\ c_p2 c = 0 /\ c_lc c = 0.
Definition reset_post (c : capdu) (X : list fault) (F : fs) (cp ck : Z) (o : out Z) (e : env) : Prop :=
  (forall G, G = e_fs e \/ In G (e_log e) -> pins_are F G \/ Forall (erased G) piv_keys) /\
  (X = [] -> cp <> 0 \/ ck <> 0 \/ ~ reset_cmd c -> e_fs e = F /\ e_log e = [F] /\ forall w, o = Ret w -> w <> 0x9000) /\
  (X = [] -> reset_cmd c -> cp = 0 -> ck = 0 -> o = Ret 0x9000 /\ wiped (e_fs e)) /\
  (forall w, o = Exc w -> w <> 0x9000).
Section Cmd.
Variable K : crypto.
Lemma reset_wp d x dp cp dk ck : stored (d_fs d) dp cp dk ck -> dp <> [] -> dk <> [] -> c_ins (x_apdu x) = 0xFB ->
  wp (piv_body K (x_nfc x) (x_t1 x) (x_t2 x) (x_apdu x) (x_tail x))
     (fun o _ e => reset_post (x_apdu x) (x_flt x) (d_fs d) cp ck o e) (d_ram d) (start (d_fs d) (x_flt x) (x_rnd x) (x_tch x)).
Proof.
  intros Hs Hdp Hdk Hi. set (c := x_apdu x) in *. set (F := d_fs d) in *. set (X := x_flt x). pose proof Hs as (Hp & Hk & Ha).
  assert (HF : pins_are F F) by (split; [reflexivity|split; [reflexivity|exact Ha]]).
  assert (Hno : forall o X' R T O, (forall w, o = Ret w \/ o = Exc w -> w <> 0x9000) -> (X = [] -> reset_cmd c -> cp = 0 -> ck = 0 -> False) -> reset_post c X F cp ck o (mkE F [F] X' R T O)).
  { intros o X' R T O H1 H2. split; [|split; [|split]].
    - intros G [->|[<-|[]]]; left; exact HF.
    - intros _ _. split; [reflexivity|]. split; [reflexivity|]. intros w W. apply H1; auto.
    - intros. exfalso. eauto.
    - intros w W. apply H1; auto. }
  assert (Hex : forall w, w <> 0x9000 -> forall v : Z, @Exc Z w = Ret v \/ @Exc Z w = Exc v -> v <> 0x9000).
  { intros w W v [V|V]; [discriminate V|]. injection V as <-. exact W. }
  unfold piv_body, start. apply wp_bind, wp_guard; intros G1; [|apply Hno; [apply Hex; discriminate|intros _ (Q & _); lia]].
  rewrite Hi. cbn [Z.eqb Pos.eqb]. apply wp_bind, wp_modify, wp_bind, wp_modify. unfold piv_reset.
  apply wp_bind, wp_guard; intros G2; [|apply Hno; [apply Hex; discriminate|intros _ (Q1 & Q2 & Q3 & Q4 & Q5); lia]].
  apply wp_bind, wp_guard; intros G3; [|apply Hno; [apply Hex; discriminate|intros _ (Q1 & Q2 & Q3 & Q4 & Q5); lia]].
  assert (Hc : reset_cmd c) by (repeat split; lia).
  pose proof Hp as (_ & _ & Rp & _). pose proof Hk as (_ & _ & Rk & _).
  assert (Hgo : forall s X' R T, (X = [] -> cp = 0 /\ ck = 0) -> (X = [] -> X' = []) -> wp (ignore (piv_install true) ;;; ret SW_NO_ERROR)
    (fun o _ e => reset_post c X F cp ck o e) s (mkE F [F] X' R T [])).
  { intros s X' R T H0 HX. apply wp_bind. unfold ignore, wp at 1.
    pose proof (install_wp F X dp dk cp ck Hs s (mkE F [F] X' R T [])) as W. unfold wp in W.
    destruct (piv_install true s (mkE F [F] X' R T [])) as [[o s'] e']. destruct W as (W1 & W2 & W3 & W4).
    { split; [exact HF|]. split; [constructor|]. split; [constructor; [left; exact HF|constructor]|exact HX]. }
    assert (Himg : forall G, G = e_fs e' \/ In G (e_log e') -> pins_are F G \/ Forall (erased G) piv_keys).
    { intros G [->|HG]; [exact W2|]. rewrite Forall_forall in W1. apply W1, HG. }
    destruct o as [u|w| |].
    - apply wp_ret. split; [exact Himg|]. split; [intros E [N|[N|N]]; [destruct (H0 E); lia|destruct (H0 E); lia|contradiction]|].
      split; [|discriminate]. intros E _ _ _. split; [reflexivity|]. apply W3, E.
    - destruct W4 as [W4|W4]; discriminate W4.
    - apply wp_ret. split; [exact Himg|]. split; [intros E; destruct (W3 E) as [V _]; discriminate V|]. split; [intros E; destruct (W3 E) as [V _]; discriminate V|discriminate].
    - destruct W4 as [W4|W4]; discriminate W4. }
  apply wp_bind. eapply wp_pin_retries; [exact Hp| | |intros X' N; contradiction|intros _ N; contradiction].
  - intros X1 r -> N1. cbn [Z.gtb Z.compare PIN_IO_FAIL negb]. apply wp_bind, wp_guard; intros G4; [|discriminate G4].
    apply wp_bind. eapply wp_pin_retries; [exact Hk| | |intros X' N; contradiction|intros _ N; contradiction].
    + intros X2 r -> N2. apply wp_bind, wp_guard; intros G5; [|discriminate G5]. apply Hgo; intros E; contradiction.
    + intros X2 r -> N2 _. apply wp_bind, wp_guard; intros G5; [apply Hgo; intros E; contradiction|]. apply Hno; [apply Hex; discriminate|intros E; contradiction].
  - intros X1 r -> N1 HX1. apply wp_bind, wp_guard; intros G4; [|apply Hno; [apply Hex; discriminate|intros; lia]].
    apply wp_bind. eapply wp_pin_retries; [exact Hk| | |intros X' N; contradiction|intros _ N; contradiction].
    + intros X2 r -> N2. apply wp_bind, wp_guard; intros G5; [|discriminate G5]. apply Hgo; intros E; elim N2; auto.
    + intros X2 r -> N2 HX2. apply wp_bind, wp_guard; intros G5; [|apply Hno; [apply Hex; discriminate|intros; lia]].
      apply Hgo; [|auto]. intros _. lia.
Qed.
End Cmd.

(** RESET in a well-formed card.  Without storage errors it changes nothing and is refused unless both secrets have no tries left; then it is
    answered 9000, all six key slots are empty, and the PIN, the PUK and the management key are the default ones.  With storage errors or a power
    cut: in every image the PIN and PUK are still as before, or the key material of all slots is erased; so no PIN-protected key can be used again.
    Missing: "only if blocked" when the card cannot read the retry counters, that 9000 means success, and keys that need no PIN after a power cut
    (see the refutations). *)
Theorem C34_reset_partial : forall K d x dp cp dk ck, stored (d_fs d) dp cp dk ck -> dp <> [] -> dk <> [] -> c_ins (x_apdu x) = 0xFB ->
  let '(r, _, e) := exec K d x in
  (forall G, G = e_fs e \/ In G (e_log e) -> pins_are (d_fs d) G \/ Forall (erased G) piv_keys) /\
  (x_flt x = [] -> cp <> 0 \/ ck <> 0 \/ ~ reset_cmd (x_apdu x) ->
     e_fs e = d_fs d /\ e_log e = [d_fs d] /\ (forall a, r = Some a -> r_sw a <> 0x9000)) /\
  (x_flt x = [] -> reset_cmd (x_apdu x) -> cp = 0 -> ck = 0 ->
     (exists a, r = Some a /\ r_sw a = 0x9000) /\
     Forall (empty_slot (e_fs e)) piv_keys /\ stored (e_fs e) DEFAULT_PIN 3 DEFAULT_PUK 3 /\ exists m, fdata (e_fs e) "piv-admk" = Some (DEFAULT_MGMT_KEY ++ m)).
Proof.
  intros K d x dp cp dk ck Hs Hdp Hdk Hi.
  pose proof (exec_wp K d x (fun r _ e =>
    (forall G, G = e_fs e \/ In G (e_log e) -> pins_are (d_fs d) G \/ Forall (erased G) piv_keys) /\
    (x_flt x = [] -> cp <> 0 \/ ck <> 0 \/ ~ reset_cmd (x_apdu x) -> e_fs e = d_fs d /\ e_log e = [d_fs d] /\ (forall a, r = Some a -> r_sw a <> 0x9000)) /\
    (x_flt x = [] -> reset_cmd (x_apdu x) -> cp = 0 -> ck = 0 -> (exists a, r = Some a /\ r_sw a = 0x9000) /\ wiped (e_fs e)))) as W.
  destruct (exec K d x) as [[r s'] e]. apply W. clear W r s' e.
  eapply wp_mono; [eapply reset_wp; eassumption|]. intros o s' e (Q1 & Q2 & Q3 & Q4). split; [exact Q1|]. split.
  - intros E N. destruct (Q2 E N) as (R1 & R2 & R3). split; [exact R1|]. split; [exact R2|].
    intros a Ha. destruct o as [w|w| |]; try discriminate Ha; injection Ha as <-; cbn [r_sw]; [apply R3; reflexivity|apply Q4; reflexivity|discriminate].
  - intros E Hc H1 H2. destruct (Q3 E Hc H1 H2) as [-> R]. split; [|exact R]. eexists. split; reflexivity.
Qed.
Print Assumptions C34_reset_partial.

(** A card with a key in the card authentication slot (no PIN needed), both secrets blocked, is reset. *)
Definition wrong_unblock : capdu := mkC 0 0x2C 0 0x80 (repeat 0x39 16) 256.
Definition reset_c : capdu := mkC 0 0xFB 0 0 [] 256.
Definition gen_9e : capdu := mkC 0 0x47 0 0x9E [0xAC; 3; 0x80; 1; 0x11] 256.
Definition sign_9e : capdu := mkC 0 0x87 0x11 0x9E ([0x7C; 36; 0x82; 0; 0x81; 32] ++ repeat 1 32) 256.
Definition ex_block : list ev :=
  ex_external ++ [Do (plain gen_9e); Do (plain wrong_pin); Do (plain wrong_pin); Do (plain wrong_pin);
    Do (plain wrong_unblock); Do (plain wrong_unblock); Do (plain wrong_unblock)].
Definition sw_of {A} (x : option (option rapdu * A)) : option Z := match x with Some (Some r, _) => Some (r_sw r) | _ => None end.
Example C34_ex : exists tr d, since_boot toy tr d /\ stored (d_fs d) DEFAULT_PIN 0 DEFAULT_PUK 0 /\ reset_cmd reset_c /\
  sw_of (step toy d (Do (plain sign_9e))) = Some 0x9000 /\ sw_of (step toy d (Do (plain reset_c))) = Some 0x9000.
Proof.
  destruct (sees_ran (run_all toy (boot fs_empty [] []) ex_block)
    (fun tr d => (stored_seen (d_fs d), sw_of (step toy d (Do (plain sign_9e))), sw_of (step toy d (Do (plain reset_c)))))
    (Some (DEFAULT_PIN, 0, DEFAULT_PUK, 0), Some 0x9000, Some 0x9000)) as (tr & d & E & H); [vm_compute; reflexivity|].
  pose proof (f_equal snd H) as H3. pose proof (f_equal (fun x => snd (fst x)) H) as H2. pose proof (f_equal (fun x => fst (fst x)) H) as H1. cbn [fst snd] in H1, H2, H3. clear H.
  exists tr, d. split; [eapply run_all_since; [|exact E]; unfold ex_block, ex_external; cbn [app]; bytes_ok|]. clear E.
  split; [apply seen_stored, H1|]. split; [repeat split|]. auto.
Qed.

(** Refuted: "only if both are blocked".  On a fresh card with all tries left, two read errors make RESET wipe the applet: the guard takes the
    error code of the retry counter for "no tries left" (piv.c:937-943). *)
Theorem C34_reset_refuted : exists tr d x r d', since_boot toy tr d /\ stored (d_fs d) DEFAULT_PIN 3 DEFAULT_PUK 3 /\ reset_cmd (x_apdu x) /\
  step toy d (Do (plain sign_9e)) <> None /\ sw_of (step toy d (Do (plain sign_9e))) = Some 0x9000 /\
  step toy d (Do x) = Some (Some r, d') /\ r_sw r = 0x9000 /\ empty_slot (d_fs d') "piv-cauk".
Proof.
  destruct (sees_ran (run_all toy (boot fs_empty [] []) (ex_external ++ [Do (plain gen_9e)]))
    (fun tr d => (stored_seen (d_fs d), sw_of (step toy d (Do (plain sign_9e))),
      match step toy d (Do (with_faults [FNone; FEarly; FNone; FEarly] reset_c)) with
      | Some (Some r, d') => Some (r_sw r, fdata (d_fs d') "piv-cauk", option_map (fun a => m_type (meta_of a)) (fattr (d_fs d') "piv-cauk" KEY_META_ATTR))
      | _ => None end))
    (Some (DEFAULT_PIN, 3, DEFAULT_PUK, 3), Some 0x9000, Some (0x9000, Some (zeros KEY_SIZE), Some KEY_TYPE_PKC_END))) as (tr & d & E & H); [vm_compute; reflexivity|].
  pose proof (f_equal snd H) as H3. pose proof (f_equal (fun x => snd (fst x)) H) as H2. pose proof (f_equal (fun x => fst (fst x)) H) as H1. cbn [fst snd] in H1, H2, H3. clear H.
  destruct (step toy d (Do (with_faults _ reset_c))) as [[[r|] d']|] eqn:Er; [|discriminate H3|discriminate H3].
  exists tr, d, (with_faults [FNone; FEarly; FNone; FEarly] reset_c), r, d'.
  split; [eapply run_all_since; [|exact E]; unfold ex_external; cbn [app]; bytes_ok|]. clear E.
  split; [apply seen_stored, H1|]. split; [repeat split|]. split; [intros W; rewrite W in H2; discriminate H2|]. split; [exact H2|]. split; [exact Er|]. clear Er.
  apply (f_equal (fun x => match x with Some y => y | None => (0, None, None) end)) in H3.
  pose proof (f_equal snd H3) as A3. pose proof (f_equal (fun x => snd (fst x)) H3) as A2. pose proof (f_equal (fun x => fst (fst x)) H3) as A1. cbn [fst snd] in A1, A2, A3. clear H3.
  split; [exact A1|]. split; [exact A2|]. destruct (fattr (d_fs d') "piv-cauk" KEY_META_ATTR) as [a|]; [|discriminate A3]. exists a. split; [reflexivity|].
  cbn [option_map] in A3. apply (f_equal (fun x => match x with Some y => y | None => 0 end)) in A3. exact A3.
Qed.
Print Assumptions C34_reset_refuted.

(** Refuted: "9000 means that the applet has been wiped".  A write error in the middle of RESET leaves the key of the card authentication slot
    in place and usable, yet RESET answers 9000. *)
Theorem C34_silent_failure_refuted : exists tr d x r d', since_boot toy tr d /\ stored (d_fs d) DEFAULT_PIN 0 DEFAULT_PUK 0 /\ reset_cmd (x_apdu x) /\
  step toy d (Do x) = Some (Some r, d') /\ r_sw r = 0x9000 /\ sw_of (step toy d' (Do (plain sign_9e))) = Some 0x9000.
Proof.
  destruct (sees_ran (run_all toy (boot fs_empty [] []) ex_block)
    (fun tr d => (stored_seen (d_fs d),
      match step toy d (Do (with_faults (repeat FNone 4 ++ [FEarly]) reset_c)) with
      | Some (Some r, d') => Some (r_sw r, sw_of (step toy d' (Do (plain sign_9e))))
      | _ => None end))
    (Some (DEFAULT_PIN, 0, DEFAULT_PUK, 0), Some (0x9000, Some 0x9000))) as (tr & d & E & H); [vm_compute; reflexivity|].
  pose proof (f_equal snd H) as H3. pose proof (f_equal fst H) as H1. cbn [fst snd] in H1, H3. clear H.
  destruct (step toy d (Do (with_faults _ reset_c))) as [[[r|] d']|] eqn:Er; [|discriminate H3|discriminate H3].
  exists tr, d, (with_faults (repeat FNone 4 ++ [FEarly]) reset_c), r, d'.
  split; [eapply run_all_since; [|exact E]; unfold ex_block, ex_external; cbn [app]; bytes_ok|]. clear E.
  split; [apply seen_stored, H1|]. split; [repeat split|]. split; [exact Er|]. clear Er.
  apply (f_equal (fun x => match x with Some y => y | None => (0, None) end)) in H3. apply pair_equal_spec in H3. exact H3.
Qed.
Print Assumptions C34_silent_failure_refuted.

(** Refuted: "after a power cut in RESET and the next boot no key remains usable".  The boot does not resume the reset. *)
Theorem C34_power_cut_refuted : exists tr d n d', since_boot toy tr d /\ stored (d_fs d) DEFAULT_PIN 0 DEFAULT_PUK 0 /\ (1 <= n)%nat /\
  step toy d (Cut (plain reset_c) n [] []) = Some (None, d') /\ fdata (d_fs d') "piv-pauk" = Some (zeros KEY_SIZE) /\ d_fs d' <> d_fs d /\
  sw_of (step toy d' (Do (plain sign_9e))) = Some 0x9000.
Proof.
  destruct (sees_ran (run_all toy (boot fs_empty [] []) (ex_block ++ [Do (plain (mkC 0 0xDB 0x3F 0xFF [0x5C; 3; 0x5F; 0xC1; 5; 7] 256))]))
    (fun tr d => (stored_seen (d_fs d), fdata (d_fs d) "piv-pauc",
      match step toy d (Cut (plain reset_c) 18 [] []) with
      | Some (None, d') => Some (fdata (d_fs d') "piv-pauk", fdata (d_fs d') "piv-pauc", sw_of (step toy d' (Do (plain sign_9e))))
      | _ => None end))
    (Some (DEFAULT_PIN, 0, DEFAULT_PUK, 0), Some [7], Some (Some (zeros KEY_SIZE), Some [], Some 0x9000))) as (tr & d & E & H); [vm_compute; reflexivity|].
  pose proof (f_equal snd H) as H3. pose proof (f_equal (fun x => snd (fst x)) H) as H2. pose proof (f_equal (fun x => fst (fst x)) H) as H1. cbn [fst snd] in H1, H2, H3. clear H.
  destruct (step toy d (Cut _ _ _ _)) as [[[r|] d']|] eqn:Er; [discriminate H3| |discriminate H3].
  exists tr, d, 18%nat, d'.
  split; [eapply run_all_since; [|exact E]; unfold ex_block, ex_external; cbn [app]; bytes_ok|]. clear E.
  split; [apply seen_stored, H1|]. split; [lia|]. split; [exact Er|]. clear Er.
  apply (f_equal (fun x => match x with Some y => y | None => (None, None, None) end)) in H3.
  pose proof (f_equal snd H3) as A3. pose proof (f_equal (fun x => snd (fst x)) H3) as A2. pose proof (f_equal (fun x => fst (fst x)) H3) as A1. cbn [fst snd] in A1, A2, A3. clear H3.
  split; [exact A1|]. split; [|exact A3]. intros W. rewrite W, H2 in A2. discriminate A2.
Qed.
Print Assumptions C34_power_cut_refuted.
