(** C61: what a FIDO response over APDU is made of. *)
From Verif Require Import Applet Ctap CtapSpec CtapToy PropCtapPin PropCtapCred.
Open Scope string_scope. Open Scope list_scope. Open Scope Z_scope.

(** ** Specification *)
(** A CTAP2 message: the status, and after a success perhaps one CBOR item *)
Definition is_message (b : bytes) : Prop := exists c, b = [c] \/ (c = 0 /\ exists v, b = c :: enc v).
(** U2F raw messages: registration (reserved byte, public key, key handle, certificate, signature) and authentication (presence, counter, signature) *)
Definition is_registration (K : fcrypto) (F : fs) (chal app b : bytes) : Prop :=
  exists pub id cert sig k, b = [5; 4] ++ pub ++ [70] ++ id ++ cert ++ sig /\ id_rp id = app /\ fread F "ctap_cert" 0 1152 = Some cert /\
    (sig = [] \/ fattr F "ctap_cert" 0 = Some k /\ f_sign K KP256 (attr_buf 32 k) ([0] ++ app ++ chal ++ id ++ [4] ++ pub) = Some sig).
Definition is_authentication (K : fcrypto) (chal app b : bytes) : Prop :=
  exists pri c sig, b = [1] ++ to_be 4 c ++ sig /\ f_sign K KP256 pri (app ++ [1] ++ to_be 4 c ++ chal) = Some sig.

Section S.
Variable K : fcrypto.
Variable nfc : bool. Variables t1 t2 : Z. Variable junk : bytes.
(** ** Proof *)
Definition mute {A} (m : Mc A) : Prop := forall s e, e_out (snd (m s e)) = e_out e /\ True.
Lemma mt_bind {A B} (m : Mc A) (k : A -> Mc B) : mute m -> (forall a, mute (k a)) -> mute (bind m k).
Proof. intros Hm Hk s e. split; [|exact Logic.I]. unfold bind. specialize (Hm s e). destruct (m s e) as [[[a|w| |] s'] e']; try exact (proj1 Hm). cbn [snd] in Hm. rewrite <- (proj1 Hm). apply Hk. Qed.
Ltac sm := intros s [F L [|[| |] X] R [|? T] O]; split; [|exact Logic.I| |exact Logic.I| |exact Logic.I| |exact Logic.I| |exact Logic.I| |exact Logic.I| |exact Logic.I| |exact Logic.I]; unfold read_file, read_attr, write_attr, write_file, wait_touch, random_buffer, pop_fault, guard; cbn [e_flt e_fs e_tch e_rnd e_out];
  repeat match goal with |- context [match ?x with _ => _ end] => destruct x end; reflexivity.
Lemma mt_ret {A} (a : A) : mute (ret a). Proof. sm. Qed.
Lemma mt_get : mute get. Proof. sm. Qed.
Lemma mt_ub {A} : mute (@ub ctap A). Proof. sm. Qed.
Lemma mt_fail {A} : mute (@fail ctap A). Proof. sm. Qed.
Lemma mt_except {A} w : mute (@except ctap A w). Proof. sm. Qed.
Lemma mt_guard b w : mute (guard b w). Proof. sm. Qed.
Lemma mt_wait : mute wait_touch. Proof. sm. Qed.
Lemma mt_random n : mute (random_buffer n). Proof. sm. Qed.
Lemma mt_read_attr p a : mute (read_attr p a). Proof. sm. Qed.
Lemma mt_read_file p o n : mute (read_file p o n). Proof. sm. Qed.
Lemma mt_write_attr p a v : mute (write_attr p a v). Proof. sm. Qed.
Ltac mt := repeat lazymatch goal with
  | |- mute (bind _ _) => apply mt_bind; [|intros ?]
  | |- mute (ret _) => apply mt_ret
  | |- mute get => apply mt_get
  | |- mute ub => apply mt_ub
  | |- mute fail => apply mt_fail
  | |- mute (except _) => apply mt_except
  | |- mute (guard _ _) => apply mt_guard
  | |- mute wait_touch => apply mt_wait
  | |- mute (random_buffer _) => apply mt_random
  | |- mute (read_attr _ _) => apply mt_read_attr
  | |- mute (read_file _ _ _) => apply mt_read_file
  | |- mute (write_attr _ _ _) => apply mt_write_attr
  | |- mute (match ?x with _ => _ end) => destruct x
  end.
Lemma mt_count : mute increase_counter. Proof. unfold increase_counter, got, must. cbv zeta. mt. Qed.
Lemma mt_verify id : mute (verify_key_handle K id). Proof. unfold verify_key_handle, read_key32. mt. Qed.
Lemma mt_derive n kt kh rp alg dc cp : mute (derive K n kt kh rp alg dc cp).
Proof. induction n as [|n IH]; cbn [derive]; [mt|]. cbv zeta. apply mt_bind; [mt|intros r]. destruct (f_pub K kt _); [mt|exact IH]. Qed.
Lemma mt_generate rp alg dc cp : mute (generate_key_handle K rp alg dc cp).
Proof. unfold generate_key_handle, cose_alg_to_key_type, gets, read_key32. mt. apply mt_derive. Qed.
Lemma mt_touch : mute (u2f_touch nfc). Proof. unfold u2f_touch. mt. Qed.
(** Silence until the answer; the storage can be followed, too. *)
Definition said (R : bytes -> Prop) (o : out unit) (s : ctap) (e : env) : Prop := match o with Ret _ => R (e_out e) | UB => True | _ => e_out e = [] end.
Lemma said_bind {A} (m : Mc A) (k : A -> Mc unit) R s e (P : out A -> ctap -> env -> Prop) : mute m -> e_out e = [] -> wp m P s e -> (forall a s' e', e_out e' = [] -> P (Ret a) s' e' -> wp (k a) (said R) s' e') -> wp (bind m k) (said R) s e.
Proof.
  intros Hm He Hp Hk. apply wp_bind. specialize (Hm s e). unfold wp in *. destruct (m s e) as [[[a|w| |] s'] e']; cbn [snd] in Hm; destruct Hm as (Hm & _); rewrite He in Hm; try exact Hm; [apply Hk; assumption|exact Logic.I].
Qed.
Definition any {A} (_ : out A) (_ : ctap) (_ : env) : Prop := True.
Lemma wp_any {A} (m : Mc A) s e : wp m any s e. Proof. unfold wp. destruct (m s e) as [[? ?] ?]. exact Logic.I. Qed.
Definition fs_is {A} (F : fs) (_ : out A) (_ : ctap) (e : env) : Prop := e_fs e = F.
Lemma touch_fs F s e : e_fs e = F -> wp (u2f_touch nfc) (fs_is F) s e.
Proof. intros H. unfold u2f_touch. destruct nfc; [apply wp_ret; exact H|]. apply wp_bind. destruct e as [F' L X R T O]. apply wp_wait_touch. apply wp_guard; intros _; exact H. Qed.
Lemma derive_made n kt kh rp alg dc cp F s e : zlen rp = 32 -> (forall k m, zlen (f_hmac K k m) = 32) -> e_fs e = F -> wp (derive K n kt kh rp alg dc cp) (fun o _ e' => match o with Ret (i, _) => e_fs e' = F /\ id_rp i = rp | _ => True end) s e.
Proof.
  intros Hr Hh. revert e. induction n as [|n IH]; intros e He; cbn [derive]; [exact Logic.I|]. cbv zeta. apply wp_bind. unfold wp at 1, random_buffer.
  destruct (f_pub K kt _); [|apply IH; exact He]. apply wp_ret. split; [exact He|]. unfold id_rp.
  assert (Hl : forall x y z : bytes, forall o n, zlen x = o -> zlen y = n -> slice o n (x ++ y ++ z) = y) by (intros x y z o n' <- <-; apply slice_mid).
  set (nonce := (_ ++ [dc; cp])%list). rewrite app_assoc. apply Hl; [|exact Hr].
  assert (length nonce = 18%nat) by (unfold nonce; rewrite app_length, firstn_length_le; [reflexivity|rewrite app_length; unfold zeros; rewrite repeat_length; change (Z.to_nat 16) with 16%nat; lia]).
  unfold zlen in *. specialize (Hh (f_hmac K kh nonce) rp). rewrite app_length, firstn_length. lia.
Qed.
Lemma generate_made rp alg dc cp F s e : zlen rp = 32 -> (forall k m, zlen (f_hmac K k m) = 32) -> e_fs e = F -> wp (generate_key_handle K rp alg dc cp) (fun o _ e' => match o with Ret (Some (i, _)) => e_fs e' = F /\ id_rp i = rp | _ => True end) s e.
Proof.
  intros Hr Hh He. unfold generate_key_handle, cose_alg_to_key_type, gets. apply wp_bind, wp_bind, wp_get, wp_ret. destruct (if alg =? ALG_ES256 then _ else _) as [kt|]; [|exact Logic.I]. unfold read_key32. apply wp_bind, wp_bind. destruct e as [F' L X R T O]. apply wp_read_attr. intros X' k _ _. apply wp_ret.
  destruct k as [kh|]; cbn [option_map]; [|exact Logic.I]. apply wp_bind. eapply wp_mono; [apply derive_made with (F := F); [exact Hr|exact Hh|exact He]|]. intros [[i p]|?| |] s1 e1 H1; try exact Logic.I. apply wp_ret. exact H1.
Qed.
Lemma register_said cap d s e : (forall k m, zlen (f_hmac K k m) = 32) -> e_out e = [] -> wp (u2f_register K nfc cap d) (said (is_registration K (e_fs e) (slice 0 32 d) (slice 32 32 d))) s e.
Proof.
  intros Hh He. unfold u2f_register. apply wp_bind. apply wp_guard; [intros L1|intros _; exact He]. cbv zeta. assert (Z32 : zlen (slice 32 32 d) = 32) by (rewrite zlen_slice; lia).
  eapply said_bind; [apply mt_touch|exact He|apply touch_fs with (F := e_fs e); reflexivity|]. intros u s1 e1 O1 F1. unfold fs_is in F1.
  eapply said_bind; [apply mt_generate|exact O1|apply generate_made with (F := e_fs e); [exact Z32|exact Hh|exact F1]|]. cbv beta. intros [[i p]|] s2 e2 O2 H2; [|exact O2]. destruct H2 as (F2 & Hi).
  clear F1. revert F2 Hi O2. generalize (e_fs e). intros F0 F2 Hi O2. destruct e2 as [F2' L2 X2 R2 T2 O2']. cbn [e_out e_fs] in *. subst F2' O2'. apply wp_bind. apply wp_read_file. intros X3 c _ Hc. destruct c as [cert|]; [|reflexivity]. unfold sign_with_device_key, read_key32. apply wp_bind, wp_bind, wp_bind. apply wp_read_attr. intros X4 k _ Hk. apply wp_ret, wp_ret.
  destruct (zlen _ <=? cap); [|exact Logic.I]. apply wp_set_out. cbn [said e_out]. exists p, i, cert. destruct k as [k|]; cbn [option_map].
  - destruct (f_sign K KP256 (attr_buf 32 k) _) as [sig|] eqn:Es; [exists sig, k|exists [], []]; (split; [reflexivity|split; [exact Hi|split; [destruct Hc; [discriminate|symmetry; assumption]|]]]); [|left; reflexivity]. right. split; [destruct Hk; [discriminate|symmetry; assumption]|exact Es].
  - exists [], []. split; [reflexivity|]. split; [exact Hi|]. split; [destruct Hc; [discriminate|symmetry; assumption]|left; reflexivity].
Qed.
Lemma auth_said p1 d s e : e_out e = [] -> wp (u2f_authenticate K nfc p1 d) (said (is_authentication K (slice 0 32 d) (slice 32 32 d))) s e.
Proof.
  intros He. unfold u2f_authenticate. apply wp_bind. apply wp_guard; [intros _|intros _; exact He]. apply wp_bind. apply wp_guard; [intros _|intros _; exact He]. cbv zeta. apply wp_bind. apply wp_guard; [intros _|intros _; exact He].
  eapply said_bind; [apply mt_verify|exact He|apply wp_any|]. intros [[pri|]|] s1 e1 O1 _; try exact O1. apply wp_bind. apply wp_guard; [intros _|intros _; exact O1].
  eapply said_bind; [apply mt_touch|exact O1|apply wp_any|]. intros u s2 e2 O2 _. eapply said_bind; [|exact O2|apply wp_any|].
  { intros s' e'. pose proof (mt_count s' e') as (H & _). destruct (increase_counter s' e') as [[[?|?| |] ?] ?]; exact (conj H Logic.I). }
  intros c s3 e3 O3 _. destruct (f_sign K KP256 pri _) as [sig|] eqn:Es; [|exact Logic.I]. destruct e3 as [F3 L3 X3 R3 T3 O3']. apply wp_set_out. exists pri, c, sig. split; [reflexivity|exact Es].
Qed.
(** Every response to a command other than an empty CBOR message: a CTAP2 message; or a U2F message; or nothing, with an error or to INS 10 in class 00. *)
Definition proper (F : fs) (c : capdu) (r : rapdu) : Prop :=
  (c_cla c = 0x80 /\ c_ins c = 0x10 /\ r_sw r = 0x9000 /\ is_message (r_data r)) \/
  (c_cla c = 0 /\ c_ins c = 1 /\ r_sw r = 0x9000 /\ is_registration K F (slice 0 32 (c_data c)) (slice 32 32 (c_data c)) (r_data r)) \/
  (c_cla c = 0 /\ c_ins c = 2 /\ r_sw r = 0x9000 /\ is_authentication K (slice 0 32 (c_data c)) (slice 32 32 (c_data c)) (r_data r)) \/
  (c_cla c = 0 /\ (c_ins c = 3 \/ c_ins c = 0xA4) /\ r_sw r = 0x9000 /\ r_data r = map (fun a => Z.of_N (Ascii.N_of_ascii a)) (list_ascii_of_string "U2F_V2")) \/
  r_data r = [].
Theorem C61_responses_partial parse c buf s e r s' e' : (forall k m, zlen (f_hmac K k m) = 32) -> (c_cla c = 0x80 -> c_ins c = 0x10 -> c_data c <> []) ->
  run_apdu (ctap_apdu K nfc t1 t2 junk parse c buf) s e = (Some r, s', e') -> proper (e_fs e) c r.
Proof.
  intros Hh Hc E. unfold run_apdu in E. set (e0 := mkE _ _ _ _ _ _) in E. assert (O0 : e_out e0 = []) by reflexivity. assert (F0 : e_fs e0 = e_fs e) by reflexivity. rewrite <- F0. clearbody e0. clear F0.
  assert (W : wp (ctap_apdu K nfc t1 t2 junk parse c buf) (fun o _ e1 => match o with Ret w | Exc w => proper (e_fs e0) c (mkR (e_out e1) w) | Fail => proper (e_fs e0) c (mkR (e_out e1) SW_UNABLE_TO_PROCESS) | UB => True end) s e0).
  2: { unfold wp in W. destruct (ctap_apdu _ _ _ _ _ _ _ _ _ _) as [[[w|w| |] s1] e1]; try discriminate; injection E as <- _ _; exact W. }
  assert (None_ : forall w e1, e_out e1 = [] -> proper (e_fs e0) c (mkR (e_out e1) w)) by (intros w e1 H; right; right; right; right; exact H).
  unfold ctap_apdu. destruct (c_cla c =? 0x80) eqn:Ecla; [|destruct (c_cla c =? 0) eqn:Ecla0; [|apply None_; exact O0]].
  - destruct (c_ins c =? 0x10) eqn:Ei; [|apply None_; exact O0]. destruct (c_data c) as [|b d]; [elim Hc; [lia|lia|reflexivity]|]. apply wp_bind. unfold wp at 1.
    assert (M : forall o s1 e1, process_cbor K nfc t1 t2 junk APDU_BUFFER_SIZE (parse (b :: d)) s e0 = (o, s1, e1) -> match o with Ret r => is_message (message r) | UB => True | _ => False end).
    { intros o s1 e1. unfold process_cbor. destruct (cbor_cmd _ _ _ _ _ _ _ _) as [[[v|w| |] s2] e2]; [destruct (_ <=? _)| | |]; intros Eo; injection Eo as <- _ _; try exact Logic.I.
      - exists 0. destruct v as [v|]; [right; split; [reflexivity|exists v; reflexivity]|left; reflexivity].
      - exists w. left. reflexivity. }
    destruct (process_cbor _ _ _ _ _ _ _ _ _) as [[[m|w| |] s1] e1]; specialize (M _ _ _ eq_refl); try contradiction; [|exact Logic.I]. apply wp_bind. destruct e1 as [F1 L1 X1 R1 T1 O1]. apply wp_set_out, wp_ret. left. split; [lia|]. split; [lia|]. split; [reflexivity|exact M].
  - destruct (c_ins c =? 1) eqn:E1; [|destruct (c_ins c =? 2) eqn:E2; [|destruct (c_ins c =? 3) eqn:E3; [|destruct (c_ins c =? 0xA4) eqn:E4; [|destruct (c_ins c =? 0x10); apply None_; exact O0]]]].
    + apply wp_bind. eapply wp_mono; [apply register_said; [exact Hh|exact O0]|]. intros [[]|w| |] s1 e1 H1; try (apply None_; exact H1); try exact Logic.I. apply wp_ret. right. left. split; [lia|]. split; [lia|]. split; [reflexivity|exact H1].
    + apply wp_bind. eapply wp_mono; [apply auth_said; exact O0|]. intros [[]|w| |] s1 e1 H1; try (apply None_; exact H1); try exact Logic.I. apply wp_ret. right. right. left. split; [lia|]. split; [lia|]. split; [reflexivity|exact H1].
    + apply wp_bind. apply wp_guard; [intros _|intros _; apply None_; exact O0]. apply wp_bind. destruct e0 as [F0 L0 X0 R0 T0 O0']. apply wp_set_out, wp_ret. right. right. right. left. split; [lia|]. split; [lia|]. split; reflexivity.
    + apply wp_bind. destruct e0 as [F0 L0 X0 R0 T0 O0']. apply wp_set_out, wp_ret. right. right. right. left. split; [lia|]. split; [lia|]. split; reflexivity.
Qed.
(** An empty message is answered with the whole buffer, whatever is in it. *)
Theorem C61_empty_message_refuted parse c buf s e : c_cla c = 0x80 -> c_ins c = 0x10 -> c_data c = [] -> zlen buf = 1340 -> 
  exists s' e', run_apdu (ctap_apdu K nfc t1 t2 junk parse c buf) s e = (Some (mkR buf 0x6900), s', e').
Proof.
  intros H1 H2 H3 H4. unfold run_apdu, ctap_apdu. rewrite H1, H2, H3. cbn [Z.eqb Pos.eqb]. eexists _, _. unfold bind, set_out, except. cbn [e_out]. unfold attr_buf.
  assert (Hb : firstn (Z.to_nat APDU_BUFFER_SIZE) (buf ++ zeros APDU_BUFFER_SIZE) = buf) by (rewrite firstn_app; unfold zlen, APDU_BUFFER_SIZE in *; replace (Z.to_nat 1340 - length buf)%nat with O by lia; rewrite firstn_O, app_nil_r; apply firstn_all2; lia).
  rewrite Hb. reflexivity.
Qed.
End S.
(** An authentication, a wrong one, and a message *)
Definition apdu61 (c : capdu) (d : dev) : option rapdu := fst (fst (run_apdu (ctap_apdu toyf false 20005 20005 [] (fun _ => RInfo) c (repeat 99 1340)) (d_ram d) (start (d_fs d) [] [] [0; 0]))).
Definition auth61 (id : bytes) : capdu := Apdu.mkC 0 2 3 0 (repeat 4 32 ++ repeat 7 32 ++ [70] ++ id) 256.
Definition head61 (o : option rapdu) : option (Z * Z * bytes) := match o with Some r => Some (r_sw r, zlen (r_data r), firstn 2 (r_data r)) | None => None end.
Definition dev61 : dev := last_dev (play toyf fresh_dev reg55).
Example C61_case : head61 (apdu61 (auth61 id55) dev61) = Some (0x9000, 37, [1; 0]) /\ head61 (apdu61 (auth61 (repeat 1 70)) dev61) = Some (0x6A80, 0, []) /\
  head61 (apdu61 (Apdu.mkC 0x80 0x10 0 0 [4] 256) dev61) = Some (0x9000, 247, [0; 173]) /\ head61 (apdu61 (Apdu.mkC 0x80 0x10 0 0 [] 256) dev61) = Some (0x6900, 1340, [99; 99]).
Proof. vm_compute. auto. Qed.
Print Assumptions C61_responses_partial. Print Assumptions C61_empty_message_refuted.
