(** C86: the keys that FIDO registers are the keys it signs with. *)
From Verif Require PropCtapCount.
From Verif Require Import CtapSpec CtapFrame CtapRel CtapCred CtapToy CtapExec PropCtapPin PropCtapToken PropCtapCred.
Notation no_reset := PropCtapCount.no_reset.
Open Scope string_scope. Open Scope list_scope. Open Scope Z_scope.

(** ** Specification *)
(** COSE keys (RFC 8152, 13.1, and 8.2): EC2 with P-256 and ES256, and OKP with Ed25519 and EdDSA.  [pub]: the x and the y coordinate, or the 32 bytes of an Ed25519 key. *)
Definition cose_key (alg : Z) (pub : bytes) : cbor :=
  if alg =? -7 then CMap [(CInt 1, CInt 2); (CInt 3, CInt (-7)); (CInt (-1), CInt 1); (CInt (-2), CBytes (slice 0 32 pub)); (CInt (-3), CBytes (slice 32 32 pub))]
  else CMap [(CInt 1, CInt 1); (CInt 3, CInt (-8)); (CInt (-1), CInt 6); (CInt (-2), CBytes (slice 0 32 pub))].
(** A way to verify signatures: it accepts what is signed with the private key, given the public key. *)
Definition verifier (K : fcrypto) (ver : ktype -> bytes -> bytes -> bytes -> bool) : Prop :=
  forall kt pri pub msg sig, f_pub K kt pri = Some pub -> f_sign K kt pri msg = Some sig -> ver kt pub msg sig = true.
(** The public keys of P-256: two coordinates of 32 bytes *)
Definition points_sized (K : fcrypto) : Prop := forall pri pub, f_pub K KP256 pri = Some pub -> zlen pub = 64.
(** A registration: the id, the algorithm, the RP and the public key that the client learns from it *)
Inductive registers : entry -> bytes -> Z -> bytes -> bytes -> Prop :=
  | reg_make d x q c ad l id pub ext : x_op x = OCbor (RMake (inr q)) -> zlen id = 70 ->
      ad = firstn 53 ad ++ [0; 70] ++ id ++ enc (cose_key (mc_alg q) pub) ++ ext -> firstn 32 ad = mc_rphash q ->
      registers (d, Do x, Some (ACbor 0 (Some (CMap (c :: (CInt 2, CBytes ad) :: l))))) id (mc_alg q) (mc_rphash q) pub
  | reg_u2f d x data r id pub rest : x_op x = ORegister data -> r_sw r = 0x9000 -> zlen pub = 64 -> zlen id = 70 -> r_data r = [5; 4] ++ pub ++ [70] ++ id ++ rest ->
      registers (d, Do x, Some (AApdu r)) id (-7) (slice 32 32 data) pub.
(** An assertion: the id, the RP, the message that is signed, and the signature *)
Inductive asserts : entry -> bytes -> bytes -> bytes -> bytes -> Prop :=
  | as_get d x q id ad sig l : x_op x = OCbor (RGet (inr q)) ->
      asserts (d, Do x, Some (ACbor 0 (Some (CMap ((CInt 1, CMap [(txt "id", CBytes id); (txt "type", txt "public-key")]) :: (CInt 2, CBytes ad) :: (CInt 3, CBytes sig) :: l))))) id (ga_rphash q) (ad ++ ga_cdh q) sig
  | as_next d x q id ad sig l : x_op x = OCbor RNext -> q = g_req (c_ga (d_ram d)) ->
      asserts (d, Do x, Some (ACbor 0 (Some (CMap ((CInt 1, CMap [(txt "id", CBytes id); (txt "type", txt "public-key")]) :: (CInt 2, CBytes ad) :: (CInt 3, CBytes sig) :: l))))) id (ga_rphash q) (ad ++ ga_cdh q) sig
  | as_u2f d x p1 data r ctr sig : x_op x = OAuth p1 data -> r_sw r = 0x9000 -> zlen ctr = 4 -> r_data r = [1] ++ ctr ++ sig ->
      asserts (d, Do x, Some (AApdu r)) (slice 65 70 data) (slice 32 32 data) (slice 32 32 data ++ [1] ++ ctr ++ slice 0 32 data) sig.
Definition is_next (e : entry) : Prop := match e with (_, Do x, _) => x_op x = OCbor RNext | _ => False end.
Definition by_u2f (e : entry) : Prop := match e with (_, Do x, _) => match x_op x with OAuth _ _ => True | _ => False end | _ => False end.

(** ** Proof *)
Section S.
Variable K : fcrypto.
Notation genuine := (genuine K).
Ltac skip := apply wp_skip; [exact (fun _ _ _ => Logic.I)|exact (fun _ _ => Logic.I)|exact (fun _ _ => Logic.I)|].
(** The attributes other than the counter, and the certificate, do not change. *)
Definition PC (F0 F : fs) : Prop := (forall a, a <> 1 -> fattr F "ctap_cert" a = fattr F0 "ctap_cert" a) /\ fread F "ctap_cert" 0 1152 = fread F0 "ctap_cert" 0 1152.
Definition kc (F0 : fs) {A} (m : Mc A) : Prop := keep (fun _ => True) (PC F0) (fun _ => True) m.
Lemma kc_bind F0 {A B} (m : Mc A) (k : A -> Mc B) (R : B -> Prop) s e : kc F0 m -> PC F0 (e_fs e) -> (forall a s' e', PC F0 (e_fs e') -> wp (k a) (on_ret R) s' e') -> wp (bind m k) (on_ret R) s e.
Proof. intros Hm Hp Hk. apply wp_bind. eapply wp_mono; [apply Hm; split; [exact Logic.I|split; [exact Hp|apply Forall_forall; auto]]|]. intros [a|?| |] s' e' H; try exact Logic.I. destruct H as (_ & H & _). apply Hk; assumption. Qed.
Lemma PC_indep F0 f : f <> CTAP_CERT_FILE -> indep (PC F0) f.
Proof. intros H F x (H1 & H2). unfold PC, fattr, fread in *. change CTAP_CERT_FILE with "ctap_cert" in H. rewrite fset_other by congruence. split; assumption. Qed.
Lemma kc_count F0 : kc F0 increase_counter.
Proof.
  unfold kc, increase_counter. apply kp_bind; [apply kp_got, kp_read_attr|intros v]. cbv zeta. apply kp_bind; [|intros _; apply kp_ret]. apply kp_must. apply kp_write_attr_at; [auto|]. intros F f (H1 & H2) Hf. change CTAP_CERT_FILE with "ctap_cert" in *. split.
  - intros a Ha. rewrite <- (H1 a Ha). unfold fattr. rewrite fset_same, Hf. cbn [f_attr]. rewrite aset_other by exact Ha. reflexivity.
  - rewrite <- H2. unfold fread. rewrite fset_same, Hf. reflexivity.
Qed.
Lemma enc_es pub : ecdsa_cose_key pub (-7) 1 = enc (cose_key (-7) pub).
Proof.
  unfold ecdsa_cose_key. change (ec_key pub (-7) 1) with (cose_key (-7) pub). destruct (_ <=? 80) eqn:E; [reflexivity|]. exfalso.
  assert (H : forall b : bytes, zlen b <= 32 -> zlen (cbor_head 2 (zlen b) ++ b) <= 34) by (intros b Hb; unfold cbor_head; destruct (_ <? 24); [|destruct (_ <? 256) eqn:El; [|lia]]; rewrite zlen_app; change (zlen [_]) with 1; try change (zlen [_; _]) with 2; lia).
  assert (L : forall o, zlen (slice o 32 pub) <= 32) by (intros o; unfold slice, zlen; rewrite firstn_length; lia).
  unfold cose_key in E. cbn [Z.eqb Pos.eqb] in E. cbn [enc] in E. pose proof (H _ (L 0)) as H1. pose proof (H _ (L 32)) as H2.
  repeat match type of E with context [cbor_head ?a ?b] => match b with zlen (slice _ _ _) => fail 1 | _ => let c := eval vm_compute in (cbor_head a b) in change (cbor_head a b) with c in E end end.
  rewrite ?zlen_app in *. cbn [Z.ltb Z.compare] in E. unfold zlen in *. cbn [length] in *. rewrite ?app_length in *. cbn [length] in *. lia.
Qed.
(** The id that is issued, and its public key *)
Definition issued (F : fs) (id rp : bytes) (alg : Z) (pub : bytes) : Prop :=
  zlen id = 70 /\ id_rp id = rp /\ id_alg id = alg /\ exists pri, genuine F id pri /\ f_pub K (kind_of alg) pri = Some pub.
Lemma derive_key n F kh rp alg dc cp s e : hmac_sized K -> fattr F "ctap_cert" 4 = Some kh -> zlen rp = 32 -> -2147483648 <= alg < 2147483648 ->
  wp (derive K n (kind_of alg) (attr_buf 32 kh) rp alg dc cp) (on_ret (fun r => issued F (fst r) rp alg (snd r))) s e.
Proof.
  intros Hs Hk Hr Ha. revert e. induction n as [|n IH]; intros e; cbn [derive]; [exact Logic.I|]. apply wp_bind. unfold wp at 1, random_buffer. cbv zeta. set (r := firstn (Z.to_nat 16) (e_rnd e ++ zeros 16)). set (e' := mkE _ _ _ _ _ _).
  assert (Hz : zlen r = 16) by (unfold r, zlen; rewrite firstn_length, app_length; unfold zeros; rewrite repeat_length; lia). clearbody r e'.
  set (pri := f_hmac K (attr_buf 32 kh) (r ++ [dc; cp])). destruct (f_pub K (kind_of alg) pri) as [pub|] eqn:Ep; [|apply IH]. apply wp_ret. cbn [on_ret fst snd].
  assert (Ht : zlen (firstn 16 (f_hmac K pri rp)) = 16) by (unfold zlen; rewrite firstn_length; specialize (Hs pri rp); unfold zlen in Hs; lia).
  destruct (id_parts _ r dc cp rp alg Ht Hz Hr Ha) as (A1 & A2 & A3 & A4 & A5 & A6 & A7). split; [exact A4|]. split; [exact A3|]. split; [exact A5|]. exists pri. split; [|exact Ep]. exists kh. split; [exact Hk|]. rewrite A2. split; [reflexivity|]. rewrite A1, A3. reflexivity.
Qed.
Lemma generate_key F rp alg dc cp s e : hmac_sized K -> fattr (e_fs e) "ctap_cert" 4 = fattr F "ctap_cert" 4 -> zlen rp = 32 -> -2147483648 <= alg < 2147483648 ->
  wp (generate_key_handle K rp alg dc cp) (on_ret (fun r => forall i p, r = Some (i, p) -> issued F i rp alg p)) s e.
Proof.
  intros Hs HF Hr Ha. unfold generate_key_handle, cose_alg_to_key_type, gets. apply wp_bind, wp_bind, wp_get, wp_ret. destruct (if alg =? ALG_ES256 then _ else _) as [kt|] eqn:Ek; [|apply wp_ret; discriminate]. apply kind_found in Ek. subst kt.
  unfold read_key32. apply wp_bind, wp_bind. destruct e as [F0 L X R T O]. cbn [e_fs] in HF. apply wp_read_attr. intros X' k _ Hk. apply wp_ret. change CTAP_CERT_FILE with "ctap_cert" in Hk. change KH_KEY_ATTR with 4 in Hk. destruct k as [kh|]; cbn [option_map]; [|apply wp_ret; discriminate].
  apply wp_bind. eapply wp_mono; [apply (derive_key 64 F kh); [exact Hs|destruct Hk; congruence|exact Hr|exact Ha]|]. intros [[i p]|?| |] s1 e1 H1; try exact Logic.I. apply wp_ret. intros i' p' E. injection E as <- <-. exact H1.
Qed.
Lemma kc_generate F0 rp alg dc cp : kc F0 (generate_key_handle K rp alg dc cp). Proof. apply kp_generate. Qed.
(** The attestation: the certificate on the device, and a signature by the key installed with it *)
Definition attested (F : fs) (msg : bytes) (att : cbor) : Prop :=
  exists dk sig cert, fattr F "ctap_cert" 0 = Some dk /\ f_sign K KP256 (attr_buf 32 dk) msg = Some sig /\ fread F "ctap_cert" 0 1152 = Some cert /\
    att = CMap [(txt "alg", CInt (-7)); (txt "sig", CBytes sig); (txt "x5c", CArr [CRaw ([0x59; zlen cert / 256; zlen cert mod 256] ++ cert)])].
Lemma att_spec F0 q ad s e : PC F0 (e_fs e) -> wp (mc_att K q ad) (on_ret (fun att => attested F0 (ad ++ mc_cdh q) att)) s e.
Proof.
  intros (H1 & H2). unfold mc_att, sign_with_device_key, read_key32. destruct e as [F L X R T O]. cbn [e_fs] in *. apply wp_bind, wp_bind, wp_bind. apply wp_read_attr. intros X' k _ Hk. apply wp_ret, wp_ret. destruct k as [dk|]; cbn [option_map]; [|exact Logic.I].
  destruct (f_sign K KP256 (attr_buf 32 dk) (ad ++ mc_cdh q)) as [sig|] eqn:Es; [|exact Logic.I]. apply wp_bind. unfold got. apply wp_bind. apply wp_read_file. intros X'' c _ Hc. destruct c as [cert|]; [|exact Logic.I]. apply wp_ret, wp_ret. cbn [on_ret].
  change CTAP_CERT_FILE with "ctap_cert" in *. change KEY_ATTR with 0 in Hk. exists dk, sig, cert. split; [rewrite <- H1 by discriminate; destruct Hk; congruence|]. split; [exact Es|]. split; [rewrite <- H2; destruct Hc; congruence|reflexivity].
Qed.
(** What makeCredential answers: an attested public key for a new id, for the RP of the request *)
Theorem C86_make_credential d x q v s e : hmac_sized K -> x_op x = OCbor (RMake (inr q)) -> mc_ok q -> mc_alg q = -7 \/ mc_alg q = -8 -> exec K d x = (Some (ACbor 0 (Some v)), s, e) ->
  exists ad att l id pub ext, v = CMap ((CInt 1, txt "packed") :: (CInt 2, CBytes ad) :: (CInt 3, att) :: l) /\
    ad = firstn 53 ad ++ [0; 70] ++ id ++ enc (cose_key (mc_alg q) pub) ++ ext /\ firstn 32 ad = mc_rphash q /\
    issued (d_fs d) id (mc_rphash q) (mc_alg q) pub /\ attested (d_fs d) (ad ++ mc_cdh q) att.
Proof.
  intros Hsz Hx Hq Halg E. destruct Hq as (_ & (Hh & _) & _ & _ & _ & _ & _ & Ha & _). pattern v. match goal with |- ?P v => set (G := P); apply (exec_some K d x (RMake (inr q)) (fun v => match v with Some v => G v | None => False end) v s e Hx E) end.
  unfold cbor_cmd, cp_observer. apply wp_bind, wp_modify. apply wp_bind. eapply wp_mono with (Q := on_ret G); [|intros [a|?| |] s2 e2 H2; try exact Logic.I; apply wp_ret; exact H2].
  set (F0 := d_fs d) in *. set (s1 := set_tok _ _). set (e1 := start _ _ _ _). assert (H1 : PC F0 (e_fs e1)) by (split; reflexivity). clearbody s1 e1.
  assert (K1 : kc F0 consistency_check) by (apply kp_consistency; [auto|apply PC_indep; discriminate|apply PC_indep; discriminate]).
  unfold ctap_make_credential. eapply kc_bind; [exact K1|exact H1|]. clear H1. intros _ s2 e2 H1. eapply kc_bind; [apply kp_touch_probe|exact H1|]. clear H1. intros _ s3 e3 H1. eapply kc_bind; [apply kp_mc_auth; auto|exact H1|]. clear H1. intros uv s4 e4 H1.
  eapply kc_bind; [apply kp_exclude|exact H1|]. clear H1. intros _ s5 e5 H1. eapply kc_bind; [apply kp_ask|exact H1|]. clear H1. intros _ s6 e6 H1. unfold cp_clear_flags. eapply kc_bind; [apply kp_modify; auto|exact H1|]. clear H1. intros _ s7 e7 H1.
  eapply kc_bind; [apply kp_guard|exact H1|]. clear H1. intros _ s8 e8 H1. cbv zeta.
  set (D := fun r : bytes * bytes => exists pub ext, fst r = firstn 53 (fst r) ++ [0; 70] ++ snd r ++ enc (cose_key (mc_alg q) pub) ++ ext /\ firstn 32 (fst r) = mc_rphash q /\ issued F0 (snd r) (mc_rphash q) (mc_alg q) pub).
  apply wp_bind. match goal with |- wp (make_auth_data K ?a ?b ?c ?t) _ _ _ => eapply wp_mono with (Q := fun o s e => on_ret D o s e /\ PC F0 (e_fs e)) end.
  { apply wp_and.
    - unfold make_auth_data. eapply kc_bind; [apply kc_count|exact H1|]. clear H1. intros c s9 e9 H1. cbv zeta. apply wp_bind. eapply wp_mono; [apply (generate_key F0); [exact Hsz|apply (proj1 H1); discriminate|exact Hh|exact Ha]|]. intros [[[i p]|]|?| |] s10 e10 H10; try exact Logic.I. cbn [on_ret] in H10. specialize (H10 i p eq_refl).
      apply wp_bind, wp_get. match goal with |- wp (bind (if ?b1 then ret ?k1 else if ?b2 then ret ?k2 else _) ?k) _ _ _ => assert (W : wp (k (enc (cose_key (mc_alg q) p))) (on_ret D) s10 e10 -> wp (bind (if b1 then ret k1 else if b2 then ret k2 else if mc_alg q =? sm2_algo (c_sm2 s10) then ret (ecdsa_cose_key p (mc_alg q) (sm2_curve (c_sm2 s10))) else except ERR_UNHANDLED) k) (on_ret D) s10 e10) end.
      { intros W. apply wp_bind. destruct Halg as [Hg|Hg]; rewrite Hg in W |- *; apply wp_ret; [change ALG_ES256 with (-7); rewrite enc_es|]; exact W. }
      apply W. clear W. skip. intros _ s12 e12. apply wp_ret. unfold D. cbn [on_ret fst snd]. exists p, (mc_ext q). 
      set (rp := mc_rphash q) in *. assert (L : length rp = 32%nat) by (unfold zlen in Hh; lia). set (h := rp ++ [_] ++ to_be 4 c). assert (Lh : length (h ++ aaguid) = 53%nat) by (unfold h; rewrite !app_length, L, to_be_length; reflexivity). split; [|split; [|exact H10]].
      + rewrite !app_assoc. rewrite <- !(app_assoc (h ++ aaguid)). rewrite firstn_app, Lh, Nat.sub_diag, firstn_O, app_nil_r, (firstn_all2 (h ++ aaguid)) by lia. rewrite !app_assoc. reflexivity.
      + unfold h. rewrite <- !app_assoc. rewrite firstn_app, L, Nat.sub_diag, firstn_O, app_nil_r. apply firstn_all2. lia.
    - eapply wp_mono; [apply (kp_auth_data K (fun _ => True) (PC F0) (fun _ => True)); [apply kc_count|split; [exact Logic.I|split; [exact H1|apply Forall_forall; auto]]]|]. intros o s9 e9 (_ & H & _). exact H. }
  intros [[ad id]|?| |] s9 e9 (H9 & H9'); try exact Logic.I. cbn [on_ret] in H9. unfold D in H9. cbn [fst snd] in H9. destruct H9 as (pub & ext & A1 & A2 & A3).
  eapply kc_bind; [|exact H9'|]. { destruct (mc_rk q =? 1); [apply kp_mc_store; [auto|apply PC_indep; discriminate|apply PC_indep; discriminate]|apply kp_ret]. } intros _ s10 e10 H10.
  apply wp_bind. eapply wp_mono; [apply (att_spec F0); exact H10|]. intros [att|?| |] s11 e11 H11; try exact Logic.I. cbn [on_ret] in H11. skip. intros lbk s12 e12. apply wp_ret. cbn [on_ret app]. unfold G. exists ad, att, lbk, id, pub, ext. auto.
Qed.
(** The same for U2F; if the signature fails it is left out. *)
Theorem C86_u2f_register d x data r s e : hmac_sized K -> x_op x = ORegister data -> exec K d x = (Some (AApdu r), s, e) -> r_sw r = 0x9000 ->
  exists id pub cert sig, r_data r = [5; 4] ++ pub ++ [70] ++ id ++ cert ++ sig /\ issued (d_fs d) id (slice 32 32 data) (-7) pub /\ fread (d_fs d) "ctap_cert" 0 1152 = Some cert /\
    (sig = [] \/ exists dk, fattr (d_fs d) "ctap_cert" 0 = Some dk /\ f_sign K KP256 (attr_buf 32 dk) ([0] ++ slice 32 32 data ++ slice 0 32 data ++ id ++ [4] ++ pub) = Some sig).
Proof.
  intros Hsz Hx E Hsw. set (G := fun out => exists id pub cert sig, out = [5; 4] ++ pub ++ [70] ++ id ++ cert ++ sig /\ issued (d_fs d) id (slice 32 32 data) (-7) pub /\ fread (d_fs d) "ctap_cert" 0 1152 = Some cert /\
    (sig = [] \/ exists dk, fattr (d_fs d) "ctap_cert" 0 = Some dk /\ f_sign K KP256 (attr_buf 32 dk) ([0] ++ slice 32 32 data ++ slice 0 32 data ++ id ++ [4] ++ pub) = Some sig)). change (G (r_data r)). revert Hsw.
  pose proof (exec_wp K d x (fun o _ _ => match o with Some (AApdu r) => r_sw r = 0x9000 -> G (r_data r) | _ => True end)) as W. rewrite E, Hx in W. apply W. clear W E. unfold body. rewrite Hx.
  apply wp_bind. unfold u2f_register. apply wp_bind. apply wp_guard; [intros L1|intros _; cbn [r_sw]; discriminate]. apply wp_bind. cbv zeta.
  assert (Z32 : zlen (slice 32 32 data) = 32) by (rewrite zlen_slice; lia).
  match goal with |- wp _ ?Q _ _ => assert (W : forall s2 e2, e_fs e2 = d_fs d -> Q (Ret tt) s2 e2) end.
  { intros s2 e2 He. cbn. apply wp_bind. assert (HP : PC (d_fs d) (e_fs e2)) by (rewrite He; split; reflexivity).
    eapply wp_mono; [apply wp_and; [apply wp_and; [apply (generate_key (d_fs d) (slice 32 32 data) ALG_ES256 0 1); [exact Hsz|rewrite He; reflexivity|exact Z32|unfold ALG_ES256; lia]|apply (nz_generate K (slice 32 32 data) ALG_ES256 0 1)]|]|].
    { apply (kc_generate (d_fs d) (slice 32 32 data) ALG_ES256 0 1). split; [exact Logic.I|split; [exact HP|apply Forall_forall; auto]]. }
    intros [[[i p]|]|w| |] s3 e3 ((H3 & H3') & _ & H4 & _); cbn [nx] in H3'; try contradiction; try exact Logic.I; try (cbn [r_sw]; discriminate). cbn [on_ret] in H3. specialize (H3 i p eq_refl). destruct H4 as (H4 & H5).
    apply wp_bind. destruct e3 as [F3 L3 X3 R3 T3 O3]. cbn [e_fs] in *. apply wp_read_file. intros X' c _ Hc. destruct c as [cert|]; [|cbn [r_sw]; discriminate]. unfold sign_with_device_key, read_key32. apply wp_bind, wp_bind, wp_bind. apply wp_read_attr. intros X'' k _ Hk. apply wp_ret, wp_ret.
    destruct (zlen _ <=? x_cap x); [|exact Logic.I]. apply wp_set_out. intros _. cbn [r_data]. exists i, p, cert. eexists. split; [cbn [app e_out]; rewrite <- ?app_assoc; reflexivity|]. split; [exact H3|]. change CTAP_CERT_FILE with "ctap_cert" in *. split; [rewrite <- H5; destruct Hc as [Hc|Hc]; [discriminate|symmetry; exact Hc]|].
    destruct k as [dk|]; cbn [option_map]; [|left; reflexivity]. destruct (f_sign K KP256 (attr_buf 32 dk) _) as [sg|] eqn:Es; [|left; reflexivity]. right. exists dk. split; [rewrite <- H4 by discriminate; destruct Hk as [Hk|Hk]; [discriminate|symmetry; exact Hk]|exact Es]. }
  unfold u2f_touch. destruct (x_nfc x); [apply wp_ret; apply W; reflexivity|]. apply wp_bind. unfold start. apply wp_wait_touch. apply wp_guard; [intros _; apply W; reflexivity|intros _; cbn [r_sw]; discriminate].
Qed.
(** The secret of the ids is kept until there is a reset. *)
Definition kept (F0 F : fs) : Prop := F "ctap_lb" <> None /\ F "ctap_cert" <> None /\ fattr F "ctap_cert" 4 = fattr F0 "ctap_cert" 4.
Lemma kept_indep F0 p : p <> "ctap_cert" -> p <> "ctap_lb" -> indep (kept F0) p.
Proof. intros N1 N2 F y (H1 & H2 & H3). unfold kept, fattr in *. rewrite !fset_other by congruence. auto. Qed.
Lemma kept_attr F0 a v : a <> 4 -> keep anyst (kept F0) (kept F0) (write_attr CTAP_CERT_FILE a v).
Proof.
  intros Ha. apply kp_write_attr_at; [auto|]. intros F f (H1 & H2 & H3) Hf. change CTAP_CERT_FILE with "ctap_cert" in *. split; [rewrite fset_other by discriminate; exact H1|]. split; [rewrite fset_same; discriminate|]. rewrite <- H3. unfold fattr. rewrite fset_same, Hf. cbn [f_attr]. rewrite aset_other by congruence. reflexivity.
Qed.
Lemma exec_kept F0 d x : kept F0 (d_fs d) -> no_reset (d, Do x, None) -> let '(_, _, e) := exec K d x in kept F0 (e_fs e) /\ Forall (kept F0) (e_log e).
Proof.
  intros HF Hr. apply (exec_keep K (kept F0) (kept F0) (fun _ h => h)); try (apply kept_indep; discriminate); [| | |exact HF|].
  - apply kp_rename_at; [auto|]. intros F f (H1 & H2 & H3) Hf. change LB_FILE with "ctap_lb". split; [rewrite fset_same; discriminate|]. unfold fattr in *. rewrite !fset_other by discriminate. auto.
  - intros a v _ _ Ha. apply kept_attr. exact Ha.
  - intros c. apply kp_write_file_at; [auto|intros F H; apply H|]. intros F f y (H1 & H2 & H3) Hf. change CTAP_CERT_FILE with "ctap_cert" in *. split; [rewrite fset_other by discriminate; exact H1|]. split; [rewrite fset_same; discriminate|]. rewrite <- H3. unfold fattr. rewrite fset_same, Hf. reflexivity.
  - unfold left_out. cbv [no_reset PropCtapCount.no_reset] in Hr. destruct (x_op x) as [q|da|p1 da| |da|da|da] eqn:Ex; try exact Logic.I; [|contradiction]. destruct q as [p|p| | |p| |p| |p| ]; cbn [is_pin CtapFrame.is_reset orb]; try exact Logic.I; unfold cbor_cmd, cp_observer; (apply kp_bind; [apply kp_modify; intros; exact Logic.I|intros _]).
    + apply kp_pin; try (intros; exact Logic.I); intros v; apply kept_attr; discriminate.
    + apply kp_bind; [|intros; apply kp_ret]. unfold ctap_reset_data. intros s e H. unfold wp, bind, guard. destruct (x_t1 x <=? 10000) eqn:Et; [lia|exact H].
Qed.
Lemma boot_kept F rnd : F "ctap_lb" <> None -> d_fs (boot K F [] rnd) = F.
Proof.
  intros HF. unfold boot.
  assert (V : wp (ctap_install K false) (fun _ _ e => e_fs e = F) ctap_boot (start F [] rnd [])).
  { unfold ctap_install, cp_initialize, cp_regenerate, cp_reset_token. do 2 (apply wp_bind; apply wp_modify). unfold start. apply wp_bind, wp_bind, wp_bind, wp_random. intros r1 R1.
    apply wp_modify. apply wp_bind, wp_random. intros r2 R2. apply wp_modify. apply wp_bind, wp_get_file_size. intros X r V _.
    destruct (V eq_refl) as (-> & ->). unfold fsize. change LB_FILE with "ctap_lb". destruct (F "ctap_lb") as [f|]; [|congruence]. cbn [option_map].
    unfold got. apply wp_bind, wp_bind, wp_read_attr. intros X r _ _. destruct r as [a|]; [|apply wp_except; reflexivity]. apply wp_ret. apply wp_modify. reflexivity. }
  unfold wp in V. destruct (ctap_install K false ctap_boot (start F [] rnd [])) as [[o s] e]. exact V.
Qed.
Lemma step_kept F0 d v o d' : kept F0 (d_fs d) -> ev_ok d v -> no_reset (d, v, o) -> step K d v = Some (o, d') -> kept F0 (d_fs d').
Proof.
  intros HF Hv Hr H. destruct v as [x|x n flt rnd|F]; unfold step in H.
  - pose proof (exec_kept F0 d x HF Hr) as W. destruct (exec K d x) as [[[r|] s] e]; [|discriminate]. injection H as <- <-. apply W.
  - pose proof (exec_kept F0 d x HF (proj2 Hr)) as W. destruct (exec K d x) as [[r s] e]. injection H as <- <-. destruct Hr as (-> & _). destruct W as (W1 & W2).
    assert (HN : kept F0 (nth n (e_log e) (e_fs e))) by (apply Forall_nth_default; assumption). rewrite boot_kept by apply HN. exact HN.
  - injection H as <- <-. cbn [d_fs]. unfold kept, fattr in *. rewrite (Hv "ctap_lb"), (Hv "ctap_cert") by (cbn; tauto). exact HF.
Qed.
Lemma hist_kept F0 d0 tr d : hist K d0 tr d -> Forall no_reset tr -> kept F0 (d_fs d0) -> kept F0 (d_fs d).
Proof.
  induction 1 as [d|d0 tr d v o d' H IH Hv Hs]; intros Hr HF; [exact HF|]. apply Forall_app in Hr. destruct Hr as (R1 & R2). inversion R2 as [|? ? R3 _]; subst. exact (step_kept F0 d v o d' (IH R1 HF) Hv R3 Hs).
Qed.
Lemma app_eq_len (a b c d : bytes) : length a = length c -> a ++ b = c ++ d -> a = c /\ b = d.
Proof. revert c. induction a as [|x a IH]; intros [|y c] L E; try discriminate; [auto|]. cbn [app length] in *. injection E as <- E. destruct (IH c) as (-> & ->); [lia|exact E|auto]. Qed.
(** Whoever makes an assertion has the key that belongs to the id. *)
Definition signs_with (e : entry) (id : bytes) : ktype := match e with (_, Do x, _) => match x_op x with OAuth _ _ => KP256 | _ => kind_of (id_alg id) end | _ => KP256 end.
Lemma asserts_key d v o d' id rp msg sig : kept (d_fs d) (d_fs d) -> ev_ok d v -> step K d v = Some (o, d') -> asserts (d, v, o) id rp msg sig -> (is_next (d, v, o) -> zlen rp = 32) ->
  exists kh, fattr (d_fs d) "ctap_cert" 4 = Some kh /\ (is_next (d, v, o) \/ id_rp id = rp) /\ f_sign K (signs_with (d, v, o) id) (f_hmac K (attr_buf 32 kh) (id_nonce id)) msg = Some sig.
Proof.
  intros HF Hv Hs HA Hn. inversion HA as [d1 x q id1 ad sg l Hx E|d1 x q id1 ad sg l Hx Hq E|d1 x p1 data r ctr sg Hx Hsw Hc Hd E]; subst; cbn [step ev_ok is_next signs_with] in *; destruct (exec K d x) as [[[a|] s] e] eqn:Ee; try discriminate; injection Hs as -> <-; rewrite Hx.
  - rewrite Hx in Hv. pose proof (exec_kept (d_fs d) d x HF) as HK. rewrite Ee in HK. cbv [PropCtapCount.no_reset] in HK. rewrite Hx in HK. destruct (HK Logic.I) as ((_ & _ & H4) & _).
    destruct (C55_get_assertion K d x q _ s e Hx Hv Ee) as (dc & pri & (ad' & sg' & rest & kt & E1 & (-> & E2) & E3 & _) & Hrp & HC). injection E1 as -> -> -> _.
    assert (G : exists kh, fattr (e_fs e) "ctap_cert" 4 = Some kh /\ pri = f_hmac K (attr_buf 32 kh) (id_nonce (dc_id dc))).
    { destruct (ga_allow q); [destruct HC as ((kh & G1 & G2 & _) & _); exists kh; auto|]. destruct HC as ((i & _ & (kh & G1 & G2 & _) & _ & _ & _ & G3 & _) & _). exists kh. rewrite G3. auto. }
    destruct G as (kh & G1 & ->). exists kh. rewrite <- H4. auto.
  - destruct (gna_answer K d x _ s e Hx (Hn Hx) Ee) as (_ & _ & _ & dc & pri & g1 & _ & HC & (ad' & sg' & rest & kt & E1 & (-> & E2) & E3 & _) & _). injection E1 as -> -> -> _.
    assert (G : exists kh, fattr (d_fs d) "ctap_cert" 4 = Some kh /\ pri = f_hmac K (attr_buf 32 kh) (id_nonce (dc_id dc))).
    { destruct HC as (_ & _ & _ & _ & _ & HC). destruct (ga_allow _); [destruct HC as ((kh & G1 & G2 & _) & _); exists kh; auto|]. destruct HC as ((i & _ & (kh & G1 & G2 & _) & _ & _ & _ & G3 & _) & _). exists kh. rewrite G3. auto. }
    destruct G as (kh & G1 & ->). exists kh. auto.
  - destruct (C55_u2f_authenticate K d x p1 data r s e Hx Ee Hsw) as (_ & pri & c & sg' & (kh & G1 & -> & _) & Hrp & Ed & Es). exists kh. split; [exact G1|]. split; [right; exact Hrp|]. rewrite Hd in Ed. cbn [app] in Ed. injection Ed as Ed. 
    assert (L : length ctr = length (to_be 4 c)) by (rewrite to_be_length; unfold zlen in Hc; lia). destruct (app_eq_len _ _ _ _ L Ed) as (-> & ->). exact Es.
Qed.
Lemma registers_key d v o d' id alg rp pub0 : hmac_sized K -> points_sized K -> ev_ok d v -> step K d v = Some (o, d') -> registers (d, v, o) id alg rp pub0 -> alg = -7 \/ alg = -8 ->
  exists pub kh, registers (d, v, o) id alg rp pub /\ fattr (d_fs d) "ctap_cert" 4 = Some kh /\ id_alg id = alg /\ id_rp id = rp /\ f_pub K (kind_of alg) (f_hmac K (attr_buf 32 kh) (id_nonce id)) = Some pub.
Proof.
  intros Hz Hp Hv Hs HR Ha. inversion HR as [d1 x q c ad l id1 pub1 ext Hx H70 Had Hrp E|d1 x data r id1 pub1 rest Hx Hsw H64 H70 Hd E]; subst; cbn [step ev_ok] in *; destruct (exec K d x) as [[[a|] s] e] eqn:Ee; try discriminate; injection Hs as -> <-; rewrite Hx in Hv.
  - destruct (C86_make_credential d x q _ s e Hz Hx Hv Ha Ee) as (ad' & att & l' & id' & pub & ext' & E1 & E2 & E3 & (E4 & E5 & E6 & pri & (kh & G1 & -> & _) & G2) & _). injection E1 as -> -> _.
    assert (id' = id) as ->.
    { pose proof E2 as E7. rewrite Had in E7 at 1. apply app_inv_head in E7. apply (app_inv_head [0; 70]) in E7. apply app_eq_len in E7; [symmetry; apply E7|unfold zlen in *; lia]. }
    exists pub, kh. split; [econstructor; eauto|]. auto.
  - destruct (C86_u2f_register d x data r s e Hz Hx Ee Hsw) as (id' & pub & cert & sg & E1 & (E4 & E5 & E6 & pri & (kh & G1 & -> & _) & G2) & _). pose proof (Hp _ _ G2) as L64.
    pose proof E1 as E7. rewrite Hd in E7. apply (app_inv_head [5; 4]) in E7. apply app_eq_len in E7; [|unfold zlen in *; lia]. destruct E7 as (-> & E7). apply (app_inv_head [70]) in E7. apply app_eq_len in E7; [|unfold zlen in *; lia]. destruct E7 as (-> & E7).
    exists pub, kh. split; [econstructor; eauto|]. auto.
Qed.
(** C86.  A registration, anything but a reset, an assertion that names the id: the signature verifies with the public key that the client got.  (In U2F the key has to be one of
    ES256.) *)
Theorem C86_same_key ver d1 v1 o1 tr v2 o2 d2 d3 id alg rp pub0 rp2 msg sig :
  hmac_sized K -> points_sized K -> verifier K ver -> d_fs d1 "ctap_lb" <> None ->
  hist K d1 ((d1, v1, o1) :: tr ++ [(d2, v2, o2)]) d3 -> Forall no_reset ((d1, v1, o1) :: tr) ->
  registers (d1, v1, o1) id alg rp pub0 -> alg = -7 \/ alg = -8 ->
  asserts (d2, v2, o2) id rp2 msg sig -> (by_u2f (d2, v2, o2) -> alg = -7) -> (is_next (d2, v2, o2) -> zlen rp2 = 32) ->
  exists pub, registers (d1, v1, o1) id alg rp pub /\ ver (kind_of alg) pub msg sig = true /\ (is_next (d2, v2, o2) \/ rp2 = rp).
Proof.
  intros Hz Hp HV HL H Hr HR Ha HA Hu Hn. change ((d1, v1, o1) :: tr ++ [(d2, v2, o2)]) with ([(d1, v1, o1)] ++ tr ++ [(d2, v2, o2)]) in H.
  apply hist_app in H. destruct H as (da & H1 & H). apply hist_app in H. destruct H as (db & H2 & H3). destruct (hist_one _ _ _ _ H1) as (w1 & p1 & E1 & V1 & S1). injection E1 as <- <-. destruct (hist_one _ _ _ _ H3) as (w2 & p2 & E2 & V2 & S2). injection E2 as <- <- <-.
  destruct (registers_key _ _ _ _ _ _ _ _ Hz Hp V1 S1 HR Ha) as (pub & kh & R1 & R2 & R3 & R4 & R5). inversion Hr as [|? ? N1 N2]; subst.
  assert (HF : kept (d_fs d1) (d_fs d1)). { split; [exact HL|]. split; [|reflexivity]. intros E. unfold fattr in R2. rewrite E in R2. discriminate. }
  pose proof (hist_kept _ _ _ _ H2 N2 (step_kept _ _ _ _ _ HF V1 N1 S1)) as (B1 & B2 & B3).
  assert (HF2 : kept (d_fs d2) (d_fs d2)) by (split; [exact B1|]; split; [exact B2|reflexivity]).
  destruct (asserts_key _ _ _ _ _ _ _ _ HF2 V2 S2 HA Hn) as (kh' & A1 & A2 & A3). assert (kh' = kh) as -> by congruence.
  exists pub. split; [exact R1|]. split; [|destruct A2 as [A2|A2]; [left; exact A2|right; congruence]].
  apply (HV (kind_of (id_alg id)) _ _ _ _ R5). destruct v2 as [x| |]; [|inversion HA|inversion HA]. cbn [signs_with by_u2f] in *. destruct (x_op x); try exact A3. rewrite (Hu Logic.I). exact A3.
Qed.
End S.
Print Assumptions C86_make_credential. Print Assumptions C86_u2f_register. Print Assumptions C86_same_key.

(** ** Cases *)
(** A toy cryptography in which the kind of a key matters, and how signatures of it are verified *)
Definition kind_byte (kt : ktype) : Z := match kt with KP256 => 1 | KEd25519 => 2 | _ => 3 end.
Definition toyk : fcrypto := mkFC (f_sha toyf) (f_hmac toyf) (f_gen toyf) (f_ecdh toyf) (f_aes_enc toyf) (f_aes_dec toyf) (fun kt k => Some (attr_buf 32 k ++ attr_buf 32 k)) (fun kt k m => Some (toy_sha (kind_byte kt :: attr_buf 32 k ++ m))).
Definition toy_ver (kt : ktype) (pub msg sig : bytes) : bool := beqb sig (toy_sha (kind_byte kt :: slice 0 32 pub ++ msg)).
Lemma attr_buf_len n (l : bytes) : 0 <= n -> zlen (attr_buf n l) = n.
Proof. intros H. unfold attr_buf, zlen. rewrite firstn_length, app_length. unfold zeros. rewrite repeat_length. lia. Qed.
Lemma toy_verifier : verifier toyk toy_ver.
Proof.
  intros kt pri pub msg sig E1 E2. cbn [toyk f_pub f_sign] in *. injection E1 as <-. injection E2 as <-. unfold toy_ver.
  pose proof (mid [] (attr_buf 32 pri) (attr_buf 32 pri) 0 32 eq_refl (attr_buf_len 32 pri ltac:(lia))) as M. cbn [app] in M. rewrite M. apply beqb_refl.
Qed.
Definition dev86 : dev := boot toyk blank [] (repeat 5 100 ++ repeat 9 100).
Definition mk_alg (rp alg : Z) : mcreq := let q := mc_of rp 1 0 None in mkMc (mc_cdh q) (mc_rphash q) (mc_rp q) (mc_user q) alg [] 0 2 2 None None false false 0 None.
Definition make_alg (t alg : Z) : ev := do_at t (OCbor (RMake (inr (mk_alg 7 alg)))).
Definition start86 : list ev := [do_at 20000 (OKey (repeat 6 32)); do_at 20001 (ORegister (repeat 4 32 ++ repeat 7 32)); make_alg 20002 (-7); make_alg 20003 (-8)].
Definition ids86 : list bytes := Eval vm_compute in ids_of (play toyk dev86 start86).
Definition case86 : list ev := start86 ++ map (fun i => do_at 20010 (OCbor (RGet (inr (ga_of 7 [i] None))))) ids86 ++ [auth_at 20011 7 (nth 0 ids86 []); auth_at 20012 7 (nth 1 ids86 [])].
(** Three registrations (U2F, ES256, EdDSA) and assertions with each of them: all are answered, so the theorem says of each of the five assertions that it verifies. *)
Example C86_case : hmac_sized toyk /\ points_sized toyk /\ verifier toyk toy_ver /\ d_fs dev86 "ctap_lb" <> None /\ length ids86 = 3%nat /\
  exists tr d, hist toyk dev86 tr d /\ Forall no_reset tr /\ map (fun e => snd (fst e)) tr = case86 /\ forallb oks tr = true.
Proof.
  split; [intros k m; apply toy_sha_length|]. split; [intros pri pub E; cbn [toyk f_pub] in E; injection E as <-; rewrite zlen_app, !attr_buf_len by lia; reflexivity|]. split; [exact toy_verifier|]. split; [vm_compute; discriminate|]. split; [reflexivity|].
  destruct (play_case toyk dev86 case86 (fun tr d => forallb oks tr)) as (tr & d & H1 & H2 & H3); [vm_compute; reflexivity|]. exists tr, d. split; [exact H1|]. split; [|auto].
  apply Forall_forall. intros [[d1 v] o] Hin. assert (Hv : In v case86) by (rewrite <- H3; apply in_map_iff; exists (d1, v, o); auto). clear - Hv. unfold case86, start86 in Hv. cbn [app map] in Hv.
  repeat (destruct Hv as [<-|Hv]; [exact Logic.I|]). destruct Hv.
Qed.
(** U2F signs with P-256 whatever the algorithm of the id: the signature with an EdDSA credential does not verify. *)
Definition case86e : list ev := start86 ++ [auth_at 20011 7 (nth 2 ids86 [])].
Definition id86e : bytes := nth 2 ids86 [].
Definition pub86e : bytes := Eval vm_compute in match f_pub toyk KEd25519 (f_hmac toyk (attr_buf 32 (match fattr (d_fs dev86) "ctap_cert" 4 with Some k => k | None => [] end)) (id_nonce id86e)) with Some p => p | None => [] end.
Definition test86e (tr : list entry) : bool :=
  match tr with
  | [_; _; _; (_, _, Some (ACbor 0 (Some (CMap (_ :: (CInt 2, CBytes ad) :: _))))); (_, _, Some (AApdu r))] =>
      beqb ad (firstn 53 ad ++ [0; 70] ++ id86e ++ enc (cose_key (-8) pub86e) ++ []) && beqb (firstn 32 ad) (repeat 7 32) && (r_sw r =? 0x9000) && beqb (r_data r) ([1] ++ slice 1 4 (r_data r) ++ skipn 5 (r_data r)) && (zlen (slice 1 4 (r_data r)) =? 4) &&
      negb (toy_ver KEd25519 pub86e (repeat 7 32 ++ [1] ++ slice 1 4 (r_data r) ++ repeat 4 32) (skipn 5 (r_data r)))
  | _ => false
  end.
Theorem C86_u2f_eddsa_refuted : exists d1 v1 o1 tr v2 o2 d2 d3 id rp pub msg sig,
  hist toyk d1 ((d1, v1, o1) :: tr ++ [(d2, v2, o2)]) d3 /\ Forall no_reset ((d1, v1, o1) :: tr) /\ registers (d1, v1, o1) id (-8) rp pub /\ asserts (d2, v2, o2) id rp msg sig /\ toy_ver KEd25519 pub msg sig = false.
Proof.
  destruct (play_case toyk dev86 case86e (fun tr d => test86e tr)) as (tr & d & H1 & H2 & H3); [vm_compute; reflexivity|].
  unfold test86e in H2. destruct tr as [|e0 tr]; [discriminate|]. destruct tr as [|e1 tr]; [discriminate|]. destruct tr as [|e2 tr]; [discriminate|]. destruct tr as [|[[d1 v1] o1] tr]; [discriminate|].
  destruct o1 as [[c o1|]|]; try discriminate. destruct c; try discriminate. destruct o1 as [[| | | | |m|]|]; try discriminate. destruct m as [|m0 m]; [discriminate|]. destruct m as [|[k w] m]; [discriminate|]. destruct k as [z| | | | | |]; try discriminate. destruct z as [|[z|[z|z|]|]|]; try discriminate. destruct w as [|ad| | | | |]; try discriminate.
  destruct tr as [|[[d2 v2] o2] tr]; [discriminate|]. destruct o2 as [[c o2|r]|]; try discriminate. destruct tr; [|discriminate].
  repeat match type of H2 with _ && _ = true => apply andb_true_iff in H2; let H := fresh "T" in destruct H2 as (H2 & H) end. apply beqb_eq in H2, T1, T3. 
  injection H3 as _ _ _ E1 E2. subst v1 v2. change (e0 :: e1 :: e2 :: ?x :: ?l) with ([e0; e1; e2] ++ (x :: l)) in H1. apply hist_app in H1. destruct H1 as (d1' & _ & H1). pose proof H1 as H1'.
  match type of H1 with hist _ _ (?x :: ?l) _ => change (x :: l) with ([x] ++ l) in H1' end. apply hist_app in H1'. destruct H1' as (da & H1' & _). apply hist_one in H1'. destruct H1' as (w & o & E & _). injection E as <- <- <-.
  eexists d1, _, _, [], _, _, d2, d, id86e, (repeat 7 32), pub86e, _, (skipn 5 (r_data r)). split; [exact H1|]. split; [constructor; [exact Logic.I|constructor]|]. split; [|split].
  - eapply (reg_make d1 _ (mk_alg 7 (-8))); [reflexivity|reflexivity|exact H2|exact T3].
  - eapply (as_u2f d2 (cmd_at 20011 (OAuth 3 (repeat 4 32 ++ repeat 7 32 ++ [70] ++ id86e))) 3 (repeat 4 32 ++ repeat 7 32 ++ [70] ++ id86e) r (slice 1 4 (r_data r))); [reflexivity|lia|lia|exact T1].
  - apply negb_true_iff in T. exact T.
Qed.
(** SM2 with an algorithm number of four bytes: the encoded key does not fit its buffer, and 18 bytes of the raw key are put in its place. *)
Definition case86s : list ev := [do_at 20000 (OKey (repeat 6 32)); do_at 20001 (OSm2 ([1] ++ to_le 4 9 ++ to_le 4 (-65537))); make_alg 20002 (-65537)].
Definition key_of (e : entry) : bytes := match snd e with Some (ACbor 0 (Some (CMap (_ :: (_, CBytes ad) :: _)))) => skipn 125 ad | _ => [] end.
Theorem C86_sm2_refuted : exists tr d x o, hist toyk dev86 (tr ++ [x]) d /\ snd x = Some (ACbor 0 o) /\ map (fun e => snd (fst e)) (tr ++ [x]) = case86s /\ zlen (key_of x) = 18.
Proof.
  destruct (play_case toyk dev86 case86s (fun tr d => match tr with [_; _; x] => match snd x with Some (ACbor 0 _) => zlen (key_of x) =? 18 | _ => false end | _ => false end)) as (tr & d & H1 & H2 & H3); [vm_compute; reflexivity|].
  destruct tr as [|a [|b [|x [|]]]]; try discriminate. destruct (snd x) as [[c o|]|] eqn:E; try discriminate. destruct c; try discriminate. exists [a; b], d, x, o. split; [exact H1|]. split; [exact E|]. split; [exact H3|lia].
Qed.
(** Without an attestation key U2F REGISTER answers with success, and no signature. *)
Definition case86u : list ev := [do_at 20000 (OCert (repeat 48 10)); do_at 20001 (ORegister (repeat 4 32 ++ repeat 7 32))].
Theorem C86_u2f_unsigned_refuted : exists tr d x r, hist toyk dev86 (tr ++ [x]) d /\ map (fun e => snd (fst e)) (tr ++ [x]) = case86u /\ snd x = Some (AApdu r) /\ r_sw r = 0x9000 /\ r_data r = [5; 4] ++ slice 2 64 (r_data r) ++ [70] ++ slice 67 70 (r_data r) ++ repeat 48 10.
Proof.
  destruct (play_case toyk dev86 case86u (fun tr d => match tr with [_; x] => match snd x with Some (AApdu r) => (r_sw r =? 0x9000) && beqb (r_data r) ([5; 4] ++ slice 2 64 (r_data r) ++ [70] ++ slice 67 70 (r_data r) ++ repeat 48 10) | _ => false end | _ => false end)) as (tr & d & H1 & H2 & H3); [vm_compute; reflexivity|].
  destruct tr as [|a [|x [|]]]; try discriminate. destruct (snd x) as [[c o|r]|] eqn:E; try discriminate. apply andb_true_iff in H2. destruct H2 as (H2 & H4). apply beqb_eq in H4. exists [a], d, x, r. split; [exact H1|]. split; [exact H3|]. split; [exact E|]. split; [lia|exact H4].
Qed.
Print Assumptions C86_u2f_eddsa_refuted. Print Assumptions C86_sm2_refuted. Print Assumptions C86_u2f_unsigned_refuted.
