(** C49: guessing the FIDO2 PIN; C60: the PINs that can be set. *)
From Verif Require Import CtapFrame CtapToy.
Open Scope string_scope. Open Scope list_scope. Open Scope Z_scope.

(** ** Specification *)
(** The stored number of tries left and the stored hash of the PIN (the empty one: no PIN) *)
Definition left (F : fs) : Z := match fattr F "ctap_cert" 3 with Some v => nth 0 v 0 | None => 0 end.
Definition pin_of (F : fs) : option bytes := fattr F "ctap_cert" 2.
(** The device takes guesses: tries are left, and tries of this power cycle are left *)
Definition taking (d : dev) : Prop := left (d_fs d) <> 0 /\ c_cpc (d_ram d) <> 0.
(** The commands that carry the current PIN: changePIN, getPinToken, getPinUvAuthTokenUsingPinWithPermissions *)
Definition guesses (x : cmd) (q : cpreq) : Prop := x_op x = OCbor (RPin (inr q)) /\ (cp_sub q = 4 \/ cp_sub q = 5 \/ cp_sub q = 9).
Definition sets (x : cmd) : Prop := exists q, x_op x = OCbor (RPin (inr q)) /\ cp_sub q = 3.
Section S.
Variable K : fcrypto.
(** The guess: pinHashEnc decrypted with the secret shared by the key agreement key of the device and the key of the platform *)
Definition shared (d : dev) (q : cpreq) : option bytes :=
  option_map (fun z => if cp_proto q =? 1 then f_sha K z else cp2_kdf K z) (f_ecdh K (fst (t_ka (c_tok (d_ram d)))) (cp_key q)).
Definition guess (d : dev) (q : cpreq) : option bytes :=
  match shared d q with Some key => option_map (firstn 16) (cp_decrypt K key (firstn (if cp_proto q =? 1 then 16 else 32) (cp_hash q)) (cp_proto q)) | None => None end.
Definition right (d : dev) (q : cpreq) : Prop := exists h v, guess d q = Some h /\ pin_of (d_fs d) = Some v /\ h = attr_buf 16 v.
(** The storage image that a power cut leaves *)
Definition image (d : dev) (x : cmd) (n : nat) : fs := let '(_, _, e) := exec K d x in nth n (e_log e) (e_fs e).
(** A wrong guess was evaluated: the device was taking guesses and answered PIN_INVALID, PIN_BLOCKED or PIN_AUTH_BLOCKED, or the power was cut
    after a try was taken off. *)
Definition missed (e : entry) : Prop :=
  match e with
  | (d, Do x, Some (ACbor c _)) => (exists q, guesses x q) /\ taking d /\ (c = 0x31 \/ c = 0x32 \/ c = 0x34)
  | (d, Cut x n _ _, _) => (exists q, guesses x q) /\ left (image d x n) < left (d_fs d)
  | _ => False
  end.
(** The events that give all tries back: a right guess while the device takes guesses, and a first PIN *)
Definition renews (e : entry) : Prop :=
  match e with
  | (d, Do x, _) | (d, Cut x _ _ _, _) => (exists q, guesses x q /\ taking d /\ right d q) \/ sets x /\ pin_of (d_fs d) = Some []
  | _ => False
  end.
(** A reset that is not refused (it is after 10 s) *)
Definition resets (x : cmd) : Prop := x_op x = OReset \/ x_op x = OCbor RReset /\ x_t1 x <= 10000.
Definition same_power (e : entry) : Prop :=
  match e with (_, Do x, _) => ~ resets x | (_, Cut _ _ _ _, _) => False | _ => True end.
(** The number of entries with a property *)
Inductive count (P : entry -> Prop) : list entry -> Z -> Prop :=
  | c_nil : count P [] 0
  | c_yes e l n : P e -> count P l n -> count P (e :: l) (n + 1)
  | c_no e l n : ~ P e -> count P l n -> count P (e :: l) n.
(** Devices that differ in the PIN only *)
Definition but_pin (F G : fs) : Prop :=
  (forall q, q <> "ctap_cert" -> F q = G q) /\
  exists f g, F "ctap_cert" = Some f /\ G "ctap_cert" = Some g /\ f_data f = f_data g /\ (forall a, a <> 2 -> f_attr f a = f_attr g a) /\
    (exists v w, f_attr f 2 = Some v /\ v <> [] /\ f_attr g 2 = Some w /\ w <> []).
End S.

(** ** Proof *)
Definition bad (c : Z) : Prop := c = 0x31 \/ c = 0x32 \/ c = 0x34.
Lemma left_write F a v : F "ctap_cert" <> None -> left (fsetattr F "ctap_cert" a v) = if a =? 3 then nth 0 v 0 else left F.
Proof.
  intros H. unfold left. rewrite fattr_fsetattr by exact H. rewrite (Z.eqb_sym a 3). destruct (3 =? a); reflexivity.
Qed.
Lemma wp_and {A} (m : Mc A) (R1 R2 : out A -> ctap -> env -> Prop) s e : wp m R1 s e -> wp m R2 s e -> wp m (fun o s e => R1 o s e /\ R2 o s e) s e.
Proof. unfold wp. destruct (m s e) as [[o s'] e']. auto. Qed.
Lemma wp_imp (B : Prop) {A} (m : Mc A) (R : out A -> ctap -> env -> Prop) s e : (B -> wp m R s e) -> wp m (fun o s e => B -> R o s e) s e.
Proof. unfold wp. destruct (m s e) as [[o s'] e']. auto. Qed.
Section W.
Variable K : fcrypto.
Variables t1 t2 : Z.
Lemma wp_left (R : out Z -> ctap -> env -> Prop) s F L X Rn T O :
  (forall c X', c <> 0 -> (left F <> 0 -> c_cpc s <> 0 -> ~ bad c) -> R (Exc c) s (mkE F L X' Rn T O)) ->
  (left F <> 0 -> c_cpc s <> 0 -> F "ctap_cert" <> None -> forall X', R (Ret (left F - 1)) s (mkE F L X' Rn T O)) ->
  wp pin_retries_left R s (mkE F L X Rn T O).
Proof.
  intros R1 R2. unfold pin_retries_left, has_pin, got, get_pin_retries. apply wp_bind, wp_bind, wp_read_attr. intros X1 r _ _. apply wp_ret.
  apply wp_bind. apply wp_guard. 2: { intros _. apply R1; [discriminate|]. intros _ _ [H|[H|H]]; discriminate. }
  intros _. apply wp_bind, wp_bind, wp_bind, wp_read_attr. intros X2 v _ V. apply wp_ret. destruct v as [v|]; cbn [option_map].
  2: { apply wp_except. apply R1; [discriminate|]. intros _ _ [H|[H|H]]; discriminate. }
  destruct V as [V|V]; [discriminate|]. assert (E : left F = nth 0 v 0) by (unfold left; change (fattr F "ctap_cert" 3) with (fattr F CTAP_CERT_FILE PIN_CTR_ATTR); rewrite <- V; reflexivity).
  apply wp_ret. rewrite <- E. apply wp_bind. apply wp_guard.
  2: { intros H. apply R1; [discriminate|]. intros H1 _. elim H1. destruct (left F =? 0) eqn:E0; [lia|discriminate]. }
  intros H1. apply wp_bind, wp_get. apply wp_bind, wp_guard.
  2: { intros H. apply R1; [discriminate|]. intros _ H2. elim H2. destruct (c_cpc s =? 0) eqn:E0; [lia|discriminate]. }
  intros H2. apply wp_ret. apply R2; [destruct (left F =? 0) eqn:E0; [discriminate|lia]|destruct (c_cpc s =? 0) eqn:E0; [discriminate|lia]|].
  unfold fattr in V. change CTAP_CERT_FILE with "ctap_cert" in V. destruct (F "ctap_cert"); discriminate.
Qed.
Definition hits (key enc : bytes) (proto : Z) (F : fs) : Prop :=
  exists h v, cp_decrypt K key (firstn (pin_hash_len proto) enc) proto = Some h /\ fattr F "ctap_cert" 2 = Some v /\ firstn 16 h = attr_buf 16 v.
Lemma wp_check key enc proto regen (R : out unit -> ctap -> env -> Prop) s F L X Rn T O : F "ctap_cert" <> None ->
  let F1 := fsetattr F "ctap_cert" 3 [u8 (left F - 1)] in
  (forall X', R (Exc ERR_UNHANDLED) s (mkE F L X' Rn T O)) ->
  (forall c s' X' Rn', (c = ERR_UNHANDLED /\ c_cpc s' = c_cpc s \/ ~ hits key enc proto F /\
     (c = 0x32 /\ left F = 1 /\ c_cpc s' = c_cpc s \/ (c = 0x31 \/ c = 0x34) /\ c_cpc s' = u8 (c_cpc s - 1))) ->
     R (Exc c) s' (mkE F1 (F1 :: L) X' Rn' T O)) ->
  (hits key enc proto F -> forall X', R (Ret tt) (set_cpc 3 s) (mkE F1 (F1 :: L) X' Rn T O)) ->
  wp (check_pin K key enc proto (left F - 1) regen) R s (mkE F L X Rn T O).
Proof.
  intros HF F1 R1 R2 R3. unfold check_pin, set_pin_retries, must. apply wp_bind, wp_bind, wp_write_attr.
  2: { intros _ X' _. cbn [guard]. apply wp_except. apply R1. }
  intros _ X1 _. change (fsetattr F CTAP_CERT_FILE PIN_CTR_ATTR [u8 (left F - 1)]) with F1. cbn [guard]. apply wp_ret.
  destruct (cp_decrypt K key (firstn (pin_hash_len proto) enc) proto) as [h|] eqn:Eh; [|apply wp_except; apply R2; auto].
  unfold verify_pin_hash, got. apply wp_bind, wp_bind, wp_bind, wp_read_attr. intros X2 v _ V. destruct v as [v|]; [|apply wp_except; apply R2; auto].
  destruct V as [V|V]; [discriminate|]. apply wp_ret. apply wp_ret.
  assert (V' : fattr F "ctap_cert" 2 = Some v).
  { rewrite V. unfold F1. change CTAP_CERT_FILE with "ctap_cert". rewrite fattr_fsetattr by exact HF. reflexivity. }
  destruct (beqb (attr_buf 16 v) (firstn 16 h)) eqn:Eb.
  - apply wp_modify. apply R3. exists h, v. apply beqb_eq in Eb. auto.
  - assert (N : ~ hits key enc proto F).
    { intros (h' & v' & H1 & H2 & H3). rewrite V' in H2. injection H2 as <-. rewrite Eh in H1. injection H1 as <-. rewrite <- H3, beqb_refl in Eb. discriminate. }
    apply wp_bind.
    assert (W : wp (if regen then cp_regenerate K else ret tt) (fun o s' e' => o = Ret tt /\ c_cpc s' = c_cpc s /\ exists Rn', e' = mkE F1 (F1 :: L) X2 Rn' T O) s (mkE F1 (F1 :: L) X2 Rn T O)).
    { destruct regen; [|apply wp_ret; eauto]. unfold cp_regenerate. apply wp_bind, wp_random. intros r Rn'. apply wp_modify. eauto. }
    eapply wp_mono; [exact W|]. intros o s1 e1 (-> & Hs1 & Rn' & ->). apply wp_bind, wp_guard.
    2: { intros H. apply R2. right. split; [exact N|]. left. split; [reflexivity|]. split; [|exact Hs1]. destruct (left F - 1 =? 0) eqn:E0; [lia|discriminate]. }
    intros _. apply wp_bind, wp_modify. apply wp_bind, wp_get. apply wp_except. apply R2. right. split; [exact N|]. right.
    split; [destruct (_ =? 0); auto|]. cbn [c_cpc set_cpc]. rewrite Hs1. reflexivity.
Qed.
(** The outcome of a guess *)
Definition grows (L : list fs) (e : env) : Prop := exists L', e_log e = L' ++ L.
Definition cpc_ok (s : ctap) : Prop := 0 <= c_cpc s <= 3.
Definition left_ok (F : fs) : Prop := 0 <= left F <= 8.
Definition fine (s : ctap) (e : env) : Prop := kgood cpc_ok left_ok left_ok s e.
Definition outcome (s : ctap) (F : fs) (hit : Prop) {A} (o : out A) (s' : ctap) (e' : env) : Prop :=
  (c_cpc s' = c_cpc s /\ e_fs e' = F /\ e_log e' = [F] /\ exists c, o = Exc c /\ c <> 0 /\ (left F <> 0 -> c_cpc s <> 0 -> ~ bad c)) \/
  (left F <> 0 /\ c_cpc s <> 0 /\
     exists F1 c, left F1 = u8 (left F - 1) /\ e_fs e' = F1 /\ e_log e' = [F1; F] /\ o = Exc c /\
       (c = ERR_UNHANDLED /\ c_cpc s' = c_cpc s \/
        ~ hit /\ (c = 0x32 /\ left F = 1 /\ c_cpc s' = c_cpc s \/ (c = 0x31 \/ c = 0x34) /\ c_cpc s' = u8 (c_cpc s - 1)))) \/
  (left F <> 0 /\ c_cpc s <> 0 /\ hit /\ exists F1, left F1 = u8 (left F - 1) /\ grows [F1; F] e' /\ (0 <= left F <= 8 -> fine s' e')).
(** Logs only grow *)
Definition ext {A} (m : Mc A) : Prop := forall L s e, grows L e -> wp m (fun _ _ e' => grows L e') s e.
Lemma ext_bind {A B} (m : Mc A) (k : A -> Mc B) : ext m -> (forall a, ext (k a)) -> ext (bind m k).
Proof. intros Hm Hk L s e H. apply wp_bind. eapply wp_mono; [apply Hm, H|]. intros [a|w| |] s' e' H'; try exact H'. apply Hk, H'. Qed.
Lemma ext_same {A} (m : Mc A) : (forall s e, e_log (snd (m s e)) = e_log e) -> ext m.
Proof. intros H L s e (L' & HL). unfold wp. specialize (H s e). destruct (m s e) as [[o s'] e']. exists L'. rewrite <- HL. exact H. Qed.
Lemma ext_write p a v : ext (write_attr p a v).
Proof.
  intros L s e (L' & HL). unfold wp, write_attr, pop_fault. destruct (e_flt e) as [|[] l]; cbn [e_fs]; destruct (e_fs e p); try (exists L'; exact HL).
  all: eexists (_ :: L'); cbn [commit e_log app]; rewrite HL; reflexivity.
Qed.
Lemma ext_guard b w : ext (guard b w). Proof. apply ext_same. intros s e. destruct b; reflexivity. Qed.
Ltac xt := repeat lazymatch goal with
  | |- ext (guard _ _) => apply ext_guard
  | |- ext (bind _ _) => apply ext_bind; [|intros ?]
  | |- ext (must _) => unfold must
  | |- ext (write_attr _ _ _) => apply ext_write
  | |- ext (match ?x with _ => _ end) => destruct x
  | |- ext _ => apply ext_same; intros ? ?; reflexivity
  end.
Lemma ext_new d : ext (new_pin K d).
Proof. unfold new_pin, set_pin. cbv zeta. apply ext_bind; [apply ext_same; intros s e; destruct (negb _); reflexivity|intros _].
  apply ext_bind; [apply ext_bind; [apply ext_write|]|intros _; apply ext_bind; [apply ext_write|]]; intros b; apply ext_same; intros s e; destruct b; reflexivity. Qed.
Lemma lo_attr a v : (a = 3 -> 0 <= nth 0 v 0 <= 8) -> keep cpc_ok left_ok left_ok (write_attr CTAP_CERT_FILE a v).
Proof.
  intros N. apply kp_write_attr_at; [auto|]. intros F f H E. unfold left_ok, left, fattr in *. change CTAP_CERT_FILE with "ctap_cert" in *. rewrite fset_same. rewrite E in H.
  cbn [f_attr]. destruct (Z.eq_dec a 3) as [->|Na]; [rewrite aset_same; auto|rewrite aset_other by congruence; exact H].
Qed.
Lemma lo_new d : keep cpc_ok left_ok left_ok (new_pin K d).
Proof.
  unfold new_pin, set_pin. cbv zeta. apply kp_bind; [apply kp_guard|intros _]. apply kp_bind; [apply kp_must, lo_attr; discriminate|intros _]. apply kp_must, lo_attr. intros _. cbn [nth]. lia.
Qed.
Ltac lo := repeat lazymatch goal with
  | |- keep _ _ _ (bind _ _) => apply kp_bind; [|intros ?]
  | |- keep _ _ _ (modify _) => apply kp_modify; exact (fun _ h => h)
  | |- keep _ _ _ (random_buffer _) => apply kp_random
  | |- keep _ _ _ (must _) => apply kp_must
  | |- keep _ _ _ (write_attr CTAP_CERT_FILE _ _) => apply lo_attr; intros _; cbn [nth]; unfold u8; lia
  | |- keep _ _ _ (ret _) => apply kp_ret
  | |- keep _ _ _ get => apply kp_get
  | |- keep _ _ _ ub => apply kp_ub
  | |- keep _ _ _ (match ?x with _ => _ end) => destruct x
  end.
Lemma out_exc {A B} s F hit c s' e' : @outcome s F hit A (Exc c) s' e' -> @outcome s F hit B (Exc c) s' e'.
Proof.
  intros [(H1 & H2 & H3 & c1 & E & H4)|[(H1 & H2 & F1 & c1 & H3 & H4 & H5 & E & H6)|H]].
  - left. split; [exact H1|]. split; [exact H2|]. split; [exact H3|]. exists c1. injection E as <-. auto.
  - right; left. split; [exact H1|]. split; [exact H2|]. exists F1, c1. injection E as <-. auto 10.
  - right; right. exact H.
Qed.
Lemma wp_decaps pub proto (R : out bytes -> ctap -> env -> Prop) s e :
  (f_ecdh K (fst (t_ka (c_tok s))) pub = None -> R (Exc 1) s e) ->
  (forall z, f_ecdh K (fst (t_ka (c_tok s))) pub = Some z -> R (Ret (if proto =? 1 then f_sha K z else cp2_kdf K z)) s e) ->
  wp (cp_decapsulate K pub proto) R s e.
Proof. intros H1 H2. unfold cp_decapsulate. apply wp_bind, wp_get. destruct (f_ecdh _ _ _) as [z|]; [apply wp_ret, H2; reflexivity|apply wp_except, H1; reflexivity]. Qed.
(** The guess as seen from the state of the applet *)
Definition hit (s : ctap) (F : fs) (q : cpreq) : Prop := right K (mkD s F) q.
Lemma hits_hit s F q z : f_ecdh K (fst (t_ka (c_tok s))) (cp_key q) = Some z ->
  (hits (if cp_proto q =? 1 then f_sha K z else cp2_kdf K z) (cp_hash q) (cp_proto q) F <-> hit s F q).
Proof.
  intros E. unfold hit, right, guess, shared, hits, pin_of. cbn [d_ram d_fs]. rewrite E. cbn [option_map].
  change (if cp_proto q =? 1 then 16%nat else 32%nat) with (pin_hash_len (cp_proto q)).
  destruct (cp_decrypt _ _ _ _) as [h|]; cbn [option_map].
  - split; [intros (h' & v & H1 & H2 & H3); injection H1 as <-; eauto|intros (h' & v & H1 & H2 & H3)]. injection H1 as <-. eauto.
  - split; intros (h' & v & H1 & _); discriminate.
Qed.
Lemma wp_token q s F X Rn T O : wp (get_token_cmd K t2 q) (fun o s' e' => outcome s F (hit s F q) o s' e') s (mkE F [F] X Rn T O).
Proof.
  unfold get_token_cmd. apply wp_bind, wp_left.
  { intros c X' Hc Hb. left. cbn [e_fs e_log]. eauto 10. }
  intros Hl Hk HF X1. apply wp_bind, wp_decaps.
  { intros _. left. split; [reflexivity|]. split; [reflexivity|]. split; [reflexivity|]. exists 1. split; [reflexivity|]. split; [discriminate|]. intros _ _ [H|[H|H]]; discriminate. }
  intros z Ez. set (key := if cp_proto q =? 1 then _ else _). assert (HH := hits_hit s F q z Ez). fold key in HH. clearbody key.
  assert (EL : left (fsetattr F "ctap_cert" 3 [u8 (left F - 1)]) = u8 (left F - 1)) by (rewrite left_write by exact HF; reflexivity).
  apply wp_bind, wp_check; [exact HF| | |].
  - intros X'. left. split; [reflexivity|]. split; [reflexivity|]. split; [reflexivity|]. exists ERR_UNHANDLED. split; [reflexivity|]. split; [discriminate|]. intros _ _ [H|[H|H]]; discriminate.
  - intros c s' X' Rn' H. right. left. split; [exact Hl|]. split; [exact Hk|]. exists (fsetattr F "ctap_cert" 3 [u8 (left F - 1)]), c.
    split; [exact EL|]. split; [reflexivity|]. split; [reflexivity|]. split; [reflexivity|]. rewrite HH in H. exact H.
  - intros H X'. set (F1 := fsetattr _ _ _ _) in *. assert (G : grows [F1; F] (mkE F1 [F1; F] X' Rn T O)) by (exists []; reflexivity).
    assert (X1' : 0 <= left F <= 8 -> fine (set_cpc 3 s) (mkE F1 [F1; F] X' Rn T O)).
    { intros B. assert (B1 : left_ok F1) by (unfold left_ok; rewrite EL; unfold u8; lia). split; [unfold cpc_ok; cbn [c_cpc set_cpc]; lia|]. split; [exact B1|]. constructor; [exact B1|]. constructor; [exact B|constructor]. }
    eapply wp_mono.
    + apply wp_and; [refine ((_ : ext _) [F1; F] _ _ G); unfold set_pin_retries, must, cp_reset_token, cp_begin_using, cp_set_permission, cp_associate_rp, cp_encrypt; xt|].
      apply (wp_imp (0 <= left F <= 8)). intros B. refine ((_ : keep cpc_ok left_ok left_ok _) _ _ (X1' B)).
      unfold set_pin_retries, cp_reset_token, cp_begin_using, cp_set_permission, cp_associate_rp, cp_encrypt. lo.
    + intros o s' e' (HG & HB). right; right. split; [exact Hl|]. split; [exact Hk|]. split; [apply HH, H|]. exists F1. auto.
Qed.
Lemma wp_change q s F X Rn T O : wp (change_pin_cmd K q) (fun o s' e' => outcome s F (hit s F q) o s' e') s (mkE F [F] X Rn T O).
Proof.
  unfold change_pin_cmd. apply wp_bind, wp_left.
  { intros c X' Hc Hb. left. cbn [e_fs e_log]. eauto 10. }
  intros Hl Hk HF X1. apply wp_bind, wp_decaps.
  { intros _. left. split; [reflexivity|]. split; [reflexivity|]. split; [reflexivity|]. exists 1. split; [reflexivity|]. split; [discriminate|]. intros _ _ [H|[H|H]]; discriminate. }
  intros z Ez. set (key := if cp_proto q =? 1 then _ else _). assert (HH := hits_hit s F q z Ez). fold key in HH. clearbody key. cbv zeta.
  apply wp_bind, wp_guard.
  2: { intros _. left. split; [reflexivity|]. split; [reflexivity|]. split; [reflexivity|]. exists 0x33. split; [reflexivity|]. split; [discriminate|]. intros _ _ [H|[H|H]]; discriminate. }
  intros _. assert (EL : left (fsetattr F "ctap_cert" 3 [u8 (left F - 1)]) = u8 (left F - 1)) by (rewrite left_write by exact HF; reflexivity).
  apply wp_bind, wp_check; [exact HF| | |].
  - intros X'. left. split; [reflexivity|]. split; [reflexivity|]. split; [reflexivity|]. exists ERR_UNHANDLED. split; [reflexivity|]. split; [discriminate|]. intros _ _ [H|[H|H]]; discriminate.
  - intros c s' X' Rn' H. right. left. split; [exact Hl|]. split; [exact Hk|]. exists (fsetattr F "ctap_cert" 3 [u8 (left F - 1)]), c.
    split; [exact EL|]. split; [reflexivity|]. split; [reflexivity|]. split; [reflexivity|]. rewrite HH in H. exact H.
  - intros H X'. set (F1 := fsetattr _ _ _ _) in *. assert (G : grows [F1; F] (mkE F1 [F1; F] X' Rn T O)) by (exists []; reflexivity).
    assert (X1' : 0 <= left F <= 8 -> fine (set_cpc 3 s) (mkE F1 [F1; F] X' Rn T O)).
    { intros B. assert (B1 : left_ok F1) by (unfold left_ok; rewrite EL; unfold u8; lia). split; [unfold cpc_ok; cbn [c_cpc set_cpc]; lia|]. split; [exact B1|]. constructor; [exact B1|]. constructor; [exact B|constructor]. }
    eapply wp_mono.
    + apply wp_and; [refine ((_ : ext _) [F1; F] _ _ G); destruct (cp_decrypt _ _ _ _); [apply ext_new|xt]|].
      apply (wp_imp (0 <= left F <= 8)). intros B. refine ((_ : keep cpc_ok left_ok left_ok _) _ _ (X1' B)).
      destruct (cp_decrypt _ _ _ _); [apply lo_new|apply kp_except].
    + intros o s' e' (HG & HB). right; right. split; [exact Hl|]. split; [exact Hk|]. split; [apply HH, H|]. exists F1. auto.
Qed.
Lemma wp_guess q s F X Rn T O : cp_sub q = 4 \/ cp_sub q = 5 \/ cp_sub q = 9 ->
  wp (cp_observer t1 ;;; ctap_client_pin K t2 (inr q)) (fun o s' e' => outcome s F (hit s F q) o s' e') s (mkE F [F] X Rn T O).
Proof.
  intros Hq. unfold cp_observer. apply wp_bind, wp_modify. set (s1 := set_tok _ s).
  assert (E : forall A (o : out A) s' e', outcome s1 F (hit s1 F q) o s' e' -> outcome s F (hit s F q) o s' e').
  { intros A o s' e'. assert (Ec : c_cpc s1 = c_cpc s) by reflexivity.
    assert (Eh : hit s1 F q = hit s F q).
    { unfold hit, right, guess, shared. cbn [d_ram d_fs]. replace (t_ka (c_tok s1)) with (t_ka (c_tok s)); [reflexivity|].
      unfold s1. cbn [c_tok set_tok]. destruct (negb _); [reflexivity|]. destruct (_ <? t1); reflexivity. }
    unfold outcome. rewrite Ec, Eh. exact (fun H => H). }
  clearbody s1. unfold ctap_client_pin.
  assert (B : forall A B (m : Mc A) (k : A -> Mc B), (forall a, exists b, k a = ret b) -> forall e, wp m (fun o s' e' => outcome s1 F (hit s1 F q) o s' e') s1 e ->
     wp (bind m k) (fun o s' e' => outcome s F (hit s F q) o s' e') s1 e).
  { intros A B m k Hk e W. apply wp_bind. eapply wp_mono; [exact W|]. intros [a|w| |] s' e' H.
    - destruct (Hk a) as (b & ->). apply wp_ret. apply E.
      destruct H as [(H1 & H2 & H3 & c1 & H4 & _)|[(H1 & H2 & F1 & c1 & H3 & H4 & H5 & H6 & _)|H]]; try discriminate. right; right. exact H.
    - apply E. eapply out_exc; exact H.
    - apply E. destruct H as [(H1 & H2 & H3 & c1 & H4 & _)|[(H1 & H2 & F1 & c1 & H3 & H4 & H5 & H6 & _)|H]]; try discriminate. right; right. exact H.
    - apply E. destruct H as [(H1 & H2 & H3 & c1 & H4 & _)|[(H1 & H2 & F1 & c1 & H3 & H4 & H5 & H6 & _)|H]]; try discriminate. right; right. exact H. }
  destruct Hq as [Hq|[Hq|Hq]]; rewrite Hq.
  - change (4 =? 1) with false. change (4 =? 2) with false. change (4 =? 3) with false. change (4 =? 4) with true. cbn match.
    apply B; [intros a; eexists; reflexivity|]. apply wp_change.
  - change (5 =? 1) with false. change (5 =? 2) with false. change (5 =? 3) with false. change (5 =? 4) with false. change ((5 =? 5) || (5 =? 9)) with true. cbn match.
    apply B; [intros a; eexists; reflexivity|]. apply wp_token.
  - change (9 =? 1) with false. change (9 =? 2) with false. change (9 =? 3) with false. change (9 =? 4) with false. change ((9 =? 5) || (9 =? 9)) with true. cbn match.
    apply B; [intros a; eexists; reflexivity|]. apply wp_token.
Qed.
End W.

(** ** Everything else *)
Section R.
Variable K : fcrypto.
Variable I : ctap -> Prop.
Variable l : Z.
Definition lf (F : fs) : Prop := left F = l.
Notation kp := (keep I lf lf).
Lemma lf_other q : q <> "ctap_cert" -> indep lf q.
Proof. intros N F x H. unfold lf, left, fattr in *. rewrite fset_other by congruence. exact H. Qed.
Lemma lf_rename : kp (fs_rename LB_FILE_TMP LB_FILE).
Proof. apply kp_rename_at; [auto|]. intros F f H E. apply (lf_other "ctap_lb"); [discriminate|]. apply (lf_other "ctap_lbt"); [discriminate|]. exact H. Qed.
Lemma lf_attr a v : a <> 3 -> kp (write_attr CTAP_CERT_FILE a v).
Proof.
  intros N. apply kp_write_attr_at; [auto|]. intros F f H E. unfold lf, left, fattr in *. change CTAP_CERT_FILE with "ctap_cert" in *. rewrite fset_same. rewrite E in H.
  cbn [f_attr]. rewrite aset_other by congruence. exact H.
Qed.
Lemma lf_cert d o t : kp (write_file CTAP_CERT_FILE d o t).
Proof.
  assert (C : forall F x, lf F -> lf (fset F CTAP_CERT_FILE (Some (mkF x (match F CTAP_CERT_FILE with Some f => f_attr f | None => no_attr end))))).
  { intros F x H. unfold lf, left, fattr in *. change CTAP_CERT_FILE with "ctap_cert" in *. rewrite fset_same. destruct (F "ctap_cert"); exact H. }
  intros s e H. apply kp_pop in H. unfold wp, write_file. destruct (pop_fault e) as [x e']. cbn [snd] in H. assert (H2 : lf (e_fs e')) by apply H.
  assert (C' := C (e_fs e')). destruct (e_fs e' CTAP_CERT_FILE) as [f|] eqn:E.
  - destruct x; try exact H. rewrite E. apply kgood_commit; [auto|exact H|]. apply C', H2.
  - assert (H' : kgood I lf lf s (commit (fset (e_fs e') CTAP_CERT_FILE (Some (mkF [] no_attr))) e')) by (apply kgood_commit; [auto|exact H|apply C', H2]).
    destruct x; try exact H; try exact H'. cbn [e_fs commit]. rewrite fset_same. apply kgood_commit; [auto|exact H'|].
    assert (C2 := C (fset (e_fs e') CTAP_CERT_FILE (Some (mkF [] no_attr)))). rewrite fset_same in C2. apply C2. apply H'.
Qed.
Lemma lf_count : kp increase_counter.
Proof. unfold increase_counter. apply kp_bind; [apply kp_got, kp_read_attr|intros v]. cbv zeta. apply kp_bind; [apply kp_must, lf_attr; discriminate|intros _; apply kp_ret]. Qed.
Hypothesis I_tok : forall f s, I s -> I (set_tok f s).
Hypothesis I_ga : forall f s, I s -> I (set_ga f s).
Hypothesis I_cm : forall f s, I s -> I (set_cm f s).
Hypothesis I_lb : forall a b s, I s -> I (set_lb a b s).
Hypothesis I_sm2 : forall a s, I s -> I (set_sm2 a s).
Lemma lf_install b : (forall s, I s -> I (set_cpc 3 s)) -> (forall z s, I s -> I (set_last z s)) -> kp (ctap_install K b).
Proof using I_tok I_sm2.
  intros I_cpc I_last. unfold ctap_install, cp_initialize, cp_regenerate, cp_reset_token.
  repeat lazymatch goal with
  | |- keep _ _ _ (bind _ _) => apply kp_bind; [|intros ?]
  | |- keep _ _ _ (modify _) => apply kp_modify; solve [auto]
  | |- keep _ _ _ (random_buffer _) => apply kp_random
  | |- keep _ _ _ (got _) => apply kp_got
  | |- keep _ _ _ (must _) => apply kp_must
  | |- keep _ _ _ (read_attr _ _) => apply kp_read_attr
  | |- keep _ _ _ (get_file_size _) => apply kp_size
  | |- keep _ _ _ (write_file CTAP_CERT_FILE _ _ _) => apply lf_cert
  | |- keep _ _ _ (write_attr CTAP_CERT_FILE _ _) => apply lf_attr; discriminate
  | |- keep _ _ _ (write_file _ _ _ _) => apply kp_write_file; [auto|apply lf_other; discriminate]
  | |- keep _ _ _ (write_attr _ _ _) => apply kp_write_attr; [auto|apply lf_other; discriminate]
  | |- keep _ _ _ (ret _) => apply kp_ret
  | |- keep _ _ _ (match ?x with _ => _ end) => destruct x
  end.
Qed.
Lemma lf_cbor nfc t1 t2 junk q : is_pin q = false -> is_reset q = false -> kp (cbor_cmd K nfc t1 t2 junk q).
Proof using I_tok I_ga I_cm I_lb.
  intros H1 H2. eapply (kp_cbor K nfc t1 t2 junk I lf lf) with (okq := fun _ => True); auto.
  1-3: apply lf_other; discriminate. 1: apply lf_rename. 1: apply lf_count. destruct q as [|[|]| | | | | | | | ]; exact Logic.I.
Qed.
End R.

Section X.
Variable K : fcrypto.
Definition answer_of (c : Z) : option ans := Some (ACbor c None).
Lemma exec_guess d x q : guesses x q ->
  let '(o, s, e) := exec K d x in
  let F := d_fs d in let k := c_cpc (d_ram d) in
  (c_cpc s = k /\ e_fs e = F /\ e_log e = [F] /\ exists c, o = answer_of c /\ c <> 0 /\ (taking d -> ~ bad c)) \/
  (taking d /\ exists F1 c, left F1 = u8 (left F - 1) /\ e_fs e = F1 /\ e_log e = [F1; F] /\ o = answer_of c /\
     (c = ERR_UNHANDLED /\ c_cpc s = k \/ ~ right K d q /\ (c = 0x32 /\ left F = 1 /\ c_cpc s = k \/ (c = 0x31 \/ c = 0x34) /\ c_cpc s = u8 (k - 1)))) \/
  (taking d /\ right K d q /\ exists F1, left F1 = u8 (left F - 1) /\ grows [F1; F] e /\ (0 <= left F <= 8 -> fine s e)).
Proof.
  intros (Hx & Hq). unfold exec. rewrite Hx. unfold cbor_body, process_cbor.
  pose proof (wp_guess K (x_t1 x) (x_t2 x) q (d_ram d) (d_fs d) (x_flt x) (x_rnd x) (x_tch x) [] Hq) as W. unfold wp in W.
  change (cbor_cmd K (x_nfc x) (x_t1 x) (x_t2 x) (x_junk x) (RPin (inr q))) with (cp_observer (x_t1 x) ;;; ctap_client_pin K (x_t2 x) (inr q)).
  unfold start. destruct ((cp_observer (x_t1 x) ;;; ctap_client_pin K (x_t2 x) (inr q)) _ _) as [[o s] e].
  replace (hit K (d_ram d) (d_fs d) q) with (right K d q) in W by (destruct d; reflexivity). unfold taking.
  destruct W as [(H1 & H2 & H3 & c & -> & H4 & H5)|[(H1 & H2 & F1 & c & H3 & H4 & H5 & -> & H6)|(H1 & H2 & H3 & H4)]].
  - left. cbn [c_cpc set_last]. split; [exact H1|]. split; [exact H2|]. split; [exact H3|]. exists c. split; [reflexivity|]. split; [exact H4|]. intros (A & B). auto.
  - right; left. cbn [c_cpc set_last]. split; [auto|]. exists F1, c. auto 10.
  - destruct o as [v|c| |]; [destruct (_ <=? x_cap x)| | |]; right; right; (split; [auto|]); split; auto.
Qed.
Ltac ikeep := intros; assumption.
(** Commands that neither carry a guess nor set a first PIN *)
Lemma exec_rest d x : (forall q, ~ guesses x q) -> ~ (sets x /\ pin_of (d_fs d) = Some []) ->
  let '(o, s, e) := exec K d x in left (e_fs e) = left (d_fs d) /\ Forall (fun F => left F = left (d_fs d)) (e_log e) /\ (~ resets x -> c_cpc s = c_cpc (d_ram d)) /\ (cpc_ok (d_ram d) -> cpc_ok s).
Proof.
  intros Hg Hs. set (k := c_cpc (d_ram d)). set (ll := left (d_fs d)).
  assert (G : kgood (fun s => c_cpc s = k) (lf ll) (lf ll) (d_ram d) (start (d_fs d) (x_flt x) (x_rnd x) (x_tch x))).
  { split; [reflexivity|]. split; [reflexivity|]. constructor; [reflexivity|constructor]. }
  set (J := fun s => cpc_ok (d_ram d) -> cpc_ok s). assert (J3 : forall s, J s -> J (set_cpc 3 s)) by (intros s _ _; unfold cpc_ok; cbn [c_cpc set_cpc]; lia).
  assert (G' : kgood J (lf ll) (lf ll) (d_ram d) (start (d_fs d) (x_flt x) (x_rnd x) (x_tch x))) by (split; [exact (fun H => H)|apply G]).
  assert (KJ : forall s, c_cpc s = k -> J s) by (intros s E H; unfold cpc_ok in *; rewrite E; exact H).
  set (Qx := fun (o : option ans) (s : ctap) (e : env) => lf ll (e_fs e) /\ Forall (lf ll) (e_log e) /\ (~ resets x -> c_cpc s = k) /\ (cpc_ok (d_ram d) -> cpc_ok s)).
  pose proof (exec_wp K d x Qx) as W. destruct (exec K d x) as [[o s] e]. cut (Qx o s e); [exact (fun H => H)|]. apply W. clear W o s e.
  assert (B : forall (m : Mc Z), keep (fun s => c_cpc s = k) (lf ll) (lf ll) m -> wp m (fun o s e =>
      match o with
      | Ret w | Exc w => Qx (Some (AApdu (mkR (e_out e) w))) s e
      | Fail => Qx (Some (AApdu (mkR (e_out e) 0x6900))) s e
      | UB => Qx None s e end) (d_ram d) (start (d_fs d) (x_flt x) (x_rnd x) (x_tch x))).
  { intros m Hm. eapply wp_mono; [apply Hm, G|]. intros [] s e (H1 & H2 & H3); (split; [exact H2|]; split; [exact H3|]; split; [intros _; exact H1|exact (KJ _ H1)]). }
  assert (BC : forall q, x_op x = OCbor q -> keep (fun s => c_cpc s = k) (lf ll) (lf ll) (cbor_cmd K (x_nfc x) (x_t1 x) (x_t2 x) (x_junk x) q) -> wp (cbor_body K x q)
      (fun o s e => match o with Ret (c, v) => Qx (Some (ACbor c v)) s e | _ => Qx None s e end) (d_ram d) (start (d_fs d) (x_flt x) (x_rnd x) (x_tch x))).
  { intros q Hq Hm. eapply wp_mono; [exact (kp_process K _ _ _ _ (fun s => c_cpc s = k) (lf ll) (lf ll) (fun _ _ H => H) (x_cap x) q Hm _ _ G)|]. intros [[c v]| | |] s e (H1 & H2 & H3); (split; [exact H2|]; split; [exact H3|]; split; [intros _; exact H1|exact (KJ _ H1)]). }
  destruct (x_op x) as [q|da|p1 da| |da|da|da] eqn:Ex.
  - destruct (is_pin q) eqn:E1.
    + destruct q as [| | | |[err|q]| | | | | ]; try discriminate E1.
      * apply BC; [reflexivity|]. unfold cbor_cmd, cp_observer, ctap_client_pin. apply kp_bind; [apply kp_modify; ikeep|intros _; apply kp_except].
      * assert (Ng : cp_sub q <> 4 /\ cp_sub q <> 5 /\ cp_sub q <> 9) by (split; [|split]; intros E; apply (Hg q); split; auto). clear Hg.
        destruct (cp_sub q =? 3) eqn:E3.
        -- assert (Hp : fattr (d_fs d) CTAP_CERT_FILE PIN_ATTR <> Some []) by (intros E; apply Hs; split; [exists q; split; [exact Ex|lia]|exact E]).
           unfold cbor_body, wp, process_cbor.
           assert (W : wp (cbor_cmd K (x_nfc x) (x_t1 x) (x_t2 x) (x_junk x) (RPin (inr q))) (fun o s e => (exists w, o = Exc w) /\ kgood (fun s => c_cpc s = k) (lf ll) (lf ll) s e) (d_ram d) (start (d_fs d) (x_flt x) (x_rnd x) (x_tch x))).
           { unfold cbor_cmd, cp_observer, ctap_client_pin. apply wp_bind, wp_modify. assert (E : cp_sub q = 3) by lia. rewrite E. change (3 =? 1) with false. change (3 =? 2) with false. change (3 =? 3) with true. cbn match.
             unfold set_pin_cmd, has_pin. apply wp_bind, wp_bind, wp_bind. unfold start. apply wp_read_attr. intros X r _ V. apply wp_ret.
             assert (Er : match r with Some [] => false | _ => true end = true) by (destruct r as [[|]|]; try reflexivity; destruct V as [V|V]; [discriminate|elim Hp; symmetry; exact V]). rewrite Er.
             apply wp_bind. cbn [negb guard]. apply wp_except. split; [eauto|]. split; [reflexivity|]. split; [reflexivity|]. constructor; [reflexivity|constructor]. }
           unfold wp in W. destruct (cbor_cmd _ _ _ _ _ _ _ _) as [[o s] e]. destruct W as ((w & ->) & H1 & H2 & H3). split; [exact H2|]. split; [exact H3|]. split; [intros _; exact H1|exact (KJ _ H1)].
        -- apply BC; [reflexivity|]. unfold cbor_cmd, cp_observer, ctap_client_pin. apply kp_bind; [apply kp_modify; ikeep|intros _].
           destruct (cp_sub q =? 1). { apply kp_bind; [apply kp_bind; [apply kp_read_attr|intros; apply kp_ret]|intros; apply kp_ret]. }
           destruct (cp_sub q =? 2). { apply kp_bind; [apply kp_get|intros; apply kp_ret]. }
           rewrite E3. destruct (cp_sub q =? 4) eqn:E4; [lia|]. destruct ((cp_sub q =? 5) || (cp_sub q =? 9)) eqn:E5; [lia|apply kp_ret].
    + destruct (is_reset q) eqn:E2.
      * destruct q; try discriminate. destruct (x_t1 x <=? 10000) eqn:Et.
        -- unfold cbor_body. assert (W : keep J (lf ll) (lf ll) (process_cbor K (x_nfc x) (x_t1 x) (x_t2 x) (x_junk x) (x_cap x) RReset)).
           { apply kp_process; [exact (fun _ _ H => H)|]. unfold cbor_cmd, cp_observer, ctap_reset_data. apply kp_bind; [apply kp_modify; exact (fun _ H => H)|intros _].
             apply kp_bind; [|intros _; apply kp_ret]. apply kp_bind; [apply kp_guard|intros _]. apply lf_install; [exact (fun _ _ H => H)|exact (fun _ _ H => H)|exact J3|exact (fun _ _ H => H)]. }
           eapply wp_mono; [apply W, G'|]. assert (Hr : resets x) by (right; split; [exact Ex|lia]).
           intros [[c v]| | |] s e (H1 & H2 & H3); (split; [exact H2|]; split; [exact H3|]; split; [intros N; elim (N Hr)|exact H1]).
        -- apply BC; [reflexivity|]. unfold cbor_cmd, cp_observer, ctap_reset_data. rewrite Et. apply kp_bind; [apply kp_modify; ikeep|intros _].
           intros s e H. exact H.
      * apply BC; [reflexivity|]. apply lf_cbor; try ikeep; assumption.
  - unfold body. rewrite Ex. apply B. apply kp_bind; [eapply kp_register|intros; apply kp_ret].
  - unfold body. rewrite Ex. apply B. apply kp_bind; [|intros; apply kp_ret]. eapply kp_auth. apply lf_count.
  - unfold body. rewrite Ex. assert (W : keep J (lf ll) (lf ll) (ctap_install K true ;;; ret 0x9000)) by (apply kp_bind; [apply lf_install; [exact (fun _ _ H => H)|exact (fun _ _ H => H)|exact J3|exact (fun _ _ H => H)]|intros; apply kp_ret]).
    eapply wp_mono; [apply W, G'|]. assert (Hr : resets x) by (left; exact Ex).
    intros [] s e (H1 & H2 & H3); (split; [exact H2|]; split; [exact H3|]; split; [intros N; elim (N Hr)|exact H1]).
  - unfold body. rewrite Ex. apply B. apply kp_bind; [|intros; apply kp_ret]. unfold install_private_key. apply kp_bind; [apply kp_guard|intros _]. apply kp_bind; [apply kp_modify; ikeep|intros _].
    apply kp_bind; [apply kp_must, lf_attr; discriminate|intros _; apply kp_must, lf_attr; discriminate].
  - unfold body. rewrite Ex. apply B. apply kp_bind; [|intros; apply kp_ret]. unfold install_cert. apply kp_bind; [apply kp_guard|intros _]. apply kp_must, lf_cert.
  - unfold body. rewrite Ex. apply B. apply kp_bind; [|intros; apply kp_ret]. unfold write_sm2_config. apply kp_bind; [apply kp_guard|intros _]. apply kp_bind; [apply lf_attr; discriminate|intros ok]. apply kp_bind; [apply kp_modify; ikeep|intros _; apply kp_guard].
Qed.
Lemma boot_left F flt rnd : left (d_fs (boot K F flt rnd)) = left F /\ cpc_ok (d_ram (boot K F flt rnd)).
Proof.
  unfold boot. pose proof (kp_run cpc_ok (lf (left F)) (lf (left F)) ltac:(auto) (ctap_install K false) ctap_boot F flt rnd []) as W.
  destruct (ctap_install K false ctap_boot (start F flt rnd [])) as [[o s] e]. assert (W' : cpc_ok s /\ lf (left F) (e_fs e) /\ Forall (lf (left F)) (e_log e)); [|split; apply W'].
  apply W; [|unfold cpc_ok; cbn; lia|reflexivity].
  apply lf_install; try exact (fun _ _ H => H). intros s0 _. unfold cpc_ok; cbn [c_cpc set_cpc]; lia.
Qed.
(** A first PIN *)
Lemma exec_sets d x : sets x -> left_ok (d_fs d) -> cpc_ok (d_ram d) ->
  let '(o, s, e) := exec K d x in left_ok (e_fs e) /\ Forall left_ok (e_log e) /\ cpc_ok s.
Proof.
  intros (q & Hx & Hq) HF Hs.
  pose proof (exec_wp K d x (fun _ s e => left_ok (e_fs e) /\ Forall left_ok (e_log e) /\ cpc_ok s)) as W. destruct (exec K d x) as [[o s] e]. apply W. rewrite Hx. clear W o s e.
  assert (G : kgood cpc_ok left_ok left_ok (d_ram d) (start (d_fs d) (x_flt x) (x_rnd x) (x_tch x))) by (split; [exact Hs|split; [exact HF|constructor; [exact HF|constructor]]]).
  assert (Hm : keep cpc_ok left_ok left_ok (cbor_cmd K (x_nfc x) (x_t1 x) (x_t2 x) (x_junk x) (RPin (inr q)))).
  { unfold cbor_cmd, cp_observer, ctap_client_pin. rewrite Hq. apply kp_bind; [apply kp_modify; exact (fun _ h => h)|intros _]. change (3 =? 1) with false. change (3 =? 2) with false. change (3 =? 3) with true. cbn match.
    apply kp_bind; [|intros _; apply kp_ret]. unfold set_pin_cmd, has_pin, cp_decapsulate. cbv zeta. apply kp_bind; [apply kp_bind; [apply kp_read_attr|intros; apply kp_ret]|intros b].
    apply kp_bind; [apply kp_guard|intros _]. apply kp_bind; [apply kp_bind; [apply kp_get|intros s; destruct (f_ecdh _ _ _); [apply kp_ret|apply kp_except]]|intros key].
    apply kp_bind; [apply kp_guard|intros _]. destruct (cp_decrypt _ _ _ _); [apply lo_new|apply kp_except]. }
  eapply wp_mono; [exact (kp_process K _ _ _ _ cpc_ok left_ok left_ok (fun _ _ H => H) (x_cap x) _ Hm _ _ G)|]. intros [[c v]| | |] s e (H1 & H2 & H3); auto.
Qed.
Lemma guesses_dec x : (exists q, guesses x q) \/ (forall q, ~ guesses x q).
Proof.
  destruct (x_op x) as [[| | | |[|q]| | | | | ]| | | | | |] eqn:E; try (right; intros q (H & _); rewrite E in H; discriminate).
  destruct (Z.eq_dec (cp_sub q) 4); [left; exists q; split; auto|]. destruct (Z.eq_dec (cp_sub q) 5); [left; exists q; split; auto|]. destruct (Z.eq_dec (cp_sub q) 9); [left; exists q; split; auto|].
  right. intros q' (H & H'). rewrite E in H. injection H as <-. tauto.
Qed.
Lemma sets_dec d x : sets x /\ pin_of (d_fs d) = Some [] \/ ~ (sets x /\ pin_of (d_fs d) = Some []).
Proof.
  destruct (pin_of (d_fs d)) as [[|]|]; try (right; intros (_ & H); discriminate).
  destruct (x_op x) as [[| | | |[|q]| | | | | ]| | | | | |] eqn:E; try (right; intros ((q' & H & _) & _); rewrite E in H; discriminate).
  destruct (Z.eq_dec (cp_sub q) 3); [left; split; [exists q; auto|reflexivity]|]. right. intros ((q' & H & H') & _). rewrite E in H. injection H as <-. auto.
Qed.
Definition inv (d : dev) : Prop := left_ok (d_fs d) /\ cpc_ok (d_ram d).
(** The tries of this power cycle *)
Definition now (d : dev) : Z := if left (d_fs d) =? 0 then 0 else c_cpc (d_ram d).
Definition fewer (d : dev) (v : ev) (o : option ans) (d' : dev) : Prop :=
  left (d_fs d') <= left (d_fs d) /\ (missed K (d, v, o) -> left (d_fs d') + 1 <= left (d_fs d)) /\
  (same_power (d, v, o) -> now d' <= now d /\ (missed K (d, v, o) -> now d' + 1 <= now d)).
Lemma step_sum d v o d' : inv d -> ev_ok d v -> step K d v = Some (o, d') -> inv d' /\ (~ renews K (d, v, o) -> fewer d v o d').
Proof.
  intros (HF & Hs) Hv H. unfold left_ok, cpc_ok in HF, Hs. destruct v as [x|x n flt rnd|F]; cbn [step] in H.
  - destruct (guesses_dec x) as [(q & Hq)|Hg].
    + pose proof (exec_guess d x q Hq) as W. destruct (exec K d x) as [[[r|] s] e]; [|discriminate]. injection H as <- <-. cbv zeta in W.
      destruct W as [(H1 & H2 & H3 & c & H4 & H5 & H6)|[(Ht & F1 & c & H1 & H2 & H3 & H4 & H5)|(Ht & Hr & F1 & H1 & H2 & H3)]].
      * split. { unfold inv, left_ok, cpc_ok. cbn [d_fs d_ram]. rewrite H1, H2. auto. }
        intros _. unfold fewer, now. cbn [d_fs d_ram]. rewrite H1, H2. injection H4 as ->.
        assert (N : ~ missed K (d, Do x, Some (ACbor c None))) by (intros (_ & T & B); exact (H6 T B)). split; [lia|]. split; [tauto|]. split; [lia|tauto].
      * destruct Ht as (T1 & T2). assert (E1 : left F1 = left (d_fs d) - 1) by (rewrite H1; unfold u8; apply Z.mod_small; lia).
        split. { unfold inv, left_ok, cpc_ok. cbn [d_fs d_ram]. rewrite H2. split; [lia|]. destruct H5 as [(_ & ->)|(_ & [(_ & _ & ->)|(_ & ->)])]; [lia..|]. unfold u8. rewrite Z.mod_small; lia. }
        intros _. injection H4 as ->. unfold fewer, now. cbn [d_fs d_ram]. rewrite H2, E1. split; [lia|]. split; [lia|]. intros _.
        destruct (left (d_fs d) =? 0) eqn:Z0; [lia|]. destruct H5 as [(-> & ->)|(_ & [(-> & E2 & ->)|(_ & ->)])].
        -- split; [destruct (left (d_fs d) - 1 =? 0); [clear - Hs; lia|clear; lia]|]. intros (_ & _ & [B|[B|B]]); discriminate.
        -- rewrite E2. cbn [Z.sub Z.eqb Z.add Z.opp Z.pos_sub]. change (1 - 1 =? 0) with true. cbn match. clear - Hs T2; lia.
        -- unfold u8. rewrite Z.mod_small by lia. destruct (left (d_fs d) - 1 =? 0); clear - Hs T2; lia.
      * split; [split; [apply H3, HF|apply H3, HF]|]. intros N. elim N. left. eauto.
    + destruct (sets_dec d x) as [Hset|Hset].
      * pose proof (exec_sets d x (proj1 Hset) HF Hs) as W. destruct (exec K d x) as [[[r|] s] e]; [|discriminate]. injection H as <- <-. destruct W as (W1 & W2 & W3).
        split; [split; assumption|]. intros N. elim N. right. exact Hset.
      * pose proof (exec_rest d x Hg Hset) as W. destruct (exec K d x) as [[[r|] s] e]; [|discriminate]. injection H as <- <-. destruct W as (W1 & W2 & W3 & W4).
        split; [split; [unfold left_ok; cbn [d_fs]; rewrite W1; exact HF|apply W4, Hs]|]. intros _.
        assert (N : ~ missed K (d, Do x, Some r)) by (destruct r; [intros ((q & Q1) & _); exact (Hg q Q1)|exact (fun h => h)]).
        unfold fewer, now. cbn [d_fs d_ram]. rewrite W1. split; [lia|]. split; [tauto|]. intros P. rewrite (W3 P). split; [lia|tauto].
  - assert (D : exec K d x = exec K d x) by reflexivity. unfold fewer, missed, image. destruct (guesses_dec x) as [(q & Hq)|Hg].
    + pose proof (exec_guess d x q Hq) as W. destruct (exec K d x) as [[r s] e]. injection H as <- <-. cbv zeta in W. destruct (boot_left (nth n (e_log e) (e_fs e)) flt rnd) as (B1 & B2).
      unfold inv, left_ok. rewrite B1.
      destruct W as [(H1 & H2 & H3 & _)|[(Ht & F1 & c & H1 & H2 & H3 & H4 & H5)|(Ht & Hr & F1 & H1 & H2 & H3)]].
      * assert (E : nth n (e_log e) (e_fs e) = d_fs d) by (rewrite H2, H3; destruct n as [|[|n]]; reflexivity). rewrite E in *. split; [split; [exact HF|exact B2]|]. intros _. split; [lia|]. split; [lia|]. intros [].
      * destruct Ht as (T1 & T2). assert (E1 : left F1 = left (d_fs d) - 1) by (rewrite H1; unfold u8; apply Z.mod_small; lia).
        assert (E : nth n (e_log e) (e_fs e) = d_fs d \/ nth n (e_log e) (e_fs e) = F1) by (rewrite H2, H3; destruct n as [|[|[|n]]]; cbn; auto).
        destruct E as [E|E]; rewrite E in *; (split; [split; [lia|exact B2]|]; intros _; split; [lia|]; split; [lia|intros []]).
      * assert (L : left_ok (nth n (e_log e) (e_fs e))) by (apply Forall_nth_default; apply (H3 HF)). split; [split; [exact L|exact B2]|]. intros N. elim N. left. eauto.
    + destruct (sets_dec d x) as [Hset|Hset].
      * pose proof (exec_sets d x (proj1 Hset) HF Hs) as W. destruct (exec K d x) as [[r s] e]. injection H as <- <-. destruct W as (W1 & W2 & W3). destruct (boot_left (nth n (e_log e) (e_fs e)) flt rnd) as (B1 & B2).
        split; [split; [unfold left_ok; rewrite B1; apply (Forall_nth_default left_ok); assumption|exact B2]|]. intros N. elim N. right. exact Hset.
      * pose proof (exec_rest d x Hg Hset) as W. destruct (exec K d x) as [[r s] e]. injection H as <- <-. destruct W as (W1 & W2 & W3 & W4). destruct (boot_left (nth n (e_log e) (e_fs e)) flt rnd) as (B1 & B2).
        assert (E : left (nth n (e_log e) (e_fs e)) = left (d_fs d)) by (apply (Forall_nth_default (fun F => left F = left (d_fs d))); assumption).
        unfold inv, left_ok. rewrite B1, E. split; [split; [exact HF|exact B2]|]. intros _. split; [lia|]. split; [lia|]. intros [].
  - injection H as <- <-. assert (E : left F = left (d_fs d)) by (unfold left, fattr; rewrite (Hv "ctap_cert") by (cbn; tauto); reflexivity).
    unfold inv, left_ok, fewer, now. cbn [d_fs d_ram]. rewrite E. split; [auto|]. intros _. split; [lia|]. split; [intros []|]. intros _. split; [lia|intros []].
Qed.
Lemma hist_inv d0 tr d : inv d0 -> hist K d0 tr d -> inv d.
Proof. intros H0 H. induction H as [d|d0 tr d v o d' H IH Hv Hs]; [exact H0|]. exact (proj1 (step_sum d v o d' (IH H0) Hv Hs)). Qed.
Lemma count_snoc Q l e n : count Q (l ++ [e]) n -> exists m, count Q l m /\ (n = m /\ ~ Q e \/ n = m + 1 /\ Q e).
Proof.
  revert n. induction l as [|a l IH]; intros n H; cbn [app] in H.
  - inversion H as [|? ? k He Hl|? ? k He Hl]; subst; inversion Hl; subst; exists 0; (split; [constructor|]); [right; auto|left; auto].
  - inversion H as [|? ? k He Hl|? ? k He Hl]; subst; destruct (IH _ Hl) as (m & Hm & [(-> & N)|(-> & N)]).
    + exists (m + 1). split; [constructor; assumption|left; auto].
    + exists (m + 1). split; [constructor; assumption|right; auto].
    + exists m. split; [constructor; assumption|left; auto].
    + exists m. split; [constructor; assumption|right; auto].
Qed.
Lemma stretch d0 tr d n : inv d0 -> hist K d0 tr d -> Forall (fun e => ~ renews K e) tr -> count (missed K) tr n ->
  n + left (d_fs d) <= left (d_fs d0) /\ (Forall same_power tr -> n + now d <= now d0).
Proof.
  intros H0 H. revert n. induction H as [d|d0 tr d v o d' H IH Hv Hs]; intros n Hr Hc.
  - inversion Hc; subst. lia.
  - apply Forall_app in Hr. destruct Hr as (Hr & Hr1). inversion Hr1 as [|? ? Hr2 _]; subst. destruct (count_snoc _ _ _ _ Hc) as (m & Hm & Hn).
    destruct (IH H0 m Hr Hm) as (I1 & I2). destruct (step_sum d v o d' (hist_inv _ _ _ H0 H) Hv Hs) as (_ & S). destruct (S Hr2) as (S1 & S2 & S3).
    split; [destruct Hn as [(-> & _)|(-> & Q1)]; [|specialize (S2 Q1)]; lia|]. intros Hp. apply Forall_app in Hp. destruct Hp as (Hp & Hp1). inversion Hp1 as [|? ? Hp2 _]; subst.
    specialize (I2 Hp). destruct (S3 Hp2) as (S4 & S5). destruct Hn as [(-> & _)|(-> & Q1)]; [|specialize (S5 Q1)]; lia.
Qed.
Lemma now_3 d : inv d -> now d <= 3.
Proof. intros (_ & H). unfold now, cpc_ok in *. destruct (_ =? 0); lia. Qed.
(** From any device with at most 8 tries left and at most 3 in this power cycle: in a stretch of the history without a right guess and
    without a first PIN, at most 8 wrong guesses are evaluated, whatever else happens (power cuts, resets, storage errors), and never more
    than were left at its beginning; *)
Theorem C49_at_most_eight d0 tr1 tr2 d n :
  0 <= left (d_fs d0) <= 8 -> 0 <= c_cpc (d_ram d0) <= 3 -> hist K d0 (tr1 ++ tr2) d -> Forall (fun e => ~ renews K e) tr2 -> count (missed K) tr2 n -> n <= 8.
Proof.
  intros H1 H2 H Hr Hc. apply hist_app in H. destruct H as (d1 & Ha & Hb). assert (I1 : inv d1) by (eapply hist_inv; [split; eassumption|exact Ha]).
  destruct (stretch d1 tr2 d n I1 Hb Hr Hc) as (S & _). assert (I2 := hist_inv _ _ _ I1 Hb). destruct I1 as (A & _), I2 as (B & _). unfold left_ok in *. lia.
Qed.
Theorem C49_no_more_than_left d0 tr d n :
  0 <= left (d_fs d0) <= 8 -> 0 <= c_cpc (d_ram d0) <= 3 -> hist K d0 tr d -> Forall (fun e => ~ renews K e) tr -> count (missed K) tr n ->
  n + left (d_fs d) <= left (d_fs d0).
Proof. intros H1 H2 H Hr Hc. apply (stretch d0 tr d n (conj H1 H2) H Hr Hc). Qed.
(** at most 3 of them without a power cycle or reset; *)
Theorem C49_three_per_power_cycle d0 tr1 tr2 d n :
  0 <= left (d_fs d0) <= 8 -> 0 <= c_cpc (d_ram d0) <= 3 -> hist K d0 (tr1 ++ tr2) d ->
  Forall (fun e => ~ renews K e) tr2 -> Forall same_power tr2 -> count (missed K) tr2 n -> n <= 3.
Proof.
  intros H1 H2 H Hr Hp Hc. apply hist_app in H. destruct H as (d1 & Ha & Hb). assert (I1 : inv d1) by (eapply hist_inv; [split; eassumption|exact Ha]).
  destruct (stretch d1 tr2 d n I1 Hb Hr Hc) as (_ & S). specialize (S Hp). assert (N1 := now_3 d1 I1). assert (I2 := hist_inv _ _ _ I1 Hb).
  assert (0 <= now d) by (unfold now; destruct I2 as (_ & B); unfold cpc_ok in B; destruct (_ =? 0); lia). lia.
Qed.
(** when no tries are left even the right PIN is refused, and nothing changes; *)
Theorem C49_blocked_refuses_all d x q : guesses x q -> left (d_fs d) = 0 \/ c_cpc (d_ram d) = 0 ->
  let '(o, s, e) := exec K d x in exists c, c <> 0 /\ o = Some (ACbor c None) /\ e_fs e = d_fs d /\ c_cpc s = c_cpc (d_ram d).
Proof.
  intros Hq Hb. pose proof (exec_guess d x q Hq) as W. destruct (exec K d x) as [[o s] e]. cbv zeta in W.
  destruct W as [(H1 & H2 & H3 & c & -> & H5 & H6)|[((T1 & T2) & _)|((T1 & T2) & _)]]; [|lia..]. exists c. auto.
Qed.
(** a command that carries the PIN succeeds only with the right one, on a device that takes guesses. *)
Theorem C49_success_needs_the_pin d x q v s e : guesses x q -> exec K d x = (Some (ACbor 0 v), s, e) -> taking d /\ right K d q.
Proof.
  intros Hq E. pose proof (exec_guess d x q Hq) as W. rewrite E in W. cbv zeta in W.
  destruct W as [(H1 & H2 & H3 & c & H4 & H5 & H6)|[(Ht & F1 & c & H1 & H2 & H3 & H4 & H5)|(Ht & Hr & _)]]; [| |auto].
  - injection H4 as <- _. elim (H5 eq_refl).
  - injection H4 as <- _. destruct H5 as [(B & _)|(_ & [(B & _)|([B|B] & _)])]; discriminate.
Qed.
End X.
Print Assumptions C49_at_most_eight.
Print Assumptions C49_no_more_than_left.
Print Assumptions C49_three_per_power_cycle.
Print Assumptions C49_blocked_refuses_all.
Print Assumptions C49_success_needs_the_pin.

(** ** No guess is looked at before its try is taken off *)
Section NoLook.
Variable K : fcrypto.
Definition rel (e f : env) : Prop :=
  but_pin (e_fs e) (e_fs f) /\ e_flt e = e_flt f /\ e_rnd e = e_rnd f /\ e_tch e = e_tch f /\ e_out e = e_out f.
(** The same result, without a write *)
Definition ri {A} (m : Mc A) : Prop := forall s e f, rel e f ->
  let '(o1, s1, e1) := m s e in let '(o2, s2, f1) := m s f in
  o1 = o2 /\ s1 = s2 /\ rel e1 f1 /\ e_fs e1 = e_fs e /\ e_fs f1 = e_fs f /\ e_log e1 = e_log e /\ e_log f1 = e_log f.
Lemma ri_bind {A B} (m : Mc A) (k : A -> Mc B) : ri m -> (forall a, ri (k a)) -> ri (bind m k).
Proof.
  intros Hm Hk s e f E. specialize (Hm s e f E). unfold bind. destruct (m s e) as [[o1 s1] e1], (m s f) as [[o2 s2] f1].
  destruct Hm as (-> & <- & E' & A1 & A2 & A3 & A4). destruct o2 as [a|w| |]; [|auto 10..]. specialize (Hk a s1 e1 f1 E').
  destruct (k a s1 e1) as [[o3 s3] e3], (k a s1 f1) as [[o4 s4] f3]. destruct Hk as (H1 & H2 & H3 & H4 & H5 & H6 & H7). split; [exact H1|]. split; [exact H2|]. split; [exact H3|]. split; [congruence|]. split; [congruence|]. split; congruence.
Qed.
Lemma ri_same {A} (m : Mc A) : (forall s, exists o s', forall e, m s e = (o, s', e)) -> ri m.
Proof. intros H s e f E. destruct (H s) as (o & s' & H'). rewrite !H'. auto 10. Qed.
Lemma ri_pop e f : rel e f -> fst (pop_fault e) = fst (pop_fault f) /\ rel (snd (pop_fault e)) (snd (pop_fault f)) /\
  e_fs (snd (pop_fault e)) = e_fs e /\ e_fs (snd (pop_fault f)) = e_fs f /\ e_log (snd (pop_fault e)) = e_log e /\ e_log (snd (pop_fault f)) = e_log f.
Proof. intros (E1 & E2 & E3 & E4 & E5). unfold pop_fault. rewrite <- E2. destruct (e_flt e) eqn:Q; cbn [fst snd e_fs e_log]; (split; [reflexivity|]; split; [|auto]); unfold rel; cbn [e_fs e_flt e_rnd e_tch e_out]; (split; [exact E1|]); split; try congruence; auto. Qed.
Lemma ri_read a : a <> 2 -> ri (read_attr CTAP_CERT_FILE a).
Proof.
  intros N s e f E. destruct (ri_pop e f E) as (P1 & P2 & P3 & P4 & P5 & P6). unfold read_attr. destruct (pop_fault e) as [x e0], (pop_fault f) as [y f0]. cbn [fst snd] in *. subst y.
  destruct x; auto 10. destruct P2 as ((B1 & ff & g & B2 & B3 & B4 & B5 & B6) & B7). change CTAP_CERT_FILE with "ctap_cert". rewrite B2, B3. rewrite (B5 a N).
  split; [reflexivity|]. split; [reflexivity|]. split; [split; [split; [exact B1|exists ff, g; auto 10]|exact B7]|auto].
Qed.
Lemma ri_has_pin : ri has_pin.
Proof.
  intros s e f E. destruct (ri_pop e f E) as (P1 & P2 & P3 & P4 & P5 & P6). unfold has_pin, bind, read_attr. destruct (pop_fault e) as [x e0], (pop_fault f) as [y f0]. cbn [fst snd] in *. subst y.
  destruct x; cbn; auto 10. destruct P2 as ((B1 & ff & g & B2 & B3 & B4 & B5 & v & w & B6 & B7 & B8 & B9) & B10). change CTAP_CERT_FILE with "ctap_cert" in *. change PIN_ATTR with 2. rewrite B2, B3, B6, B8.
  destruct v; [congruence|]. destruct w; [congruence|].
  split; [reflexivity|]. split; [reflexivity|]. split; [split; [split; [exact B1|exists ff, g; eauto 15]|exact B10]|auto].
Qed.
Ltac rs := apply ri_same; let s := fresh in intros s; do 2 eexists; reflexivity.
Lemma ri_guard b w : ri (guard b w). Proof. destruct b; rs. Qed.
Lemma ri_left : ri pin_retries_left.
Proof.
  unfold pin_retries_left, got, get_pin_retries. apply ri_bind; [apply ri_has_pin|intros b]. apply ri_bind; [apply ri_guard|intros _].
  apply ri_bind; [apply ri_bind; [apply ri_bind; [apply ri_read; discriminate|intros r; rs]|intros [r|]; rs]|intros r].
  apply ri_bind; [apply ri_guard|intros _]. apply ri_bind; [rs|intros s]. apply ri_bind; [apply ri_guard|intros _]. rs.
Qed.
Lemma ri_decaps p n : ri (cp_decapsulate K p n).
Proof. apply ri_same. intros s. unfold cp_decapsulate, bind, get. destruct (f_ecdh K _ _); do 2 eexists; reflexivity. Qed.
(** The first write is the one that takes off the try; before it nothing depends on the PIN. *)
Definition taken (r : Z) (e e1 : env) : Prop := exists L, e_log e1 = L ++ fsetattr (e_fs e) "ctap_cert" 3 [u8 r] :: e_log e.
Definition firstr (r : Z) {A} (m : Mc A) : Prop := forall s e f, rel e f ->
  let '(o1, s1, e1) := m s e in let '(o2, s2, f1) := m s f in
  (o1 = o2 /\ s1 = s2 /\ e_fs e1 = e_fs e /\ e_fs f1 = e_fs f /\ e_log e1 = e_log e /\ e_log f1 = e_log f) \/ (taken r e e1 /\ taken r f f1).
Lemma firstr_pre r {A B} (m : Mc A) (k : A -> Mc B) : ri m -> (forall a, firstr r (k a)) -> firstr r (bind m k).
Proof.
  intros Hm Hk s e f E. specialize (Hm s e f E). unfold bind. destruct (m s e) as [[o1 s1] e1], (m s f) as [[o2 s2] f1].
  destruct Hm as (-> & <- & E' & A1 & A2 & A3 & A4). destruct o2 as [a|w| |]; [|left; auto 10..]. specialize (Hk a s1 e1 f1 E').
  destruct (k a s1 e1) as [[o3 s3] e3], (k a s1 f1) as [[o4 s4] f3]. destruct Hk as [(H1 & H2 & H3 & H4 & H5 & H6)|(H1 & H2)].
  - left. split; [exact H1|]. split; [exact H2|]. split; [congruence|]. split; [congruence|]. split; congruence.
  - right. unfold taken in *. rewrite A1, A3 in H1. rewrite A2, A4 in H2. auto.
Qed.
Lemma firstr_do r {A} (k : unit -> Mc A) : (forall a, ext (k a)) -> firstr r (bind (set_pin_retries r) k).
Proof.
  intros Hk s e f E. destruct (ri_pop e f E) as (P1 & P2 & P3 & P4 & P5 & P6). unfold set_pin_retries, must, write_attr, bind. destruct (pop_fault e) as [x e0], (pop_fault f) as [y f0]. cbn [fst snd] in *. subst y.
  destruct x; cbn; try (left; auto 10).
  destruct P2 as ((B1 & ff & g & B2 & B3 & B4 & B5 & B6) & B7). change CTAP_CERT_FILE with "ctap_cert". rewrite B2, B3. cbn [guard]. unfold ret. cbv beta iota.
  assert (X : forall e0 ff, e_fs e0 "ctap_cert" = Some ff -> forall s', let '(_, _, e1) := k tt s' (commit (fset (e_fs e0) "ctap_cert" (Some (mkF (f_data ff) (aset (f_attr ff) 3 [u8 r])))) e0) in taken r e0 e1).
  { intros e' f' Ef s'. unfold taken. specialize (Hk tt (fsetattr (e_fs e') "ctap_cert" 3 [u8 r] :: e_log e') s' (commit (fset (e_fs e') "ctap_cert" (Some (mkF (f_data f') (aset (f_attr f') 3 [u8 r])))) e')).
    unfold wp in Hk. destruct (k tt s' _) as [[o' s''] e'']. apply Hk. exists []. cbn [commit e_log app]. unfold fsetattr. rewrite Ef. reflexivity. }
  pose proof (X e0 ff B2 s) as X1. pose proof (X f0 g B3 s) as X2. change PIN_CTR_ATTR with 3.
  destruct (k tt s (commit _ e0)) as [[o1 s1] e1]. destruct (k tt s (commit _ f0)) as [[o2 s2] f1]. right. unfold taken in *. rewrite P3, P5 in X1. rewrite P4, P6 in X2. auto.
Qed.
Lemma firstr_same r {A} (m : Mc A) : ri m -> firstr r m.
Proof. intros H s e f E. specialize (H s e f E). destruct (m s e) as [[o1 s1] e1], (m s f) as [[o2 s2] f1]. left. tauto. Qed.
Lemma ext_read_attr p a : ext (read_attr p a).
Proof. apply ext_same. intros s e. unfold read_attr, pop_fault. destruct (e_flt e) as [|[] l]; cbn; try reflexivity; destruct (e_fs e p); reflexivity. Qed.
Ltac xt := repeat lazymatch goal with
  | |- ext (guard _ _) => apply ext_guard
  | |- ext (bind _ _) => apply ext_bind; [|intros ?]
  | |- ext (must _) => unfold must
  | |- ext (got _) => unfold got
  | |- ext (write_attr _ _ _) => apply ext_write
  | |- ext (read_attr _ _) => apply ext_read_attr
  | |- ext (new_pin _ _) => apply ext_new
  | |- ext (match ?x with _ => _ end) => destruct x
  | |- ext _ => apply ext_same; intros ? ?; reflexivity
  end.
Lemma firstr_assoc r {A B C} (m : Mc A) (k : A -> Mc B) (k' : B -> Mc C) : firstr r (bind m (fun a => bind (k a) k')) -> firstr r (bind (bind m k) k').
Proof.
  assert (X : forall s e, bind (bind m k) k' s e = bind m (fun a => bind (k a) k') s e) by (intros s e; unfold bind; destruct (m s e) as [[[]]]; reflexivity).
  intros H s e f E. specialize (H s e f E). rewrite !X. exact H.
Qed.
Lemma firstr_check key h proto r b {A} (k : unit -> Mc A) : (forall a, ext (k a)) -> firstr r (bind (check_pin K key h proto r b) k).
Proof.
  intros Hk. unfold check_pin. apply firstr_assoc, firstr_do. intros _. apply ext_bind; [|exact Hk]. unfold verify_pin_hash, cp_regenerate. xt.
Qed.
Definition firstleft {A} (m : Mc A) : Prop := forall s e f, rel e f ->
  let '(o1, s1, e1) := m s e in let '(o2, s2, f1) := m s f in
  (o1 = o2 /\ s1 = s2 /\ e_fs e1 = e_fs e /\ e_fs f1 = e_fs f /\ e_log e1 = e_log e /\ e_log f1 = e_log f) \/
  (left (e_fs e) <> 0 /\ taken (left (e_fs e) - 1) e e1 /\ taken (left (e_fs e) - 1) f f1).
Lemma first_left {A} (k : Z -> Mc A) : (forall r, firstr r (k r)) -> firstleft (bind pin_retries_left k).
Proof.
  intros Hk s e f E. pose proof (ri_left s e f E) as Hm. destruct e as [F L X Rn T O].
  assert (W : wp pin_retries_left (fun o _ _ => forall r, o = Ret r -> r = left F - 1 /\ left F <> 0) s (mkE F L X Rn T O)).
  { apply (wp_left 0); [intros c X' _ _ r Er; discriminate|]. intros N _ _ X' r Er. injection Er as <-. auto. }
  unfold wp in W. unfold bind. destruct (pin_retries_left s _) as [[o1 s1] e1]. destruct (pin_retries_left s f) as [[o2 s2] f1].
  destruct Hm as (-> & <- & E' & A1 & A2 & A3 & A4). destruct o2 as [r|w| |]; [|left; auto 10..].
  destruct (W r eq_refl) as (-> & Nz).
  specialize (Hk (left F - 1) s1 e1 f1 E'). destruct (k (left F - 1) s1 e1) as [[o3 s3] e3], (k (left F - 1) s1 f1) as [[o4 s4] f3].
  destruct Hk as [(H1 & H2 & H3 & H4 & H5 & H6)|(H1 & H2)].
  - left. split; [exact H1|]. split; [exact H2|]. split; [congruence|]. split; [congruence|]. split; congruence.
  - right. unfold taken in *. rewrite A1, A3 in H1. rewrite A2, A4 in H2. auto.
Qed.
Lemma first_token t2 q : firstleft (get_token_cmd K t2 q).
Proof.
  unfold get_token_cmd. apply first_left. intros r. apply firstr_pre; [apply ri_decaps|intros key]. apply firstr_check. intros _.
  unfold set_pin_retries, must, cp_reset_token, cp_begin_using, cp_set_permission, cp_associate_rp, cp_encrypt. xt.
Qed.
Lemma first_change q : firstleft (change_pin_cmd K q).
Proof.
  unfold change_pin_cmd. apply first_left. intros r. apply firstr_pre; [apply ri_decaps|intros key]. cbv zeta. apply firstr_pre; [apply ri_guard|intros _]. apply firstr_check. intros _. xt.
Qed.
Lemma fl_then {A B} (m : Mc A) (k : A -> B) : firstleft m -> firstleft (bind m (fun a => ret (k a))).
Proof.
  intros Hm s e f E. specialize (Hm s e f E). unfold bind, ret. destruct (m s e) as [[o1 s1] e1], (m s f) as [[o2 s2] f1].
  destruct Hm as [(-> & <- & H)|H].
  - destruct o2; left; auto.
  - destruct o1, o2; right; exact H.
Qed.
(** Two devices that differ only in their PINs and get the same command with a guess: either they answer the same, end in the same state
    and have changed nothing in their storage, or both have first of all stored one try less. *)
Theorem C49_try_is_taken_first x q s F G : guesses x q -> but_pin F G -> 0 <= left F <= 8 ->
  let '(o1, s1, e1) := exec K (mkD s F) x in let '(o2, s2, e2) := exec K (mkD s G) x in
  (o1 = o2 /\ s1 = s2 /\ e_log e1 = [F] /\ e_log e2 = [G]) \/
  (exists L1 F1 L2 G1, e_log e1 = L1 ++ [F1; F] /\ left F1 = left F - 1 /\ e_log e2 = L2 ++ [G1; G] /\ left G1 = left G - 1).
Proof.
  intros (Hx & Hq) HB Hl.
  assert (FL : firstleft (ctap_client_pin K (x_t2 x) (inr q))).
  { unfold ctap_client_pin. destruct Hq as [Hq|[Hq|Hq]]; rewrite Hq.
    - change (4 =? 1) with false. change (4 =? 2) with false. change (4 =? 3) with false. change (4 =? 4) with true. cbn match. apply (fl_then _ (fun _ => None)), first_change.
    - change (5 =? 1) with false. change (5 =? 2) with false. change (5 =? 3) with false. change (5 =? 4) with false. change ((5 =? 5) || (5 =? 9)) with true. cbn match. apply (fl_then _ Some), first_token.
    - change (9 =? 1) with false. change (9 =? 2) with false. change (9 =? 3) with false. change (9 =? 4) with false. change ((9 =? 5) || (9 =? 9)) with true. cbn match. apply (fl_then _ Some), first_token. }
  unfold exec. rewrite Hx. unfold cbor_body, process_cbor. cbn [d_ram d_fs].
  change (cbor_cmd K (x_nfc x) (x_t1 x) (x_t2 x) (x_junk x) (RPin (inr q))) with (cp_observer (x_t1 x) ;;; ctap_client_pin K (x_t2 x) (inr q)).
  unfold cp_observer at 1 2. unfold modify, bind.
  assert (E : rel (start F (x_flt x) (x_rnd x) (x_tch x)) (start G (x_flt x) (x_rnd x) (x_tch x))) by (split; [exact HB|auto]).
  match goal with |- context [ctap_client_pin K (x_t2 x) (inr q) ?s' (start F _ _ _)] => specialize (FL s' _ _ E) end.
  destruct (ctap_client_pin K (x_t2 x) (inr q) _ (start F _ _ _)) as [[o1 s1] e1]. destruct (ctap_client_pin K (x_t2 x) (inr q) _ (start G _ _ _)) as [[o2 s2] e2].
  destruct FL as [(-> & <- & _ & _ & H3 & H4)|(H1 & (L1 & H2) & (L2 & H3))]; cbn [start e_fs e_log] in *.
  - destruct o2 as [v|c| |]; try (left; auto). destruct (_ <=? x_cap x); left; auto.
  - assert (HF : F "ctap_cert" <> None /\ G "ctap_cert" <> None /\ left G = left F).
    { destruct HB as (_ & f & g & B2 & B3 & _ & B5 & _). unfold left, fattr. rewrite B2, B3, (B5 3) by discriminate. split; [discriminate|]. split; [discriminate|reflexivity]. }
    destruct HF as (HF1 & HF2 & HF3).
    destruct o1 as [v1|c1| |]; [destruct (_ <=? x_cap x)| | |]; (destruct o2 as [v2|c2| |]; [destruct (zlen (message (0, v2)) <=? x_cap x)| | |]).
    all: right; eexists L1, _, L2, _; split; [exact H2|]; split; [rewrite left_write by exact HF1; cbn [Z.eqb Pos.eqb nth]; unfold u8; apply Z.mod_small; lia|];
      split; [exact H3|]; rewrite left_write by exact HF2; cbn [Z.eqb Pos.eqb nth]; rewrite HF3; unfold u8; apply Z.mod_small; lia.
Qed.
End NoLook.
Print Assumptions C49_try_is_taken_first.

(** ** Examples *)
(** Requests for the toy cryptography, with a platform key of ones *)
Definition toy_z (d : dev) : bytes := map (fun b => Z.land (b + 1) 255) (fst (t_ka (c_tok (d_ram d)))).
Definition toy_enc (d : dev) (m : bytes) : bytes := let k := nth 0 (toy_sha (toy_z d)) 0 in map (fun b => Z.land (b + k) 255) m.
Definition set_req (d : dev) (p : bytes) : cpreq :=
  let c := toy_enc d (attr_buf 64 p) in mkCp 3 1 (repeat 1 64) (firstn 16 (toy_sha (toy_sha (toy_z d) ++ c))) c [] 0 None.
Definition token_req (d : dev) (p : bytes) : cpreq := mkCp 5 1 (repeat 1 64) [] [] (toy_enc d (firstn 16 (toy_sha p))) 0 None.
Definition change_req (d : dev) (p p' : bytes) : cpreq :=
  let c := toy_enc d (attr_buf 64 p') in let h := toy_enc d (firstn 16 (toy_sha p)) in
  mkCp 4 1 (repeat 1 64) (firstn 16 (toy_sha (toy_sha (toy_z d) ++ c ++ h))) c h 0 None.
Definition pin_at (t : Z) (q : cpreq) : ev := do_at t (OCbor (RPin (inr q))).
Definition is_guess (q : cpreq) : bool := (cp_sub q =? 4) || (cp_sub q =? 5) || (cp_sub q =? 9).
Definition takingb (d : dev) : bool := negb (left (d_fs d) =? 0) && negb (c_cpc (d_ram d) =? 0).
Definition rightb (d : dev) (q : cpreq) : bool := match guess toyf d q, pin_of (d_fs d) with Some h, Some v => beqb h (attr_buf 16 v) | _, _ => false end.
Definition missedb (e : entry) : bool :=
  match e with
  | (d, Do x, Some (ACbor c _)) => match x_op x with OCbor (RPin (inr q)) => is_guess q && takingb d && ((c =? 0x31) || (c =? 0x32) || (c =? 0x34)) | _ => false end
  | _ => false
  end.
Definition wrongb (e : entry) : bool :=
  match e with
  | (d, Do x, _) => match x_op x with OCbor (RPin (inr q)) => is_guess q && negb (rightb d q) | _ => false end
  | _ => false
  end.
Lemma missedb_ok e : missedb e = true -> missed toyf e.
Proof.
  destruct e as [[d [x|x n f r|F]] [[c v|r']|]]; cbn [missedb missed]; try discriminate. destruct (x_op x) as [[[]|[]| | |[|q]| |[]| |[]| ]| | | | | | ] eqn:E; try discriminate.
  unfold is_guess, takingb, guesses, taking. intros H. split; [exists q; split; [exact E|lia]|lia].
Qed.
Lemma wrongb_ok e : wrongb e = true -> ~ renews toyf e /\ same_power e.
Proof.
  destruct e as [[d [x|x n f r|F]] o]; cbn [wrongb renews same_power]; try discriminate. destruct (x_op x) as [[[]|[]| | |[|q]| |[]| |[]| ]| | | | | | ] eqn:E; try discriminate.
  unfold is_guess, rightb. intros H. split.
  - intros [(q' & (G1 & G2) & _ & h & v & R1 & R2 & R3)|((q' & S1 & S2) & _)].
    + rewrite E in G1. injection G1 as <-. rewrite R1, R2, R3, beqb_refl in H. lia.
    + rewrite E in S1. injection S1 as <-. lia.
  - unfold resets. rewrite E. intros [H1|(H1 & _)]; discriminate.
Qed.
Definition case49 : list ev := pin_at 20 (set_req fresh_dev [49; 50; 51; 52]) :: map (fun p => pin_at 30 (token_req fresh_dev p)) [[1]; [2]; [49; 50; 51]].
(** A PIN is set and three wrong guesses follow: all are evaluated, and then the device takes no more. *)
Example C49_case : left (d_fs fresh_dev) = 0 /\ c_cpc (d_ram fresh_dev) = 3 /\ exists tr1 tr2 d, hist toyf fresh_dev (tr1 ++ tr2) d /\
  Forall (fun e => ~ renews toyf e) tr2 /\ Forall same_power tr2 /\ count (missed toyf) tr2 3 /\ left (d_fs d) = 5 /\ c_cpc (d_ram d) = 0.
Proof.
  split; [vm_compute; reflexivity|]. split; [vm_compute; reflexivity|].
  destruct (play_case toyf fresh_dev case49
    (fun tr d => match tr with [a; b; c; e] => forallb (fun e => wrongb e && missedb e) [b; c; e] | _ => false end && (left (d_fs d) =? 5) && (c_cpc (d_ram d) =? 0)))
    as (tr & d & H & Hok & M); [vm_compute; reflexivity|].
  destruct tr as [|a [|b [|c [|e [|]]]]]; try discriminate M. exists [a], [b; c; e], d. split; [exact H|].
  apply andb_true_iff in Hok. destruct Hok as (Hok & H3). apply andb_true_iff in Hok. destruct Hok as (H1 & H2).
  assert (A : forall x, In x [b; c; e] -> wrongb x = true /\ missedb x = true) by (intros x Hx; apply andb_true_iff; rewrite forallb_forall in H1; exact (H1 x Hx)).
  split; [apply Forall_forall; intros x Hx; apply wrongb_ok, A, Hx|]. split; [apply Forall_forall; intros x Hx; apply wrongb_ok, A, Hx|].
  split; [|lia]. change 3 with (0 + 1 + 1 + 1). repeat apply c_yes; [apply missedb_ok, A; cbn; auto..|constructor].
Qed.
(** With the right PIN: the answer is a token and the tries are back. *)
Definition last_dev (r : option (list entry * dev)) : dev := match r with Some (_, d) => d | None => fresh_dev end.
Definition dev49 : dev := last_dev (play toyf fresh_dev (firstn 3 case49)).
Definition has_token (r : option ans * ctap * env) : Prop := let '(o, _, e) := r in (exists v, o = Some (ACbor 0 (Some v))) /\ left (e_fs e) = 8.
Example C49_right_pin : left (d_fs dev49) = 6 /\ has_token (exec toyf dev49 (cmd_at 40 (OCbor (RPin (inr (token_req fresh_dev [49; 50; 51; 52])))))).
Proof. split; [vm_compute; reflexivity|]. vm_compute. split; [eexists; reflexivity|reflexivity]. Qed.
