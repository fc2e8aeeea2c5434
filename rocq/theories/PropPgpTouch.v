(** C39: touch policies of the OpenPGP keys. *)
From Verif Require Import Sys Apdu Applet Frame Pin PinProofs Tlv Key PropKey Pgp PgpSpec PgpFlags PropPgpAccess PropPgpCount.
Open Scope string_scope. Open Scope list_scope. Open Scope Z_scope.

(** ** Specification *)
(** Byte 4 of a key's metadata (attribute FF of its file) is the touch policy: 0 off, 3 cached, 4 permanent. *)
Definition policy (F : fs) (p : path) (n : Z) : Prop := exists m, fattr F p 0xFF = Some m /\ nth 4 m 0 = n.
Definition permanent (F : fs) (p : path) : Prop := policy F p 4.
(** The card is not terminated. *)
Definition live (F : fs) : Prop := exists l, fattr F "pgp-data" 0xFC = Some (0 :: l).
(** The card is put back to its factory state: a terminated card is activated, the administrator resets the applet, or the device, at
    boot, cannot read the storage. *)
Definition starts_over (d : dev) (v : ev) : Prop :=
  match v with
  | Do x => c_ins (x_apdu x) = 0x44 /\ ~ live (d_fs d)
  | Cut x _ flt => c_ins (x_apdu x) = 0x44 /\ ~ live (d_fs d) \/ hd FNone flt <> FNone
  | Install _ | InstallCut _ _ _ => True
  | Off | Other _ => False
  end.
(** PUT DATA D6 (signature), D7 (decryption), D8 (authentication) with value 02 *)
Definition make_permanent (p : path) (c : capdu) : Prop :=
  c_cla c = 0 /\ c_ins c = 0xDA /\ c_p1 c = 0 /\ (p = "pgp-sigk" /\ c_p2 c = 0xD6 \/ p = "pgp-deck" /\ c_p2 c = 0xD7 \/ p = "pgp-autk" /\ c_p2 c = 0xD8) /\
  exists l, c_data c = 2 :: l.
(** Using a key *)
Definition uses (p : path) (c : capdu) : Prop :=
  c_cla c = 0 /\ (p = "pgp-sigk" /\ c_ins c = 0x2A /\ c_p1 c = 0x9E /\ c_p2 c = 0x9A \/ p = "pgp-deck" /\ c_ins c = 0x2A /\ c_p1 c = 0x80 /\ c_p2 c = 0x86 \/
                  p = "pgp-autk" /\ c_ins c = 0x88).
(** The user touched the key when asked (1: cancelled, 2: nobody came). *)
Definition touched (x : cmd) : Prop := exists a l, x_tch x = a :: l /\ a <> 1 /\ a <> 2.

(** ** Frames with a result *)
Section Q.
Context {S : Type}.
Variable I : S -> Prop.
Variable P : fs -> Prop.
Definition frameq {A} (m : M S A) (Q : A -> Prop) : Prop :=
  forall s e, fgood I P s e -> wp m (fun o s' e' => fgood I P s' e' /\ forall a, o = Ret a -> Q a) s e.
Lemma fr_bindq {A B} (m : M S A) (k : A -> M S B) Q : frameq m Q -> (forall a, Q a -> frame I P (k a)) -> frame I P (bind m k).
Proof.
  intros Hm Hk s e H. apply wp_bind. eapply wp_mono; [apply Hm, H|]. intros [a|w| |] s' e' (H' & HQ); try exact H'. apply Hk; auto.
Qed.
Lemma frq_bind {A B} (m : M S A) (k : A -> M S B) Q R : frameq m Q -> (forall a, Q a -> frameq (k a) R) -> frameq (bind m k) R.
Proof.
  intros Hm Hk s e H. apply wp_bind. eapply wp_mono; [apply Hm, H|]. intros [a|w| |] s' e' (H' & HQ); try (split; [exact H'|discriminate]). apply Hk; auto.
Qed.
Lemma frq_ret {A} (a : A) (Q : A -> Prop) : Q a -> frameq (ret a) Q.
Proof. intros HQ s e H. split; [exact H|]. intros b E. injection E as <-. exact HQ. Qed.
Lemma frq_frame {A} (m : M S A) : frame I P m -> frameq m (fun _ => True).
Proof. intros Hm s e H. eapply wp_mono; [apply Hm, H|]. auto. Qed.
Lemma frq_read_attr p a : frameq (read_attr p a) (fun r => forall v, r = Some v -> exists F, P F /\ fattr F p a = Some v).
Proof.
  intros s e H. destruct e as [F L X R T O]. apply wp_read_attr. intros X' r _ Hr. split; [exact H|]. intros b W. injection W as <-.
  intros v ->. destruct Hr as [Hr|Hr]; [discriminate|]. exists F. split; [apply H|auto].
Qed.
End Q.
Lemma frq_got {A} (I : pgp -> Prop) P (m : M pgp (option A)) (Q : A -> Prop) : frameq I P m (fun r => forall a, r = Some a -> Q a) -> frameq I P (got m) Q.
Proof.
  intros H. unfold got. apply (frq_bind I P m _ _ Q H). intros [a|] Ha; [apply frq_ret; auto|].
  intros s e Hg. split; [exact Hg|discriminate].
Qed.

Section Stays.
Variable K : crypto.
Variable nfc : bool.
Variables t1 t2 junk : Z.
Variable p : path.
Hypothesis Hp : In p pgp_keys.
Notation body := (pgp_body K nfc t1 t2 junk).
Definition kept (G : fs) : Prop := permanent G p /\ G "pgp-data" <> None.
Notation T := (fun _ : pgp => True).
Lemma kept_other q : q <> "pgp-data" -> q <> p -> indep kept q.
Proof. intros H1 H2 G x (A & B). unfold kept, permanent, policy, fattr in *. rewrite !fset_other by congruence. split; assumption. Qed.
Lemma kept_attr q a v : a <> 0xFF \/ q <> p -> forall G f, kept G -> G q = Some f -> kept (fset G q (Some (mkF (f_data f) (aset (f_attr f) a v)))).
Proof.
  intros Ha G f ((m & A & A') & B) E. destruct (String.eqb_spec p q) as [W|W].
  - subst q. assert (a <> 0xFF) by (destruct Ha; congruence). split; [exists m; unfold fattr in *; rewrite E in A; rewrite fset_same; cbn [f_attr]; rewrite aset_other by congruence; auto|].
    rewrite fset_other; [exact B|]. destruct Hp as [<-|[<-|[<-|[]]]]; discriminate.
  - split; [exists m; unfold fattr in *; rewrite fset_other by congruence; auto|]. destruct (String.eqb_spec "pgp-data" q) as [<-|W2]; [rewrite fset_same; discriminate|rewrite fset_other by congruence; exact B].
Qed.
Lemma kept_meta m : m_touch m = 4 -> forall G f, kept G -> G p = Some f -> kept (fset G p (Some (mkF (f_data f) (aset (f_attr f) 0xFF (meta_bytes m))))).
Proof.
  intros Hm G f (_ & B) E. split; [exists (meta_bytes m); unfold fattr; rewrite fset_same; cbn [f_attr]; rewrite aset_same; split; [reflexivity|exact Hm]|].
  rewrite fset_other; [exact B|]. destruct Hp as [<-|[<-|[<-|[]]]]; discriminate.
Qed.
Lemma kept_data q : forall G f x, kept G -> G q = Some f -> kept (fset G q (Some (mkF x (f_attr f)))).
Proof.
  intros G f x ((m & A & A') & B) E. destruct (String.eqb_spec p q) as [W|W].
  - subst q. split; [exists m; unfold fattr in *; rewrite E in A; rewrite fset_same; auto|]. rewrite fset_other; [exact B|]. destruct Hp as [<-|[<-|[<-|[]]]]; discriminate.
  - split; [exists m; unfold fattr in *; rewrite fset_other by congruence; auto|]. destruct (String.eqb_spec "pgp-data" q) as [<-|W2]; [rewrite fset_same; discriminate|rewrite fset_other by congruence; exact B].
Qed.
Lemma kept_p G : kept G -> G p <> None.
Proof. intros ((m & A & _) & _). unfold fattr in A. destruct (G p); discriminate. Qed.
Lemma kept_d G : kept G -> G "pgp-data" <> None.
Proof. intros (_ & B). exact B. Qed.
Lemma k_write_file q d o t : frame T kept (write_file q d o t).
Proof.
  destruct (String.eqb_spec q p) as [-> |N]; [apply fr_write_file_at; [apply kept_p|apply kept_data]|].
  destruct (String.eqb_spec q "pgp-data") as [-> |N2]; [apply fr_write_file_at; [apply kept_d|apply kept_data]|].
  apply fr_write_file, kept_other; assumption.
Qed.
Lemma k_write_attr q a v : a <> 0xFF \/ q <> p -> frame T kept (write_attr q a v).
Proof. intros H. apply fr_write_attr_at, kept_attr, H. Qed.
Lemma k_write_meta q m : (q = p -> m_touch m = 4) -> frame T kept (ck_write_key_metadata q m).
Proof.
  intros H. unfold ck_write_key_metadata. destruct (String.eqb_spec q p) as [-> |N]; [apply fr_write_attr_at, kept_meta; auto|apply k_write_attr; auto].
Qed.
Lemma k_write_key q k : (q = p -> m_touch (k_meta k) = 4) -> frame T kept (ck_write_key q k).
Proof.
  intros H. unfold ck_write_key. apply fr_bind; [apply k_write_file|intros ok]. destruct (negb ok); [apply fr_ret|apply k_write_meta, H].
Qed.
Lemma k_read_meta q : frameq T kept (got (ck_read_key_metadata q)) (fun m => q = p -> m_touch m = 4).
Proof.
  apply frq_got. unfold ck_read_key_metadata. eapply frq_bind; [apply frq_read_attr|]. intros r Hr. apply frq_ret. intros m Hm ->.
  destruct r as [v|]; [|discriminate]. injection Hm as <-. destruct (Hr v eq_refl) as (G & ((m & A & A') & _) & B). unfold KEY_META_ATTR in B. rewrite A in B. injection B as <-. exact A'.
Qed.
Lemma k_read_key q : frameq T kept (got (ck_read_key q)) (fun k => q = p -> m_touch (k_meta k) = 4).
Proof.
  apply frq_got. unfold ck_read_key, ck_read_key_metadata. apply (frq_bind _ _ _ _ (fun r => forall m, r = Some m -> q = p -> m_touch m = 4)).
  - eapply frq_bind; [apply frq_read_attr|]. intros r Hr. apply frq_ret. intros m Hm ->.
    destruct r as [v|]; [|discriminate]. injection Hm as <-. destruct (Hr v eq_refl) as (G & ((m & A & A') & _) & B). unfold KEY_META_ATTR in B. rewrite A in B. injection B as <-. exact A'.
  - intros [m|] Hm; [|apply frq_ret; discriminate]. eapply frq_bind; [apply frq_frame, fr_read_file|]. intros r _. apply frq_ret. intros k Hk. destruct r; [|discriminate]. injection Hk as <-. apply Hm. reflexivity.
Qed.
Lemma k_generate k : frameq T kept (got (ck_generate_key K k)) (fun k' => m_touch (k_meta k') = m_touch (k_meta k)).
Proof.
  apply frq_got. unfold ck_generate_key. eapply frq_bind; [apply frq_frame, fr_random|]. intros seed _. apply frq_ret. intros k' Hk.
  destruct (IS_ECC _); [|destruct (IS_RSA _); [|discriminate]].
  - destruct (ecc_generate _ _ _); [|discriminate]. injection Hk as <-. reflexivity.
  - destruct (rsa_generate_key _ _ _); [|discriminate]. injection Hk as <-. reflexivity.
Qed.
Lemma obind_ret {A B} (m : out A) (k : A -> out B) b : obind m k = Ret b -> exists a, m = Ret a /\ k a = Ret b.
Proof. destruct m as [a| | |]; cbn; try discriminate. eauto. Qed.
Lemma parse_touch m buf len k : ck_parse_openpgp K (mkKey m []) buf len = Ret k -> m_touch (k_meta k) = m_touch m.
Proof.
  unfold ck_parse_openpgp, finish_ecc. cbn [k_meta]. cbv zeta.
  repeat first [ match goal with |- obind _ _ = _ -> _ => let H := fresh in let a := fresh in let W := fresh in intros H; apply obind_ret in H; destruct H as (a & W & H); revert H; clear W
    | |- (if ?b then _ else _) = _ -> _ => destruct b | |- (match ?x with _ => _ end) = _ -> _ => destruct x end
    | discriminate ].
  all: intros H; apply (f_equal (fun o => match o with Ret k => m_touch (k_meta k) | _ => 0 end)) in H; symmetry; exact H.
Qed.
Ltac frk1 := first [
    match goal with
    | |- frame _ _ (bind (got (ck_read_key_metadata _)) _) => eapply fr_bindq; [apply k_read_meta|let m := fresh "m" in let H := fresh in intros m H; cbv beta in H]
    | |- frame _ _ (bind (got (ck_read_key _)) _) => eapply fr_bindq; [apply k_read_key|let m := fresh "k" in let H := fresh in intros m H; cbv beta in H]
    | |- frame _ _ (bind (bind (got (ck_generate_key _ _)) _) _) => apply fr_bind; [|intros ?]
    | |- frame _ _ (bind (got (ck_generate_key _ _)) _) => eapply fr_bindq; [apply k_generate|let m := fresh "k" in let H := fresh in intros m H; cbv beta in H]
    | |- frame _ _ (match ck_parse_openpgp ?K ?k ?b ?n with _ => _ end) => let E := fresh in destruct (ck_parse_openpgp K k b n) eqn:E; [apply parse_touch in E|..]
    | |- frame _ _ (write_file _ _ _ _) => apply k_write_file
    | |- frame _ _ (write_attr _ _ _) => apply k_write_attr; first [left; discriminate | right; destruct Hp as [<-|[<-|[<-|[]]]]; discriminate]
    | |- frame _ _ (ck_write_key _ _) => apply k_write_key; let V := fresh in intros V; first [congruence | repeat match goal with H : _ = p -> _ |- _ => specialize (H V) end; congruence]
    | |- frame _ _ (ck_write_key_metadata _ _) => apply k_write_meta; assumption
    end | frame1 ].
Ltac frk := repeat frk1.
Ltac pk_unfold :=
  unfold must, mustz, opt, attr_upto, attr_exact, reset_sig_counter, fill_attr, out_ok, retries_byte, count_signature, touch_if, pgp_touch, assert_admin,
    put_attr, pin_verify, pin_verify_gen, pin_update, pin_clear, pin_get_retries, pin_get_default_retries, pin_get_attr,
    pin_get_size, pin_create, Admin.fill_sn.
Lemma fr_kept c tail : c_ins c <> 0x44 -> frame T kept (body c tail).
Proof.
  intros N1. unfold pgp_body. cbv zeta.
  apply fr_bind; [apply fr_guard|intros _]. apply fr_bind; [apply fr_selection; auto|intros _].
  apply fr_bind; [apply fr_read_attr|intros [v|]]; [|apply fr_except]. apply fr_bind; [apply fr_guard|intros _].
  destruct (c_ins c =? 0xA4); [unfold pgp_select; pgp_unfold; frk|].
  destruct (Z.eqb_spec (c_ins c) 0x44); [contradiction|].
  destruct (c_ins c =? 0xCA); [unfold pgp_get_data, application_related_data, discretionary_data, cardholder_related_data, pw_status_bytes; pgp_unfold; frk|].
  destruct (c_ins c =? 0xA5); [unfold pgp_select_data; pgp_unfold; frk|].
  destruct (c_ins c =? 0xCC); [unfold pgp_get_next_data; pgp_unfold; frk|].
  destruct (c_ins c =? 0x20); [unfold pgp_verify, verify_with, verify_pin; pgp_unfold; frk|].
  destruct (c_ins c =? 0x24); [unfold pgp_change_reference_data, change_with, verify_prefix, update_rest; pgp_unfold; frk|].
  destruct (c_ins c =? 0x2C); [unfold pgp_reset_retry_counter, verify_prefix, update_rest; pgp_unfold; frk|].
  destruct (c_ins c =? 0xDA).
  { unfold pgp_put_data, put_resetting_code. pk_unfold. unfold put_algorithm. unfold must.
    assert (HU : forall q, frame T kept (put_uif c tail q)).
    { intros q. unfold put_uif, must. eapply fr_bindq; [apply k_read_meta|intros m Hm]. destruct (String.eqb_spec q p) as [E|E].
      - rewrite (Hm E). intros s e H. exact H.
      - frk. apply k_write_meta. contradiction. }
    repeat first [apply HU | frk1]. }
  destruct (Z.eqb_spec (c_ins c) 0xDB).
  { unfold pgp_import. pk_unfold. frk. }
  destruct (Z.eqb_spec (c_ins c) 0x47) as [E|E].
  { unfold pgp_generate. pk_unfold. frk. }
  destruct (Z.eqb_spec (c_ins c) 0x2A).
  { destruct (_ && _); [unfold pgp_sign_or_auth; pgp_unfold; frk|]. destruct (_ && _); [unfold pgp_decipher; pgp_unfold; frk|apply fr_except]. }
  destruct (c_ins c =? 0x88); [unfold pgp_sign_or_auth; pgp_unfold; frk|].
  destruct (c_ins c =? 0x84); [unfold pgp_get_challenge; pgp_unfold; frk|].
  destruct (c_ins c =? 0xE6); [unfold pgp_terminate; pgp_unfold; frk|].
  apply fr_except.
Qed.
End Stays.

(** ** A use of a key whose policy is on needs a touch *)
Section Touch.
Variable K : crypto.
(** The key may be used without a new touch: over NFC, or within the cache time (in seconds) after the last touch. *)
Definition recent (s : pgp) (x : cmd) : Prop := g_last s < x_t1 x < g_last s + 1000 * g_cache s.
Lemma wp_touch_if2 x m (Q : out unit -> pgp -> env -> Prop) s F L X R O :
  (forall T' s', (m_touch m = 3 \/ m_touch m = 4 -> x_nfc x = true \/ recent s x \/ touched x) -> (s' = s \/ s' = set_last (x_t2 x) s /\ touched x) -> Q (Ret tt) s' (mkE F L X R T' O)) ->
  (forall T', Q (Exc SW_ERROR_WHILE_RECEIVING) s (mkE F L X R T' O)) ->
  wp (touch_if (x_nfc x) (x_t1 x) (x_t2 x) m) Q s (mkE F L X R (x_tch x) O).
Proof.
  intros H1 H2. unfold touch_if. wif W; [|apply wp_ret, H1; [unfold TOUCH_POLICY_CACHED, TOUCH_POLICY_PERMANENT in W; lia|auto]].
  unfold pgp_touch. wif V; [apply wp_ret, H1; auto|].
  apply wp_bind, wp_get. wif U; [apply wp_ret, H1; auto; unfold recent; intros _; right; left; lia|]. apply wp_bind, wp_wait_touch.
  wif Y; [apply wp_except, H2|].
  assert (HT : touched x). { destruct (x_tch x) as [|a l] eqn:E; [discriminate Y|]. exists a, l. cbn [hd] in Y. unfold USER_PRESENCE_CANCEL, USER_PRESENCE_TIMEOUT in Y. split; [exact E|lia]. }
  apply wp_modify, H1; auto.
Qed.
Definition last_ok (s s' : pgp) (x : cmd) : Prop := g_last s' = g_last s \/ g_last s' = x_t2 x /\ touched x.
Definition needs_touch (p : path) (F : fs) (s : pgp) (x : cmd) : Prop :=
  forall n, policy F p n -> n = 3 \/ n = 4 -> x_nfc x = true \/ recent s x \/ touched x.
Definition touch_post (p : path) (x : cmd) (F : fs) (s : pgp) (o : out Z) (s' : pgp) (e' : env) : Prop :=
  last_ok s s' x /\ (no_result o e' \/ needs_touch p F s x).
Lemma meta_touch (p : path) x c (k : meta -> M pgp Z) s s0 F L X R :
  g_last s = g_last s0 -> g_cache s = g_cache s0 ->
  (forall m s1, frame (fun s' => s' = s1) (fun _ => True) (k m)) ->
  wp (m <- got (ck_read_key_metadata p) ;; touch_if (x_nfc x) (x_t1 x) (x_t2 x) m ;;; k m) (touch_post p x F s0) s (mkE F L X R (x_tch x) (c : bytes)) \/ c <> [].
Proof.
  intros G1 G2 Hk. destruct c as [|b c]; [left|right; discriminate].
  assert (NR : forall o e', no_result o e' -> touch_post p x F s0 o s e') by (intros o e' N; split; [left; congruence|auto]).
  apply wp_bind, wp_got. unfold ck_read_key_metadata. apply wp_bind, wp_read_attr. intros X1 r _ Hr. apply wp_ret.
  destruct r as [v|]; cbn [option_map]; [|apply NR; split; [reflexivity|intros w [W|W]; discriminate W]].
  destruct Hr as [Hr|Hr]; [discriminate|].
  apply wp_bind, wp_touch_if2.
  2: { intros T'. apply NR. split; [reflexivity|]. intros w [W|W]; [discriminate W|injection W as <-; discriminate]. }
  intros T' s1 Ht Hs1. apply (wp_mono _ (fun _ s' _ => s' = s1)); [apply fr_any; [apply Hk|reflexivity]|].
  intros o s' e' ->. split.
  - destruct Hs1 as [-> |(-> & Hs1)]; [left; exact G1|right; auto].
  - right. intros n (m & A & B) Hn. unfold KEY_META_ATTR in Hr. rewrite A in Hr. injection Hr as <-. unfold recent in *. rewrite G1, G2 in Ht. apply Ht.
    cbn [m_touch meta_of]. rewrite B. exact Hn.
Qed.
Lemma meta_touch0 p x k s s0 F L X R : g_last s = g_last s0 -> g_cache s = g_cache s0 -> (forall m s1, frame (fun s' => s' = s1) (fun _ => True) (k m)) ->
  wp (m <- got (ck_read_key_metadata p) ;; touch_if (x_nfc x) (x_t1 x) (x_t2 x) m ;;; k m) (touch_post p x F s0) s (mkE F L X R (x_tch x) []).
Proof. intros A B C. destruct (meta_touch p x [] k s s0 F L X R A B C) as [H|H]; [exact H|congruence]. Qed.
Lemma sign_touch c is_sign x s s0 F L X R : g_last s = g_last s0 -> g_cache s = g_cache s0 ->
  wp (pgp_sign_or_auth K (x_nfc x) (x_t1 x) (x_t2 x) c is_sign) (touch_post (if is_sign then SIG_KEY_PATH else AUT_KEY_PATH) x F s0) s (mkE F L X R (x_tch x) []).
Proof.
  intros G1 G2.
  assert (NR : forall p o e', no_result o e' -> touch_post p x F s0 o s e') by (intros p o e' N; split; [left; congruence|auto]).
  unfold pgp_sign_or_auth. apply wp_bind, wp_get, wp_bind, wp_guard; intros G.
  2: { apply NR. split; [reflexivity|]. intros w [W|W]; [discriminate W|injection W as <-; discriminate]. }
  pose proof anyfs as A. apply wp_bind. destruct is_sign.
  - apply wp_bind, wp_got, wp_read_attr. intros X1 [v|] _ _.
    2: { apply NR. split; [reflexivity|]. intros w [W|W]; discriminate W. }
    destruct (attr1 v =? 0); [apply wp_modify|apply wp_ret]; cbv zeta; (apply meta_touch0; [assumption|assumption|]; intros m s1; pgp_unfold; fr A).
  - apply wp_ret. cbv zeta. apply meta_touch0; [assumption|assumption|]. intros m s1. pgp_unfold. fr A.
Qed.
Lemma decipher_touch c tail x s s0 F L X R : g_last s = g_last s0 -> g_cache s = g_cache s0 ->
  wp (pgp_decipher K (x_nfc x) (x_t1 x) (x_t2 x) c tail) (touch_post DEC_KEY_PATH x F s0) s (mkE F L X R (x_tch x) []).
Proof.
  intros G1 G2.
  assert (NR : forall p o e', no_result o e' -> touch_post p x F s0 o s e') by (intros p o e' N; split; [left; congruence|auto]).
  unfold pgp_decipher. apply wp_bind, wp_get, wp_bind, wp_guard; intros G.
  2: { apply NR. split; [reflexivity|]. intros w [W|W]; [discriminate W|injection W as <-; discriminate]. }
  pose proof anyfs as A. apply meta_touch0; [assumption|assumption|]. intros m s1. cbv zeta. pgp_unfold. fr A.
Qed.
Lemma fr_last nfc t1 t2 junk l c tail : c_ins c <> 0x2A -> c_ins c <> 0x88 ->
  frame (fun s => g_last s = l) (fun _ => True) (pgp_body K nfc t1 t2 junk c tail).
Proof.
  intros N1 N2. unfold pgp_body. pose proof anyfs as A. cbv zeta.
  apply fr_bind; [apply fr_guard|intros _]. apply fr_bind; [apply fr_selection; auto|intros _].
  apply fr_bind; [apply fr_read_attr|intros [v|]]; [|apply fr_except]. apply fr_bind; [apply fr_guard|intros _].
  destruct (c_ins c =? 0xA4); [unfold pgp_select; pgp_unfold; fr A|].
  destruct (c_ins c =? 0x44); [unfold pgp_activate, pgp_install, install_key; pgp_unfold; fr A|].
  destruct (c_ins c =? 0xCA); [unfold pgp_get_data, application_related_data, discretionary_data, cardholder_related_data, pw_status_bytes; pgp_unfold; fr A|].
  destruct (c_ins c =? 0xA5); [unfold pgp_select_data; pgp_unfold; fr A|].
  destruct (c_ins c =? 0xCC); [unfold pgp_get_next_data; pgp_unfold; fr A|].
  destruct (c_ins c =? 0x20); [unfold pgp_verify, verify_with, verify_pin; pgp_unfold; fr A|].
  destruct (c_ins c =? 0x24); [unfold pgp_change_reference_data, change_with, verify_prefix, update_rest; pgp_unfold; fr A|].
  destruct (c_ins c =? 0x2C); [unfold pgp_reset_retry_counter, verify_prefix, update_rest; pgp_unfold; fr A|].
  destruct (c_ins c =? 0xDA); [unfold pgp_put_data, put_algorithm, put_uif, put_resetting_code; pgp_unfold; fr A|].
  destruct (c_ins c =? 0xDB); [unfold pgp_import; pgp_unfold; fr A|].
  destruct (c_ins c =? 0x47); [unfold pgp_generate; pgp_unfold; fr A|].
  destruct (Z.eqb_spec (c_ins c) 0x2A); [contradiction|].
  destruct (Z.eqb_spec (c_ins c) 0x88); [contradiction|].
  destruct (c_ins c =? 0x84); [unfold pgp_get_challenge; pgp_unfold; fr A|].
  destruct (c_ins c =? 0xE6); [unfold pgp_terminate; pgp_unfold; fr A|].
  apply fr_except.
Qed.
Lemma wp_selection2 c (Q : out unit -> pgp -> env -> Prop) s e :
  (forall s', g_last s' = g_last s -> g_cache s' = g_cache s -> Q (Ret tt) s' e) -> (c_ins c = 0xCC -> Q (Exc SW_CONDITIONS_NOT_SATISFIED) s e) -> wp (selection c) Q s e.
Proof.
  intros H1 H2. unfold selection. apply wp_bind, wp_get. cbv zeta.
  wif A; [apply wp_modify, H1; reflexivity|]. wif B; [|wif C; [|wif D]].
  - apply wp_bind, wp_guard; intros G; [|apply H2; lia]. wif E; [apply wp_modify|apply wp_ret]; apply H1; reflexivity.
  - apply wp_bind, wp_guard; intros G; [|apply H2; lia]. wif E; [apply wp_modify, H1; reflexivity|]. apply wp_bind. wif U; [apply wp_modify|apply wp_ret]; apply wp_modify, H1; reflexivity.
  - apply wp_ret, H1; reflexivity.
  - apply wp_bind, wp_modify, wp_modify, H1; reflexivity.
Qed.
Lemma do_touch d x r d' : step K d (Do x) = Some (Some r, d') ->
  last_ok (d_ram d) (d_ram d') x /\ forall p, uses p (x_apdu x) -> has_result r -> needs_touch p (d_fs d) (d_ram d) x.
Proof.
  intros Hs. cbn [step] in Hs.
  pose proof (exec_wp K d x (fun r' s' e' => forall r, r' = Some r -> last_ok (d_ram d) s' x /\ forall p, uses p (x_apdu x) -> has_result r -> needs_touch p (d_fs d) (d_ram d) x)) as HW.
  destruct (exec K d x) as [[[r'|] s'] e']; [|discriminate]. injection Hs as -> <-. cbn [d_ram].
  apply HW; clear HW; [|reflexivity]. clear r s' e'. set (c := x_apdu x) in *. set (s := d_ram d) in *.
  assert (HE : forall w s', g_last s' = g_last s -> w <> 0x9000 -> forall r, Some (mkR [] w) = Some r -> last_ok s s' x /\ forall p, uses p c -> has_result r -> needs_touch p (d_fs d) s x).
  { intros w s' A B r E. injection E as <-. split; [left; exact A|]. intros p _ [V|V]; [elim B; exact V|elim V; reflexivity]. }
  destruct (Z.eq_dec (c_ins c) 0x2A) as [I2A|N2A]; [|destruct (Z.eq_dec (c_ins c) 0x88) as [I88|N88]].
  3: { apply (wp_mono _ (fun _ s' _ => g_last s' = g_last s)); [apply fr_any; [apply fr_last; assumption|reflexivity]|].
       intros o s' e' A r _. split; [left; exact A|]. intros p (_ & [(_ & V & _)|[(_ & V & _)|(_ & V)]]); contradiction. }
  all: unfold pgp_body, start; apply wp_bind, wp_guard; intros G1; [|apply HE; [reflexivity|discriminate]].
  all: apply wp_bind, wp_selection2; [intros s1 S1 S2|intros V; exfalso; fold c in V; rewrite V in *; discriminate].
  all: apply wp_bind, wp_read_attr; intros X1 [tv|] _ _; [|apply wp_except, HE; [exact S1|discriminate]].
  all: cbv zeta; apply wp_bind, wp_guard; intros G2; [|apply HE; [exact S1|discriminate]].
  all: fold c.
  all: assert (HP : forall p o s' e' r, touch_post p x (d_fs d) s o s' e' -> (forall q, uses q c -> q = p) ->
     match o with Ret w | Exc w => Some (mkR (e_out e') w) | Fail => Some (mkR (e_out e') SW_UNABLE_TO_PROCESS) | UB => None end = Some r ->
     last_ok s s' x /\ forall p, uses p c -> has_result r -> needs_touch p (d_fs d) s x).
  1, 3: (intros p o s' e' r (W1 & W2) Hq Hr; split; [exact W1|]; intros q Hu H; rewrite (Hq q Hu); destruct W2 as [(N1 & N2)|W2]; [exfalso|exact W2];
     destruct H as [V|V]; [|apply V]; destruct o as [w|w| |]; try discriminate; injection Hr as <-; cbn [r_sw r_data] in *; try exact N1; try discriminate V; apply (N2 w); auto).
  - rewrite I2A. cbn [Z.eqb Pos.eqb]. wif P1; [|wif P2].
    + eapply wp_mono; [apply sign_touch; eassumption|]. intros o s' e' W r Hr. apply (HP _ o s' e' r W); [|exact Hr].
      intros q (_ & [(V & _)|[(_ & _ & V & _)|(_ & V)]]); [exact V|lia|rewrite I2A in V; discriminate].
    + eapply wp_mono; [apply decipher_touch; eassumption|]. intros o s' e' W r Hr. apply (HP _ o s' e' r W); [|exact Hr].
      intros q (_ & [(_ & _ & V & _)|[(V & _)|(_ & V)]]); [lia|exact V|rewrite I2A in V; discriminate].
    + apply wp_except. apply HE; [exact S1|discriminate].
  - rewrite I88. cbn [Z.eqb Pos.eqb]. eapply wp_mono; [apply sign_touch; eassumption|]. intros o s' e' W r Hr. apply (HP _ o s' e' r W); [|exact Hr].
      intros q (_ & [(_ & V & _)|[(_ & V & _)|(V & _)]]); try exact V; rewrite I88 in V; discriminate.
Qed.
(** The last touch the card remembers was given in this history. *)
Definition linv (tr : list entry) (s : pgp) : Prop :=
  g_last s = UINT32_MAX \/ exists d1 x1 r1, In (d1, Do x1, r1) tr /\ touched x1 /\ x_t2 x1 = g_last s.
Lemma install_last reset s e : wp (pgp_install reset) (fun _ s' _ => g_last s' = g_last s) s e.
Proof.
  unfold pgp_install. apply wp_bind, wp_modify. change (g_last s) with (g_last (pgp_poweroff s)). apply fr_any; [|reflexivity]. pose proof anyfs as A. unfold install_key. pgp_unfold. fr A.
Qed.
Lemma boot_last tr F flt : linv tr (d_ram (boot F flt)).
Proof.
  unfold boot, installed. pose proof (install_last false pgp_boot (start F flt [] [])) as H. unfold wp in H.
  destruct (pgp_install _ _ _) as [[o s'] e']. cbn [d_ram]. left. exact H.
Qed.
Lemma hist_last_touch tr d : since_boot K tr d -> linv tr (d_ram d).
Proof.
  intros (F0 & flt0 & H). remember (boot F0 flt0) as d0 eqn:E0. induction H as [d0|d0 tr d v o d' H IH Hok Hst].
  - subst. apply boot_last.
  - specialize (IH E0). assert (HM : forall s', g_last s' = g_last (d_ram d) -> linv (tr ++ [(d, v, o)]) s').
    { intros s' E. destruct IH as [IH|(d1 & x1 & r1 & A & B & C)]; [left; congruence|]. right. exists d1, x1, r1. split; [apply in_or_app; auto|]. split; [exact B|congruence]. }
    destruct v as [x|x n flt| |flt|flt n flt'|F].
    + assert (exists r, o = Some r) as [r ->].
      { cbn [step] in Hst. destruct (exec K d x) as [[[r|] s'] e']; [|discriminate]. injection Hst as <- _. eauto. }
      destruct (do_touch d x r d' Hst) as ([W|(W & W2)] & _); [apply HM; exact W|].
      right. exists d, x, (Some r). split; [apply in_or_app; right; left; reflexivity|]. auto.
    + cbn [step] in Hst. destruct (exec K d x) as [[r s'] e']. injection Hst as <- <-. apply boot_last.
    + cbn [step] in Hst. injection Hst as <- <-. apply HM. reflexivity.
    + cbn [step] in Hst. unfold installed in Hst. pose proof (install_last true (d_ram d) (start (d_fs d) flt [] [])) as W. unfold wp in W.
      destruct (pgp_install _ _ _) as [[o1 s'] e']. injection Hst as <- <-. apply HM. exact W.
    + cbn [step] in Hst. destruct (installed _ _ _ _) as [[o1 s'] e']. injection Hst as <- <-. apply boot_last.
    + cbn [step] in Hst. injection Hst as <- <-. apply HM. reflexivity.
Qed.
End Touch.
(** A key whose policy is "cached" or "permanent" gives a result only over NFC, after a touch during the command, or if the last touch was given (with an
    earlier use of a key, since the last boot) less than the cache time before.  The cache time [g_cache] (in seconds) is what GET DATA 0102 shows. *)
Theorem C39_touch : forall K tr d x r d' p n, since_boot K tr d -> step K d (Do x) = Some (Some r, d') ->
  uses p (x_apdu x) -> has_result r -> policy (d_fs d) p n -> n = 3 \/ n = 4 -> x_t1 x < 4294967296 ->
  x_nfc x = true \/ touched x \/
  exists d1 x1 r1, In (d1, Do x1, r1) tr /\ touched x1 /\ x_t2 x1 < x_t1 x < x_t2 x1 + 1000 * g_cache (d_ram d).
Proof.
  intros K tr d x r d' p n H Hs Hu Hr Hp Hn Ht. destruct (do_touch K d x r d' Hs) as (_ & W). destruct (W p Hu Hr n Hp Hn) as [V|[V|V]]; auto.
  right. right. unfold recent in V. destruct (hist_last_touch K tr d H) as [L|(d1 & x1 & r1 & A & B & C)]; [rewrite L in V; unfold UINT32_MAX in V; lia|].
  exists d1, x1, r1. split; [exact A|]. split; [exact B|]. rewrite C. exact V.
Qed.
Print Assumptions C39_touch.

(** ** "permanent" stays *)
Section Perm.
Variable K : crypto.
Lemma activate_refused d x : c_ins (x_apdu x) = 0x44 -> live (d_fs d) ->
  let '(_, _, e') := exec K d x in e_fs e' = d_fs d /\ e_log e' = [d_fs d].
Proof.
  intros HI (l & HL). apply (exec_wp K d x (fun _ _ e' => e_fs e' = d_fs d /\ e_log e' = [d_fs d])). unfold pgp_body, start. rewrite HI.
  apply wp_bind, wp_guard; intros G1; [|auto]. apply wp_bind, wp_selection2; [intros s1 _ _|auto].
  apply wp_bind, wp_read_attr; intros X1 [tv|] _ Hv; [|apply wp_except; auto]. cbv zeta. apply wp_bind, wp_guard; intros G2; [|auto].
  destruct Hv as [Hv|Hv]; [discriminate|]. unfold DATA_PATH, ATTR_TERMINATED in Hv. rewrite HL in Hv. injection Hv as ->. cbn [attr1 Z.eqb Pos.eqb].
  apply wp_bind, wp_guard; intros G3; [discriminate G3|auto].
Qed.
Lemma exec_kept d x p : In p pgp_keys -> kept p (d_fs d) -> ~ (c_ins (x_apdu x) = 0x44 /\ ~ live (d_fs d)) ->
  let '(_, _, e') := exec K d x in kept p (e_fs e') /\ Forall (kept p) (e_log e').
Proof.
  intros Hp Hk N. destruct (Z.eq_dec (c_ins (x_apdu x)) 0x44) as [I44|N44].
  - assert (L : live (d_fs d)).
    { unfold live. destruct (fattr (d_fs d) "pgp-data" 0xFC) as [[|a l]|] eqn:E.
      - elim N. split; [exact I44|]. intros (l & H). congruence.
      - destruct (Z.eq_dec a 0) as [-> |Na]; [eauto|]. elim N. split; [exact I44|]. intros (l' & H). congruence.
      - elim N. split; [exact I44|]. intros (l & H). congruence. }
    pose proof (activate_refused d x I44 L) as W. destruct (exec K d x) as [[r s'] e']. destruct W as (-> & ->). split; [exact Hk|constructor; [exact Hk|constructor]].
  - pose proof (frame_apdu (fun _ => True) (kept p) _ (d_ram d) (d_fs d) (x_flt x) (x_rnd x) (x_tch x) (fr_kept K (x_nfc x) (x_t1 x) (x_t2 x) (x_junk x) p Hp (x_apdu x) (x_tail x) N44) I Hk) as W.
    unfold exec. destruct (run_apdu _ _ _) as [[r s'] e']. destruct W as (_ & W). exact W.
Qed.
Lemma boot_same2 F flt : F "pgp-data" <> None -> hd FNone flt = FNone -> d_fs (boot F flt) = F.
Proof.
  intros H Hf. unfold boot, installed, pgp_install. unfold bind, modify, get_file_size, pop_fault, start. cbn [e_flt e_fs].
  destruct flt as [|x flt]; cbn [hd] in Hf; [|subst x]; cbn [e_fs]; (destruct (F "pgp-data") eqn:E; [|congruence]; unfold DATA_PATH; cbn [e_fs]; rewrite E; reflexivity).
Qed.
End Perm.
(** Once a key's touch policy is "permanent" it stays so, whatever commands (failing, interrupted, on a faulty storage) the card executes, until the card starts
    over from its factory state. *)
Theorem C39_permanent : forall K d0 tr d p, hist K d0 tr d -> In p pgp_keys -> d_fs d0 "pgp-data" <> None -> permanent (d_fs d0) p ->
  Forall (fun e => ~ starts_over (fst (fst e)) (snd (fst e))) tr -> permanent (d_fs d) p.
Proof.
  intros K d0 tr d p H Hp Hd Hk Ha. assert (W : kept p (d_fs d)); [|apply W].
  assert (H0 : kept p (d_fs d0)) by (split; assumption). clear Hd Hk. induction H as [d0|d0 tr d v o d' H IH Hok Hst]; [exact H0|].
  apply Forall_app in Ha. destruct Ha as (Ha1 & Ha2). inversion Ha2 as [|? ? Ha3 _]; subst. cbn [fst snd] in Ha3. specialize (IH Ha1 H0).
  destruct v as [x|x n flt| |flt|flt n flt'|F]; cbn [starts_over] in Ha3; try tauto.
  - pose proof (exec_kept K d x p Hp IH Ha3) as W. cbn [step] in Hst. destruct (exec K d x) as [[[r|] s'] e']; [|discriminate]. injection Hst as <- <-. apply W.
  - pose proof (exec_kept K d x p Hp IH ltac:(tauto)) as W. cbn [step] in Hst. destruct (exec K d x) as [[r s'] e']. injection Hst as <- <-.
    destruct W as (W1 & W2). assert (G : kept p (nth n (e_log e') (e_fs e'))) by (apply Forall_nth_default; assumption).
    rewrite boot_same2; [exact G|apply G|]. destruct (hd FNone flt) eqn:E; [reflexivity|elim Ha3; right; discriminate|elim Ha3; right; discriminate].
  - cbn [step] in Hst. injection Hst as <- <-. exact IH.
  - cbn [step] in Hst. injection Hst as <- <-. cbn [d_fs ev_ok] in *. destruct IH as ((m & A & B) & C). split; [exists m; unfold fattr in *; rewrite Hok|rewrite Hok]; auto.
    + unfold pgp_files. apply in_app_iff. right. apply in_app_iff. auto.
    + cbn; auto.
Qed.
Print Assumptions C39_permanent.
(** PUT DATA D6/D7/D8 with value 02, answered 9000, makes the policy permanent. *)
Theorem C39_set : forall K d x r d' p, step K d (Do x) = Some (Some r, d') -> make_permanent p (x_apdu x) -> r_sw r = 0x9000 -> permanent (d_fs d') p.
Proof.
  intros K d x r d' p Hs (HC & HI & H1 & H2 & l & HD) Hr. cbn [step] in Hs.
  pose proof (exec_wp K d x (fun r' s' e' => forall r, r' = Some r -> r_sw r = 0x9000 -> permanent (e_fs e') p)) as HW.
  destruct (exec K d x) as [[[r'|] s'] e']; [|discriminate]. injection Hs as -> <-. cbn [d_fs]. apply (HW) with (r := r); [|reflexivity|exact Hr]. clear - HC HI H1 H2 HD.
  set (c := x_apdu x) in *. unfold pgp_body, start. rewrite HI, HC. apply wp_bind, wp_guard; intros G1; [|discriminate G1]. 
  Ltac nosw := intros ? E W; injection E as <-; discriminate W.
  apply wp_bind, wp_selection2; [intros s1 _ _|intros V; congruence]. apply wp_bind, wp_read_attr; intros X1 [tv|] _ _; [|apply wp_except; nosw].
  cbv zeta. apply wp_bind, wp_guard; intros G2; [|nosw]. cbn [Z.eqb Pos.eqb].
  assert (HU : wp (put_uif c (x_tail x) p) (fun o s' e' => forall r, match o with Ret w | Exc w => Some (mkR (e_out e') w) | Fail => Some (mkR (e_out e') SW_UNABLE_TO_PROCESS) | UB => None end = Some r -> r_sw r = 0x9000 -> permanent (e_fs e') p)
     s1 (mkE (d_fs d) [d_fs d] X1 (x_rnd x) (x_tch x) [])).
  { unfold put_uif. apply wp_bind, wp_got. unfold ck_read_key_metadata. apply wp_bind, wp_read_attr. intros X2 [m|] _ _; apply wp_ret; cbn [option_map]; [|nosw].
    apply wp_bind, wp_guard; intros G3; [|nosw]. rewrite HD. cbn [app]. rewrite rd_cons_0. apply wp_bind, wp_need_any; [|discriminate]. intros b E. injection E as <-.
    apply wp_bind, wp_guard; intros G4; [|nosw]. apply wp_bind, wp_must. unfold ck_write_key_metadata. apply wp_write_attr; [|intros _ X3 _; nosw].
    intros V X3 _. apply wp_ret. intros r _ _. cbn [e_fs]. eexists. split; [rewrite fattr_fsetattr by exact V; reflexivity|reflexivity]. }
  unfold pgp_put_data. apply wp_bind. unfold assert_admin. apply wp_bind, wp_get, wp_guard; intros G3; [|nosw]. cbv zeta. rewrite H1.
  destruct H2 as [(-> & ->)|[(-> & ->)|(-> & ->)]]; cbn [Z.mul Z.lor Z.eqb Pos.eqb].
  - apply wp_bind, wp_guard; intros G4; [exact HU|nosw].
  - apply wp_bind, wp_guard; intros G4; [exact HU|nosw].
  - exact HU.
Qed.
Print Assumptions C39_set.

(** ** Example: the policy of the signature key is made permanent; afterwards it cannot be turned off, and a signature needs a touch. *)
Definition put_uif_cmd (v : Z) : capdu := mkC 0 0xDA 0 0xD6 [v; 0x20] 256.
Definition with_touch (a : Z) (c : capdu) : cmd := mkCmd c [] false 5000 6000 0 [] (repeat 0xA5 40) [a].
Definition ex_touch : list ev :=
  [Do (plain (put_uif_cmd 0)); Do (plain verify81); Do (with_touch 2 sign); Do (plain verify81); Do (with_touch 0 sign); Cut (plain (put_uif_cmd 0)) 0 []; Do (plain gen_sig)].
Definition seen_touch (F : fs) : option Z := option_map (fun m => nth 4 m 0) (fattr F "pgp-sigk" 0xFF).
Lemma seen_policy F n : seen_touch F = Some n -> policy F "pgp-sigk" n.
Proof. unfold seen_touch, policy. destruct (fattr F "pgp-sigk" 0xFF) as [m|]; [|discriminate]. intros H. injection H as H. eauto. Qed.
Example C39_ex : exists tr0 d0 tr d, since_boot toy tr0 d0 /\ hist toy d0 tr d /\ d_fs d0 "pgp-data" <> None /\ permanent (d_fs d0) "pgp-sigk" /\
  map (fun e => snd (fst e)) tr = ex_touch /\ Forall (fun e => ~ starts_over (fst (fst e)) (snd (fst e))) tr /\
  sws tr = [Some 0x6985; Some 0x9000; Some 0x6600; Some 0x9000; Some 0x9000; None; Some 0x9000].
Proof.
  destruct (sees_ran (run_all toy (boot fs_empty []) [Do (plain gen_sig); Do (plain verify83); Do (plain (put_uif_cmd 2))])
    (fun tr d => (seen_touch (d_fs d), (match d_fs d "pgp-data" with Some _ => true | None => false end, sees (run_all toy d ex_touch) (fun tr' _ => sws tr'))))
    (Some 4, (true, Some [Some 0x6985; Some 0x9000; Some 0x6600; Some 0x9000; Some 0x9000; None; Some 0x9000]))) as (tr0 & d0 & E0 & H0); [vm_compute; reflexivity|].
  pose proof (f_equal fst H0) as H1. pose proof (f_equal (fun x => fst (snd x)) H0) as H2. pose proof (f_equal (fun x => snd (snd x)) H0) as H3. cbn [fst snd] in H1, H2, H3. clear H0.
  assert (HS : since_boot toy tr0 d0) by (eapply run_all_since; [|exact E0]; bytes_ok). clear E0.
  apply sees_ran in H3. destruct H3 as (tr & d & E & H3). exists tr0, d0, tr, d. pose proof (run_all_events _ _ _ _ _ E) as HE.
  split; [exact HS|]. split; [|split; [|split; [|split; [|split]]]].
  - apply (run_all_hist toy ex_touch); [exact E|]. apply Forall_forall. intros e He.
    assert (Hin : In (snd (fst e)) ex_touch) by (rewrite <- HE; apply (in_map (fun e => snd (fst e))); exact He).
    assert (HS' : Forall simple ex_touch) by bytes_ok. rewrite Forall_forall in HS'. specialize (HS' _ Hin). destruct (snd (fst e)); try exact HS'; try exact I. contradiction.
  - intros W. rewrite W in H2. discriminate H2.
  - apply seen_policy. exact H1.
  - exact HE.
  - apply Forall_forall. intros e He.
    assert (Hin : In (snd (fst e)) ex_touch) by (rewrite <- HE; apply (in_map (fun e => snd (fst e))); exact He). clear - Hin. destruct e as [[d1 v] o]. cbn [fst snd] in *.
    unfold ex_touch in Hin. cbn [In] in Hin. repeat destruct Hin as [<-|Hin]; try contradiction; cbn; try (intros (W & _); discriminate W). intros [(W & _)|W]; [discriminate W|apply W; reflexivity].
  - exact H3.
Qed.
