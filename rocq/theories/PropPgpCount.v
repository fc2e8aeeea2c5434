(** C38: the counter of signatures. *)
From Verif Require Import Sys Apdu Applet Frame Pin PinProofs Tlv Key PropKey Pgp PgpSpec PgpFlags PropPgpAccess.
Open Scope string_scope. Open Scope list_scope. Open Scope Z_scope.

(** ** Specification *)
(** The card's counter of signatures is [n]. *)
Definition counter (F : fs) (n : Z) : Prop :=
  exists a b c, fattr F "pgp-data" 0x93 = Some [a; b; c] /\ all_bytes [a; b; c] /\ n = a * 65536 + b * 256 + c.
(** Commands that put a new key in the place of the signature key, or reset the card: GENERATE ASYMMETRIC KEY PAIR (B6), IMPORT KEY,
    ACTIVATE FILE. *)
Definition new_key_cmd (c : capdu) : Prop :=
  c_ins c = 0x47 /\ c_p1 c = 0x80 /\ nth 0 (c_data c) 0 = 0xB6 \/ c_ins c = 0xDB \/ c_ins c = 0x44.
(** Nothing of that sort happens: commands, interrupted commands, the applet left. *)
Definition ordinary (v : ev) : Prop :=
  match v with
  | Do x => ~ new_key_cmd (x_apdu x)
  | Cut x _ flt => ~ new_key_cmd (x_apdu x) /\ flt = []
  | Off | Other _ => True
  | Install _ | InstallCut _ _ _ => False
  end.
(** A signature was given and the command ended well. *)
Definition signs (e : entry) : bool :=
  match e with (_, Do x, Some r) => (c_cla (x_apdu x) =? 0) && (c_ins (x_apdu x) =? 0x2A) && (c_p1 (x_apdu x) =? 0x9E) && (c_p2 (x_apdu x) =? 0x9A) && (r_sw r =? 0x9000) | _ => false end.
Definition count (p : entry -> bool) (tr : list entry) : Z := zlen (filter p tr).

(** ** Frames *)
Section Fr.
Context {S : Type}.
Variable I : S -> Prop.
Variable P : fs -> Prop.
Lemma fr_write_file_at p d o t :
  (forall F, P F -> F p <> None) -> (forall F f x, P F -> F p = Some f -> P (fset F p (Some (mkF x (f_attr f))))) -> frame I P (write_file p d o t).
Proof.
  intros H1 H2 s e H. apply fr_pop in H. unfold wp, write_file. destruct (pop_fault e) as [x e']. cbn [snd] in H.
  destruct (e_fs e' p) as [f|] eqn:E; [|elim (H1 _ (proj1 (proj2 H)) E)].
  destruct x; try exact H. rewrite E. apply fgood_commit; [exact H|]. apply H2; [apply H|exact E].
Qed.
End Fr.

Lemma fr_need_some {S A B} (I : S -> Prop) P (a : A) (k : A -> M S B) : frame I P (k a) -> frame I P (bind (need (Some a)) k).
Proof. exact (fun H => H). Qed.
Lemma Forall_nth_default {A} (Q : A -> Prop) l n d : Forall Q l -> Q d -> Q (nth n l d).
Proof. intros H Hd. revert n. induction H; intros [|n]; cbn; auto. Qed.
Section Cmd.
Variable K : crypto.
Variable nfc : bool.
Variables t1 t2 junk : Z.
Notation body := (pgp_body K nfc t1 t2 junk).
Lemma counter_other n q : q <> "pgp-data" -> indep (fun G => counter G n) q.
Proof. intros Hq G x (a & b & c & H). exists a, b, c. unfold fattr in *. rewrite fset_other by congruence. exact H. Qed.
Lemma counter_attr n a v : a <> 0x93 -> forall G f, counter G n -> G "pgp-data" = Some f -> counter (fset G "pgp-data" (Some (mkF (f_data f) (aset (f_attr f) a v)))) n.
Proof. intros Ha G f (x & y & z & H & H') E. exists x, y, z. unfold fattr in *. rewrite fset_same. cbn [f_attr]. rewrite E in H. rewrite aset_other by congruence. auto. Qed.
Lemma counter_data n : forall G f x, counter G n -> G "pgp-data" = Some f -> counter (fset G "pgp-data" (Some (mkF x (f_attr f)))) n.
Proof. intros G f x0 (x & y & z & H & H') E. exists x, y, z. unfold fattr in *. rewrite fset_same. cbn [f_attr]. rewrite E in H. auto. Qed.
Lemma counter_some n G : counter G n -> G "pgp-data" <> None.
Proof. intros (a & b & c & H & _). unfold fattr in H. destruct (G "pgp-data"); discriminate. Qed.
Lemma cert_paths k p : cert_path k = Some p -> p <> "pgp-data".
Proof. unfold cert_path. destruct (k =? 0); [|destruct (k =? 1); [|destruct (k =? 2)]]; intros H; try discriminate H; injection H as <-; discriminate. Qed.
Lemma key_paths k p : get_key_path k = Some p -> p <> "pgp-data" /\ (p = "pgp-sigk" -> k = 0xB6).
Proof.
  unfold get_key_path. destruct (Z.eqb_spec k 0xB6); [|destruct (k =? 0xB8); [|destruct (k =? 0xA4)]]; intros H; try discriminate H; injection H as <-; (split; [discriminate|]);
    intros W; try discriminate W. assumption.
Qed.
Ltac frc := repeat first [
    match goal with
    | |- frame _ _ (match cert_path ?g with _ => _ end) => let E := fresh in destruct (cert_path g) eqn:E; [apply cert_paths in E|]
    | |- frame _ _ (match get_key_path ?g with _ => _ end) => let E := fresh in destruct (get_key_path g) eqn:E; [apply key_paths in E; destruct E as [E ?]|]
    | |- frame _ _ (write_file ?p _ _ _) =>
        first [apply fr_write_file, counter_other; first [discriminate | assumption] | apply fr_write_file_at; [apply counter_some|apply counter_data]]
    | |- frame _ _ (write_attr _ _ _) =>
        first [apply fr_write_attr, counter_other; first [discriminate | assumption] | apply fr_write_attr_at, counter_attr; discriminate]
    end | frame1 ].
Lemma fr_count n c tail : ~ new_key_cmd c -> ~ (c_ins c = 0x2A /\ c_p1 c = 0x9E /\ c_p2 c = 0x9A) -> frame (fun _ => True) (fun G => counter G n) (body c tail).
Proof.
  intros N1 N2. unfold pgp_body. cbv zeta.
  apply fr_bind; [apply fr_guard|intros _]. apply fr_bind; [apply fr_selection; auto|intros _].
  apply fr_bind; [apply fr_read_attr|intros [v|]]; [|apply fr_except]. apply fr_bind; [apply fr_guard|intros _].
  destruct (c_ins c =? 0xA4); [unfold pgp_select; pgp_unfold; frc|].
  destruct (Z.eqb_spec (c_ins c) 0x44); [elim N1; right; auto|].
  destruct (c_ins c =? 0xCA); [unfold pgp_get_data, application_related_data, discretionary_data, cardholder_related_data, pw_status_bytes; pgp_unfold; frc|].
  destruct (c_ins c =? 0xA5); [unfold pgp_select_data; pgp_unfold; frc|].
  destruct (c_ins c =? 0xCC); [unfold pgp_get_next_data; pgp_unfold; frc|].
  destruct (c_ins c =? 0x20); [unfold pgp_verify, verify_with, verify_pin; pgp_unfold; frc|].
  destruct (c_ins c =? 0x24); [unfold pgp_change_reference_data, change_with, verify_prefix, update_rest; pgp_unfold; frc|].
  destruct (c_ins c =? 0x2C); [unfold pgp_reset_retry_counter, verify_prefix, update_rest; pgp_unfold; frc|].
  destruct (c_ins c =? 0xDA).
  { unfold pgp_put_data, put_algorithm, put_uif, put_resetting_code; pgp_unfold. frc. }
  destruct (Z.eqb_spec (c_ins c) 0xDB); [elim N1; right; auto|].
  destruct (Z.eqb_spec (c_ins c) 0x47) as [E|E].
  { unfold pgp_generate. apply fr_bind; [apply fr_guard|intros _]. apply fr_bind; [apply fr_guard|intros _].
    destruct (c_data c) as [|b l] eqn:Ed; [intros s e H; exact H|]. rewrite rd_cons_0. apply fr_need_some.
    destruct (get_key_path b) as [p|] eqn:Ep; [|apply fr_except]. apply key_paths in Ep. destruct Ep as (E1 & E2).
    assert (HB : (c_p1 c =? 0x80) && String.eqb p SIG_KEY_PATH = false).
    { destruct (Z.eqb_spec (c_p1 c) 0x80) as [V|V]; [|reflexivity]. destruct (String.eqb_spec p SIG_KEY_PATH) as [U|U]; [|reflexivity].
      elim N1. left. split; [exact E|]. split; [exact V|]. rewrite Ed. apply E2. exact U. }
    rewrite HB. pgp_unfold. frc. }
  destruct (Z.eqb_spec (c_ins c) 0x2A).
  { destruct (Z.eqb_spec (c_p1 c) 0x9E); cbn [andb]; [destruct (Z.eqb_spec (c_p2 c) 0x9A); cbn [andb]; [elim N2; auto|]|]; (destruct (_ && _); [unfold pgp_decipher; pgp_unfold; frc|apply fr_except]). }
  destruct (c_ins c =? 0x88); [unfold pgp_sign_or_auth; pgp_unfold; frc|].
  destruct (c_ins c =? 0x84); [unfold pgp_get_challenge; pgp_unfold; frc|].
  destruct (c_ins c =? 0xE6); [unfold pgp_terminate; pgp_unfold; frc|].
  apply fr_except.
Qed.
Lemma incr3_ok a b c : all_bytes [a; b; c] -> exists a' b' c', incr3 [a; b; c] = [a'; b'; c'] /\ all_bytes [a'; b'; c'] /\
  a' * 65536 + b' * 256 + c' = (a * 65536 + b * 256 + c + 1) mod 16777216.
Proof.
  intros H. inversion H as [|? ? Ha H1]; subst. inversion H1 as [|? ? Hb H2]; subst. inversion H2 as [|? ? Hc _]; subst. unfold is_byte in *. cbn [incr3].
  assert (U : forall x, 0 <= x < 256 -> is_byte (u8 (x + 1)) /\ (x < 255 /\ u8 (x + 1) = x + 1 \/ x = 255 /\ u8 (x + 1) = 0)).
  { intros x Hx. unfold u8, is_byte. destruct (Z.eq_dec x 255) as [->|]; [cbn; lia|]. rewrite Z.mod_small by lia. lia. }
  destruct (U a Ha) as (A1 & A2). destruct (U b Hb) as (B1 & B2). destruct (U c Hc) as (C1 & C2).
  assert (BB : forall x y z, is_byte x -> is_byte y -> is_byte z -> all_bytes [x; y; z]) by (intros; apply Forall_cons; [assumption|apply Forall_cons; [assumption|apply Forall_cons; [assumption|constructor]]]).
  destruct (Z.eqb_spec (u8 (c + 1)) 0) as [Z1|Z1]; cbn [negb].
  2: { exists a, b, (u8 (c + 1)). split; [reflexivity|]. split; [apply BB; assumption|]. rewrite Z.mod_small by lia. lia. }
  destruct (Z.eqb_spec (u8 (b + 1)) 0) as [Z2|Z2]; cbn [negb].
  2: { exists a, (u8 (b + 1)), (u8 (c + 1)). split; [reflexivity|]. split; [apply BB; assumption|]. rewrite Z.mod_small by lia. lia. }
  exists (u8 (a + 1)), (u8 (b + 1)), (u8 (c + 1)). split; [reflexivity|]. split; [apply BB; assumption|].
  destruct A2 as [(A2 & A3)|(A2 & A3)]; [rewrite Z.mod_small by lia; lia|]. assert (a * 65536 + b * 256 + c + 1 = 16777216) as -> by lia. rewrite Z_mod_same_full. lia.
Qed.
Definition signed (n : Z) (F : fs) (L : list fs) (o : out Z) (e' : env) : Prop :=
  (exists sw, o = Ret sw /\ sw = 0x9000) /\ counter (e_fs e') ((n + 1) mod 16777216) /\ e_log e' = e_fs e' :: L \/
  (forall sw, o <> Ret sw) /\ (forall sw, o = Exc sw -> sw <> 0x9000) /\ e_fs e' = F /\ e_log e' = L.
Lemma sign_count c s n F L X R T : counter F n ->
  wp (pgp_sign_or_auth K nfc t1 t2 c true) (fun o s' e' => signed n F L o e') s (mkE F L X R T []).
Proof.
  intros Hn. assert (NO : forall o X' T' O, (forall sw, o <> Ret sw) -> (forall sw, o = Exc sw -> sw <> 0x9000) -> signed n F L o (mkE F L X' R T' O)).
  { intros o X' T' O H1 H2. right. repeat split; auto. }
  Ltac nos NO := apply NO; [discriminate|intros ? W; (discriminate W || (injection W as <-; discriminate))].
  unfold pgp_sign_or_auth. apply wp_bind, wp_get, wp_bind, wp_guard; intros G; [|nos NO].
  apply wp_bind, wp_bind, wp_got, wp_read_attr. intros X1 [v|] _ _; [|nos NO].
  assert (HT : forall s1, wp (let p := SIG_KEY_PATH in
  m <- got (ck_read_key_metadata p) ;;
  touch_if nfc t1 t2 m ;;;
  guard (negb (m_origin m =? KEY_ORIGIN_NOT_PRESENT)) SW_REFERENCE_DATA_NOT_FOUND ;;;
  guard (negb (Z.land (m_usage m) SIGN =? 0)) SW_CONDITIONS_NOT_SATISFIED ;;;
  input <- (if IS_RSA (m_type m) then
              guard (negb (c_lc c >? PUBLIC_KEY_LENGTH (m_type m) * 2 / 5)) SW_WRONG_LENGTH ;;; ret (c_data c)
            else if IS_SHORT_WEIERSTRASS (m_type m) then
              guard (negb (c_lc c >? PRIVATE_KEY_LENGTH (m_type m))) SW_WRONG_LENGTH ;;;
              ret (zeros (PRIVATE_KEY_LENGTH (m_type m) - c_lc c) ++ c_data c)
            else ret (c_data c)) ;;
  k <- got (ck_read_key p) ;;
  sig <- opt (ck_sign K k input) ;;
  set_out sig ;;;
  count_signature ;;;
  ret SW_NO_ERROR) (fun o s' e' => signed n F L o e') s1 (mkE F L X1 R T [])).
  { intros s1. cbv zeta. apply wp_bind, wp_got. unfold ck_read_key_metadata. apply wp_bind, wp_read_attr. intros X2 r _ _. apply wp_ret.
    destruct r as [a|]; cbn [option_map]; [|nos NO]. apply wp_bind, wp_touch_if; [|intros T'; nos NO]. intros T' s2 _.
    apply wp_bind, wp_guard; intros G2; [|nos NO]. apply wp_bind, wp_guard; intros G3; [|nos NO].
    assert (HK : forall input, wp (k <- got (ck_read_key SIG_KEY_PATH) ;;
        sig <- opt (ck_sign K k input) ;; set_out sig ;;; count_signature ;;; ret SW_NO_ERROR) (fun o s' e' => signed n F L o e') s2 (mkE F L X2 R T' [])).
    { intros input. apply wp_bind, wp_got, wp_read_key. intros X3 [k|]; [|nos NO]. apply wp_bind, wp_opt; intros; [|nos NO]. apply wp_bind, wp_set_out.
      apply wp_bind. unfold count_signature, attr_exact. apply wp_bind, wp_bind, wp_got, wp_read_attr. intros X5 [u|] _ Hu; [|nos NO]. apply wp_ret.
      destruct Hu as [Hu|Hu]; [discriminate|]. destruct Hn as (x & y & z & Hx & Hb & ->). unfold DATA_PATH, TAG_DIGITAL_SIG_COUNTER in *. rewrite Hx in Hu. injection Hu as ->.
      change (firstn (Z.to_nat 3) ([x; y; z] ++ zeros 3)) with [x; y; z]. apply wp_must.
      destruct (incr3_ok x y z Hb) as (x' & y' & z' & I1 & I2 & I3). rewrite I1.
      apply wp_write_attr; [|intros; nos NO]. intros V X6 _. apply wp_ret. left. split; [eexists; split; reflexivity|]. cbn [e_fs e_log].
      split; [|reflexivity]. exists x', y', z'. split; [rewrite fattr_fsetattr by exact V; reflexivity|]. split; [exact I2|]. symmetry. exact I3. }
    apply wp_bind. destruct (IS_RSA _); [|destruct (IS_SHORT_WEIERSTRASS _)].
    - apply wp_bind, wp_guard; intros G4; [apply wp_ret, HK|nos NO].
    - apply wp_bind, wp_guard; intros G4; [apply wp_ret, HK|nos NO].
    - apply wp_ret, HK. }
  destruct (attr1 v =? 0); [apply wp_modify|apply wp_ret]; apply HT.
Qed.
End Cmd.

(** ** Steps *)
Section Steps.
Variable K : crypto.
Definition is_sign (c : capdu) : bool := (c_cla c =? 0) && (c_ins c =? 0x2A) && (c_p1 c =? 0x9E) && (c_p2 c =? 0x9A).
Lemma exec_count d x n : counter (d_fs d) n -> ~ new_key_cmd (x_apdu x) ->
  let '(r, s', e') := exec K d x in
  let m := (n + 1) mod 16777216 in
  (counter (e_fs e') n /\ Forall (fun G => counter G n) (e_log e') /\ (is_sign (x_apdu x) = true -> forall w, r = Some w -> r_sw w <> 0x9000)) \/
  (is_sign (x_apdu x) = true /\ counter (e_fs e') m /\ Forall (fun G => counter G n \/ counter G m) (e_log e') /\ exists w, r = Some w /\ r_sw w = 0x9000).
Proof.
  intros Hn N. destruct (is_sign (x_apdu x)) eqn:Es.
  - apply exec_wp. unfold is_sign in Es. set (c := x_apdu x) in *.
    assert (HC : c_cla c = 0) by lia. assert (HI : c_ins c = 0x2A) by lia. assert (H1 : c_p1 c = 0x9E) by lia. assert (H2 : c_p2 c = 0x9A) by lia.
    assert (NO : forall o X, (forall sw : Z, o <> Ret sw) -> (forall sw, o = Exc sw -> sw <> 0x9000) ->
      (counter (e_fs X) n /\ Forall (fun G => counter G n) (e_log X)) -> 
      (counter (e_fs X) n /\ Forall (fun G => counter G n) (e_log X) /\ (true = true -> forall w, match o with Ret w | Exc w => Some (mkR (e_out X) w) | Fail => Some (mkR (e_out X) SW_UNABLE_TO_PROCESS) | UB => None end = Some w -> r_sw w <> 0x9000))).
    { intros o X A1 A2 (A3 & A4). split; [exact A3|]. split; [exact A4|]. intros _ w Hw. destruct o as [sw|sw| |]; [elim (A1 sw eq_refl)|..|discriminate]; injection Hw as <-; cbn; [apply A2; reflexivity|discriminate]. }
    unfold pgp_body, start. rewrite HC, HI. apply wp_bind, wp_guard; intros G1; [|discriminate G1].
    apply wp_bind, wp_selection; [intros s1 _|intros V; congruence].
    apply wp_bind, wp_read_attr. intros X1 [tv|] _ _.
    2: { apply wp_except. left. apply (NO (Exc SW_UNABLE_TO_PROCESS)); [discriminate|intros sw W; injection W as <-; discriminate|]. split; [exact Hn|constructor; [exact Hn|constructor]]. }
    cbv zeta. apply wp_bind, wp_guard; intros G2.
    2: { left. apply (NO (Exc SW_TERMINATED)); [discriminate|intros sw W; injection W as <-; discriminate|]. split; [exact Hn|constructor; [exact Hn|constructor]]. }
    cbn [Z.eqb Pos.eqb]. rewrite H1, H2. cbn [Z.eqb Pos.eqb andb].
    eapply wp_mono; [apply sign_count; exact Hn|]. intros o s' e' [((sw & -> & Hsw) & A & B)|(A1 & A2 & A3 & A4)].
    + right. split; [reflexivity|]. split; [exact A|]. split; [rewrite B; constructor; [auto|constructor; [auto|constructor]]|]. eexists. split; [reflexivity|exact Hsw].
    + left. apply (NO o); auto. rewrite A3, A4. split; [exact Hn|constructor; [exact Hn|constructor]].
  - unfold exec.
    destruct (Z.eq_dec (c_cla (x_apdu x)) 0) as [HC|HC].
    + pose proof (frame_apdu (fun _ => True) (fun G => counter G n) _ (d_ram d) (d_fs d) (x_flt x) (x_rnd x) (x_tch x) (fr_count K (x_nfc x) (x_t1 x) (x_t2 x) (x_junk x) n (x_apdu x) (x_tail x) N ltac:(unfold is_sign in Es; lia)) I Hn) as W.
      destruct (run_apdu _ _ _) as [[r s'] e']. destruct W as (_ & W1 & W2). left. split; [exact W1|]. split; [exact W2|discriminate].
    + unfold run_apdu, pgp_body, bind, guard. cbv zeta. destruct (Z.eqb_spec (c_cla (x_apdu x)) 0); [contradiction|]. cbn. left. split; [exact Hn|]. split; [constructor; [exact Hn|constructor]|discriminate].
Qed.
Lemma boot_same F : F "pgp-data" <> None -> d_fs (boot F []) = F.
Proof.
  intros H. unfold boot, installed, pgp_install. unfold bind, modify, get_file_size, pop_fault, start. cbn [e_flt e_fs].
  destruct (F "pgp-data") eqn:E; [|congruence]. unfold DATA_PATH. rewrite E. reflexivity.
Qed.
End Steps.
(** From a card whose counter is [n], over any history without a new key or a re-installation: the counter is [n] plus the number of signatures
    given with status 9000, modulo 2^24; a signature interrupted by a power failure may or may not count. *)
Theorem C38_counter : forall K d0 tr d n, hist K d0 tr d -> counter (d_fs d0) n -> Forall (fun e => ordinary (snd (fst e))) tr ->
  exists k, 0 <= k <= count (fun e => match e with (_, Cut x _ _, _) => is_sign (x_apdu x) | _ => false end) tr /\
  counter (d_fs d) ((n + count signs tr + k) mod 16777216).
Proof.
  intros K d0 tr d n H Hn. induction H as [d0|d0 tr d v o d' H IH Hok Hst]; intros Ho.
  - exists 0. split; [change (0 <= 0 <= 0); lia|]. change (count signs []) with 0. destruct Hn as (a & b & c & H1 & H2 & H3). exists a, b, c. split; [exact H1|]. split; [exact H2|].
    inversion H2 as [|? ? Ha H4]; subst. inversion H4 as [|? ? Hb H5]; subst. inversion H5 as [|? ? Hc _]; subst. unfold is_byte in *. rewrite Z.mod_small; lia.
  - apply Forall_app in Ho. destruct Ho as (Ho1 & Ho2). inversion Ho2 as [|? ? Ho3 _]; subst. cbn [fst snd] in Ho3.
    destruct (IH Hn Ho1) as (k & Hk & Hc). set (cut := fun e : entry => match e with (_, Cut x _ _, _) => is_sign (x_apdu x) | _ => false end) in *.
    assert (HA : forall p e, count p (tr ++ [e]) = count p tr + (if p e then 1 else 0)).
    { intros p e. unfold count, zlen. rewrite filter_app, app_length. cbn [filter]. destruct (p e); cbn [length]; lia. }
    rewrite !HA. set (N := n + count signs tr + k) in *.
    assert (HM : (N mod 16777216 + 1) mod 16777216 = (N + 1) mod 16777216) by (rewrite Zplus_mod_idemp_l; reflexivity).
    destruct v as [x|x j flt| |flt|flt j flt'|F]; cbn [ordinary] in Ho3; try contradiction.
    + cbn [step] in Hst. pose proof (exec_count K d x _ Hc Ho3) as W. destruct (exec K d x) as [[[r|] s'] e']; [|discriminate]. injection Hst as <- <-. cbn [d_fs cut].
      exists k. cbn [signs]. fold (is_sign (x_apdu x)). cbn zeta in W. destruct W as [(W1 & _ & W3)|(W1 & W2 & _ & w & Hw & W4)].
      * replace (is_sign (x_apdu x) && (r_sw r =? 0x9000)) with false by (destruct (is_sign (x_apdu x)); [specialize (W3 eq_refl r eq_refl)|]; lia).
        split; [lia|]. replace (n + (count signs tr + 0) + k) with N by lia. exact W1.
      * injection Hw as <-. rewrite W1, W4. cbn [andb]. rewrite Z.eqb_refl. split; [lia|]. replace (n + (count signs tr + 1) + k) with (N + 1) by lia. rewrite <- HM. exact W2.
    + destruct Ho3 as (Ho3 & ->). cbn [step] in Hst. pose proof (exec_count K d x _ Hc Ho3) as W. destruct (exec K d x) as [[r s'] e']. injection Hst as <- <-.
      cbn [cut signs]. cbn zeta in W.
      assert (HG : forall G m, counter G m -> counter (d_fs (boot G [])) m) by (intros G m HG; rewrite boot_same; [exact HG|eapply counter_some; exact HG]).
      destruct W as [(W1 & W2 & W3)|(W1 & W2 & W3 & w & Hw & W4)].
      * exists k. split; [destruct (is_sign _); lia|]. replace (n + (count signs tr + 0) + k) with N by lia. apply HG. apply Forall_nth_default; assumption.
      * rewrite W1. assert (W5 : counter (nth j (e_log e') (e_fs e')) (N mod 16777216) \/ counter (nth j (e_log e') (e_fs e')) ((N mod 16777216 + 1) mod 16777216)).
        { apply (Forall_nth_default (fun G => counter G (N mod 16777216) \/ counter G ((N mod 16777216 + 1) mod 16777216))); auto. }
        destruct W5 as [W5|W5]; [exists k|exists (k + 1)]; (split; [lia|]).
        -- replace (n + (count signs tr + 0) + k) with N by lia. apply HG. exact W5.
        -- replace (n + (count signs tr + 0) + (k + 1)) with (N + 1) by lia. rewrite <- HM. apply HG. exact W5.
    + cbn [step] in Hst. injection Hst as <- <-. exists k. cbn [cut signs d_fs]. split; [lia|]. replace (n + (count signs tr + 0) + k) with N by lia. exact Hc.
    + cbn [step] in Hst. injection Hst as <- <-. exists k. cbn [cut signs d_fs]. split; [lia|]. replace (n + (count signs tr + 0) + k) with N by lia.
      destruct Hc as (a & b & c & Hc). exists a, b, c. unfold fattr in *. cbn [ev_ok] in Hok. rewrite (Hok "pgp-data") by (cbn; auto). exact Hc.
Qed.
Print Assumptions C38_counter.

(** ** New keys *)
Section Reset.
Variable K : crypto.
Variable nfc : bool.
Variables t1 t2 junk : Z.
Variable n : Z.
Notation body := (pgp_body K nfc t1 t2 junk).
Definition same_or_zero (G : fs) : Prop := counter G n \/ counter G 0.
Lemma z_other q : q <> "pgp-data" -> indep same_or_zero q.
Proof. intros Hq G x [H|H]; [left|right]; (apply counter_other; [exact Hq|exact H]). Qed.
Lemma z_attr a v : a <> 0x93 -> forall G f, same_or_zero G -> G "pgp-data" = Some f -> same_or_zero (fset G "pgp-data" (Some (mkF (f_data f) (aset (f_attr f) a v)))).
Proof. intros Ha G f [H|H] E; [left|right]; (apply counter_attr; assumption). Qed.
Lemma z_zero : forall G f, same_or_zero G -> G "pgp-data" = Some f -> same_or_zero (fset G "pgp-data" (Some (mkF (f_data f) (aset (f_attr f) 0x93 (zeros 3))))).
Proof.
  intros G f _ E. right. exists 0, 0, 0. unfold fattr. rewrite fset_same. cbn [f_attr]. rewrite aset_same. split; [reflexivity|]. split; [|reflexivity].
  apply Forall_cons; [unfold is_byte; lia|apply Forall_cons; [unfold is_byte; lia|apply Forall_cons; [unfold is_byte; lia|constructor]]].
Qed.
Lemma z_data : forall G f x, same_or_zero G -> G "pgp-data" = Some f -> same_or_zero (fset G "pgp-data" (Some (mkF x (f_attr f)))).
Proof. intros G f x [H|H] E; [left|right]; (apply counter_data; assumption). Qed.
Lemma z_some G : same_or_zero G -> G "pgp-data" <> None.
Proof. intros [H|H]; exact (counter_some _ _ H). Qed.
Ltac frz := repeat first [
    match goal with
    | |- frame _ _ (match get_key_path ?g with _ => _ end) => let E := fresh in destruct (get_key_path g) eqn:E; [apply key_paths in E; destruct E as [E ?]|]
    | |- frame _ _ (write_file ?p _ _ _) =>
        first [apply fr_write_file, z_other; first [discriminate | assumption] | apply fr_write_file_at; [apply z_some|apply z_data]]
    | |- frame _ _ (write_attr _ _ _) =>
        first [apply fr_write_attr, z_other; first [discriminate | assumption] | apply fr_write_attr_at; first [apply z_attr; discriminate | apply z_zero]]
    end | frame1 ].
Lemma fr_zero c tail : new_key_cmd c -> frame (fun _ => True) same_or_zero (body c tail).
Proof.
  intros N. unfold pgp_body. cbv zeta.
  apply fr_bind; [apply fr_guard|intros _]. apply fr_bind; [apply fr_selection; auto|intros _].
  apply fr_bind; [apply fr_read_attr|intros [v|]]; [|apply fr_except]. apply fr_bind; [apply fr_guard|intros _].
  destruct N as [(-> & _)|[-> | ->]]; cbn [Z.eqb Pos.eqb].
  - unfold pgp_generate. pgp_unfold. frz.
  - unfold pgp_import. pgp_unfold. frz.
  - unfold pgp_activate, pgp_install, install_key. pgp_unfold. frz.
Qed.
End Reset.
(** A command that is no signature leaves the counter as it was or, only if it puts in a new key, zero: at the end and in every storage
    image a power failure may leave. *)
Theorem C38_reset : forall K d x n, counter (d_fs d) n -> is_sign (x_apdu x) = false ->
  let '(_, _, e') := exec K d x in
  forall G, G = e_fs e' \/ In G (e_log e') -> counter G n \/ counter G 0 /\ new_key_cmd (x_apdu x).
Proof.
  intros K d x n Hn Hs.
  assert (D : new_key_cmd (x_apdu x) \/ ~ new_key_cmd (x_apdu x)).
  { unfold new_key_cmd. destruct (Z.eq_dec (c_ins (x_apdu x)) 0x47), (Z.eq_dec (c_p1 (x_apdu x)) 0x80), (Z.eq_dec (nth 0 (c_data (x_apdu x)) 0) 0xB6),
      (Z.eq_dec (c_ins (x_apdu x)) 0xDB), (Z.eq_dec (c_ins (x_apdu x)) 0x44); tauto. }
  destruct D as [D|D].
  - pose proof (frame_apdu (fun _ => True) (same_or_zero n) _ (d_ram d) (d_fs d) (x_flt x) (x_rnd x) (x_tch x) (fr_zero K (x_nfc x) (x_t1 x) (x_t2 x) (x_junk x) n (x_apdu x) (x_tail x) D) I (or_introl Hn)) as W.
    unfold exec. destruct (run_apdu _ _ _) as [[r s'] e']. destruct W as (_ & W1 & W2). intros G HG.
    assert (W : same_or_zero n G) by (destruct HG as [-> |HG]; [exact W1|rewrite Forall_forall in W2; apply W2; exact HG]). destruct W as [W|W]; auto.
  - pose proof (exec_count K d x n Hn D) as W. destruct (exec K d x) as [[r s'] e']. cbn zeta in W. rewrite Hs in W. destruct W as [(W1 & W2 & _)|(W & _)]; [|discriminate].
    intros G [-> |HG]; [auto|]. left. rewrite Forall_forall in W2. apply W2. exact HG.
Qed.
Print Assumptions C38_reset.

(** ** Examples *)
Definition seen_count (F : fs) : option bytes := fattr F "pgp-data" 0x93.
Lemma seen_counter F a b c : seen_count F = Some [a; b; c] -> forallb (fun b => (0 <=? b) && (b <? 256)) [a; b; c] = true -> counter F (a * 65536 + b * 256 + c).
Proof.
  intros H Hb. exists a, b, c. split; [exact H|]. split; [|reflexivity]. apply Forall_forall. intros x Hx. rewrite forallb_forall in Hb. specialize (Hb x Hx). unfold is_byte. lia.
Qed.
Definition ex_count : list ev := [Do (plain verify81); Do (plain sign); Do (plain sign); Off; Do (plain verify81); Do (plain sign)].
Example C38_ex : exists d0 tr d, hist toy d0 tr d /\ counter (d_fs d0) 0 /\ Forall (fun e => ordinary (snd (fst e))) tr /\
  count signs tr = 2 /\ counter (d_fs d) 2.
Proof.
  destruct (sees_ran (run_all toy (boot fs_empty []) [Do (plain gen_sig)])
    (fun tr d => (seen_count (d_fs d), sees (run_all toy d ex_count) (fun tr' d' => (sws tr', seen_count (d_fs d'), count signs tr'))))
    (Some [0; 0; 0], Some ([Some 0x9000; Some 0x9000; Some 0x6982; None; Some 0x9000; Some 0x9000], Some [0; 0; 2], 2))) as (tr0 & d0 & E0 & H0); [vm_compute; reflexivity|].
  pose proof (f_equal fst H0) as H1. pose proof (f_equal snd H0) as H2. cbn [fst snd] in H1, H2. clear H0 E0.
  apply sees_ran in H2. destruct H2 as (tr & d & E & H2). exists d0, tr, d.
  pose proof (run_all_events _ _ _ _ _ E) as HE.
  split; [|split; [|split; [|split]]].
  - apply (run_all_hist toy ex_count); [exact E|]. apply Forall_forall. intros e He.
    assert (Hin : In (snd (fst e)) ex_count) by (rewrite <- HE; apply (in_map (fun e => snd (fst e))); exact He).
    assert (HS : Forall simple ex_count) by bytes_ok. rewrite Forall_forall in HS. specialize (HS _ Hin). destruct (snd (fst e)); try exact HS; try exact I. contradiction.
  - apply (seen_counter _ 0 0 0); [exact H1|reflexivity].
  - apply Forall_forall. intros e He.
    assert (Hin : In (snd (fst e)) ex_count) by (rewrite <- HE; apply (in_map (fun e => snd (fst e))); exact He).
    unfold ex_count in Hin. cbn [In] in Hin. repeat destruct Hin as [<-|Hin]; try contradiction; cbn; try exact I; intros [(W & _)|[W|W]]; discriminate W.
  - exact (f_equal snd H2).
  - apply (seen_counter _ 0 0 2); [exact (f_equal (fun x => snd (fst x)) H2)|reflexivity].
Qed.
(** A storage error while the counter is stored: the signature is in the answer (with status 6900), and not counted. *)
Theorem C38_uncounted_refuted : exists tr d x r d', since_boot toy tr d /\ step toy d (Do x) = Some (Some r, d') /\ gives_signature (d, Do x, Some r) /\ r_data r <> [] /\
  counter (d_fs d) 0 /\ counter (d_fs d') 0.
Proof.
  destruct (sees_ran (run_all toy (boot fs_empty []) [Do (plain gen_sig); Do (plain verify81)])
    (fun tr d => (seen_count (d_fs d), match step toy d (Do (with_faults [FNone; FNone; FNone; FNone; FNone; FNone; FEarly] sign)) with
       | Some (Some r, d') => Some (r_sw r, match r_data r with [] => 0 | _ => 1 end, seen_count (d_fs d')) | _ => None end))
    (Some [0; 0; 0], Some (0x6900, 1, Some [0; 0; 0]))) as (tr & d & E & H); [vm_compute; reflexivity|].
  pose proof (f_equal fst H) as H1. pose proof (f_equal snd H) as H2. cbn [fst snd] in H1, H2. clear H.
  set (x := with_faults [FNone; FNone; FNone; FNone; FNone; FNone; FEarly] sign) in *.
  exists tr, d, x. assert (Hs : since_boot toy tr d) by (eapply run_all_since; [|exact E]; bytes_ok). clear E.
  destruct (step toy d (Do x)) as [[[r|] d']|]; try discriminate H2. exists r, d'. injection H2 as A B C.
  assert (N : r_data r <> []) by (intros V; rewrite V in B; discriminate B).
  split; [exact Hs|]. split; [reflexivity|]. split; [split; [repeat split|right; exact N]|]. split; [exact N|].
  split; apply (seen_counter _ 0 0 0); (exact H1 || exact C || reflexivity).
Qed.
Print Assumptions C38_uncounted_refuted.
