(** C36, C37, C63: what the passwords of the OpenPGP applet are needed for. *)
From Verif Require Import Sys Apdu Applet Frame Pin PinProofs Tlv Key PropKey Pgp PgpSpec PgpFlags.
Open Scope string_scope. Open Scope list_scope. Open Scope Z_scope.

Lemma exec_wp K d x (Q : option rapdu -> pgp -> env -> Prop) :
  wp (pgp_body K (x_nfc x) (x_t1 x) (x_t2 x) (x_junk x) (x_apdu x) (x_tail x))
     (fun o s' e' => Q (match o with Ret w | Exc w => Some (mkR (e_out e') w) | Fail => Some (mkR (e_out e') SW_UNABLE_TO_PROCESS) | UB => None end) s' e')
     (d_ram d) (start (d_fs d) (x_flt x) (x_rnd x) (x_tch x)) ->
  let '(r, s', e') := exec K d x in Q r s' e'.
Proof.
  unfold exec, run_apdu, wp, start. cbn [e_fs e_log e_flt e_rnd e_tch].
  destruct (pgp_body _ _ _ _ _ _ _ _ _) as [[[w|w| |] s'] e']; auto.
Qed.
Lemma wp_got {A} (m : M pgp (option A)) (Q : out A -> pgp -> env -> Prop) s e :
  wp m (fun o s' e' => match o with Ret (Some a) => Q (Ret a) s' e' | Ret None => Q Fail s' e' | Exc w => Q (Exc w) s' e' | Fail => Q Fail s' e' | UB => Q UB s' e' end) s e ->
  wp (got m) Q s e.
Proof. unfold wp, got, bind. destruct (m s e) as [[[[a|]|w| |] s'] e']; auto. Qed.
Lemma wp_must (m : M pgp bool) (Q : out unit -> pgp -> env -> Prop) s e :
  wp m (fun o s' e' => match o with Ret true => Q (Ret tt) s' e' | Ret false => Q Fail s' e' | Exc w => Q (Exc w) s' e' | Fail => Q Fail s' e' | UB => Q UB s' e' end) s e ->
  wp (must m) Q s e.
Proof. unfold wp, must, bind. destruct (m s e) as [[[[|]|w| |] s'] e']; auto. Qed.
Lemma wp_opt {A} (o : option A) (Q : out A -> pgp -> env -> Prop) s e :
  (forall a, o = Some a -> Q (Ret a) s e) -> (o = None -> Q Fail s e) -> wp (opt o) Q s e.
Proof. destruct o; cbn; auto. Qed.
Lemma wp_need_any {A} (o : option A) (Q : out A -> pgp -> env -> Prop) s e :
  (forall a, o = Some a -> Q (Ret a) s e) -> (o = None -> Q UB s e) -> wp (need o) Q s e.
Proof. destruct o; cbn; auto. Qed.

Lemma wp_read_key p (Q : out (option ckey) -> pgp -> env -> Prop) s F L X R T O :
  (forall X' k, Q (Ret k) s (mkE F L X' R T O)) -> wp (ck_read_key p) Q s (mkE F L X R T O).
Proof.
  intros H. unfold ck_read_key, ck_read_key_metadata. apply wp_bind, wp_bind, wp_read_attr. intros X1 r1 _ _. apply wp_ret.
  destruct r1; cbn [option_map]; [|apply wp_ret, H]. apply wp_bind, wp_read_file. intros X2 r2 _ _. apply wp_ret, H.
Qed.

(** ** Uses of the keys *)
(** Nothing came out. *)
Definition no_result (o : out Z) (e : env) : Prop := e_out e = [] /\ (forall w, o = Ret w \/ o = Exc w -> w <> 0x9000).
Definition sign_post (is_sign : bool) (s : pgp) (F : fs) (o : out Z) (s' : pgp) (e' : env) : Prop :=
  (g_81 s' = g_81 s \/ is_sign = true /\ g_81 s' = false) /\ g_82 s' = g_82 s /\ g_pw3 s' = g_pw3 s /\
  (no_result o e' \/ (if is_sign then g_81 s else g_82 s) = true /\ (is_sign = true -> one_signature F -> g_81 s' = false)).
Ltac nores := left; split; [reflexivity|intros ? [W|W]; (discriminate W || (injection W as <-; discriminate))].
Section Use.
Variable K : crypto.
Variable nfc : bool.
Variables t1 t2 : Z.
Lemma wp_touch_if m (Q : out unit -> pgp -> env -> Prop) s F L X R T O :
  (forall T' s', (s' = s \/ s' = set_last t2 s) -> Q (Ret tt) s' (mkE F L X R T' O)) -> (forall T', Q (Exc SW_ERROR_WHILE_RECEIVING) s (mkE F L X R T' O)) ->
  wp (touch_if nfc t1 t2 m) Q s (mkE F L X R T O).
Proof.
  intros H1 H2. unfold touch_if. wif W; [|apply wp_ret, H1; auto]. unfold pgp_touch. destruct nfc; [apply wp_ret, H1; auto|].
  apply wp_bind, wp_get. wif V; [apply wp_ret, H1; auto|]. apply wp_bind, wp_wait_touch.
  wif U; [apply wp_except, H2|]. apply wp_modify, H1. auto.
Qed.
Lemma attr1_zero v : attr1 v = 0 <-> v = [] \/ exists l, v = 0 :: l.
Proof.
  unfold attr1. destruct v as [|b l]; cbn; split; auto.
  - intros ->. right. exists l. reflexivity.
  - intros [H|[l' H]]; [discriminate|]. injection H as -> _. reflexivity.
Qed.
Lemma sign_ok c is_sign s F L X R T : wp (pgp_sign_or_auth K nfc t1 t2 c is_sign) (sign_post is_sign s F) s (mkE F L X R T []).
Proof.
  unfold pgp_sign_or_auth. apply wp_bind, wp_get, wp_bind, wp_guard; intros G.
  2: { split; [auto|]. split; [auto|]. split; [auto|nores]. }
  assert (HT : forall s1 X', g_82 s1 = g_82 s -> g_pw3 s1 = g_pw3 s -> (g_81 s1 = g_81 s \/ is_sign = true /\ g_81 s1 = false) ->
     (is_sign = true -> one_signature F -> g_81 s1 = false) ->
     wp (let p := if is_sign then SIG_KEY_PATH else AUT_KEY_PATH in
  m <- got (ck_read_key_metadata p) ;;
  touch_if nfc t1 t2 m ;;;
  guard (negb (m_origin m =? KEY_ORIGIN_NOT_PRESENT)) SW_REFERENCE_DATA_NOT_FOUND ;;;
  guard (negb (Z.land (m_usage m) SIGN =? 0)) SW_CONDITIONS_NOT_SATISFIED ;;;
  input <- (if IS_RSA (m_type m) then
              guard (negb (c_lc c >? PUBLIC_KEY_LENGTH (m_type m) * 2 / 5)) SW_WRONG_LENGTH ;;; ret (c_data c)
            else if IS_SHORT_WEIERSTRASS (m_type m) then
              guard (negb (c_lc c >? PRIVATE_KEY_LENGTH (m_type m))) SW_WRONG_LENGTH ;;;
              ret (zeros (PRIVATE_KEY_LENGTH (m_type m) - c_lc c) ++ c_data c)
            else ret (c_data c)) ;;
  k <- got (ck_read_key p) ;;
  sig <- opt (ck_sign K k input) ;;
  set_out sig ;;;
  (if is_sign then count_signature else ret tt) ;;;
  ret SW_NO_ERROR) (sign_post is_sign s F) s1 (mkE F L X' R T [])).
  { intros s1 X' H82 H3 H81 H1. cbv zeta.
    assert (N : forall s2 X2 T2 o, (s2 = s1 \/ s2 = set_last t2 s1) -> (forall w, o = Ret w \/ o = Exc w -> w <> 0x9000) -> sign_post is_sign s F o s2 (mkE F L X2 R T2 [])).
    { intros s2 X2 T2 o Es Ho. split; [destruct Es as [-> | ->]; exact H81|]. split; [destruct Es as [-> | ->]; exact H82|].
      split; [destruct Es as [-> | ->]; exact H3|]. left. split; [reflexivity|exact Ho]. }
    assert (Y : forall s2 e2 o, (s2 = s1 \/ s2 = set_last t2 s1) -> sign_post is_sign s F o s2 e2).
    { intros s2 e2 o Es. split; [destruct Es as [-> | ->]; exact H81|]. split; [destruct Es as [-> | ->]; exact H82|].
      split; [destruct Es as [-> | ->]; exact H3|]. right. split; [exact G|]. destruct Es as [-> | ->]; exact H1. }
    Ltac nn N := apply N; [auto|intros ? [W|W]; (discriminate W || (injection W as <-; discriminate))].
    apply wp_bind, wp_got. unfold ck_read_key_metadata. apply wp_bind, wp_read_attr. intros X2 r _ _. apply wp_ret.
    destruct r as [a|]; cbn [option_map]; [|nn N].
    apply wp_bind, wp_touch_if; [|intros T'; nn N]. intros T' s2 E2.
    apply wp_bind, wp_guard; intros G2; [|nn N]. apply wp_bind, wp_guard; intros G3; [|nn N].
    assert (HK : forall input, wp (k <- got (ck_read_key (if is_sign then SIG_KEY_PATH else AUT_KEY_PATH)) ;;
        sig <- opt (ck_sign K k input) ;; set_out sig ;;; (if is_sign then count_signature else ret tt) ;;; ret SW_NO_ERROR) (sign_post is_sign s F) s2 (mkE F L X2 R T' [])).
    { intros input. apply wp_bind, wp_got, wp_read_key. intros X3 [k|]; [|nn N].
      apply wp_bind, wp_opt; intros; [|nn N]. apply wp_bind, wp_set_out.
      destruct is_sign; [|apply wp_bind, wp_ret, wp_ret, Y; exact E2].
      apply wp_bind. unfold count_signature, attr_exact. apply wp_bind, wp_bind, wp_got, wp_read_attr. intros X5 [v|] _ _; [|apply Y; exact E2].
      apply wp_ret. apply wp_must. apply wp_write_attr; intros; [|apply Y; exact E2]. apply wp_ret, Y. exact E2. }
    apply wp_bind. destruct (IS_RSA _); [|destruct (IS_SHORT_WEIERSTRASS _)].
    - apply wp_bind, wp_guard; intros G4; [apply wp_ret, HK|nn N].
    - apply wp_bind, wp_guard; intros G4; [apply wp_ret, HK|nn N].
    - apply wp_ret, HK. }
  apply wp_bind. destruct is_sign; [|apply wp_ret, HT; auto; discriminate].
  apply wp_bind, wp_got, wp_read_attr. intros X' [v|] _ V.
  2: { split; [auto|]. split; [auto|]. split; [auto|]. nores. }
  destruct V as [V|V]; [discriminate|]. destruct (Z.eqb_spec (attr1 v) 0) as [E|E].
  - apply wp_modify, HT; cbn; auto.
  - apply wp_ret, HT; auto. intros _ O. exfalso. apply E. apply attr1_zero. destruct O as [l [O|O]]; unfold DATA_PATH, TAG_PW_STATUS in V; rewrite O in V; injection V as ->; eauto.
Qed.
Lemma decipher_ok c tail s F L X R T :
  wp (pgp_decipher K nfc t1 t2 c tail) (fun o s' e' => g_81 s' = g_81 s /\ g_82 s' = g_82 s /\ g_pw3 s' = g_pw3 s /\ (no_result o e' \/ g_82 s = true)) s (mkE F L X R T []).
Proof.
  unfold pgp_decipher. apply wp_bind, wp_get, wp_bind, wp_guard; intros G.
  2: { split; [auto|]. split; [auto|]. split; [auto|nores]. }
  apply (wp_mono _ (fun _ s' _ => flags_are (g_81 s) (g_82 s) (g_pw3 s) s')).
  2: { intros o s' e' (A & B & C). auto. }
  apply fr_any; [|repeat split]. pose proof anyfs as A. pgp_unfold. fr A.
Qed.
End Use.

(** ** One command *)
Section Step.
Variable K : crypto.
Definition flag (n : Z) (s : pgp) : bool := if n =? 0x81 then g_81 s else if n =? 0x82 then g_82 s else g_pw3 s.
Definition now_right (n : Z) (e : entry) : Prop := if n =? 0x83 then right_pw3 e else right n e.
Definition flag_post (d : dev) (x : cmd) (r : rapdu) (s' : pgp) : Prop :=
  let e := (d, Do x, Some r) in
  (forall n, In n [0x81; 0x82; 0x83] -> flag n s' = true -> now_right n e \/ flag n (d_ram d) = true /\ ~ ends n (x_apdu x) (r_sw r) /\
     (n = 0x81 -> gives_signature e -> ~ one_signature (d_fs d))) /\
  (gives_signature e -> g_81 (d_ram d) = true) /\ (use_cmd (x_apdu x) -> has_result r -> g_82 (d_ram d) = true).

Lemma wp_selection c (Q : out unit -> pgp -> env -> Prop) s e :
  (forall s', flags_are (g_81 s) (g_82 s) (g_pw3 s) s' -> Q (Ret tt) s' e) -> (c_ins c = 0xCC -> Q (Exc SW_CONDITIONS_NOT_SATISFIED) s e) -> wp (selection c) Q s e.
Proof.
  intros H1 H2. unfold selection. apply wp_bind, wp_get. cbv zeta.
  wif A; [apply wp_modify, H1; repeat split|]. wif B; [|wif C; [|wif D]].
  - apply wp_bind, wp_guard; intros G; [|apply H2; lia]. wif E; [apply wp_modify|apply wp_ret]; apply H1; repeat split.
  - apply wp_bind, wp_guard; intros G; [|apply H2; lia]. wif E; [apply wp_modify, H1; repeat split|]. apply wp_bind. wif U; [apply wp_modify|apply wp_ret]; apply wp_modify, H1; repeat split.
  - apply wp_ret, H1. repeat split.
  - apply wp_bind, wp_modify, wp_modify, H1. repeat split.
Qed.
Lemma wp_retries p (Q : out Z -> pgp -> env -> Prop) s F L X R T O :
  (forall X' r, Q (Ret r) s (mkE F L X' R T O)) -> wp (pin_get_retries p) Q s (mkE F L X R T O).
Proof.
  intros H. unfold pin_get_retries, pin_get_attr, pin_get_size. apply wp_bind, wp_get_file_size. intros X1 r _ _.
  assert (W : forall X2, wp (a <- read_attr (pin_path p) RETRY_ATTR ;; match a with Some v => ret (attr1 v) | None => ret PIN_IO_FAIL end) Q s (mkE F L X2 R T O)).
  { intros X2. apply wp_bind, wp_read_attr. intros X3 [v|] _ _; apply wp_ret, H. }
  destruct r as [[| |]|]; try apply W. apply wp_ret, H.
Qed.
Lemma slice_shown c : slice 0 (u8 (c_lc c)) (c_data c) = shown c.
Proof. unfold shown, slice, u8, c_lc. change (Z.to_nat 0) with 0%nat. rewrite skipn_O. reflexivity. Qed.
Lemma verify_with_ok p setv isv c on (Q : out Z -> pgp -> env -> Prop) s F L X R T O : pin_max p = 64 ->
  (c_p1 c = 0xFF -> Q (Ret 0x9000) (setv false s) (mkE F L X R T O)) ->
  (c_p1 c <> 0xFF -> c_data c = [] -> isv s = true -> Q (Ret 0x9000) s (mkE F L X R T O)) ->
  (c_p1 c <> 0xFF -> c_data c = [] -> isv s = false -> forall o X', Q o s (mkE F L X' R T O)) ->
  (c_p1 c <> 0xFF -> c_data c <> [] -> value F (pin_path p) = Some (shown c) -> tries F (pin_path p) <> 0 -> forall F' L' X',
     Q (Ret 0x9000) (on (setv true (setv false s))) (mkE F' L' X' R T O) /\ Q Fail (setv true (setv false s)) (mkE F' L' X' R T O)) ->
  (c_p1 c <> 0xFF -> forall o F' L' X', o = Fail \/ o = Exc 0x6700 \/ o = Exc 0x6982 \/ o = Exc 0x6983 -> Q o (setv false s) (mkE F' L' X' R T O)) ->
  wp (verify_with p setv isv c on) Q s (mkE F L X R T O).
Proof.
  intros Hm H1 H2 H3 H4 H5. unfold verify_with. destruct (Z.eqb_spec (c_p1 c) 0xFF) as [E|E]; [apply wp_bind, wp_modify, wp_ret, H1; exact E|].
  destruct (Z.eqb_spec (c_lc c) 0) as [E0|E0].
  - assert (D : c_data c = []) by (unfold c_lc in E0; destruct (c_data c); [reflexivity|unfold zlen in E0; cbn [length] in E0; lia]).
    apply wp_bind, wp_get. wif V; [apply wp_ret, H2; auto|]. apply wp_bind, wp_retries. intros X1 r1.
    wif W; [apply wp_fail|apply wp_except]; apply H3; auto.
  - assert (D : c_data c <> []) by (intros D; apply E0; unfold c_lc; rewrite D; reflexivity).
    unfold verify_pin. apply wp_bind, verify_flag; [unfold u8; lia|unfold u8, c_lc; rewrite Hm; intros; pose proof (Z.mod_le (zlen (c_data c)) 256 (zlen_nonneg _) ltac:(lia)); lia|lia|].
    intros F' L' X' r k v Hv Hr0 Hk Hc. rewrite slice_shown in Hv.
    destruct Hc as [-> |[-> |[(-> & -> & Hk')|(-> & -> & ->)]]].
    + rewrite (Hr0 eq_refl) in *. destruct (Hv eq_refl) as (V1 & V2). destruct (Hk eq_refl) as (K1 & K2). cbn [Z.eqb Pos.eqb negb PIN_IO_FAIL PIN_LENGTH_INVALID PIN_AUTH_FAIL].
      destruct k as [k|]; [|congruence]. apply wp_bind, wp_guard; intros G; [|discriminate]. apply wp_bind, wp_guard; intros G3; [|exfalso; apply K2; f_equal; lia].
      apply wp_bind, wp_guard; intros G4; [|discriminate]. apply wp_bind, wp_modify, wp_ret, H4; assumption.
    + rewrite Z.eqb_refl. apply wp_fail. destruct v; [destruct (Hv eq_refl); apply H4; assumption|apply H5; auto].
    + cbn [Z.eqb Pos.eqb negb PIN_IO_FAIL PIN_LENGTH_INVALID PIN_AUTH_FAIL]. destruct k as [k|]; [|congruence].
      apply wp_bind, wp_guard; intros G; [|discriminate]. apply wp_bind, wp_guard; intros G3; [|apply H5; auto].
      apply wp_bind, wp_guard; intros G4; [discriminate|apply H5; auto].
    + cbn [Z.eqb Pos.eqb negb PIN_IO_FAIL PIN_LENGTH_INVALID PIN_AUTH_FAIL]. apply wp_bind, wp_guard; intros G; [discriminate|apply H5; auto].
Qed.
Lemma change_with_ok junk p setv c tail (Q : out Z -> pgp -> env -> Prop) s F L X R T O : pin_max p = 64 -> (forall a b, setv a (setv b s) = setv a s) ->
  (forall o e, o <> UB -> e_out e = O -> Q o (setv false s) e) -> (forall s' e, Q UB s' e) ->
  (forall pw new, value F (pin_path p) = Some pw -> tries F (pin_path p) <> 0 -> c_data c = pw ++ new -> forall o e, o = Fail \/ o = Exc 0x6700 -> e_out e = O -> Q o (setv true s) e) ->
  wp (change_with junk p setv c tail) Q s (mkE F L X R T O).
Proof.
  intros Hm Hss H1 HU H2. unfold change_with, pin_get_size. apply wp_bind, wp_get_file_size. intros X1 r _ Hr. cbv zeta.
  assert (HUP : forall v s1 n F' L' X', (forall b, setv b s1 = setv b s) -> s1 = (if v : bool then setv true s else setv false s) -> (v = true -> exists pw new, value F (pin_path p) = Some pw /\ tries F (pin_path p) <> 0 /\ c_data c = pw ++ new) ->
    wp (update_rest p setv c tail n) Q s1 (mkE F' L' X' R T O)).
  { intros v s1 n F' L' X' Hs1 E1 Hv. 
    assert (HI : forall e, e_out e = O -> Q (Exc 0x6700) s1 e).
    { intros e He. rewrite E1. destruct v; [destruct (Hv eq_refl) as (pw & new & A & B & C); apply (H2 pw new A B C); auto|apply H1; [discriminate|exact He]]. }
    unfold update_rest. apply wp_bind, wp_guard; intros G; [|apply HI; reflexivity]. cbv zeta. apply wp_bind.
    assert (HT : wp (err <- pin_update p setv (drop n (c_data c ++ tail)) (u8 (c_lc c - n)) ;;
      if err =? PIN_IO_FAIL then fail else guard (negb (err =? PIN_LENGTH_INVALID)) SW_WRONG_LENGTH ;;; ret SW_NO_ERROR) Q s1 (mkE F' L' X' R T O)).
    { apply wp_bind, update_flag; [unfold u8; lia|apply HU| |].
      - intros F2 L2 X2 r2 [-> | ->]; cbn [Z.eqb Pos.eqb negb PIN_IO_FAIL PIN_LENGTH_INVALID]; [apply wp_bind, wp_guard; intros G2; [|discriminate]; apply wp_ret|apply wp_fail]; rewrite Hs1; apply H1; (discriminate || reflexivity).
      - cbn [Z.eqb Pos.eqb negb PIN_IO_FAIL PIN_LENGTH_INVALID]. apply wp_bind, wp_guard; intros G2; [discriminate|]. apply HI. reflexivity. }
    wif W; [wif W2|]; [apply wp_ret; exact HT|apply HU|apply wp_ret; exact HT]. }
  assert (Hl : forall n, c_data c = slice 0 n (c_data c) ++ skipn (Z.to_nat n) (c_data c)).
  { intros n. unfold slice. change (Z.to_nat 0) with 0%nat. rewrite skipn_O, firstn_skipn. reflexivity. }
  set (size := match r with Some n => n | None => NEG end). apply wp_bind. unfold verify_prefix. apply wp_bind, verify_flag.
  - unfold u8. lia.
  - rewrite Hm. intros H64. assert (Hsz : 0 <= size \/ size = NEG).
    { subst size. destruct r as [n|]; [|auto]. destruct Hr as [Hr|Hr]; [discriminate|]. unfold fsize, fdata in Hr. destruct (F (pin_path p)); cbn in Hr; [|discriminate]. injection Hr as ->. left. apply zlen_nonneg. }
    unfold u8, c_lc in *. pose proof (zlen_nonneg (c_data c)). unfold NEG in *.
    destruct Hsz as [Hsz|Hsz].
    + destruct (Z.ltb_spec (zlen (c_data c)) size); [apply Z.mod_le; lia|]. pose proof (Z.mod_le size 256 Hsz ltac:(lia)). lia.
    + rewrite Hsz in *. destruct (Z.ltb_spec (zlen (c_data c)) (-5)); [lia|]. change (-5 mod 256) with 251 in H64. lia.
  - lia.
  - intros F' L' X' r' k v Hv Hr0 Hk Hc.
    assert (Hw : v = true -> exists pw new, value F (pin_path p) = Some pw /\ tries F (pin_path p) <> 0 /\ c_data c = pw ++ new).
    { intros ->. destruct (Hv eq_refl) as (V1 & V2). eexists _, _. split; [exact V2|]. split; [exact V1|apply Hl]. }
    assert (Es : (if v then setv true (setv false s) else setv false s) = (if v then setv true s else setv false s)) by (destruct v; [apply Hss|reflexivity]).
    rewrite Es. clear Es.
    assert (Hs1 : forall b, setv b (if v then setv true s else setv false s) = setv b s) by (intros b; destruct v; apply Hss).
    destruct Hc as [-> |[-> |[(-> & -> & Hk')|(-> & -> & ->)]]].
    + rewrite (Hr0 eq_refl) in *. destruct (Hk eq_refl) as (K1 & K2). cbn [Z.eqb Pos.eqb negb PIN_IO_FAIL PIN_LENGTH_INVALID PIN_AUTH_FAIL].
      destruct k as [k|]; [|congruence]. apply wp_bind, wp_guard; intros G3; [|exfalso; apply K2; f_equal; lia].
      apply wp_guard; intros G4; [|discriminate]. apply (HUP true); auto.
    + rewrite Z.eqb_refl. apply wp_fail. destruct v; [|apply H1; [discriminate|reflexivity]].
      destruct (Hw eq_refl) as (pw & new & A & B & C). apply (H2 pw new A B C); auto.
    + cbn [Z.eqb Pos.eqb negb PIN_IO_FAIL PIN_LENGTH_INVALID PIN_AUTH_FAIL]. apply wp_bind, wp_guard; intros G3; [|apply H1; [discriminate|reflexivity]].
      apply wp_guard; intros G4; [discriminate|apply H1; [discriminate|reflexivity]].
    + cbn [Z.eqb Pos.eqb negb PIN_IO_FAIL PIN_LENGTH_INVALID PIN_AUTH_FAIL]. apply wp_bind, wp_guard; intros G3; [|apply H1; [discriminate|reflexivity]].
      apply wp_guard; intros G4; [|discriminate]. apply (HUP false); auto.
Qed.
Lemma install_flags reset s e : wp (pgp_install reset) (fun _ s' _ => flags_are false false false s') s e.
Proof.
  unfold pgp_install. apply wp_bind, wp_modify. apply fr_any; [|repeat split]. pose proof anyfs as A. unfold install_key. pgp_unfold. fr A.
Qed.
Lemma do_flags d x r d' : step K d (Do x) = Some (Some r, d') -> flag_post d x r (d_ram d').
Proof.
  intros Hs. cbn [step] in Hs.
  pose proof (exec_wp K d x (fun r' s' e' => forall r, r' = Some r -> flag_post d x r s')) as HW.
  destruct (exec K d x) as [[[r'|] s'] e']; [|discriminate]. injection Hs as -> <-. cbn [d_ram].
  apply HW; clear HW; [|reflexivity]. clear r s' e'.
  set (c := x_apdu x) in *. set (s := d_ram d) in *.
  (* what happens before the switch *)
  assert (HE : forall w s', flags_are (g_81 s) (g_82 s) (g_pw3 s) s' -> w = 0x6985 /\ c_ins c = 0xCC \/ c_cla c <> 0 /\ w <> 0x9000 \/ w = 0x6285 \/ w = 0x6900 ->
     flag_post d x (mkR [] w) s').
  { intros w s' (A & B & C) Hw. split; [|split].
    - intros n Hn Hf. right. split; [|split].
      + rewrite <- Hf. unfold flag. rewrite A, B, C. reflexivity.
      + intros (E1 & E2). fold c in E1, E2. cbn [r_sw] in E2. destruct Hn as [<-|[<-|[<-|[]]]]; cbn [Z.eqb Pos.eqb] in E2;
        destruct Hw as [[-> Hw]|[Hw|[-> | ->]]]; try (rewrite Hw in E2); try contradiction; cbn [In] in E2; destruct E2 as [E2|E2]; try (destruct E2; discriminate); tauto || (intuition discriminate).
      + intros _ (_ & [V|V]); [|elim V; reflexivity]. cbn [r_sw] in V. subst w. exfalso. intuition (discriminate || contradiction).
    - intros (_ & [V|V]); [|elim V; reflexivity]. cbn [r_sw] in V. subst w. exfalso. intuition (discriminate || contradiction).
    - intros _ [V|V]; [|elim V; reflexivity]. cbn [r_sw] in V. subst w. exfalso. intuition (discriminate || contradiction). }
  destruct (Z.eq_dec (c_ins c) 0x44) as [I44|N44]; [|destruct (Z.eq_dec (c_ins c) 0x20) as [I20|N20]; [|destruct (Z.eq_dec (c_ins c) 0x24) as [I24|N24];
   [|destruct (Z.eq_dec (c_ins c) 0x2A) as [I2A|N2A]; [|destruct (Z.eq_dec (c_ins c) 0x88) as [I88|N88]]]]].
  6: { apply (wp_mono _ (fun _ s' _ => flags_are (g_81 s) (g_82 s) (g_pw3 s) s')).
       { apply fr_any; [|repeat split]. apply fr_flags; assumption. }
       intros o s' e' (A & B & C) r _. split; [|split].
       - intros n Hn Hf. right. split; [rewrite <- Hf; unfold flag; rewrite A, B, C; reflexivity|].
         split; [|intros _ ((_ & V & _) & _); contradiction].
         intros (_ & [(V & _)|V]); [contradiction|]. destruct (n =? 0x83); fold c in V; tauto.
       - intros ((_ & V & _) & _); contradiction.
       - intros (_ & [(V & _)|V]); contradiction. }
  all: unfold pgp_body, start; apply wp_bind, wp_guard; intros G1;
    [|intros r Hr; injection Hr as <-; apply HE; [repeat split|right; left; split; [fold c in G1; lia|discriminate]]].
  all: apply wp_bind, wp_selection;
    [intros s1 S1|intros V r Hr; fold c in V; rewrite V in *; discriminate].
  all: apply wp_bind, wp_read_attr; intros X1 [tv|] _ _;
    [|apply wp_except; intros r Hr; injection Hr as <-; apply HE; [exact S1|auto]].
  all: cbv zeta; apply wp_bind, wp_guard; intros G2;
    [|intros r Hr; injection Hr as <-; apply HE; [exact S1|auto]].
  all: fold c in G1; assert (Hcla : c_cla c = 0) by lia; clear HE; destruct S1 as (A & B & C).
  all: assert (FP : forall n, In n [0x81; 0x82; 0x83] -> flag n s1 = flag n (d_ram d)) by (intros n _; unfold flag; rewrite A, B, C; reflexivity).
  all: assert (HP : forall s' r, (c_ins c <> 0x2A) -> (c_ins c <> 0x88) ->
    (forall n, In n [0x81; 0x82; 0x83] -> flag n s' = true -> now_right n (d, Do x, Some r) \/ flag n s1 = true /\ ~ ends n c (r_sw r)) -> flag_post d x r s');
    [intros s' r J1 J2 HF; split; [intros n Hn Hf; destruct (HF n Hn Hf) as [V|(V & V')]; [auto|right; rewrite <- (FP n Hn); split; [exact V|]; split; [exact V'|]; intros _ ((_ & W & _) & _); contradiction]
      |split; [intros ((_ & W & _) & _); contradiction|intros (_ & [(W & _)|W]); contradiction]]|].
  - (* ACTIVATE *) fold c. rewrite I44. cbn [Z.eqb Pos.eqb].
    apply wp_bind, wp_guard; intros G3.
    2: { intros r Hr. injection Hr as <-. apply HP; try (rewrite I44; discriminate). intros n Hn Hf. right. split; [exact Hf|]. cbn [r_sw].
         intros (_ & [(_ & V)|V]); [discriminate|]. rewrite I44 in V. destruct (n =? 0x83); destruct V as [(V & _)|(V & _)]; discriminate. }
    unfold pgp_activate. apply wp_bind, wp_guard; intros G4.
    2: { intros r Hr. injection Hr as <-. apply HP; try (rewrite I44; discriminate). intros n Hn Hf. right. split; [exact Hf|]. cbn [r_sw].
         intros (_ & [(_ & V)|V]); [discriminate|]. rewrite I44 in V. destruct (n =? 0x83); destruct V as [(V & _)|(V & _)]; discriminate. }
    assert (Z0 : forall s' r, flags_are false false false s' -> flag_post d x r s').
    { intros s' r (Q1 & Q2 & Q3). apply HP; try (rewrite I44; discriminate). intros n Hn Hf. unfold flag in Hf. rewrite Q1, Q2, Q3 in Hf. destruct (n =? 0x81), (n =? 0x82); discriminate. }
    apply wp_bind. eapply wp_mono; [apply install_flags|]. intros o s' e' W. destruct o as [[]|w| |]; [apply wp_ret|..]; intros r Hr; try discriminate; apply Z0; exact W.
  - (* VERIFY *) fold c. rewrite I20. cbn [Z.eqb Pos.eqb]. unfold pgp_verify. apply wp_bind, wp_guard; intros G3.
    2: { intros r Hr. injection Hr as <-. apply HP; try (rewrite I20; discriminate). intros n Hn Hf. right. split; [exact Hf|]. cbn [r_sw].
         intros (_ & [(V & _)|V]); [rewrite I20 in V; discriminate|]. destruct (n =? 0x83); destruct V as [(_ & V)|(V & _)]; try (rewrite I20 in V; discriminate); destruct V as (_ & V); destruct (c_p1 c =? 0) eqn:?, (c_p1 c =? 0xFF) eqn:?; try discriminate; intuition lia. }
    assert (Hp1 : c_p1 c <> 0xFF -> c_p1 c = 0) by lia.
    assert (Hothers : forall n m sw, c_p2 c = m -> n <> m -> ~ ends n c sw).
    { intros n m sw Hm Hn (_ & [(V & _)|V]); [rewrite I20 in V; discriminate|]. destruct (Z.eqb_spec n 0x83); destruct V as [(_ & V & _)|(V & _)]; try (rewrite I20 in V; discriminate); congruence. }
    assert (H812 : forall n m on, n = 0x81 /\ on = set81 \/ n = 0x82 /\ on = set82 -> c_p2 c = n -> m = n ->
       wp (modify (on false) ;;; verify_with pw1 setpw1 g_pw1 c (on true)) (fun o s' e' => forall r, (match o with Ret w | Exc w => Some (mkR (e_out e') w) | Fail => Some (mkR (e_out e') SW_UNABLE_TO_PROCESS) | UB => None end) = Some r -> flag_post d x r s') s1 (mkE (d_fs d) [d_fs d] X1 (x_rnd x) (x_tch x) [])).
    { intros n m on Hon Hp2 ->. 
      assert (HK : forall (P : pgp -> pgp) r, (forall t, flag 0x81 (P t) = flag 0x81 t /\ flag 0x82 (P t) = flag 0x82 t /\ flag 0x83 (P t) = flag 0x83 t) -> flag_post d x r (P (on false s1))).
      { intros P r HPt. apply HP; try (rewrite I20; discriminate). intros k Hk Hf. destruct (HPt (on false s1)) as (P1 & P2 & P3).
        right. destruct Hon as [(-> & ->)|(-> & ->)]; destruct Hk as [<-|[<-|[<-|[]]]]; rewrite ?P1, ?P2, ?P3 in Hf; cbn in Hf; try discriminate; (split; [exact Hf|]; eapply Hothers; [exact Hp2|discriminate]). }
      apply wp_bind, wp_modify, verify_with_ok; try reflexivity.
      - intros _ r _. apply (HK (setpw1 false)). auto.
      - intros _ _ _ r _. apply (HK (fun t => t)). auto.
      - intros _ _ _ o X' r _. apply (HK (fun t => t)). auto.
      - intros E1 E2 E3 E4 F' L' X'. split; intros r Hr; [|apply (HK (fun t => setpw1 true (setpw1 false t))); auto].
        injection Hr as <-. cbn [e_out]. apply HP; try (rewrite I20; discriminate). intros k Hk Hf.
        destruct (Z.eq_dec k n) as [-> |Nk].
        + left. assert (Hr : right n (d, Do x, Some (mkR [] 0x9000))).
          { exists d, x, (mkR [] 0x9000). split; [reflexivity|]. split; [repeat split; auto|]. unfold pw_file. destruct Hon as [(-> & _)|(-> & _)]; auto. }
          unfold now_right. destruct Hon as [(-> & _)|(-> & _)]; exact Hr.
        + right. split; [|eapply Hothers; [exact Hp2|exact Nk]]. rewrite <- Hf. destruct Hon as [(-> & ->)|(-> & ->)]; destruct Hk as [<-|[<-|[<-|[]]]]; try contradiction; reflexivity.
      - intros _ o F' L' X' _ r _. apply (HK (setpw1 false)). auto. }
    wif P81; [apply (H812 0x81 0x81 set81); auto; lia|]. wif P82; [apply (H812 0x82 0x82 set82); auto; lia|].
    wif P83.
    2: { apply wp_except. intros r Hr. injection Hr as <-. apply HP; try (rewrite I20; discriminate). intros n Hn Hf. right. split; [exact Hf|].
         apply (Hothers n (c_p2 c)); [reflexivity|]. destruct Hn as [<-|[<-|[<-|[]]]]; lia. }
    apply Z.eqb_eq in P83. clear H812.
    assert (HK : forall (s' : pgp) r, g_81 s' = g_81 s1 -> g_82 s' = g_82 s1 -> (g_pw3 s' = true -> right_pw3 (d, Do x, Some r) \/ g_pw3 s1 = true /\ ~ ends 0x83 c (r_sw r)) -> flag_post d x r s').
    { intros s' r Q1 Q2 Q3. apply HP; try (rewrite I20; discriminate). intros n Hn Hf. destruct Hn as [<-|[<-|[<-|[]]]].
      - right. split; [cbn in *; congruence|eapply Hothers; [exact P83|discriminate]].
      - right. split; [cbn in *; congruence|eapply Hothers; [exact P83|discriminate]].
      - apply Q3. exact Hf. }
    apply verify_with_ok; try reflexivity.
    + intros _ r _. apply HK; auto. discriminate.
    + intros E1 E2 E3 r Hr. injection Hr as <-. apply HK; auto. intros _. right. split; [exact E3|]. intros (_ & [(V & _)|[(_ & _ & V)|(V & _)]]); try (rewrite I20 in V; discriminate).
      cbn [r_sw In] in V. intuition congruence.
    + intros E1 E2 E3 o X' r _. apply HK; auto. congruence.
    + intros E1 E2 E3 E4 F' L' X'. split; intros r Hr; injection Hr as <-; cbn [e_out]; apply HK; auto; intros _; left.
      * left. exists d, x, (mkR [] 0x9000). split; [reflexivity|]. split; [repeat split; auto|]. auto.
      * right. exists d, x, (mkR [] 0x6900), (shown c). split; [reflexivity|]. split; [exact E3|]. split; [exact E4|]. left. split; [repeat split; auto|]. auto.
    + intros _ o F' L' X' _ r _. apply HK; auto. discriminate.
  - (* CHANGE REFERENCE DATA *) fold c. rewrite I24. cbn [Z.eqb Pos.eqb]. unfold pgp_change_reference_data. apply wp_bind, wp_guard; intros G3.
    2: { intros r Hr. injection Hr as <-. apply HP; try (rewrite I24; discriminate). intros n Hn Hf. right. split; [exact Hf|]. cbn [r_sw].
         intros (_ & [(V & _)|V]); [rewrite I24 in V; discriminate|]. destruct (n =? 0x83); destruct V as [(V & _)|(_ & _ & V & _)]; try (rewrite I24 in V; discriminate); lia. }
    wif P81; [|wif P83].
    3: { apply wp_except. intros r Hr. injection Hr as <-. apply HP; try (rewrite I24; discriminate). intros n Hn Hf. right. split; [exact Hf|].
         intros (_ & [(V & _)|V]); [rewrite I24 in V; discriminate|]. destruct (n =? 0x83); destruct V as [(V & _)|(_ & V & _)]; try (rewrite I24 in V; discriminate); lia. }
    + apply wp_bind, wp_modify, wp_bind, wp_modify, change_with_ok; try reflexivity.
      2: { intros; discriminate. }
      all: assert (HK : forall b r, flag_post d x r (setpw1 b (set82 false (set81 false s1)))) by
       (intros b r; apply HP; try (rewrite I24; discriminate); intros n Hn Hf; right; destruct Hn as [<-|[<-|[<-|[]]]]; try discriminate Hf; split; [exact Hf|];
        intros (_ & [(V & _)|[(V & _)|(_ & V & _)]]); try (rewrite I24 in V; discriminate); lia).
      * intros o e _ _ r _. apply HK.
      * intros pw new E1 E2 E3 o e _ _ r _. apply HK.
    + assert (HK : forall b r, (b = true -> right_pw3 (d, Do x, Some r)) -> flag_post d x r (setpw3 b s1)).
      { intros b r Hb. apply HP; try (rewrite I24; discriminate). intros n Hn Hf. destruct Hn as [<-|[<-|[<-|[]]]].
        - right. split; [exact Hf|]. intros (_ & [(V & _)|[(V & _)|(_ & V & _)]]); try (rewrite I24 in V; discriminate); lia.
        - right. split; [exact Hf|]. intros (_ & [(V & _)|[(V & _)|(_ & V & _)]]); try (rewrite I24 in V; discriminate); lia.
        - left. apply Hb. exact Hf. }
      apply change_with_ok; try reflexivity.
      * intros o e _ _ r _. apply HK. discriminate.
      * intros; discriminate.
      * intros pw new E1 E2 E3 o e Ho He r Hr. apply HK. intros _. right. exists d, x, r, pw. split; [reflexivity|]. split; [exact E1|]. split; [exact E2|].
        right. split; [repeat split; auto; fold c; lia|]. split; [exists new; exact E3|]. destruct Ho as [-> | ->]; injection Hr as <-; auto.
  - (* PSO *) fold c. rewrite I2A. cbn [Z.eqb Pos.eqb].
    assert (NE : forall n sw, ~ ends n c sw).
    { intros n sw (_ & [(V & _)|V]); [rewrite I2A in V; discriminate|]. destruct (n =? 0x83); destruct V as [(V & _)|(V & _)]; rewrite I2A in V; discriminate. }
    wif P1; [|wif P2].
    + eapply wp_mono; [apply sign_ok|]. intros o s' e' (Q1 & Q2 & Q3 & Q4) r Hr.
      assert (HR : no_result o e' -> ~ has_result r).
      { intros (N1 & N2) [V|V]; [|apply V]; destruct o as [w|w| |]; try discriminate; injection Hr as <-; cbn [r_sw r_data] in *; try exact N1; try discriminate V; apply (N2 w); auto. }
      split; [|split].
      * intros n Hn Hf. right. destruct Hn as [<-|[<-|[<-|[]]]]; cbn in Hf |- *; fold s; (split; [|split; [apply NE|]]).
        -- destruct Q1 as [Q1|(_ & Q1)]; congruence.
        -- intros _ (_ & H) O. destruct Q4 as [Q4|(_ & Q4)]; [exact (HR Q4 H)|]. rewrite (Q4 eq_refl O) in Hf. discriminate.
        -- congruence.
        -- discriminate.
        -- congruence.
        -- discriminate.
      * intros (_ & H). destruct Q4 as [Q4|(Q4 & _)]; [elim (HR Q4 H)|fold s; congruence].
      * intros (_ & [(_ & V & _)|V]); [fold c in V; lia|fold c in V; rewrite I2A in V; discriminate].
    + eapply wp_mono; [apply decipher_ok|]. intros o s' e' (Q1 & Q2 & Q3 & Q4) r Hr.
      assert (HR : no_result o e' -> ~ has_result r).
      { intros (N1 & N2) [V|V]; [|apply V]; destruct o as [w|w| |]; try discriminate; injection Hr as <-; cbn [r_sw r_data] in *; try exact N1; try discriminate V; apply (N2 w); auto. }
      split; [|split].
      * intros n Hn Hf. right. split; [rewrite <- (FP n Hn), <- Hf; unfold flag; rewrite Q1, Q2, Q3; reflexivity|]. split; [apply NE|]. intros _ ((_ & _ & V & _) & _). fold c in V. lia.
      * intros ((_ & _ & V & _) & _). fold c in V. lia.
      * intros _ H. destruct Q4 as [Q4|Q4]; [elim (HR Q4 H)|fold s; congruence].
    + apply wp_except. intros r Hr. injection Hr as <-. split; [|split].
      * intros n Hn Hf. right. rewrite <- (FP n Hn). split; [exact Hf|]. split; [apply NE|]. intros _ ((_ & _ & V & V') & _). fold c in V, V'. lia.
      * intros ((_ & _ & V & V') & _). fold c in V, V'. lia.
      * intros (_ & [(_ & V & V')|V]); fold c in V; try fold c in V'; [lia|rewrite I2A in V; discriminate].
  - (* INTERNAL AUTHENTICATE *) fold c. rewrite I88. cbn [Z.eqb Pos.eqb].
    eapply wp_mono; [apply sign_ok|]. intros o s' e' (Q1 & Q2 & Q3 & Q4) r Hr.
    assert (HR : no_result o e' -> ~ has_result r).
    { intros (N1 & N2) [V|V]; [|apply V]; destruct o as [w|w| |]; try discriminate; injection Hr as <-; cbn [r_sw r_data] in *; try exact N1; try discriminate V; apply (N2 w); auto. }
    destruct Q1 as [Q1|(Q1 & _)]; [|discriminate]. split; [|split].
    + intros n Hn Hf. right. split; [rewrite <- (FP n Hn), <- Hf; unfold flag; rewrite Q1, Q2, Q3; reflexivity|]. split.
      * intros (_ & [(V & _)|V]); [fold c in V; rewrite I88 in V; discriminate|]. destruct (n =? 0x83); destruct V as [(V & _)|(V & _)]; fold c in V; rewrite I88 in V; discriminate.
      * intros _ ((_ & V & _) & _). fold c in V. rewrite I88 in V. discriminate.
    + intros ((_ & V & _) & _). fold c in V. rewrite I88 in V. discriminate.
    + intros _ H. destruct Q4 as [Q4|(Q4 & _)]; [elim (HR Q4 H)|fold s; congruence].
Qed.
End Step.

(** ** Histories *)
Section Main.
Variable K : crypto.
(** what a signature does when PW1 is good for one signature only *)
Definition uses_up (e : entry) : Prop := gives_signature e /\ one_signature (d_fs (fst (fst e))).
Definition finv (tr : list entry) (s : pgp) : Prop := forall n, In n [0x81; 0x82; 0x83] -> flag n s = true ->
  exists tr1 e tr2, tr = tr1 ++ [e] ++ tr2 /\ now_right n e /\ Forall (goes_on n) tr2 /\ (n = 0x81 -> Forall (fun e => ~ uses_up e) tr2).
Lemma off_finv tr s : flags_are false false false s -> finv tr s.
Proof. intros (A & B & C) n _ Hf. unfold flag in Hf. rewrite A, B, C in Hf. destruct (n =? 0x81), (n =? 0x82); discriminate. Qed.
Lemma boot_finv tr F flt : finv tr (d_ram (boot F flt)).
Proof.
  unfold boot, installed. pose proof (install_flags false pgp_boot (start F flt [] [])) as H. unfold wp in H.
  destruct (pgp_install _ _ _) as [[o s'] e']. cbn [d_ram]. apply off_finv. exact H.
Qed.
Lemma finv_more tr e s s' : finv tr s ->
  (forall n, In n [0x81; 0x82; 0x83] -> flag n s' = true -> now_right n e \/ flag n s = true /\ goes_on n e /\ (n = 0x81 -> ~ uses_up e)) -> finv (tr ++ [e]) s'.
Proof.
  intros Hi H n Hn Hf. destruct (H n Hn Hf) as [W|(W1 & W2 & W3)].
  - exists tr, e, []. split; [reflexivity|]. split; [exact W|]. split; constructor.
  - destruct (Hi n Hn W1) as (tr1 & e1 & tr2 & -> & H1 & H2 & H3). exists tr1, e1, (tr2 ++ [e]). split; [rewrite <- !app_assoc; reflexivity|].
    split; [exact H1|]. split; [apply Forall_app; auto|]. intros V. apply Forall_app. auto.
Qed.
Lemma hist_finv tr d : since_boot K tr d -> finv tr (d_ram d).
Proof.
  intros (F0 & flt0 & H). remember (boot F0 flt0) as d0 eqn:E0. induction H as [d0|d0 tr d v o d' H IH Hok Hst].
  - subst. apply boot_finv.
  - specialize (IH E0). destruct v as [x|x n flt| |flt|flt n flt'|F].
    + assert (exists r, o = Some r) as [r ->].
      { cbn [step] in Hst. destruct (exec K d x) as [[[r|] s'] e']; [|discriminate]. injection Hst as <- _. eauto. }
      destruct (do_flags K d x r d' Hst) as (W & _ & _). eapply finv_more; [exact IH|]. intros n Hn Hf. destruct (W n Hn Hf) as [V|(V1 & V2 & V3)]; [auto|right].
      split; [exact V1|]. split; [exact V2|]. intros -> (U1 & U2). exact (V3 eq_refl U1 U2).
    + cbn [step] in Hst. destruct (exec K d x) as [[r s'] e']. injection Hst as <- <-. apply boot_finv.
    + cbn [step] in Hst. injection Hst as <- <-. apply off_finv. repeat split.
    + cbn [step] in Hst. unfold installed in Hst. pose proof (install_flags true (d_ram d) (start (d_fs d) flt [] [])) as Hin. unfold wp in Hin.
      destruct (pgp_install _ _ _) as [[u s'] e']. injection Hst as <- <-. cbn [d_ram]. apply off_finv. exact Hin.
    + cbn [step] in Hst. destruct (installed true (d_ram d) (d_fs d) flt) as [[u s'] e']. injection Hst as <- <-. apply boot_finv.
    + cbn [step] in Hst. injection Hst as <- <-. cbn [d_ram]. eapply finv_more; [exact IH|]. intros n _ Hf. right. split; [exact Hf|]. split; [exact I|]. intros _ (U & _). exact U.
Qed.
Lemma hist_last tr e d : since_boot K (tr ++ [e]) d -> exists d0 v o, e = (d0, v, o) /\ since_boot K tr d0 /\ step K d0 v = Some (o, d).
Proof.
  intros (F & flt & H). inversion H as [d0 Q1 Q2 Q3|d0 tr' d1 v o d' H1 H2 H3 Q1 E Q3]; [destruct tr; discriminate|].
  apply app_inj_tail in E. destruct E as [-> <-]. subst. exists d1, v, o. split; [reflexivity|]. split; [exists F, flt; exact H1|exact H3].
Qed.
Lemma given_of tr d n : In n [0x81; 0x82; 0x83] -> since_boot K tr d -> flag n (d_ram d) = true -> given n tr.
Proof. intros Hn H Hf. destruct (hist_finv tr d H n Hn Hf) as (tr1 & e & tr2 & A & B & C & _). exists tr1, e, tr2. auto. Qed.
Lemma split_at {A} (x y : A) : forall a b c d, a ++ [x] ++ b = c ++ [y] ++ d -> x = y \/ In y b \/ In x d.
Proof.
  induction a as [|u a IH]; intros b [|v c] d H; cbn in H; injection H as H1 H2.
  - auto.
  - right; left. rewrite H2. rewrite in_app_iff. cbn. auto.
  - right; right. rewrite <- H2. rewrite in_app_iff. cbn. auto.
  - apply (IH b c d). exact H2.
Qed.
End Main.

(** Whenever, while the PW status byte says so, a signature was given, no other signature is given before the right PW1 is
    shown again with VERIFY 81: whatever the commands, the storage errors, the power failures in between. *)
Theorem C36_one_signature : forall K a e1 m e2 d, since_boot K (a ++ [e1] ++ m ++ [e2]) d ->
  gives_signature e1 -> one_signature (d_fs (fst (fst e1))) -> gives_signature e2 -> exists e, In e m /\ right 0x81 e.
Proof.
  intros K a e1 m e2 d H H1 HO H2. replace (a ++ [e1] ++ m ++ [e2]) with ((a ++ [e1] ++ m) ++ [e2]) in H by (rewrite <- !app_assoc; reflexivity).
  apply hist_last in H. destruct H as (d0 & v & o & -> & H & Hs).
  assert (Hf : flag 0x81 (d_ram d0) = true).
  { destruct v as [x| | | | |]; try contradiction. destruct o as [r|]; [|contradiction]. destruct (do_flags K d0 x r d Hs) as (_ & W & _). apply W. exact H2. }
  destruct (hist_finv K _ _ H 0x81 (or_introl eq_refl) Hf) as (tr1 & e & tr2 & E & HR & _ & HU). specialize (HU eq_refl).
  assert (HM : e1 <> e). { intros ->. destruct HR as (d1 & x1 & r1 & -> & (_ & V & _) & _). destruct H1 as ((_ & V' & _) & _). rewrite V in V'. discriminate. }
  exists e. split; [|exact HR]. destruct (split_at _ _ _ _ _ _ E) as [V|[V|V]]; [contradiction|exact V|].
  rewrite Forall_forall in HU. elim (HU e1 V). split; assumption.
Qed.
Print Assumptions C36_one_signature.

(** A signature leaves the card only if the right PW1 was given for signing, and the session with it goes on. *)
Theorem C37_sign : forall K tr e d, since_boot K (tr ++ [e]) d -> gives_signature e -> given 0x81 tr.
Proof.
  intros K tr e d H H1. apply hist_last in H. destruct H as (d0 & v & o & -> & H & Hs).
  destruct v as [x| | | | |]; try contradiction. destruct o as [r|]; [|contradiction]. destruct (do_flags K d0 x r d Hs) as (_ & W & _).
  apply (given_of K tr d0); [cbn; auto|exact H|apply W; exact H1].
Qed.
Print Assumptions C37_sign.
(** The same for DECIPHER and INTERNAL AUTHENTICATE, with PW1 given by VERIFY 82. *)
Theorem C37_use : forall K tr d x r d', since_boot K tr d -> step K d (Do x) = Some (Some r, d') -> use_cmd (x_apdu x) -> has_result r -> given 0x82 tr.
Proof.
  intros K tr d x r d' H Hs H1 H2. destruct (do_flags K d x r d' Hs) as (_ & _ & W).
  apply (given_of K tr d); [cbn; auto|exact H|apply W; assumption].
Qed.
Print Assumptions C37_use.

(** ** Administrator's data *)
Section Admin.
Variable K : crypto.
Variable nfc : bool.
Variables t1 t2 junk : Z.
Notation body := (pgp_body K nfc t1 t2 junk).
Lemma admin_refl F : same_admin_data F F.
Proof. repeat split. Qed.
Lemma admin_other F : indep (same_admin_data F) "pgp-pw1" /\ indep (same_admin_data F) "pgp-pw3".
Proof.
  split; intros G x (A & B & C & D); (split; [|split; [|split]]);
  try (intros q Hq; rewrite fset_other; [apply A; exact Hq|intros ->; cbn in Hq; intuition discriminate]);
  try (intros a Ha Hb; unfold fattr; rewrite fset_other by discriminate; apply D; assumption);
  unfold fdata; (rewrite fset_other by discriminate); assumption.
Qed.
Lemma admin_rc F a v : forall G f, same_admin_data F G -> G "pgp-rc" = Some f -> same_admin_data F (fset G "pgp-rc" (Some (mkF (f_data f) (aset (f_attr f) a v)))).
Proof.
  intros G f (A & B & C & D) E. split; [|split; [|split]].
  - intros q Hq. rewrite fset_other; [apply A; exact Hq|intros ->; cbn in Hq; intuition discriminate].
  - rewrite <- B. unfold fdata. rewrite fset_same, E. reflexivity.
  - unfold fdata. rewrite fset_other by discriminate. exact C.
  - intros b Hb Hb'. unfold fattr. rewrite fset_other by discriminate. apply D; assumption.
Qed.
Lemma admin_data F a v : a = 0x93 \/ a = 0xFC -> forall G f, same_admin_data F G -> G "pgp-data" = Some f ->
  same_admin_data F (fset G "pgp-data" (Some (mkF (f_data f) (aset (f_attr f) a v)))).
Proof.
  intros Ha G f (A & B & C & D) E. split; [|split; [|split]].
  - intros q Hq. rewrite fset_other; [apply A; exact Hq|intros ->; cbn in Hq; intuition discriminate].
  - unfold fdata. rewrite fset_other by discriminate. exact B.
  - rewrite <- C. unfold fdata. rewrite fset_same, E. reflexivity.
  - intros b Hb Hb'. rewrite <- D by assumption. unfold fattr. rewrite fset_same, E. cbn [f_attr].
    rewrite aset_other; [reflexivity|]. intros ->. destruct Ha; contradiction.
Qed.
Ltac fra := repeat first [ frame1
  | match goal with
    | |- frame _ (same_admin_data ?F) (write_file _ _ _ _) => apply fr_write_file; first [apply (proj1 (admin_other F)) | apply (proj2 (admin_other F))]
    | |- frame _ (same_admin_data ?F) (write_attr _ _ _) =>
        first [apply fr_write_attr; first [apply (proj1 (admin_other F)) | apply (proj2 (admin_other F))]
              | apply fr_write_attr_at; first [apply admin_rc | apply admin_data; auto]]
    end ].
Lemma fr_admin_free F c tail : c_ins c <> 0x44 -> ~ (c_ins c = 0x47 /\ c_p1 c = 0x80) -> c_ins c <> 0xDA -> c_ins c <> 0xDB ->
  frame (fun _ => True) (same_admin_data F) (body c tail).
Proof.
  intros N1 N2 N3 N4. unfold pgp_body. cbv zeta.
  apply fr_bind; [apply fr_guard|intros _]. apply fr_bind; [apply fr_selection; auto|intros _].
  apply fr_bind; [apply fr_read_attr|intros [v|]]; [|apply fr_except]. apply fr_bind; [apply fr_guard|intros _].
  destruct (c_ins c =? 0xA4); [unfold pgp_select; pgp_unfold; fra|].
  destruct (Z.eqb_spec (c_ins c) 0x44); [contradiction|].
  destruct (c_ins c =? 0xCA); [unfold pgp_get_data, application_related_data, discretionary_data, cardholder_related_data, pw_status_bytes; pgp_unfold; fra|].
  destruct (c_ins c =? 0xA5); [unfold pgp_select_data; pgp_unfold; fra|].
  destruct (c_ins c =? 0xCC); [unfold pgp_get_next_data; pgp_unfold; fra|].
  destruct (c_ins c =? 0x20); [unfold pgp_verify, verify_with, verify_pin; pgp_unfold; fra|].
  destruct (c_ins c =? 0x24); [unfold pgp_change_reference_data, change_with, verify_prefix, update_rest; pgp_unfold; fra|].
  destruct (c_ins c =? 0x2C); [unfold pgp_reset_retry_counter, verify_prefix, update_rest; pgp_unfold; fra|].
  destruct (Z.eqb_spec (c_ins c) 0xDA); [contradiction|].
  destruct (Z.eqb_spec (c_ins c) 0xDB); [contradiction|].
  destruct (Z.eqb_spec (c_ins c) 0x47) as [E|E].
  { unfold pgp_generate. destruct (Z.eqb_spec (c_p1 c) 0x80) as [E'|E']; [elim N2; auto|]. pgp_unfold; fra. }
  destruct (c_ins c =? 0x2A); [destruct (_ && _); [unfold pgp_sign_or_auth; pgp_unfold; fra|destruct (_ && _); [unfold pgp_decipher; pgp_unfold; fra|apply fr_except]]|].
  destruct (c_ins c =? 0x88); [unfold pgp_sign_or_auth; pgp_unfold; fra|].
  destruct (c_ins c =? 0x84); [unfold pgp_get_challenge; pgp_unfold; fra|].
  destruct (c_ins c =? 0xE6); [unfold pgp_terminate; pgp_unfold; fra|].
  apply fr_except.
Qed.
Lemma fr_not_admin {A} P (m : M pgp A) : frame (fun s => g_pw3 s = false) P (assert_admin ;;; m).
Proof.
  unfold assert_admin. intros s e H. unfold wp, bind, get. rewrite (proj1 H). cbn [guard except]. exact H.
Qed.
Lemma fr_admin_none F c tail : c_ins c = 0xDA \/ c_ins c = 0xDB ->
  frame (fun s => g_pw3 s = false) (same_admin_data F) (body c tail).
Proof.
  intros N1. unfold pgp_body. cbv zeta.
  apply fr_bind; [apply fr_guard|intros _]. apply fr_bind; [apply fr_selection; auto|intros _].
  apply fr_bind; [apply fr_read_attr|intros [v|]]; [|apply fr_except]. apply fr_bind; [apply fr_guard|intros _].
  destruct N1 as [-> | ->]; cbn [Z.eqb Pos.eqb]; apply fr_not_admin.
Qed.
End Admin.

Lemma frame_changes K d x I : frame I (same_admin_data (d_fs d)) (pgp_body K (x_nfc x) (x_t1 x) (x_t2 x) (x_junk x) (x_apdu x) (x_tail x)) -> I (d_ram d) -> ~ changes K d x.
Proof.
  intros Hf Hi. unfold changes, exec.
  pose proof (frame_apdu I (same_admin_data (d_fs d)) _ (d_ram d) (d_fs d) (x_flt x) (x_rnd x) (x_tch x) Hf Hi (admin_refl _)) as W.
  destruct (run_apdu _ _ _) as [[r s'] e']. destruct W as (_ & W1 & W2). intros (G & [-> |HG] & N); apply N; [exact W1|]. rewrite Forall_forall in W2. apply W2. exact HG.
Qed.
(** Keys, certificates, the resetting code and the data objects: no command but GENERATE ASYMMETRIC KEY PAIR (P1 = 80) and ACTIVATE (see C40)
    changes them, not even in the storage image a power failure leaves, unless the right PW3 was given and the session with it goes
    on. *)
Theorem C37_admin_partial : forall K tr d x, since_boot K tr d -> changes K d x ->
  ~ (c_ins (x_apdu x) = 0x47 /\ c_p1 (x_apdu x) = 0x80) -> c_ins (x_apdu x) <> 0x44 -> given 0x83 tr.
Proof.
  intros K tr d x H Hc N1 N2. apply (given_of K tr d); [cbn; auto|exact H|]. cbn [flag Z.eqb Pos.eqb]. 
  destruct (flag 0x83 (d_ram d)) eqn:Hf; [exact Hf|]. cbn [flag Z.eqb Pos.eqb] in Hf. exfalso. revert Hc.
  destruct (Z.eq_dec (c_ins (x_apdu x)) 0xDA) as [E|E]; [|destruct (Z.eq_dec (c_ins (x_apdu x)) 0xDB) as [E'|E']].
  - eapply frame_changes; [apply fr_admin_none; auto|exact Hf].
  - eapply frame_changes; [apply fr_admin_none; auto|exact Hf].
  - apply (frame_changes K d x (fun _ => True)); [apply fr_admin_free; auto|exact I].
Qed.
Print Assumptions C37_admin_partial.

(** ** Examples *)
Definition plain (c : capdu) : cmd := mkCmd c [] false 1000 1000 0 [] (repeat 0xA5 40) [].
Definition with_faults (f : list fault) (c : capdu) : cmd := mkCmd c [] false 1000 1000 0 f (repeat 0xA5 40) [].
Fixpoint run_all (K : crypto) (d : dev) (l : list ev) : option (list entry * dev) :=
  match l with
  | [] => Some ([], d)
  | v :: l => match step K d v with
              | None => None
              | Some (o, d') => match run_all K d' l with None => None | Some (tr, d'') => Some ((d, v, o) :: tr, d'') end
              end
  end.
Lemma hist_app K d tr d1 tr' d2 : hist K d tr d1 -> hist K d1 tr' d2 -> hist K d (tr ++ tr') d2.
Proof. intros H1 H2. induction H2; [rewrite app_nil_r; exact H1|]. rewrite app_assoc. econstructor; eauto. Qed.
Lemma run_all_hist K l : forall d tr d', run_all K d l = Some (tr, d') ->
  Forall (fun e => ev_ok (fst (fst e)) (snd (fst e))) tr -> hist K d tr d'.
Proof.
  induction l as [|v l IH]; intros d tr d'; cbn [run_all].
  - intros H _. injection H as <- <-. constructor.
  - destruct (step K d v) as [[o d1]|] eqn:E; [|discriminate]. destruct (run_all K d1 l) as [[tr1 d2]|] eqn:E1; [|discriminate].
    intros H Hf. injection H as <- <-. inversion Hf; subst. change ((d, v, o) :: tr1) with ([(d, v, o)] ++ tr1).
    eapply hist_app; [|apply IH; [exact E1|assumption]]. change [(d, v, o)] with ([] ++ [(d, v, o)]). econstructor; [constructor|assumption|exact E].
Qed.
Definition simple (v : ev) : Prop :=
  match v with Do x | Cut x _ _ => all_bytes (c_data (x_apdu x) ++ x_tail x) | Other _ => False | _ => True end.
Lemma run_all_since K l F flt tr d : Forall simple l -> run_all K (boot F flt) l = Some (tr, d) -> since_boot K tr d.
Proof.
  intros Hl H. exists F, flt. apply (run_all_hist K l); [exact H|].
  revert tr H. generalize (boot F flt). induction Hl as [|v l Hv Hl IH]; intros d0 tr; cbn [run_all].
  - intros H. injection H as <- <-. constructor.
  - destruct (step K d0 v) as [[o d1]|] eqn:E; [|discriminate]. destruct (run_all K d1 l) as [[tr1 d2]|] eqn:E1; [|discriminate].
    intros H. injection H as <- <-. constructor; [|eapply IH; eassumption]. cbn [fst snd]. destruct v; try exact Hv; try exact I. contradiction.
Qed.
Definition sees {A} (r : option (list entry * dev)) (f : list entry -> dev -> A) : option A :=
  match r with Some (tr, d) => Some (f tr d) | None => None end.
Lemma sees_ran {A} r (f : list entry -> dev -> A) a : sees r f = Some a -> exists tr d, r = Some (tr, d) /\ f tr d = a.
Proof. destruct r as [[tr d]|]; [|discriminate]. intros H. injection H as H. eauto. Qed.
Lemma run_all_events K l : forall d tr d', run_all K d l = Some (tr, d') -> map (fun e => snd (fst e)) tr = l.
Proof.
  induction l as [|v l IH]; intros d tr d'; cbn [run_all].
  - intros H. injection H as <- <-. reflexivity.
  - destruct (step K d v) as [[o d1]|]; [|discriminate]. destruct (run_all K d1 l) as [[tr1 d2]|] eqn:E1; [|discriminate].
    intros H. injection H as <- _. cbn [map fst snd]. f_equal. eapply IH. exact E1.
Qed.
Definition simpleb (v : ev) : bool :=
  match v with Do x | Cut x _ _ => forallb (fun b => (0 <=? b) && (b <? 256)) (c_data (x_apdu x) ++ x_tail x) | Other _ => false | _ => true end.
Lemma simple_ok l : forallb simpleb l = true -> Forall simple l.
Proof.
  intros H. rewrite forallb_forall in H. apply Forall_forall. intros v Hv. specialize (H v Hv). destruct v; cbn in *; try exact I; try discriminate;
    (apply Forall_forall; intros b Hb; rewrite forallb_forall in H; specialize (H b Hb); unfold is_byte; lia).
Qed.
Ltac bytes_ok := apply simple_ok; vm_compute; reflexivity.

Definition gen_sig : capdu := mkC 0 0x47 0x80 0 [0xB6; 0] 256.
Definition verify81 : capdu := mkC 0 0x20 0 0x81 DEFAULT_PW1 256.
Definition verify82 : capdu := mkC 0 0x20 0 0x82 DEFAULT_PW1 256.
Definition verify83 : capdu := mkC 0 0x20 0 0x83 DEFAULT_PW3 256.
Definition sign : capdu := mkC 0 0x2A 0x9E 0x9A (repeat 7 32) 256.
Definition put_name : capdu := mkC 0 0xDA 0 0x5B [65; 66] 256.
Definition ex_sign : list ev := [Do (plain gen_sig); Do (plain sign); Do (plain verify81); Do (plain sign); Do (plain sign); Do (plain verify81); Do (plain sign)].
Definition sws (tr : list entry) : list (option Z) := map (fun e => option_map r_sw (snd e)) tr.
(** One signature for each VERIFY 81. *)
Example C36_ex : exists tr d, since_boot toy tr d /\ map (fun e => snd (fst e)) tr = ex_sign /\
  sws tr = [Some 0x9000; Some 0x6982; Some 0x9000; Some 0x9000; Some 0x6982; Some 0x9000; Some 0x9000] /\
  (exists a e1 m e2, tr = a ++ [e1] ++ m ++ [e2] /\ gives_signature e1 /\ one_signature (d_fs (fst (fst e1))) /\ gives_signature e2).
Proof.
  destruct (sees_ran (run_all toy (boot fs_empty []) ex_sign)
    (fun tr d => (sws tr, match tr with [_; _; _; e; _; _; _] => fattr (d_fs (fst (fst e))) "pgp-data" 0xC4 | _ => None end))
    ([Some 0x9000; Some 0x6982; Some 0x9000; Some 0x9000; Some 0x6982; Some 0x9000; Some 0x9000], Some [0])) as (tr & d & E & H); [vm_compute; reflexivity|].
  pose proof (f_equal fst H) as H1. pose proof (f_equal snd H) as H2. cbn [fst snd] in H1, H2. clear H.
  exists tr, d. split; [eapply run_all_since; [|exact E]; unfold ex_sign; bytes_ok|]. pose proof (run_all_events _ _ _ _ _ E) as HE. split; [exact HE|]. split; [exact H1|]. clear E.
  destruct tr as [|a1 [|a2 [|a3 [|[[d4 v4] o4] [|a5 [|a6 [|[[d7 v7] o7] [|]]]]]]]]; try discriminate H1.
  exists [a1; a2; a3], (d4, v4, o4), [a5; a6], (d7, v7, o7). split; [reflexivity|].
  unfold sws in H1. cbn [map snd] in H1. injection H1 as _ _ _ K4 _ _ K7. unfold ex_sign in HE. cbn [map fst snd] in HE.
  pose proof (f_equal (fun l => nth 3 l Off) HE) as V4. pose proof (f_equal (fun l => nth 6 l Off) HE) as V7. cbn [nth] in V4, V7. subst v4 v7.
  destruct o4 as [r4|]; [|discriminate K4]. destruct o7 as [r7|]; [|discriminate K7]. injection K4 as K4. injection K7 as K7.
  split; [split; [repeat split|left; exact K4]|]. split; [exists []; left; exact H2|]. split; [repeat split|left; exact K7].
Qed.
(** A data object is changed after PW3 was given; a key is generated, and used for signing, by a host that has not shown PW3. *)
Definition seen_change (K : crypto) (p : path) (a : Z) (d : dev) (x : cmd) : option bytes * option bytes :=
  let '(_, _, e) := exec K d x in (fattr (e_fs e) p a, fattr (d_fs d) p a).
Example C37_ex : exists tr d, since_boot toy tr d /\ sws tr = [Some 0x9000] /\ changes toy d (plain put_name).
Proof.
  destruct (sees_ran (run_all toy (boot fs_empty []) [Do (plain verify83)])
    (fun tr d => (sws tr, seen_change toy "pgp-data" 0x5B d (plain put_name))) ([Some 0x9000], (Some [65; 66], Some []))) as (tr & d & E & H); [vm_compute; reflexivity|].
  pose proof (f_equal fst H) as H1. pose proof (f_equal snd H) as H2. cbn [fst snd] in H1, H2. clear H.
  exists tr, d. split; [eapply run_all_since; [|exact E]; bytes_ok|]. split; [exact H1|]. clear E H1. unfold changes. unfold seen_change in H2.
  destruct (exec toy d (plain put_name)) as [[r s'] e']. exists (e_fs e'). split; [auto|]. intros (_ & _ & _ & W). specialize (W 0x5B ltac:(discriminate) ltac:(discriminate)).
  rewrite W in H2. pose proof (f_equal fst H2) as A. pose proof (f_equal snd H2) as B. cbn [fst snd] in A, B. rewrite A in B. discriminate B.
Qed.
Lemma seen_key K p a d x u v : seen_change K p a d x = (u, v) -> u <> v -> In p pgp_keys -> changes K d x.
Proof.
  intros H N Hp. unfold changes. unfold seen_change in H. destruct (exec K d x) as [[r s'] e']. exists (e_fs e'). split; [auto|].
  intros (W & _). apply N. injection H as <- <-. unfold fattr. rewrite (W p); [reflexivity|]. apply in_app_iff. auto.
Qed.
(** A host that has shown no password replaces the signature key. *)
Theorem C63_generate_refuted : exists tr d x, since_boot toy tr d /\ c_ins (x_apdu x) = 0x47 /\ changes toy d x /\ ~ given 0x83 tr.
Proof.
  exists [], (boot fs_empty []), (plain gen_sig). split; [exists fs_empty, []; constructor|]. split; [reflexivity|]. split.
  - apply (seen_key toy "pgp-sigk" KEY_META_ATTR _ _ (Some (meta_bytes (mkMeta RSA2048 KEY_ORIGIN_GENERATED SIGN 0 0))) (Some (meta_bytes (mkMeta RSA2048 KEY_ORIGIN_NOT_PRESENT SIGN 0 0)))).
    + vm_compute. reflexivity.
    + discriminate.
    + cbn. auto.
  - intros (tr1 & e & tr2 & H & _). destruct tr1; discriminate.
Qed.
Print Assumptions C63_generate_refuted.
