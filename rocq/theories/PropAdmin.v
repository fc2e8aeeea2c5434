(** C11, C23-C26, C73: the administrator's applet. *)
From Verif Require Import Sys Apdu Applet Frame Pin PinProofs PinWp Admin.
Open Scope string_scope. Open Scope list_scope. Open Scope Z_scope.

(** The files of this applet *)
Definition admin_files : list path := ["admin-pin"; "admin_cfg"; "sn"].
Definition agree (F G : fs) : Prop := forall q, In q admin_files -> G q = F q.

(** [Do]: a command ([nfc]: it came over NFC; [flt]: storage errors; [tch]: the user's answers to requests for touches).
    [Cut]: the same, but the power fails when the [n]-th last storage update is current, and the device boots.
    [Off]: the applet is left.  [Other]: other applets do anything to their own variables and files. *)
Inductive event {X : Type} :=
  | Do (c : capdu) (nfc : bool) (flt : list fault) (tch : list Z)
  | Cut (c : capdu) (nfc : bool) (flt : list fault) (tch : list Z) (n : nat)
  | Off
  | Other (x : X) (F : fs).
Record dev {X : Type} := mkAd { d_ram : admin; d_x : X; d_fs : fs }.
Arguments event : clear implicits. Arguments dev : clear implicits.
Arguments mkAd {X} _ _ _. Arguments d_ram {X} _. Arguments d_x {X} _. Arguments d_fs {X} _.
Arguments Do {X} _ _ _ _. Arguments Cut {X} _ _ _ _ _. Arguments Off {X}. Arguments Other {X} _ _.

Section Spec.
Context {X : Type}.
Variable ext : Z -> capdu -> M X Z.
Variable inst : Z -> M X bool.
Variable ro : X -> Z.
Variable usage : Z * Z.
Notation event := (event X).
Notation dev := (dev X).

Definition run (c : capdu) (nfc : bool) (flt : list fault) (tch : list Z) (d : dev) : option rapdu * St * env :=
  run_apdu (admin_body ext inst ro usage nfc c) (d_ram d, d_x d) (start (d_fs d) flt [] tch).
Definition boot (x : X) (F : fs) : dev :=
  match admin_install false (admin_boot, x) (start F [] [] []) with (_, s, e) => mkAd (fst s) (snd s) (e_fs e) end.
Definition step (d : dev) (ev : event) : option (option rapdu * dev) :=
  match ev with
  | Do c nfc flt tch => match run c nfc flt tch d with (Some r, s, e) => Some (Some r, mkAd (fst s) (snd s) (e_fs e)) | _ => None end
  | Cut c nfc flt tch n => let '(_, s, e) := run c nfc flt tch d in Some (None, boot (snd s) (nth n (e_log e) (e_fs e)))
  | Off => Some (None, mkAd (admin_poweroff (d_ram d)) (d_x d) (d_fs d))
  | Other x F => Some (None, mkAd (d_ram d) x F)
  end.
Definition ev_ok (d : dev) (ev : event) : Prop := match ev with Other _ F => agree (d_fs d) F | _ => True end.
Inductive hist : dev -> list (event * option rapdu) -> dev -> Prop :=
| h_nil d : hist d [] d
| h_cons d ev o d1 tr d2 : ev_ok d ev -> step d ev = Some (o, d1) -> hist d1 tr d2 -> hist d ((ev, o) :: tr) d2.
(** From the first power-up of an empty device *)
Definition reach (tr : list (event * option rapdu)) (d : dev) : Prop := exists x, hist (boot x fs_empty) tr d.
End Spec.

(** ** What a history says about PIN, session and configuration *)
(** The PIN a command submits; C11 is about the difference between this and the whole data field. *)
Definition submitted (c : capdu) : bytes := firstn (Z.to_nat (zlen (c_data c) mod 256)) (c_data c).
(** The PINs that may be in force: one, unless a change or reset was disturbed *)
Definition next_pins {X} (cur : list bytes) (x : event X * option rapdu) : list bytes :=
  match x with
  | (Do c _ _ _, Some r) =>
    if c_ins c =? 0x21 then (if r_sw r =? 0x9000 then [submitted c] else if r_sw r =? 0x6900 then submitted c :: cur else cur)
    else if c_ins c =? 0x50 then (if r_sw r =? 0x9000 then [default_pin] else if r_sw r =? 0x6900 then default_pin :: cur else cur)
    else cur
  | (Cut c _ _ _ _, _) => if c_ins c =? 0x21 then submitted c :: cur else if c_ins c =? 0x50 then default_pin :: cur else cur
  | _ => cur
  end.
(** Whether the session may be authorised: by a VERIFY with one of these PINs that was not rejected, until the next VERIFY,
    PIN change, reset, power loss or applet switch *)
Definition next_auth {X} (pins : list bytes) (cur : bool) (x : event X * option rapdu) : bool :=
  match x with
  | (Do c _ _ _, Some r) =>
    if (c_ins c =? 0x20) && (c_p1 c =? 0) && (c_p2 c =? 0) && negb (zlen (c_data c) =? 0) then
      ((r_sw r =? 0x9000) || (r_sw r =? 0x6900)) && existsb (beqb (submitted c)) pins
    else if c_ins c =? 0x21 then (if (r_sw r =? 0x9000) || (r_sw r =? 0x6900) then false else cur)
    else if c_ins c =? 0x50 then (if r_sw r =? 0x9000 then false else cur)
    else cur
  | (Other _ _, _) => cur
  | _ => false
  end.
Definition pins_auth {X} (st : list bytes * bool) (x : event X * option rapdu) : list bytes * bool :=
  (next_pins (fst st) x, next_auth (fst st) (snd st) x).
Definition authorised {X} (tr : list (event X * option rapdu)) : bool := snd (fold_left pins_auth tr ([default_pin], false)).
Definition pins_of {X} (tr : list (event X * option rapdu)) : list bytes := fst (fold_left pins_auth tr ([default_pin], false)).

(** Configuration: LED normally on, NDEF enabled, WebUSB landing page *)
Definition config := (bool * bool * bool)%type.
Definition default_config : config := (true, true, true).
Definition set_switch (p1 : Z) (b : bool) (x : config) : config :=
  let '(l, n, w) := x in if p1 =? 1 then (b, n, w) else if p1 =? 4 then (l, b, w) else if p1 =? 5 then (l, n, b) else x.
(** The configurations that may be in force: one, unless a change or reset was disturbed *)
Definition next_cfgs {X} (cur : list config) (x : event X * option rapdu) : list config :=
  match x with
  | (Do c _ _ _, Some r) =>
    if c_ins c =? 0x40 then
      let new := map (set_switch (c_p1 c) (Z.odd (c_p2 c))) cur in
      if r_sw r =? 0x9000 then new else if r_sw r =? 0x6900 then new ++ cur else cur
    else if c_ins c =? 0x50 then (if r_sw r =? 0x9000 then [default_config] else if r_sw r =? 0x6900 then default_config :: cur else cur)
    else cur
  | (Cut c _ _ _ _, _) =>
    if c_ins c =? 0x40 then map (set_switch (c_p1 c) (Z.odd (c_p2 c))) cur ++ cur else if c_ins c =? 0x50 then default_config :: cur else cur
  | _ => cur
  end.
Definition cfgs_of {X} (tr : list (event X * option rapdu)) : list config := fold_left next_cfgs tr [default_config].

(** ** Proofs *)
Definition cfg_of (a : admin) : config := (a_led a, a_ndef a, a_web a).
Definition byte_of (t : config) : Z := let '(l, n, w) := t in Z.b2z l + 2 * Z.b2z n + 4 * Z.b2z w.
Lemma cfg_byte_of a : cfg_byte a = byte_of (cfg_of a). Proof. reflexivity. Qed.
Lemma set_cfg_byte t a : cfg_of (set_cfg (byte_of t) a) = t.
Proof. destruct t as [[[] []] []]; reflexivity. Qed.

Definition pinv (pd : bytes) (k : Z) (G : fs) : Prop := pin_inv admin_pin 3 pd k G /\ 6 <= zlen pd <= 64.
(** A storage image fits the candidates. *)
Definition img (pins : list bytes) (cfgs : list config) (G : fs) : Prop :=
  exists pd k t, pinv pd k G /\ In pd pins /\ fdata G CFG_FILE = Some [byte_of t] /\ In t cfgs.
Lemma pin_inv_ext p N d k F G : G (pin_path p) = F (pin_path p) -> pin_inv p N d k F -> pin_inv p N d k G.
Proof. unfold pin_inv, fdata, fattr. intros ->. auto. Qed.
Lemma pinv_ext d k F G : G "admin-pin" = F "admin-pin" -> pinv d k F -> pinv d k G.
Proof. intros H [H1 H2]. split; [eapply pin_inv_ext; [exact H|exact H1]|exact H2]. Qed.
Lemma fdata_ext F G q : G q = F q -> fdata G q = fdata F q.
Proof. unfold fdata. intros ->. reflexivity. Qed.
Lemma img_agree pins cfgs F G : agree F G -> img pins cfgs F -> img pins cfgs G.
Proof.
  intros Ha (pd & k & t & H1 & H2 & H3 & H4). exists pd, k, t. split; [eapply pinv_ext; [|exact H1]; apply Ha; left; reflexivity|].
  split; [exact H2|]. split; [|exact H4]. rewrite (fdata_ext F G); [exact H3|]. apply Ha. right; left; reflexivity.
Qed.
Lemma img_mono p p' c c' G : incl p p' -> incl c c' -> img p c G -> img p' c' G.
Proof. intros Hp Hc (pd & k & t & H1 & H2 & H3 & H4). exists pd, k, t. auto. Qed.
Lemma img_cfg pins F pd k t' cfgs' : pinv pd k F -> In pd pins -> In t' cfgs' ->
  img pins cfgs' (fwrite F CFG_FILE [byte_of t'] 0 true).
Proof.
  intros H1 H2 H3. exists pd, k, t'. split; [eapply pinv_ext; [|exact H1]; apply fwrite_other; discriminate|]. split; [exact H2|].
  split; [apply fdata_fwrite_trunc|exact H3].
Qed.
Lemma agree_refl F : agree F F. Proof. intros q _; reflexivity. Qed.

Definition images (e : env) (Q : fs -> Prop) : Prop := Q (e_fs e) /\ Forall Q (e_log e).
Lemma images_nth e Q n : images e Q -> Q (nth n (e_log e) (e_fs e)).
Proof. intros [H1 H2]. destruct (nth_in_or_default n (e_log e) (e_fs e)) as [Hi| ->]; [|exact H1]. eapply Forall_forall in H2; eauto. Qed.
Lemma images_imp e (P Q : fs -> Prop) : (forall G, P G -> Q G) -> images e P -> images e Q.
Proof. intros H [H1 H2]. split; [auto|]. eapply Forall_impl; eauto. Qed.


Section Proofs.
Context {X : Type}.
Variable ext : Z -> capdu -> M X Z.
Variable inst : Z -> M X bool.
Variable ro : X -> Z.
Variable usage : Z * Z.
(** The other applets' functions leave this applet's files alone. *)
Hypothesis ext_ok : forall i c q f, In q admin_files -> frame (fun _ => True) (fun F => F q = f) (ext i c).
Hypothesis inst_ok : forall i q f, In q admin_files -> frame (fun _ => True) (fun F => F q = f) (inst i).
Hypothesis inst_plain : forall i x e w, fst (fst (inst i x e)) <> Exc w.
Notation event := (event X).
Notation dev := (dev X).

Lemma wp_zoom {A} (m : M X A) (Q : out A -> St -> env -> Prop) a x F e :
  (forall q f, In q admin_files -> frame (fun _ => True) (fun F => F q = f) m) ->
  images e (agree F) ->
  (forall o x' e', images e' (agree F) -> Q o (a, x') e') -> wp (zoom m) Q (a, x) e.
Proof.
  intros Hm [He1 He2] HQ. unfold wp, zoom. cbn [fst snd].
  assert (H : forall q, In q admin_files -> let '(_, x', e') := m x e in images e' (fun G => G q = F q)).
  { intros q Hq. specialize (Hm q (F q) Hq x e). unfold wp in Hm. destruct (m x e) as [[o x'] e'].
    destruct Hm as (_ & H1 & H2); [|split; assumption]. split; [exact I|]. split; [apply He1, Hq|].
    eapply Forall_impl; [|exact He2]. intros G HG. apply HG, Hq. }
  destruct (m x e) as [[o x'] e']. apply HQ. split.
  - intros q Hq. apply (H q Hq).
  - apply Forall_forall. intros G HG q Hq. destruct (H q Hq) as [_ H2]. eapply Forall_forall in H2; [|exact HG]. exact H2.
Qed.

Definition sw_of (o : out Z) : Z := match o with Ret w => w | Exc w => w | Fail => 0x6900 | UB => 0 end.
Definition rsp (o : out Z) : option rapdu := match o with UB => None | _ => Some (mkR [] (sw_of o)) end.

(** What one command does to the candidates.  [next_*] only look at the status word. *)
Definition post (c : capdu) (pins : list bytes) (au : bool) (cfgs : list config) (o : out Z) (s' : St) (e' : env) : Prop :=
  let cut : event := Cut c false [] [] 0 in
  let done : event := Do c false [] [] in
  images e' (img (next_pins pins (cut, None)) (next_cfgs cfgs (cut, None))) /\
  (o <> UB ->
     img (next_pins pins (done, rsp o)) (next_cfgs cfgs (done, rsp o)) (e_fs e') /\
     In (cfg_of (@fst admin X s')) (next_cfgs cfgs (done, rsp o)) /\
     (a_ok (fst s') = true -> next_auth pins au (done, rsp o) = true)).

Lemma post_nothing c pins au cfgs o a x' F e' :
  img pins cfgs F -> In (cfg_of a) cfgs -> (a_ok a = true -> au = true) ->
  images e' (agree F) ->
  (c_ins c = 0x20 -> c_p1 c = 0 -> c_p2 c = 0 -> c_data c <> [] -> False) ->
  (c_ins c = 0x21 \/ c_ins c = 0x40 \/ c_ins c = 0x50 -> sw_of o <> 0x9000 /\ sw_of o <> 0x6900 \/ c_ins c = 0x50 /\ sw_of o = 0x6900) ->
  post c pins au cfgs o (a, x') e'.
Proof.
  intros Hi Hc Ha Hg H20 Hs. assert (images e' (img pins cfgs)) as Him by (eapply images_imp; [|exact Hg]; intros G HG; eapply img_agree; eauto).
  unfold post. cbn [next_pins next_cfgs fst]. split.
  - eapply images_imp; [|exact Him]. intros G. apply img_mono.
    + intros y Hy. destruct (c_ins c =? 0x21), (c_ins c =? 0x50); cbn; auto.
    + intros y Hy. destruct (c_ins c =? 0x40), (c_ins c =? 0x50); rewrite ?in_app_iff; cbn; auto.
  - intros Ho. assert (exists r, rsp o = Some r /\ r_sw r = sw_of o) as (r & Er & Es) by (destruct o; try contradiction; eexists; (split; [reflexivity|reflexivity])).
    rewrite Er. cbn [next_auth]. rewrite Es.
    assert (Hcase : (c_ins c <> 0x21 /\ c_ins c <> 0x40 /\ c_ins c <> 0x50) \/ sw_of o <> 0x9000 /\ sw_of o <> 0x6900 \/ c_ins c = 0x50 /\ sw_of o = 0x6900) by lia.
    assert (Hpi : incl pins (next_pins pins (@Do X c false [] [], Some r))).
    { cbn [next_pins]. rewrite Es. intros y Hy. destruct (Z.eqb_spec (c_ins c) 0x21), (Z.eqb_spec (c_ins c) 0x50), (Z.eqb_spec (sw_of o) 0x9000), (Z.eqb_spec (sw_of o) 0x6900); try exact Hy; try (right; exact Hy); exfalso; lia. }
    assert (Hci : incl cfgs (next_cfgs cfgs (@Do X c false [] [], Some r))).
    { cbn [next_cfgs]. rewrite Es. intros y Hy. destruct (Z.eqb_spec (c_ins c) 0x40), (Z.eqb_spec (c_ins c) 0x50), (Z.eqb_spec (sw_of o) 0x9000), (Z.eqb_spec (sw_of o) 0x6900); try exact Hy; try (right; exact Hy); exfalso; lia. }
    cbn [next_pins next_cfgs] in Hpi, Hci. rewrite Es in Hpi, Hci. split; [|split].
    + eapply img_mono; [exact Hpi|exact Hci|]. apply Him.
    + apply Hci, Hc.
    + intros Hok. specialize (Ha Hok).
      destruct ((c_ins c =? 0x20) && (c_p1 c =? 0) && (c_p2 c =? 0) && negb (zlen (c_data c) =? 0)) eqn:E.
      { exfalso. apply H20; [lia|lia|lia|]. intros E0. rewrite E0 in E. rewrite andb_false_r in E. discriminate. }
      destruct (Z.eqb_spec (c_ins c) 0x21), (Z.eqb_spec (c_ins c) 0x50), (Z.eqb_spec (sw_of o) 0x9000), (Z.eqb_spec (sw_of o) 0x6900); cbn [orb]; try exact Ha; exfalso; lia.
Qed.

Lemma images_start F X0 R T O : images (mkE F [F] X0 R T O) (agree F).
Proof. split; [apply agree_refl|]. constructor; [apply agree_refl|constructor]. Qed.
Lemma setv2 : forall a b (s : @St X), setv a (setv b s) = setv a s.
Proof. intros a b [[] x]; reflexivity. Qed.

Lemma verify_post c pins au cfgs a x F X0 R T :
  img pins cfgs F -> In (cfg_of a) cfgs -> (a_ok a = true -> au = true) -> c_ins c = 0x20 ->
  wp (admin_verify c) (post c pins au cfgs) (a, x) (mkE F [F] X0 R T []).
Proof.
  intros Hi Hc Ha Ei. pose proof Hi as (pd & k & t & (Hp & Hp6) & Hpd & Hcf & Ht). unfold admin_verify.
  apply wp_bind, wp_guard; intros E1.
  2: { apply (post_nothing _ _ _ _ _ _ _ F); try assumption; [apply images_start|lia|lia]. }
  unfold c_lc. destruct (Z.eqb_spec (zlen (c_data c)) 0) as [E0|E0].
  { assert (c_data c = []) as Ed by (destruct (c_data c) as [|y l]; [reflexivity|rewrite zlen_cons in E0; pose proof (zlen_nonneg l); lia]).
    apply wp_bind, wp_get. cbn [fst]. assert (Hn : forall o X1 T1, post c pins au cfgs o (a, x) (mkE F [F] X1 R T1 [])).
    { intros. apply (post_nothing _ _ _ _ _ _ _ F); try assumption; [apply images_start|contradiction|lia]. }
    destruct (a_ok a); [apply wp_ret, Hn|].
    apply wp_bind. eapply (wp_pin_retries admin_pin 3 pd k); [exact Hp|..];
      intros; repeat first [apply wp_ret|apply wp_fail|apply wp_except|match goal with |- context[if ?b then _ else _] => destruct b end]; apply Hn. }
  assert (Hlen : u8 (zlen (c_data c)) <= zlen (c_data c)) by (unfold u8; apply Z.mod_le; [pose proof (zlen_nonneg (c_data c)); lia|lia]).
  assert (Hsub : slice 0 (u8 (zlen (c_data c))) (c_data c) = submitted c) by reflexivity.
  assert (Hnz : negb (zlen (c_data c) =? 0) = true) by lia.
  assert (Hq : forall o v G X1, (v = true -> (sw_of o = 0x9000 \/ sw_of o = 0x6900) /\ submitted c = pd) ->
     (exists k', pin_inv admin_pin 3 pd k' G) -> (forall q, q <> "admin-pin" -> G q = F q) ->
     forall L, L = [F] \/ L = [G; F] -> post c pins au cfgs o (setv v (a, x)) (mkE G L X1 R T [])).
  { intros o v G X1 Hv (k' & Hk') HG L HL.
    assert (img pins cfgs G) as HiG.
    { exists pd, k', t. split; [split; [exact Hk'|exact Hp6]|]. split; [exact Hpd|]. split; [|exact Ht]. rewrite <- Hcf. apply fdata_ext, HG. discriminate. }
    unfold post. cbn [next_pins next_cfgs next_auth]. rewrite Ei. cbn [Z.eqb Pos.eqb]. split.
    - split; [exact HiG|]. destruct HL as [-> | ->]; repeat (constructor; [assumption|]); constructor.
    - intros Ho. destruct o as [w|w| |]; try contradiction; cbn [rsp r_sw sw_of] in *; (split; [exact HiG|]); (split; [exact Hc|]);
      unfold setv; cbn [fst a_ok set_ok]; intros ->; destruct (Hv eq_refl) as [Hw Es];
      replace ((c_p1 c =? 0) && (c_p2 c =? 0)) with true by lia; cbn [andb];
      replace (c_p1 c =? 0) with true by lia; replace (c_p2 c =? 0) with true by lia; rewrite Hnz; cbn [andb orb].
      all: apply andb_true_iff; split; [lia|]; apply existsb_exists; exists pd; (split; [exact Hpd|]); rewrite Es; apply beqb_refl. }
  apply wp_bind. eapply (wp_pin_verify admin_pin setv setv2 ltac:(discriminate) ltac:(discriminate) 3 pd k); [exact Hlen|lia|exact Hp|..]; rewrite ?Hsub.
  - intros _. cbn. apply (Hq (Exc SW_WRONG_LENGTH) false F); [discriminate|eauto|auto|auto].
  - intros _. split; [intros Hx X1 r v Hv; cbn; apply (Hq Fail v F); [intros E; split; [auto|apply Hv, E]|eauto|auto|auto]|].
    intros X1 _. split; [|split].
    + intros _. cbn. apply (Hq (Exc SW_AUTHENTICATION_BLOCKED) false F); [discriminate|eauto|auto|auto].
    + intros Hk Hne F' Hi'. assert (HF' : forall q, q <> "admin-pin" -> F' q = F q) by (intros q Hq0; apply fsetattr_other; exact Hq0).
      cbn [PIN_AUTH_FAIL PIN_IO_FAIL PIN_LENGTH_INVALID Z.eqb Pos.eqb]. apply wp_bind, (wp_need _ _ _ _ (k - 1)); [reflexivity|].
      destruct (k - 1 =? 0); apply wp_except; eapply Hq; try discriminate; eauto.
    + intros Hk Heq F' Hi'. assert (HF' : forall q, q <> "admin-pin" -> F' q = F q) by (intros q Hq0; apply fsetattr_other; exact Hq0).
      cbn [PIN_AUTH_FAIL PIN_IO_FAIL PIN_LENGTH_INVALID Z.eqb Pos.eqb]. apply wp_bind, (wp_need _ _ _ _ k); [reflexivity|].
      destruct (Z.eqb_spec k 0); [contradiction|]. apply wp_ret. eapply Hq; eauto.
Qed.

Lemma change_post c pins au cfgs a x F X0 R T :
  img pins cfgs F -> In (cfg_of a) cfgs -> (a_ok a = true -> au = true) -> c_ins c = 0x21 ->
  wp (admin_change_pin c) (post c pins au cfgs) (a, x) (mkE F [F] X0 R T []).
Proof.
  intros Hi Hc Ha Ei. pose proof Hi as (pd & k & t & (Hp & Hp6) & Hpd & Hcf & Ht). unfold admin_change_pin.
  apply wp_bind, wp_guard; intros E1.
  2: { apply (post_nothing _ _ _ _ _ _ _ F); try assumption; [apply images_start|lia|]. intros _; left; split; discriminate. }
  assert (Hlen : u8 (zlen (c_data c)) <= zlen (c_data c)) by (unfold u8; apply Z.mod_le; [pose proof (zlen_nonneg (c_data c)); lia|lia]).
  assert (Hsub : slice 0 (u8 (zlen (c_data c))) (c_data c) = submitted c) by reflexivity.
  assert (HG : forall G pd' k', pinv pd' k' G -> (forall q, q <> "admin-pin" -> G q = F q) -> forall ps, In pd' ps -> img ps cfgs G).
  { intros G pd' k' H1 H2 ps H3. exists pd', k', t. split; [exact H1|]. split; [exact H3|]. split; [|exact Ht]. rewrite <- Hcf. apply fdata_ext, H2. discriminate. }
  apply wp_bind. unfold c_lc. eapply (wp_pin_update admin_pin setv ltac:(discriminate) ltac:(discriminate) 3 pd k); [exact Hlen|lia|exact Hp|..]; rewrite ?Hsub.
  - intros _. apply wp_except. apply (post_nothing _ _ _ _ _ _ _ F); try assumption; [apply images_start|lia|]. intros _; left; split; discriminate.
  - intros Hl6 F1 Hi1. assert (H6 : 6 <= zlen (submitted c) <= 64) by (unfold admin_pin, PIN_MAX_LENGTH in Hl6; cbn [pin_min pin_max] in Hl6; rewrite <- Hsub, zlen_slice; lia). assert (HF1 : forall q, q <> "admin-pin" -> F1 q = F q) by (intros q Hq; apply fwrite_other; exact Hq).
    assert (H0 : forall ps, In pd ps -> img ps cfgs F) by (intros ps; apply (HG F pd k (conj Hp Hp6)); auto).
    assert (H1 : forall ps, In (submitted c) ps -> img ps cfgs F1) by (intros ps; apply (HG F1 _ _ (conj Hi1 H6) HF1)).
    split; [|split].
    + intros _ X1. apply wp_fail. unfold post. cbn [next_pins next_cfgs next_auth rsp sw_of r_sw]. rewrite Ei. cbn [Z.eqb Pos.eqb andb orb].
      split; [split; [apply H0; right; exact Hpd|constructor; [apply H0; right; exact Hpd|constructor]]|].
      intros _. split; [apply H0; right; exact Hpd|]. split; [exact Hc|discriminate].
    + intros _ X1. apply wp_fail. unfold post. cbn [next_pins next_cfgs next_auth rsp sw_of r_sw]. rewrite Ei. cbn [Z.eqb Pos.eqb andb orb].
      split; [split; [apply H1; left; reflexivity|constructor; [apply H1; left; reflexivity|constructor; [apply H0; right; exact Hpd|constructor]]]|].
      intros _. split; [apply H1; left; reflexivity|]. split; [exact Hc|discriminate].
    + intros X1 _ F2 Hi2. assert (HF2 : forall q, q <> "admin-pin" -> F2 q = F q) by (intros q Hq; unfold F2; rewrite fsetattr_other by exact Hq; auto).
      assert (H2 : forall ps, In (submitted c) ps -> img ps cfgs F2) by (intros ps; apply (HG F2 _ _ (conj Hi2 H6) HF2)).
      apply wp_ret. unfold post. cbn [next_pins next_cfgs next_auth rsp sw_of r_sw]. rewrite Ei. cbn [Z.eqb Pos.eqb andb orb SW_NO_ERROR].
      split; [split; [apply H2; left; reflexivity|constructor; [apply H2; left; reflexivity|constructor; [apply H1; left; reflexivity|constructor; [apply H0; right; exact Hpd|constructor]]]]|].
      intros _. split; [apply H2; left; reflexivity|]. split; [exact Hc|discriminate].
Qed.

Lemma config_post c pins au cfgs a x F X0 R T :
  img pins cfgs F -> In (cfg_of a) cfgs -> (a_ok a = true -> au = true) -> c_ins c = 0x40 ->
  wp (admin_config c) (post c pins au cfgs) (a, x) (mkE F [F] X0 R T []).
Proof.
  intros Hi Hc Ha Ei. pose proof Hi as (pd & k & t & Hp & Hpd & Hcf & Ht). unfold admin_config.
  set (b := Z.odd (c_p2 c)).
  assert (HF : F CFG_FILE <> None) by (eapply fdata_some; eassumption).
  assert (El1 : lcreate F [F] CFG_FILE = [F]) by (unfold lcreate; destruct (F CFG_FILE); [reflexivity|contradiction]).
  assert (El2 : fcreate F CFG_FILE = F) by (unfold fcreate; destruct (F CFG_FILE); [reflexivity|contradiction]).
  assert (Hmain : forall a1, a_ok a1 = a_ok a -> cfg_of a1 = set_switch (c_p1 c) b (cfg_of a) ->
    wp (s <- get;; ok <- write_file CFG_FILE [cfg_byte (fst s)] 0 true;; (if ok then ret SW_NO_ERROR else fail)) (post c pins au cfgs) (a1, x) (mkE F [F] X0 R T [])).
  { intros a1 Hok1 Ha1. apply wp_bind, wp_get. cbn [fst]. rewrite cfg_byte_of.
    assert (Hin : In (cfg_of a1) (map (set_switch (c_p1 c) b) cfgs)) by (rewrite Ha1; apply in_map, Hc).
    assert (Hm : forall cs, incl cfgs cs -> img pins cs F) by (intros cs Hcs; eapply img_mono; [apply incl_refl|exact Hcs|exact Hi]).
    apply wp_bind, wp_write_file; rewrite ?El1, ?El2.
    - intros X1 _. apply wp_ret. unfold post. cbn [next_pins next_cfgs next_auth rsp sw_of r_sw]. rewrite Ei. cbn [Z.eqb Pos.eqb andb orb SW_NO_ERROR]. fold b.
      split.
      + split; cbn [e_fs e_log]; [|constructor; [|constructor; [|constructor]]];
          try (apply (img_cfg pins F pd k); [exact Hp|exact Hpd|apply in_or_app; left; exact Hin]). apply Hm. apply incl_appr, incl_refl.
      + intros _. split; [apply (img_cfg pins F pd k); assumption|]. split; [exact Hin|]. cbn [fst]. rewrite Hok1. exact Ha.
    - intros _ X1. apply wp_fail. unfold post. cbn [next_pins next_cfgs next_auth rsp sw_of r_sw]. rewrite Ei. cbn [Z.eqb Pos.eqb andb orb SW_NO_ERROR]. fold b.
      split; [split; [|constructor; [|constructor]]; apply Hm, incl_appr, incl_refl|].
      intros _. split; [apply Hm, incl_appr, incl_refl|]. split; [apply in_or_app; left; exact Hin|]. cbn [fst]. rewrite Hok1. exact Ha.
    - intros _ X1. apply wp_fail. unfold post. cbn [next_pins next_cfgs next_auth rsp sw_of r_sw]. rewrite Ei. cbn [Z.eqb Pos.eqb andb orb SW_NO_ERROR]. fold b.
      split; [split; [|constructor; [|constructor]]; apply Hm, incl_appr, incl_refl|].
      intros _. split; [apply Hm, incl_appr, incl_refl|]. split; [apply in_or_app; left; exact Hin|]. cbn [fst]. rewrite Hok1. exact Ha. }
  unfold set_switch, cfg_of in Hmain.
  destruct (c_p1 c =? 1); [apply wp_bind, wp_modify; apply Hmain; reflexivity|].
  destruct (c_p1 c =? 4); [apply wp_bind, wp_modify; apply Hmain; reflexivity|].
  destruct (c_p1 c =? 5); [apply wp_bind, wp_modify; apply Hmain; reflexivity|].
  apply wp_bind, wp_except. apply (post_nothing _ _ _ _ _ _ _ F); try assumption; [apply images_start|lia|]. intros _; left; split; discriminate.
Qed.

Lemma sn_post c pins au cfgs a x F X0 R T :
  img pins cfgs F -> In (cfg_of a) cfgs -> (a_ok a = true -> au = true) -> c_ins c = 0x30 ->
  wp (admin_write_sn c) (post c pins au cfgs) (a, x) (mkE F [F] X0 R T []).
Proof.
  intros Hi Hc Ha Ei. unfold admin_write_sn.
  assert (Hn : forall o e', images e' (img pins cfgs) -> post c pins au cfgs o (a, x) e').
  { intros o e' He. unfold post. cbn [next_pins next_cfgs]. rewrite Ei. cbn [Z.eqb Pos.eqb]. split; [exact He|]. intros Ho.
    destruct o; try contradiction; cbn [rsp next_pins next_cfgs next_auth]; rewrite Ei; cbn [Z.eqb Pos.eqb andb]; (split; [apply He|]); (split; [exact Hc|exact Ha]). }
  assert (Hn0 : forall o X1, post c pins au cfgs o (a, x) (mkE F [F] X1 R T [])).
  { intros. apply Hn. eapply images_imp; [|apply images_start]. intros G HG. eapply img_agree; eauto. }
  apply wp_bind, wp_guard; intros E1; [|apply Hn0]. apply wp_bind, wp_guard; intros E2; [|apply Hn0].
  apply wp_bind, wp_get_file_size. intros X1 r1 _ _. apply wp_bind, wp_guard; intros E3; [|apply Hn0].
  assert (Hsn : forall G, (forall q, q <> SN_FILE -> G q = F q) -> img pins cfgs G).
  { intros G HG. destruct Hi as (pd & k & t & Hp & Hpd & Hcf & Ht). exists pd, k, t. split; [eapply pinv_ext; [|exact Hp]; apply HG; discriminate|].
    split; [exact Hpd|]. split; [rewrite <- Hcf; apply fdata_ext, HG; discriminate|exact Ht]. }
  assert (Hfc : img pins cfgs (fcreate F SN_FILE)) by (apply Hsn; intros q Hq; apply fcreate_other, Hq).
  assert (Hlc : Forall (img pins cfgs) (lcreate F [F] SN_FILE)).
  { unfold lcreate. destruct (F SN_FILE); [constructor; [exact Hi|constructor]|]. constructor; [exact Hfc|constructor; [exact Hi|constructor]]. }
  apply wp_bind, wp_write_file.
  - intros X2 _. apply wp_ret, Hn. assert (img pins cfgs (fwrite F SN_FILE (c_data c) 0 true)) as Hw by (apply Hsn; intros q Hq; apply fwrite_other, Hq).
    split; [exact Hw|constructor; [exact Hw|exact Hlc]].
  - intros _ X2. apply wp_fail, Hn0.
  - intros _ X2. apply wp_fail, Hn. split; assumption.
Qed.

Lemma reset_post nfc c pins au cfgs a x F X0 R T :
  img pins cfgs F -> In (cfg_of a) cfgs -> (a_ok a = true -> au = true) -> c_ins c = 0x50 ->
  wp (admin_factory_reset inst nfc c) (post c pins au cfgs) (a, x) (mkE F [F] X0 R T []).
Proof.
  intros Hi Hc Ha Ei. pose proof Hi as (pd & k & t & (Hp & Hp6) & Hpd & Hcf & Ht). unfold admin_factory_reset.
  assert (Hn : forall o x' e', sw_of o <> 0x9000 -> images e' (agree F) -> post c pins au cfgs o (a, x') e').
  { intros o x' e' Hs He. apply (post_nothing _ _ _ _ _ _ _ F); try assumption; [lia|]. intros _. destruct (Z.eq_dec (sw_of o) 0x6900); [right; auto|left; auto]. }
  assert (Hn0 : forall sw X1 T1, sw <> 0x9000 -> post c pins au cfgs (Exc sw) (a, x) (mkE F [F] X1 R T1 [])).
  { intros. apply Hn; [assumption|apply images_start]. }
  do 3 (apply wp_bind, wp_guard; intros ?; [|apply Hn0; discriminate]).
  assert (Hrest : forall r X1, wp (guard (negb (0 <? r)) SW_CONDITIONS_NOT_SATISFIED ;;; guard (negb nfc) SW_CONDITIONS_NOT_SATISFIED ;;; t0 <- wait_touch ;;
     guard (t0 =? USER_PRESENCE_OK) SW_SECURITY_STATUS_NOT_SATISFIED ;;;
     must (zoom (inst 0x03)) ;;; must (zoom (inst 0x04)) ;;; must (zoom (inst 0x05)) ;;; must (zoom (inst 0x09)) ;;; must (zoom (inst 0x07)) ;;; must (zoom (inst 0x13)) ;;;
     must (admin_install true) ;;; ret SW_NO_ERROR) (post c pins au cfgs) (a, x) (mkE F [F] X1 R T [])).
  { intros r X1. do 2 (apply wp_bind, wp_guard; intros ?; [|apply Hn0; discriminate]). apply wp_bind, wp_wait_touch.
    apply wp_bind, wp_guard; intros ?; [|apply Hn0; discriminate].
    assert (He : images (mkE F [F] X1 R (tl T) []) (agree F)) by apply images_start.
    generalize dependent (mkE F [F] X1 R (tl T) []). clear Hn0. intros e He. revert x e He.
    assert (Hm : forall i (K : M St Z), (forall x e, images e (agree F) -> wp K (post c pins au cfgs) (a, x) e) ->
      forall x e, images e (agree F) -> wp (must (zoom (inst i)) ;;; K) (post c pins au cfgs) (a, x) e).
    { intros i K HK x e He. apply wp_bind. unfold must. apply wp_bind. pose proof (inst_plain i x e) as Hpl. unfold wp, zoom. cbn [fst snd].
      pose proof (wp_zoom (inst i) (fun _ s e => images e (agree F) /\ fst s = a) a x F e ltac:(intros; apply inst_ok; assumption) He (fun o x' e' H => conj H eq_refl)) as Hz.
      unfold wp, zoom in Hz. cbn [fst snd] in Hz. destruct (inst i x e) as [[o x'] e']. destruct Hz as [He' _]. cbn [fst] in Hpl. destruct o as [[]|w| |].
      - apply HK, He'.
      - apply Hn; [discriminate|exact He'].
      - destruct (Hpl w eq_refl).
      - apply Hn; [discriminate|exact He'].
      - apply Hn; [discriminate|exact He']. }
    do 6 apply Hm. intros x e He. apply wp_bind. unfold must. apply wp_bind. unfold admin_install.
    apply wp_bind, wp_modify. apply wp_bind, wp_ret. apply wp_bind, wp_bind, wp_modify, wp_bind, wp_get. cbn [fst snd].
    change [cfg_byte (set_cfg 7 (admin_poweroff a))] with [byte_of default_config].
    destruct e as [Fe Le Xe Re Te Oe]. destruct He as [He1 He2]. cbn [e_fs e_log] in He1, He2.
    assert (Hie : img pins cfgs Fe) by (eapply img_agree; eauto).
    assert (HLe : Forall (img pins cfgs) Le) by (eapply Forall_impl; [|exact He2]; intros G HG; eapply img_agree; eauto).
    pose proof Hie as (pe & ke & te & (Hpe & Hpe6) & Hpde & Hcfe & Hte). pose proof (fdata_some _ _ _ Hcfe) as HF.
    assert (El1 : lcreate Fe Le CFG_FILE = Le) by (unfold lcreate; destruct (Fe CFG_FILE); [reflexivity|contradiction]).
    assert (El2 : fcreate Fe CFG_FILE = Fe) by (unfold fcreate; destruct (Fe CFG_FILE); [reflexivity|contradiction]).
    assert (Hfail : forall e' (s' : St), images e' (img (default_pin :: pins) (default_config :: cfgs)) -> a_ok (fst s') = false -> In (cfg_of (fst s')) (default_config :: cfgs) ->
      post c pins au cfgs Fail s' e').
    { intros e' s' He' Hok Hcc. unfold post. cbn [next_pins next_cfgs next_auth rsp sw_of r_sw]. rewrite Ei. cbn [Z.eqb Pos.eqb andb orb].
      split; [exact He'|]. intros _. split; [apply He'|]. split; [exact Hcc|]. rewrite Hok. discriminate. }
    assert (Hw : forall p', incl p' (default_pin :: pins) -> img p' cfgs Fe -> img (default_pin :: pins) (default_config :: cfgs) Fe).
    { intros p' Hp' HG. eapply img_mono; [exact Hp'|apply incl_tl, incl_refl|exact HG]. }
    assert (HLe' : Forall (img (default_pin :: pins) (default_config :: cfgs)) Le) by (eapply Forall_impl; [|exact HLe]; intros G; apply img_mono; apply incl_tl, incl_refl).
    assert (Hie' : img (default_pin :: pins) (default_config :: cfgs) Fe) by (apply (Hw pins); [apply incl_tl, incl_refl|exact Hie]).
    apply wp_write_file; rewrite ?El1, ?El2.
    2, 3: intros _ X2; cbn [negb]; apply wp_ret, wp_fail, Hfail; [split; assumption|reflexivity|left; reflexivity].
    intros X2 _. cbn [negb]. set (F1 := fwrite Fe CFG_FILE [byte_of default_config] 0 true).
    assert (Hp1 : pin_inv admin_pin 3 pe ke F1) by (eapply pin_inv_ext; [|exact Hpe]; apply fwrite_other; discriminate).
    assert (Hc1 : fdata F1 CFG_FILE = Some [byte_of default_config]) by apply fdata_fwrite_trunc.
    assert (Hi1 : img (default_pin :: pins) (default_config :: cfgs) F1) by (exists pe, ke, default_config; split; [split; assumption|]; split; [right; exact Hpde|]; split; [exact Hc1|left; reflexivity]).
    apply wp_bind, wp_ret. cbn [negb]. apply wp_bind. apply (wp_pin_create admin_pin 3 pe ke); [exact Hp1|discriminate|].
    intros X3 F3 L3 r3 _ Ho3 Hi3 HL3 Hr3. apply wp_ret.
    assert (HG : forall G pd' k', (forall q, q <> "admin-pin" -> G q = F1 q) -> (pd' = pe \/ pd' = default_pin) -> pin_inv admin_pin 3 pd' k' G -> img (default_pin :: pins) (default_config :: cfgs) G).
    { intros G pd' k' HG1 HG2 HG3. exists pd', k', default_config. split; [split; [exact HG3|destruct HG2 as [-> | ->]; [exact Hpe6|split; discriminate]]|]. split; [destruct HG2 as [-> | ->]; [right; exact Hpde|left; reflexivity]|].
      split; [rewrite <- Hc1; apply fdata_ext, HG1; discriminate|left; reflexivity]. }
    assert (Him : images (mkE F3 L3 X3 Re Te Oe) (img (default_pin :: pins) (default_config :: cfgs))).
    { destruct Hi3 as (d3 & k3 & Hd3 & Hi3). split; [apply (HG F3 d3 k3); assumption|]. apply Forall_forall. intros G HGL. destruct (HL3 G HGL) as [HGin|(HGo & d4 & k4 & Hd4 & Hi4)].
      - destruct HGin as [<-|HGin]; [exact Hi1|]. eapply Forall_forall in HLe'; eauto.
      - apply (HG G d4 k4); assumption. }
    destruct Hr3 as [[-> Hr3]|[-> Hr3]]; cbn [Z.ltb Z.compare negb PIN_IO_FAIL].
    { apply wp_ret, wp_ret. unfold post. cbn [next_pins next_cfgs next_auth rsp sw_of r_sw]. rewrite Ei. cbn [Z.eqb Pos.eqb andb orb SW_NO_ERROR].
      split; [exact Him|]. intros _. split; [|split; [left; reflexivity|discriminate]].
      exists default_pin, 3, default_config. split; [split; [exact Hr3|split; discriminate]|]. split; [left; reflexivity|]. split; [rewrite <- Hc1; apply fdata_ext, Ho3; discriminate|left; reflexivity]. }
    apply wp_fail, Hfail; [exact Him|reflexivity|left; reflexivity]. }
  apply wp_bind. eapply (wp_pin_retries admin_pin 3 pd k); [exact Hp|..]; intros; apply Hrest.
Qed.

Lemma body_post nfc c pins au cfgs a x F X0 R T :
  img pins cfgs F -> In (cfg_of a) cfgs -> (a_ok a = true -> au = true) ->
  wp (admin_body ext inst ro usage nfc c) (post c pins au cfgs) (a, x) (mkE F [F] X0 R T []).
Proof.
  intros Hi Hc Ha. unfold admin_body.
  assert (Hn : forall o x' e', c_ins c <> 0x20 -> c_ins c <> 0x21 -> c_ins c <> 0x40 -> c_ins c <> 0x50 -> images e' (agree F) -> post c pins au cfgs o (a, x') e').
  { intros o x' e' H1 H2 H3 H4 He. apply (post_nothing _ _ _ _ _ _ _ F); try assumption; [contradiction|lia]. }
  destruct (Z.eqb_spec (c_ins c) 0xA4) as [E|N1]. { apply wp_bind, wp_guard; intros _; [apply wp_ret|]; apply Hn; try lia; apply images_start. }
  destruct (Z.eqb_spec (c_ins c) 0x31) as [E|N2]. { apply wp_bind, wp_guard; intros _; [apply wp_ret|]; apply Hn; try lia; apply images_start. }
  destruct (Z.eqb_spec (c_ins c) 0x32) as [E|N3].
  { apply wp_bind, wp_guard; intros _; [|apply Hn; try lia; apply images_start]. destruct (c_p1 c =? 0); [|apply wp_ret, Hn; try lia; apply images_start].
    unfold admin_read_sn. do 2 (apply wp_bind, wp_guard; intros _; [|apply Hn; try lia; apply images_start]).
    apply wp_bind. unfold fill_sn. apply wp_bind, wp_read_file. intros X1 r1 _ _. apply wp_ret, wp_bind, wp_set_out, wp_ret, Hn; try lia. apply images_start. }
  destruct (Z.eqb_spec (c_ins c) 0x14) as [E|N4]. { apply wp_ret, Hn; try lia; apply images_start. }
  destruct (Z.eqb_spec (c_ins c) 0x50) as [E|N5]; [apply reset_post; assumption|].
  destruct (Z.eqb_spec (c_ins c) 0x20) as [E|N6]; [apply verify_post; assumption|].
  apply wp_bind, wp_get. cbn [fst]. apply wp_bind, wp_guard; intros Hok.
  2: { apply (post_nothing _ _ _ _ _ _ _ F); try assumption; [apply images_start|contradiction|]. intros _; left; split; discriminate. }
  destruct ((c_ins c =? 0x01) || (c_ins c =? 0x02) || (c_ins c =? 0x08) || (c_ins c =? 0x11) || (c_ins c =? 0x12) || (c_ins c =? 0x43) || (c_ins c =? 0x44)) eqn:Ee.
  { apply (wp_zoom _ _ a x F); [intros; apply ext_ok; assumption|apply images_start|]. intros o x' e' He. apply Hn; try lia. exact He. }
  destruct ((c_ins c =? 0x03) || (c_ins c =? 0x04) || (c_ins c =? 0x05) || (c_ins c =? 0x07) || (c_ins c =? 0x13) || (c_ins c =? 0x09)) eqn:Ei.
  { apply wp_bind. unfold must. apply wp_bind. apply (wp_zoom _ _ a x F); [intros; apply inst_ok; assumption|apply images_start|]. intros o x' e' He.
    destruct o as [[]|w| |]; [apply wp_ret, wp_ret|apply wp_fail|..]; apply Hn; try lia; exact He. }
  destruct (Z.eqb_spec (c_ins c) 0x21) as [E|N7]; [apply change_post; assumption|].
  destruct (Z.eqb_spec (c_ins c) 0x30) as [E|N8]; [apply sn_post; assumption|].
  destruct (Z.eqb_spec (c_ins c) 0x40) as [E|N9]; [apply config_post; assumption|].
  destruct (Z.eqb_spec (c_ins c) 0x41) as [E|N10].
  { unfold admin_flash_usage. do 2 (apply wp_bind, wp_guard; intros _; [|apply Hn; try lia; apply images_start]). apply wp_bind, wp_set_out, wp_ret, Hn; try lia; apply images_start. }
  destruct (Z.eqb_spec (c_ins c) 0x42) as [E|N11].
  { unfold admin_read_config. do 2 (apply wp_bind, wp_guard; intros _; [|apply Hn; try lia; apply images_start]). apply wp_bind, wp_get, wp_bind, wp_set_out, wp_ret, Hn; try lia; apply images_start. }
  destruct (c_ins c =? 0xFF); [apply wp_ret|apply wp_except]; apply Hn; try lia; apply images_start.
Qed.

(** *** Histories *)
Definition inv (d : dev) (pins : list bytes) (au : bool) (cfgs : list config) : Prop :=
  img pins cfgs (d_fs d) /\ In (cfg_of (d_ram d)) cfgs /\ (a_ok (d_ram d) = true -> au = true).

Lemma boot_inv x F pins cfgs au : img pins cfgs F -> inv (boot x F) pins au cfgs /\ a_ok (d_ram (boot x F)) = false /\ d_fs (boot x F) = F.
Proof.
  intros Hi. pose proof Hi as (pd & k & t & Hp & Hpd & Hcf & Ht). pose proof (fdata_some _ _ _ Hcf) as HF. destruct Hp as ((Hd & Hp) & Hp6). pose proof (fdata_some _ _ _ Hd) as HF2.
  unfold boot, admin_install, pin_get_size, bind, upd_a, modify, ret, get_file_size, read_file, pop_fault, start. cbn [e_flt e_fs fst snd].
  unfold fdata in Hcf. destruct (F CFG_FILE) as [f|] eqn:E1; [|discriminate]. injection Hcf as Hcf. rewrite Hcf. cbn [zlen length Z.of_nat Z.eqb Pos.eqb Pos.of_succ_nat negb e_flt e_fs].
  change (zlen [byte_of t] =? 1) with true. cbn [negb e_flt e_fs]. rewrite E1, Hcf. change (0 <? 0) with false. cbv iota.
  change (slice 0 1 [byte_of t]) with [byte_of t]. cbn [nth fst snd negb e_flt e_fs].
  destruct (F (pin_path admin_pin)) as [f2|]; [|contradiction]. cbn [negb e_fs fst snd]. split; [|split; reflexivity].
  split; [exact Hi|]. cbn [d_ram]. split; [rewrite set_cfg_byte; exact Ht|discriminate].
Qed.
Lemma boot0_inv x : inv (boot x fs_empty) [default_pin] false [default_config].
Proof.
  split; [|split; [left; reflexivity|discriminate]]. exists default_pin, 3, default_config.
  split; [|split; [left; reflexivity|split; [reflexivity|left; reflexivity]]]. vm_compute. repeat split; discriminate.
Qed.

Lemma run_post c nfc flt tch d pins au cfgs : inv d pins au cfgs ->
  match run ext inst ro usage c nfc flt tch d with
  | (o, s, e) => images e (img (@next_pins X pins (Cut c nfc flt tch 0, None)) (@next_cfgs X cfgs (Cut c nfc flt tch 0, None))) /\
      (forall r, o = Some r -> inv (mkAd (fst s) (snd s) (e_fs e)) (@next_pins X pins (Do c nfc flt tch, o)) (@next_auth X pins au (Do c nfc flt tch, o)) (@next_cfgs X cfgs (Do c nfc flt tch, o)))
  end.
Proof.
  intros (Hi & Hc & Ha). unfold run, run_apdu. cbn [e_fs e_log e_flt e_rnd e_tch start].
  pose proof (body_post nfc c pins au cfgs (d_ram d) (d_x d) (d_fs d) flt [] tch Hi Hc Ha) as H. unfold wp in H.
  destruct (admin_body ext inst ro usage nfc c _ _) as [[o s] e]. destruct H as [H1 H2].
  assert (Hr : forall w, (o = Ret w \/ o = Exc w \/ o = Fail /\ w = 0x6900) ->
     inv (mkAd (fst s) (snd s) (e_fs e)) (@next_pins X pins (Do c nfc flt tch, Some (mkR (e_out e) w))) (@next_auth X pins au (Do c nfc flt tch, Some (mkR (e_out e) w))) (@next_cfgs X cfgs (Do c nfc flt tch, Some (mkR (e_out e) w)))).
  { intros w Hw. destruct H2 as (H2 & H3 & H4); [intros ->; destruct Hw as [Hw|[Hw|[Hw _]]]; discriminate Hw|].
    destruct Hw as [-> |[-> |[-> ->]]]; (split; [exact H2|]); (split; [exact H3|exact H4]). }
  destruct o as [w|w| |]; (split; [exact H1|]); intros r E; try discriminate E; apply Hr; auto.
Qed.
Lemma step_inv d ev o d' pins au cfgs : inv d pins au cfgs -> ev_ok d ev -> step ext inst ro usage d ev = Some (o, d') ->
  inv d' (next_pins pins (ev, o)) (next_auth pins au (ev, o)) (next_cfgs cfgs (ev, o)).
Proof.
  intros Hi He Hs. destruct ev as [c nfc flt tch|c nfc flt tch n| |x F]; cbn [step ev_ok] in *.
  - pose proof (run_post c nfc flt tch d pins au cfgs Hi) as H. destruct (run _ _ _ _ c nfc flt tch d) as [[[r|] s] e]; [|discriminate]. injection Hs as <- <-.
    apply (proj2 H r eq_refl).
  - pose proof (run_post c nfc flt tch d pins au cfgs Hi) as H. destruct (run _ _ _ _ c nfc flt tch d) as [[r s] e]. injection Hs as <- <-.
    destruct H as [H _]. cbn [next_pins next_cfgs next_auth]. apply boot_inv. exact (images_nth _ _ n H).
  - injection Hs as <- <-. destruct Hi as (H1 & H2 & H3). split; [exact H1|]. split; [exact H2|discriminate].
  - injection Hs as <- <-. destruct Hi as (H1 & H2 & H3). split; [eapply img_agree; eauto|]. split; [exact H2|exact H3].
Qed.
Lemma hist_inv d tr d' : hist ext inst ro usage d tr d' -> forall pins au cfgs, inv d pins au cfgs ->
  inv d' (fst (fold_left pins_auth tr (pins, au))) (snd (fold_left pins_auth tr (pins, au))) (fold_left next_cfgs tr cfgs).
Proof.
  intros H. induction H as [d|d ev o d1 tr d2 He Hs H IH]; intros pins au cfgs Hi; [exact Hi|].
  cbn [fold_left]. apply IH. apply (step_inv d ev o d1); assumption.
Qed.
Lemma reach_inv tr d : reach ext inst ro usage tr d -> inv d (pins_of tr) (authorised tr) (cfgs_of tr).
Proof. intros (x & H). apply (hist_inv _ _ _ H). apply boot0_inv. Qed.

(** ** C23 *)
Definition public (i : Z) : bool := existsb (Z.eqb i) [0xA4; 0x31; 0x32; 0x14; 0x50; 0x20].
(** Any command outside the public ones is refused, and changes nothing, unless the history authorised the session. *)
Theorem C23_refused_without_pin : forall tr d c nfc flt tch, reach ext inst ro usage tr d ->
  authorised tr = false -> public (c_ins c) = false ->
  step ext inst ro usage d (Do c nfc flt tch) = Some (Some (mkR [] 0x6982), d) /\
  forall n, exists x, step ext inst ro usage d (Cut c nfc flt tch n) = Some (None, boot x (d_fs d)).
Proof.
  intros tr d c nfc flt tch Hr Ha Hp. destruct (reach_inv tr d Hr) as (_ & _ & Hok).
  assert (a_ok (d_ram d) = false) as Hf by (destruct (a_ok (d_ram d)); [rewrite (Hok eq_refl) in Ha; discriminate|reflexivity]).
  assert (run ext inst ro usage c nfc flt tch d = (Some (mkR [] 0x6982), (d_ram d, d_x d), mkE (d_fs d) [d_fs d] flt [] tch [])) as E.
  { unfold run, run_apdu, admin_body. unfold public in Hp. cbn [existsb] in Hp. repeat (apply orb_false_iff in Hp as [? Hp]).
    repeat match goal with H : (c_ins c =? _) = false |- _ => rewrite H; clear H end. unfold bind, get, guard, except. cbn [fst]. rewrite Hf. reflexivity. }
  split; [cbn [step]; rewrite E; destruct d; reflexivity|]. intros n. exists (d_x d). cbn [step]. rewrite E. cbn [snd e_log e_fs]. destruct n as [|[|n]]; reflexivity.
Qed.
(** The public commands other than VERIFY and FACTORY RESET change nothing, whatever happens. *)
Theorem C23_public_harmless : forall d c nfc flt tch o d', In (c_ins c) [0xA4; 0x31; 0x32; 0x14] ->
  step ext inst ro usage d (Do c nfc flt tch) = Some (o, d') -> d' = d.
Proof.
  intros d c nfc flt tch o d' Hi. cbn [step]. unfold run, run_apdu. cbn [e_fs e_log e_flt e_rnd e_tch start].
  assert (wp (admin_body ext inst ro usage nfc c) (fun _ s e => s = (d_ram d, d_x d) /\ e_fs e = d_fs d) (d_ram d, d_x d) (mkE (d_fs d) [d_fs d] flt [] tch [])) as H.
  { unfold admin_body. destruct Hi as [E|[E|[E|[E|[]]]]]; rewrite <- E; cbn [Z.eqb Pos.eqb].
    - apply wp_bind, wp_guard; intros _; auto. apply wp_ret; auto.
    - apply wp_bind, wp_guard; intros _; auto. apply wp_ret; auto.
    - apply wp_bind, wp_guard; intros _; auto. destruct (c_p1 c =? 0); [|apply wp_ret; auto]. unfold admin_read_sn.
      apply wp_bind, wp_guard; intros _; auto. apply wp_bind, wp_guard; intros _; auto. apply wp_bind. unfold fill_sn.
      apply wp_bind, wp_read_file. intros X1 r1 _ _. apply wp_ret, wp_bind, wp_set_out, wp_ret; auto.
    - apply wp_ret; auto. }
  unfold wp in H. destruct (admin_body _ _ _ _ nfc c _ _) as [[[w|w| |] s] e]; try discriminate; destruct H as [-> H]; intros E; injection E as <- <-; cbn [fst snd]; rewrite H; destruct d; reflexivity.
Qed.
(** VERIFY changes nothing but the retry counter and the session. *)
Theorem C23_verify_harmless : forall tr d c nfc flt tch r d', reach ext inst ro usage tr d -> c_ins c = 0x20 ->
  step ext inst ro usage d (Do c nfc flt tch) = Some (Some r, d') ->
  d_x d' = d_x d /\ cfg_of (d_ram d') = cfg_of (d_ram d) /\ fdata (d_fs d') "admin-pin" = fdata (d_fs d) "admin-pin" /\
  forall q, q <> "admin-pin" -> d_fs d' q = d_fs d q.
Proof.
  intros tr d c nfc flt tch r d' Hr Ei. destruct (reach_inv tr d Hr) as ((pd & k & t & (Hp & Hp6) & _) & _ & _). cbn [step]. unfold run, run_apdu. cbn [e_fs e_log e_flt e_rnd e_tch start].
  set (Q := fun (_ : out Z) (s : @St X) e => snd s = d_x d /\ cfg_of (fst s) = cfg_of (d_ram d) /\ fdata (e_fs e) "admin-pin" = fdata (d_fs d) "admin-pin" /\ forall q, q <> "admin-pin" -> e_fs e q = d_fs d q).
  assert (wp (admin_body ext inst ro usage nfc c) Q (d_ram d, d_x d) (mkE (d_fs d) [d_fs d] flt [] tch [])) as H.
  { unfold admin_body. rewrite Ei. cbn [Z.eqb Pos.eqb]. unfold admin_verify. assert (Hq : forall o v X1, Q o (setv v (d_ram d, d_x d)) (mkE (d_fs d) [d_fs d] X1 [] tch [])) by (intros; repeat split; auto).
    assert (Hq0 : forall o X1, Q o (d_ram d, d_x d) (mkE (d_fs d) [d_fs d] X1 [] tch [])) by (intros; repeat split; auto).
    apply wp_bind, wp_guard; intros _; [|apply Hq0]. destruct (c_lc c =? 0).
    - apply wp_bind, wp_get. cbn [fst]. destruct (a_ok (d_ram d)); [apply wp_ret, Hq0|].
      apply wp_bind. eapply (wp_pin_retries admin_pin 3 pd k); [exact Hp|..];
      intros; repeat first [apply wp_ret|apply wp_fail|apply wp_except|match goal with |- context[if ?b then _ else _] => destruct b end]; apply Hq0.
    - assert (Hlen : u8 (c_lc c) <= zlen (c_data c)) by (unfold u8, c_lc; apply Z.mod_le; [pose proof (zlen_nonneg (c_data c)); lia|lia]).
      apply wp_bind. eapply (wp_pin_verify admin_pin setv setv2 ltac:(discriminate) ltac:(discriminate) 3 pd k); [exact Hlen|lia|exact Hp|..].
      + intros _. cbn. apply (Hq (Exc SW_WRONG_LENGTH)).
      + intros _. split; [intros; cbn; apply (Hq Fail)|]. intros X1 _.
        assert (Hq2 : forall o v w L, let F' := fsetattr (d_fs d) (pin_path admin_pin) RETRY_ATTR [w] in Q o (setv v (d_ram d, d_x d)) (mkE F' L X1 [] tch [])).
        { intros o v w L F'. split; [reflexivity|]. split; [reflexivity|]. split; [apply fdata_fsetattr|]. intros q Hq1. apply fsetattr_other, Hq1. }
        split; [intros _; cbn; apply (Hq (Exc SW_AUTHENTICATION_BLOCKED))|]. split; intros _ _ F' _.
        * cbn [PIN_AUTH_FAIL PIN_IO_FAIL PIN_LENGTH_INVALID Z.eqb Pos.eqb]. apply wp_bind, (wp_need _ _ _ _ (k - 1)); [reflexivity|]. destruct (k - 1 =? 0); apply wp_except, Hq2.
        * cbn [PIN_AUTH_FAIL PIN_IO_FAIL PIN_LENGTH_INVALID Z.eqb Pos.eqb]. apply wp_bind, (wp_need _ _ _ _ k); [reflexivity|]. destruct (k =? 0); [apply wp_except|apply wp_ret]; apply Hq2. }
  unfold wp in H. destruct (admin_body _ _ _ _ nfc c _ _) as [[[w|w| |] s] e]; try discriminate; intros E; injection E as <- <-; exact H.
Qed.
(** A VERIFY without storage error answers 9000 exactly if the PIN is right and tries remain (the counter is what VERIFY
    without data reports), and then administration is open: a configuration command succeeds. *)
Definition tries (d : dev) : option Z := match fattr (d_fs d) "admin-pin" 0 with Some (k :: _) => Some k | _ => None end.
Theorem C23_verify_authorises : forall tr d c nfc tch p, reach ext inst ro usage tr d -> pins_of tr = [p] ->
  c_ins c = 0x20 -> c_p1 c = 0 -> c_p2 c = 0 -> c_data c <> [] ->
  exists r d' k, step ext inst ro usage d (Do c nfc [] tch) = Some (Some r, d') /\ tries d = Some k /\ r_data r = [] /\
    (r_sw r = 0x9000 <-> submitted c = p /\ k <> 0) /\
    (r_sw r = 0x9000 -> tries d' = Some 3 /\ forall c2 nfc2 tch2, c_ins c2 = 0x40 -> In (c_p1 c2) [1; 4; 5] ->
       exists d'', step ext inst ro usage d' (Do c2 nfc2 [] tch2) = Some (Some (mkR [] 0x9000), d'')).
Proof.
  intros tr d c nfc tch p Hr Hp Ei E1 E2 Ed. destruct (reach_inv tr d Hr) as ((pd & k & t & (Hpi & Hp6) & Hin & Hcf & Ht) & _ & _).
  rewrite Hp in Hin. destruct Hin as [<-|[]]. cbn [step]. unfold run, run_apdu. cbn [e_fs e_log e_flt e_rnd e_tch start].
  set (Q := fun (o : out Z) (s : @St X) e => e_out e = [] /\ (o = Ret 0x9000 /\ submitted c = p /\ k <> 0 /\ a_ok (fst s) = true /\ pin_inv admin_pin 3 p 3 (e_fs e) /\ fdata (e_fs e) CFG_FILE = Some [byte_of t] \/
     exists w, o = Exc w /\ w <> 0x9000 /\ ~ (submitted c = p /\ k <> 0))).
  assert (wp (admin_body ext inst ro usage nfc c) Q (d_ram d, d_x d) (mkE (d_fs d) [d_fs d] [] [] tch [])) as H.
  { unfold admin_body. rewrite Ei. cbn [Z.eqb Pos.eqb]. unfold admin_verify. rewrite E1, E2. cbn [Z.eqb andb]. apply wp_bind, wp_ret. unfold c_lc.
    destruct (Z.eqb_spec (zlen (c_data c)) 0) as [E0|E0].
    { destruct (c_data c) as [|y l]; [congruence|rewrite zlen_cons in E0; pose proof (zlen_nonneg l); lia]. }
    assert (Hlen : u8 (zlen (c_data c)) <= zlen (c_data c)) by (unfold u8; apply Z.mod_le; [pose proof (zlen_nonneg (c_data c)); lia|lia]).
    assert (Hsub : slice 0 (u8 (zlen (c_data c))) (c_data c) = submitted c) by reflexivity.
    assert (Hk : 0 <= k <= 3) by apply Hpi.
    apply wp_bind. eapply (wp_pin_verify admin_pin setv setv2 ltac:(discriminate) ltac:(discriminate) 3 p k); [exact Hlen|lia|exact Hpi|..]; rewrite ?Hsub.
    - intros Hbad. cbn. split; [reflexivity|]. right. eexists. split; [reflexivity|]. split; [discriminate|]. intros [Es _].
      unfold admin_pin, PIN_MAX_LENGTH in Hbad; cbn [pin_min pin_max] in Hbad. apply Hbad. rewrite <- Es, <- Hsub, zlen_slice in Hp6; unfold u8 in *; pose proof (Z.mod_pos_bound (zlen (c_data c)) 256); lia.
    - intros _. split; [contradiction|]. intros X1 _. split; [|split].
      + intros Hk0. cbn. split; [reflexivity|]. right. eexists. split; [reflexivity|]. split; [discriminate|]. tauto.
      + intros Hk0 Hne F' Hi'. cbn [PIN_AUTH_FAIL PIN_IO_FAIL PIN_LENGTH_INVALID Z.eqb Pos.eqb]. apply wp_bind, (wp_need _ _ _ _ (k - 1)); [reflexivity|].
        destruct (k - 1 =? 0); apply wp_except; (split; [reflexivity|]); right; eexists; (split; [reflexivity|]); (split; [unfold SW_PIN_RETRIES, SW_AUTHENTICATION_BLOCKED; lia|tauto]).
      + intros Hk0 Heq F' Hi'. cbn [PIN_AUTH_FAIL PIN_IO_FAIL PIN_LENGTH_INVALID Z.eqb Pos.eqb]. apply wp_bind, (wp_need _ _ _ _ k); [reflexivity|].
        destruct (Z.eqb_spec k 0); [contradiction|]. apply wp_ret. split; [reflexivity|]. left. split; [reflexivity|]. split; [exact Heq|]. split; [exact Hk0|]. split; [reflexivity|]. split; [exact Hi'|].
        cbn [e_fs]. rewrite <- Hcf. apply fdata_fsetattr. }
  unfold wp in H. assert (Hk : tries d = Some k) by (unfold tries; destruct Hpi as (_ & _ & _ & E & _); change "admin-pin" with (pin_path admin_pin); change 0 with RETRY_ATTR; rewrite E; reflexivity).
  destruct (admin_body _ _ _ _ nfc c _ _) as [[o s] e]. destruct H as [Ho [(-> & Hs & Hk0 & Hok & Hpe & Hce)|(w & -> & Hw & Hn)]].
  - eexists _, _, k. split; [reflexivity|]. split; [exact Hk|]. split; [exact Ho|]. cbn [r_sw]. split; [tauto|]. intros _. split.
    + unfold tries. cbn [d_fs]. destruct Hpe as (_ & _ & _ & E & _). change "admin-pin" with (pin_path admin_pin); change 0 with RETRY_ATTR; rewrite E; reflexivity.
    + intros c2 nfc2 tch2 Ei2 Hp1. cbn [step]. unfold run, run_apdu, admin_body. cbn [d_ram d_x d_fs e_fs e_log e_flt e_rnd e_tch start]. rewrite Ei2. cbn [Z.eqb Pos.eqb orb].
      unfold bind at 1, get at 1. cbn [fst]. rewrite Hok. unfold bind at 1, guard at 1, ret at 1.
      unfold admin_config, bind, upd_a, modify, get, ret. pose proof (fdata_some _ _ _ Hce) as HF.
      destruct Hp1 as [<-|[<-|[<-|[]]]]; cbn [Z.eqb Pos.eqb]; rewrite run_write_file; eexists; reflexivity.
  - eexists _, _, k. split; [reflexivity|]. split; [exact Hk|]. split; [exact Ho|]. cbn [r_sw]. split; [tauto|]. intros; contradiction.
Qed.

(** ** C24 *)
(** Without storage errors FACTORY RESET does nothing unless the PIN is blocked, the request is the literal one, it did not come
    over NFC and the user confirmed. *)
Lemma wp_any {S A} (m : M S A) (Q : out A -> S -> env -> Prop) s e : (forall o s' e', Q o s' e') -> wp m Q s e.
Proof. intros H. unfold wp. destruct (m s e) as [[o s'] e']. apply H. Qed.
Theorem C24_reset_conditions_partial : forall tr d c nfc tch r d', reach ext inst ro usage tr d -> c_ins c = 0x50 ->
  step ext inst ro usage d (Do c nfc [] tch) = Some (Some r, d') ->
  d' = d /\ r_sw r <> 0x9000 \/
  c_p1 c = 0 /\ c_data c = [82; 69; 83; 69; 84] /\ tries d = Some 0 /\ nfc = false /\ hd 2 tch = 0.
Proof.
  intros tr d c nfc tch r d' Hr Ei. destruct (reach_inv tr d Hr) as ((pd & k & t & (Hpi & Hp6) & Hin & Hcf & Ht) & _ & _).
  cbn [step]. unfold run, run_apdu. cbn [e_fs e_log e_flt e_rnd e_tch start].
  set (Q := fun (o : out Z) (s : @St X) e => (s = (d_ram d, d_x d) /\ e_fs e = d_fs d /\ exists w, o = Exc w /\ w <> 0x9000) \/
    c_p1 c = 0 /\ c_data c = [82; 69; 83; 69; 84] /\ tries d = Some 0 /\ nfc = false /\ hd 2 tch = 0).
  assert (wp (admin_body ext inst ro usage nfc c) Q (d_ram d, d_x d) (mkE (d_fs d) [d_fs d] [] [] tch [])) as H.
  { unfold admin_body. rewrite Ei. cbn [Z.eqb Pos.eqb]. unfold admin_factory_reset.
    assert (Hq : forall w T1, w <> 0x9000 -> Q (Exc w) (d_ram d, d_x d) (mkE (d_fs d) [d_fs d] [] [] T1 [])) by (intros; left; repeat split; eauto).
    apply wp_bind, wp_guard; intros E1; [|apply Hq; discriminate]. apply wp_bind, wp_guard; intros E2; [|apply Hq; discriminate]. apply wp_bind, wp_guard; intros E3; [|apply Hq; discriminate].
    apply wp_bind. eapply (wp_pin_retries admin_pin 3 pd k); [exact Hpi|..].
    - contradiction.
    - intros X1 r1 -> _ HX. rewrite (HX eq_refl). apply wp_bind, wp_guard; intros E4; [|apply Hq; discriminate]. apply wp_bind, wp_guard; intros E5; [|apply Hq; discriminate].
      apply wp_bind, wp_wait_touch. apply wp_bind, wp_guard; intros E6; [|apply Hq; discriminate].
      assert (Hall : c_p1 c = 0 /\ c_data c = [82; 69; 83; 69; 84] /\ tries d = Some 0 /\ nfc = false /\ hd 2 tch = 0).
      { split; [lia|]. split; [apply beqb_eq in E3; exact E3|]. split; [|split; [destruct nfc; [discriminate|reflexivity]|unfold USER_PRESENCE_TIMEOUT, USER_PRESENCE_OK in E6; lia]].
        unfold tries. destruct Hpi as (_ & _ & Hk & E & _). change "admin-pin" with (pin_path admin_pin). change 0 with RETRY_ATTR at 1. rewrite E. f_equal. lia. }
      apply wp_any. intros. right. exact Hall.
    - intros X1 ->. change (zlen (@nil Z)) with 0 in Hp6. lia.
    - contradiction. }
  unfold wp in H. destruct (admin_body _ _ _ _ nfc c _ _) as [[[w|w| |] s] e]; try discriminate; intros E; injection E as <- <-;
    (destruct H as [(-> & H & w' & Ho & Hw)|H]; [|right; exact H]); try discriminate Ho. left. injection Ho as ->. cbn [fst snd r_sw]. rewrite H. destruct d; auto.
Qed.

(** ** C26 *)
(** READ CONFIG reports a configuration that the history leaves possible (exactly one, if no configuration command or reset was
    disturbed), whatever else happened in between, including power losses at any point. *)
Theorem C26_config_as_commanded : forall tr d c nfc flt tch r d', reach ext inst ro usage tr d -> c_ins c = 0x42 ->
  step ext inst ro usage d (Do c nfc flt tch) = Some (Some r, d') -> r_sw r = 0x9000 ->
  exists l n w, In (l, n, w) (cfgs_of tr) /\ r_data r = [Z.b2z l; 0; ro (d_x d); Z.b2z n; Z.b2z w; 0].
Proof.
  intros tr d c nfc flt tch r d' Hr Ei. destruct (reach_inv tr d Hr) as (_ & Hin & _). cbn [step]. unfold run, run_apdu, admin_body. cbn [e_fs e_log e_flt e_rnd e_tch start].
  rewrite Ei. cbn [Z.eqb Pos.eqb orb]. unfold bind at 1, get at 1. cbn [fst]. unfold bind at 1. destruct (a_ok (d_ram d)); cbn [guard ret except].
  2: { intros E. injection E as <- <-. discriminate. }
  unfold admin_read_config, bind, guard, ret, except, get, set_out.
  destruct ((c_p1 c =? 0) && (c_p2 c =? 0)); [|intros E; injection E as <- <-; discriminate].
  destruct (negb (c_le c <? 5)); [|intros E; injection E as <- <-; discriminate].
  intros E; injection E as <- <-. intros _. eexists _, _, _. split; [exact Hin|reflexivity].
Qed.
(** After a successful configuration command the switch has the requested value and the others are as before. *)
Theorem C26_one_candidate : forall tr d c nfc flt tch r d' x, reach ext inst ro usage tr d -> c_ins c = 0x40 ->
  step ext inst ro usage d (Do c nfc flt tch) = Some (Some r, d') -> r_sw r = 0x9000 -> cfgs_of tr = [x] ->
  cfgs_of (tr ++ [(@Do X c nfc flt tch, Some r)]) = [set_switch (c_p1 c) (Z.odd (c_p2 c)) x] /\ In (c_p1 c) [1; 4; 5] /\
  reach ext inst ro usage (tr ++ [(Do c nfc flt tch, Some r)]) d'.
Proof.
  intros tr d c nfc flt tch r d' x Hr Ei Hs Hw Hx. unfold cfgs_of in *. rewrite fold_left_app, Hx. cbn [fold_left next_cfgs]. rewrite Ei, Hw. cbn [Z.eqb Pos.eqb map].
  split; [reflexivity|]. split.
  - revert Hs Hw. cbn [step]. unfold run, run_apdu, admin_body. cbn [e_fs e_log e_flt e_rnd e_tch start].
    rewrite Ei. cbn [Z.eqb Pos.eqb orb]. unfold bind at 1, get at 1. cbn [fst]. unfold bind at 1. destruct (a_ok (d_ram d)); cbn [guard ret except].
    2: { intros E. injection E as <- <-. discriminate. }
    unfold admin_config. destruct (Z.eqb_spec (c_p1 c) 1) as [->|]; [cbn; auto|]. destruct (Z.eqb_spec (c_p1 c) 4) as [->|]; [cbn; auto|]. destruct (Z.eqb_spec (c_p1 c) 5) as [->|]; [cbn; auto|].
    cbn. intros E; injection E as <- <-. discriminate.
  - destruct Hr as (y & Hh). exists y. clear Hx. induction Hh as [d|d ev o d1 tr d2 He Hs1 H IH].
    + econstructor; [exact I|exact Hs|constructor].
    + cbn [app]. econstructor; [exact He|exact Hs1|]. apply IH, Hs.
Qed.

(** ** C11 *)
(** Data fields of up to 255 bytes are compared and stored as a whole. *)
Theorem C11_whole_pin_partial : forall tr d c nfc flt tch r d', reach ext inst ro usage tr d -> zlen (c_data c) <= 255 ->
  step ext inst ro usage d (Do c nfc flt tch) = Some (Some r, d') -> r_sw r = 0x9000 ->
  (c_ins c = 0x20 -> c_data c <> [] -> In (c_data c) (pins_of tr) /\ 6 <= zlen (c_data c) <= 64) /\
  (c_ins c = 0x21 -> 6 <= zlen (c_data c) <= 64 /\ pins_of (tr ++ [(@Do X c nfc flt tch, Some r)]) = [c_data c] /\ fdata (d_fs d') "admin-pin" = Some (c_data c)).
Proof.
  intros tr d c nfc flt tch r d' Hr Hz Hs Hw. pose proof (reach_inv tr d Hr) as Hi.
  assert (Hsub : submitted c = c_data c).
  { unfold submitted. pose proof (zlen_nonneg (c_data c)). rewrite Z.mod_small by lia. unfold zlen. rewrite Nat2Z.id. apply firstn_all. }
  pose proof Hi as ((pd & k & t & (Hpi & Hp6) & Hin & Hcf & Ht) & _ & _). split; intros Ei.
  - intros Hne. assert (H6 : submitted c = pd).
    { revert Hs Hw. cbn [step]. unfold run, run_apdu. cbn [e_fs e_log e_flt e_rnd e_tch start].
      assert (wp (admin_body ext inst ro usage nfc c) (fun o s e => o = Ret 0x9000 \/ o = Exc 0x9000 -> submitted c = pd) (d_ram d, d_x d) (mkE (d_fs d) [d_fs d] flt [] tch [])) as H.
      { unfold admin_body. rewrite Ei. cbn [Z.eqb Pos.eqb]. unfold admin_verify. apply wp_bind, wp_guard; intros _; [|intros [E|E]; discriminate E]. unfold c_lc.
        destruct (Z.eqb_spec (zlen (c_data c)) 0) as [E0|E0].
        { destruct (c_data c) as [|y l]; [congruence|rewrite zlen_cons in E0; pose proof (zlen_nonneg l); lia]. }
        assert (Hlen : u8 (zlen (c_data c)) <= zlen (c_data c)) by (unfold u8; apply Z.mod_le; [pose proof (zlen_nonneg (c_data c)); lia|lia]).
        assert (Hk : 0 <= k <= 3) by apply Hpi.
        apply wp_bind. eapply (wp_pin_verify admin_pin setv setv2 ltac:(discriminate) ltac:(discriminate) 3 pd k); [exact Hlen|lia|exact Hpi|..].
        - intros _. cbn. intros [E|E]; discriminate E.
        - intros _. split; [intros; cbn; intros [E|E]; discriminate E|]. intros X1 _. split; [intros _; cbn; intros [E|E]; discriminate E|]. split.
          + intros Hk0 _ F' _. cbn [PIN_AUTH_FAIL PIN_IO_FAIL PIN_LENGTH_INVALID Z.eqb Pos.eqb]. apply wp_bind, (wp_need _ _ _ _ (k - 1)); [reflexivity|].
            destruct (k - 1 =? 0); apply wp_except; intros [E|E]; try discriminate E. assert (E' : SW_PIN_RETRIES + (k - 1) = 0x9000) by congruence. unfold SW_PIN_RETRIES in E'. lia.
          + intros Hk0 Heq F' _. cbn [PIN_AUTH_FAIL PIN_IO_FAIL PIN_LENGTH_INVALID Z.eqb Pos.eqb]. apply wp_bind, (wp_need _ _ _ _ k); [reflexivity|].
            destruct (k =? 0); [apply wp_except|apply wp_ret]; intros _; exact Heq. }
      unfold wp in H. destruct (admin_body _ _ _ _ nfc c _ _) as [[[w|w| |] s] e]; try discriminate; intros E; injection E as <- <-; cbn [r_sw]; intros E9; first [discriminate E9 | rewrite E9 in H; auto]. }
    rewrite Hsub in H6. subst pd. split; assumption.
  - pose proof (step_inv d (Do c nfc flt tch) (Some r) d' _ _ _ Hi I Hs) as ((pd' & k' & t' & (Hpi' & Hp6') & Hin' & _) & _ & _).
    cbn [next_pins] in Hin'. rewrite Ei, Hw in Hin'. cbn [Z.eqb Pos.eqb] in Hin'. destruct Hin' as [<-|[]]. rewrite Hsub in *.
    split; [exact Hp6'|]. split; [|apply Hpi'].
    unfold pins_of. rewrite fold_left_app. cbn [fold_left pins_auth next_pins fst]. rewrite Ei, Hw. cbn [Z.eqb Pos.eqb]. rewrite Hsub. reflexivity.
Qed.

(** ** C25 *)
Lemma fr_zoom {A} P (m : M X A) : frame (fun _ => True) P m -> frame (fun _ : @St X => True) P (zoom m).
Proof.
  intros H s e Hg. specialize (H (snd s) e Hg). unfold wp, zoom in *. destruct (m (snd s) e) as [[o x'] e']. exact H.
Qed.
Definition sn_calm (ev : event) : Prop :=
  match ev with Do c _ flt _ | Cut c _ flt _ _ => c_ins c = 0x30 -> flt = [] | _ => True end.
Lemma run_sn c nfc flt tch d f : d_fs d "sn" = Some f -> (c_ins c = 0x30 -> flt = []) ->
  match run ext inst ro usage c nfc flt tch d with (_, s, e) => images e (fun G => G "sn" = Some f) end.
Proof.
  intros Hf Hc. destruct (Z.eq_dec (c_ins c) 0x30) as [Ei|Ni].
  - rewrite (Hc Ei). unfold run, run_apdu, admin_body. cbn [e_fs e_log e_flt e_rnd e_tch start]. rewrite Ei. cbn [Z.eqb Pos.eqb orb].
    assert (H0 : images (mkE (d_fs d) [d_fs d] [] [] tch []) (fun G => G "sn" = Some f)) by (split; [exact Hf|constructor; [exact Hf|constructor]]).
    unfold bind at 1, get at 1. cbn [fst]. unfold bind at 1. destruct (a_ok (d_ram d)); cbn [guard ret except]; [|exact H0].
    unfold admin_write_sn, bind, guard, ret, except. destruct ((c_p1 c =? 0) && (c_p2 c =? 0)); [|exact H0]. destruct (c_lc c =? 4); [|exact H0].
    rewrite run_get_file_size. unfold fsize, SN_FILE. rewrite Hf. exact H0.
  - assert (Hfr : frame (fun _ : @St X => True) (fun G => G "sn" = Some f) (admin_body ext inst ro usage nfc c)).
    { assert (I1 : indep (fun G => G "sn" = Some f) "admin-pin") by (intros G x0 HG; rewrite fset_other by discriminate; exact HG).
      assert (I2 : indep (fun G => G "sn" = Some f) CFG_FILE) by (intros G x0 HG; rewrite fset_other by discriminate; exact HG).
      assert (Hz : forall i, frame (fun _ : @St X => True) (fun G => G "sn" = Some f) (zoom (inst i))) by (intros i; apply fr_zoom, inst_ok; cbn; auto).
      assert (Hz' : forall i c, frame (fun _ : @St X => True) (fun G => G "sn" = Some f) (zoom (ext i c))) by (intros i c'; apply fr_zoom, ext_ok; cbn; auto).
      unfold admin_body. destruct (Z.eqb_spec (c_ins c) 0x30) as [E|_]; [contradiction|].
      unfold admin_read_sn, fill_sn, admin_factory_reset, admin_install, admin_verify, admin_change_pin, admin_config, admin_flash_usage, admin_read_config, must,
        pin_verify, pin_verify_gen, pin_update, pin_create, pin_get_retries, pin_get_attr, pin_get_size, upd_a. cbn [pin_path admin_pin].
      repeat first [apply Hz|apply Hz'|frame1]. }
    pose proof (frame_apdu (fun _ => True) (fun G => G "sn" = Some f) _ (d_ram d, d_x d) (d_fs d) flt [] tch Hfr I Hf) as H. unfold run.
    destruct (run_apdu _ _ _) as [[o s] e]. destruct H as (_ & H1 & H2). split; assumption.
Qed.
Lemma boot_sn (x : X) F f : F "sn" = Some f -> d_fs (boot x F) "sn" = Some f.
Proof.
  intros Hf. unfold boot. assert (Hfr : frame (fun _ : @St X => True) (fun G => G "sn" = Some f) (admin_install false)).
  { assert (I1 : indep (fun G => G "sn" = Some f) "admin-pin") by (intros G x0 HG; rewrite fset_other by discriminate; exact HG).
    assert (I2 : indep (fun G => G "sn" = Some f) CFG_FILE) by (intros G x0 HG; rewrite fset_other by discriminate; exact HG).
    unfold admin_install, pin_create, pin_get_size, upd_a. cbn [pin_path admin_pin]. repeat frame1. }
  pose proof (frame_run (fun _ => True) (fun G => G "sn" = Some f) _ (admin_boot, x) F [] [] [] Hfr I Hf) as H.
  destruct (admin_install false _ _) as [[o s] e]. apply H.
Qed.
Lemma hist_sn d tr d' : hist ext inst ro usage d tr d' -> forall f, d_fs d "sn" = Some f -> Forall (fun x => sn_calm (fst x)) tr -> d_fs d' "sn" = Some f.
Proof.
  intros H. induction H as [d|d ev o d1 tr d2 He Hs H IH]; intros f Hf Ht; [exact Hf|]. apply Forall_cons_iff in Ht as [Hc Ht]. apply IH; [|exact Ht]. clear IH H.
  destruct ev as [c nfc flt tch|c nfc flt tch n| |x F]; cbn [step ev_ok sn_calm fst] in *.
  - pose proof (run_sn c nfc flt tch d f Hf Hc) as H. destruct (run _ _ _ _ c nfc flt tch d) as [[[r|] s] e]; [|discriminate]. injection Hs as <- <-. apply H.
  - pose proof (run_sn c nfc flt tch d f Hf Hc) as H. destruct (run _ _ _ _ c nfc flt tch d) as [[r s] e]. injection Hs as <- <-. apply boot_sn. exact (images_nth _ _ n H).
  - injection Hs as <- <-. exact Hf.
  - injection Hs as <- <-. cbn [d_fs]. rewrite He by (cbn; auto). exact Hf.
Qed.
Definition read_sn : capdu := mkC 0 0x32 0 0 [] 4.
(** A serial number written successfully is what READ SN returns after any further history (power losses at any point, storage errors
    anywhere except in further WRITE SN commands). *)
Theorem C25_written_once_partial : forall d c nfc flt tch o d1 tr d2,
  c_ins c = 0x30 -> step ext inst ro usage d (Do c nfc flt tch) = Some (Some (mkR o 0x9000), d1) ->
  hist ext inst ro usage d1 tr d2 -> Forall (fun x => sn_calm (fst x)) tr ->
  step ext inst ro usage d2 (Do read_sn false [] []) = Some (Some (mkR (c_data c) 0x9000), d2).
Proof.
  intros d c nfc flt tch o d1 tr d2 Ei Hs Hh Ht.
  assert (exists f, d_fs d1 "sn" = Some f /\ f_data f = c_data c /\ zlen (c_data c) = 4) as (f & Hf & Hd & Hz).
  { revert Hs. cbn [step]. unfold run, run_apdu. cbn [e_fs e_log e_flt e_rnd e_tch start].
    assert (wp (admin_body ext inst ro usage nfc c) (fun o s e => (o = Ret 0x9000 \/ o = Exc 0x9000) -> fdata (e_fs e) "sn" = Some (c_data c) /\ zlen (c_data c) = 4) (d_ram d, d_x d) (mkE (d_fs d) [d_fs d] flt [] tch [])) as H.
    { unfold admin_body. rewrite Ei. cbn [Z.eqb Pos.eqb orb]. apply wp_bind, wp_get, wp_bind, wp_guard; intros _; [|intros [E|E]; discriminate E]. unfold admin_write_sn.
      apply wp_bind, wp_guard; intros _; [|intros [E|E]; discriminate E]. apply wp_bind, wp_guard; intros El; [|intros [E|E]; discriminate E].
      apply wp_bind, wp_get_file_size. intros X1 r1 _ _. apply wp_bind, wp_guard; intros _; [|intros [E|E]; discriminate E].
      apply wp_bind, wp_write_file; [|intros _ X2; apply wp_fail; intros [E|E]; discriminate E|intros _ X2; apply wp_fail; intros [E|E]; discriminate E].
      intros X2 _. apply wp_ret. intros _. split; [apply fdata_fwrite_trunc|unfold c_lc in El; lia]. }
    unfold wp in H. destruct (admin_body _ _ _ _ nfc c _ _) as [[[w|w| |] s] e]; try discriminate; intros E; injection E as ? -> <-; try discriminate;
      (destruct H as [H Hz]; [auto|]); cbn [d_fs]; unfold fdata in H; destruct (e_fs e "sn") as [f|]; try discriminate; exists f; (split; [reflexivity|]); (split; [congruence|exact Hz]). }
  pose proof (hist_sn _ _ _ Hh f Hf Ht) as Hf2. cbn [step]. unfold run, run_apdu, admin_body, read_sn. cbn [c_ins c_p1 c_p2 c_le Z.eqb Pos.eqb Z.leb Z.compare andb]. unfold bind at 1, guard at 1, ret at 1.
  unfold admin_read_sn. cbn [c_p1 c_p2 c_le Z.eqb andb Z.ltb Z.compare Pos.compare Pos.compare_cont negb]. unfold fill_sn, bind, guard, ret, set_out. unfold start at 1. cbn [e_fs e_log e_flt e_rnd e_tch start].
  rewrite run_read_file. unfold fread, SN_FILE. rewrite Hf2. change (0 <? 0) with false. cbv iota. rewrite Hd.
  assert (slice 0 4 (c_data c) = c_data c) as -> by (unfold slice; cbn [Z.to_nat skipn]; apply firstn_all2; unfold zlen in Hz; lia). rewrite Hz. cbn [Z.eqb Pos.eqb e_out fst snd e_fs]. destruct d2; reflexivity.
Qed.
End Proofs.

(** ** What fails, and examples: the other applets do nothing here *)
Definition ext0 (i : Z) (c : capdu) : M unit Z := ret 0x9000.
Definition inst0 (i : Z) : M unit bool := ret true.
Definition ro0 (x : unit) : Z := 0.
Lemma ext0_ok i c q f : In q admin_files -> frame (fun _ => True) (fun F => F q = f) (ext0 i c). Proof. intros _. apply fr_ret. Qed.
Lemma inst0_ok i q f : In q admin_files -> frame (fun _ => True) (fun F => F q = f) (inst0 i). Proof. intros _. apply fr_ret. Qed.
Lemma inst0_plain i x e w : fst (fst (inst0 i x e)) <> Exc w. Proof. discriminate. Qed.
Notation step0 := (step ext0 inst0 ro0 (0, 0)).
Fixpoint exec (d : dev unit) (evs : list (event unit)) : list (option rapdu) * dev unit :=
  match evs with
  | [] => ([], d)
  | ev :: evs => match step0 d ev with Some (o, d1) => let '(l, d2) := exec d1 evs in (o :: l, d2) | None => ([], d) end
  end.
Definition d0 : dev unit := boot tt fs_empty.
Definition cmd ins p1 p2 data le := @Do unit (mkC 0 ins p1 p2 data le) false [] [].
Definition answers l := map (fun o => match o with Some r => (r_data r, r_sw r) | None => ([], 0) end) l.
Definition verify d := cmd 0x20 0 0 d 0.

Example admin_ex : answers (fst (exec d0 [
    cmd 0x40 4 0 [] 0; verify default_pin; cmd 0x40 4 0 [] 0; cmd 0x42 0 0 [] 6; cmd 0x30 0 0 [1;2;3;4] 0; cmd 0x30 0 0 [5;6;7;8] 0;
    Off; cmd 0x42 0 0 [] 6; cmd 0x32 0 0 [] 4; verify [49;50;51;52;53;55]; verify [49;50;51;52;53;55]; verify [49;50;51;52;53;55]; verify default_pin;
    Do (mkC 0 0x50 0 0 RESET_DATA 0) true [] [0]; Do (mkC 0 0x50 0 0 RESET_DATA 0) false [] [0]; verify default_pin; cmd 0x42 0 0 [] 6; cmd 0x32 0 0 [] 4]))
  = [([], 0x6982); ([], 0x9000); ([], 0x9000); ([1;0;0;0;1;0], 0x9000); ([], 0x9000); ([], 0x6985);
     ([], 0); ([], 0x6982); ([1;2;3;4], 0x9000); ([], 0x63C2); ([], 0x63C1); ([], 0x6983); ([], 0x6983);
     ([], 0x6985); ([], 0x9000); ([], 0x9000); ([1;0;0;1;1;0], 0x9000); ([1;2;3;4], 0x9000)].
Proof. vm_compute. reflexivity. Qed.

(** Every such run is a history the theorems speak about: their hypotheses are met. *)
Lemma exec_hist evs d : Forall (fun ev => match ev with Other _ _ => False | _ => True end) evs ->
  length (fst (exec d evs)) = length evs -> hist ext0 inst0 ro0 (0, 0) d (combine evs (fst (exec d evs))) (snd (exec d evs)).
Proof.
  revert d. induction evs as [|ev evs IH]; intros d Hf Hl; [constructor|]. apply Forall_cons_iff in Hf as [Hv Hf]. cbn [exec] in *.
  destruct (step0 d ev) as [[o d1]|] eqn:Es; [|discriminate]. specialize (IH d1 Hf). destruct (exec d1 evs) as [l d2]. cbn [fst snd length combine] in *.
  econstructor; [destruct ev; try exact I; contradiction|exact Es|apply IH; lia].
Qed.
Example reach_ex : let evs := [verify default_pin; cmd 0x40 4 0 [] 0; cmd 0x21 0 0 [54;53;52;51;50;49] 0; Off; verify [54;53;52;51;50;49]; cmd 0x40 1 0 [] 0; @Cut unit (mkC 0 0x40 4 1 [] 0) false [] [] 1] in
  exists d, let tr := combine evs (fst (exec d0 evs)) in reach ext0 inst0 ro0 (0, 0) tr d /\ pins_of tr = [[54;53;52;51;50;49]] /\ authorised tr = false /\
    cfgs_of tr = [(false, true, true); (false, false, true)].
Proof.
  exists (snd (exec d0 [verify default_pin; cmd 0x40 4 0 [] 0; cmd 0x21 0 0 [54;53;52;51;50;49] 0; Off; verify [54;53;52;51;50;49]; cmd 0x40 1 0 [] 0; @Cut unit (mkC 0 0x40 4 1 [] 0) false [] [] 1])).
  split; [exists tt; apply exec_hist; [repeat constructor|vm_compute; reflexivity]|]. vm_compute. auto.
Qed.

(** C11.  A data field of 262 bytes is compared, and stored, as if it had 6. *)
Theorem C11_whole_pin_refuted :
  let long := default_pin ++ repeat 65 256 in
  zlen long = 262 /\
  answers (fst (exec d0 [verify long])) = [([], 0x9000)] /\
  answers (fst (exec d0 [verify default_pin; cmd 0x21 0 0 ([54;53;52;51;50;49] ++ repeat 65 256) 0; verify [54;53;52;51;50;49]])) =
    [([], 0x9000); ([], 0x9000); ([], 0x9000)].
Proof. vm_compute. auto. Qed.

(** C24.  The reset needs no blocked PIN if the counter cannot be read. *)
Theorem C24_reset_on_read_error_refuted :
  tries d0 = Some 3 /\
  exists d1, step0 d0 (Do (mkC 0 0x50 0 0 RESET_DATA 0) false [FNone; FEarly] [0]) = Some (Some (mkR [] 0x9000), d1).
Proof. split; [reflexivity|]. eexists. vm_compute. reflexivity. Qed.

(** C25.  The number can be written again if its size cannot be read. *)
Theorem C25_rewritten_on_read_error_refuted :
  let once := snd (exec d0 [verify default_pin; cmd 0x30 0 0 [1;2;3;4] 0]) in
  exists d1, step0 once (Do (mkC 0 0x30 0 0 [5;6;7;8] 0) false [FEarly] []) = Some (Some (mkR [] 0x9000), d1) /\
  answers (fst (exec once [cmd 0x32 0 0 [] 4])) = [([1;2;3;4], 0x9000)] /\ answers (fst (exec d1 [cmd 0x32 0 0 [] 4])) = [([5;6;7;8], 0x9000)].
Proof. eexists. split; [vm_compute; reflexivity|]. vm_compute. auto. Qed.

(** C73.  If the power fails in the middle of WRITE SN, the number stays 00000000 and can never be written. *)
Theorem C73_write_sn_can_be_repeated_refuted :
  let cut := @Cut unit (mkC 0 0x30 0 0 [1;2;3;4] 0) false [] [] 1 in
  answers (fst (exec d0 [verify default_pin; cut; cmd 0x32 0 0 [] 4; verify default_pin; cmd 0x30 0 0 [1;2;3;4] 0])) =
    [([], 0x9000); ([], 0); ([0;0;0;0], 0x9000); ([], 0x9000); ([], 0x6985)].
Proof. vm_compute. reflexivity. Qed.

Print Assumptions C23_refused_without_pin.
Print Assumptions C23_public_harmless.
Print Assumptions C23_verify_harmless.
Print Assumptions C23_verify_authorises.
Print Assumptions C24_reset_conditions_partial.
Print Assumptions C26_config_as_commanded.
Print Assumptions C26_one_candidate.
Print Assumptions C11_whole_pin_partial.
Print Assumptions C25_written_once_partial.
Print Assumptions C11_whole_pin_refuted.
Print Assumptions C24_reset_on_read_error_refuted.
Print Assumptions C25_rewritten_on_read_error_refuted.
Print Assumptions C73_write_sn_can_be_repeated_refuted.
