(** C62 for PIV: power loss during the first installation. *)
From Verif Require Import Sys Apdu Applet Frame Pin Key Piv PivSpec Script.
Open Scope string_scope. Open Scope list_scope. Open Scope Z_scope.

(** ** Specification *)
(** A key file without a key: all zeros; type 10 (none), origin 0 (not present), what the slot is for, when it asks for the PIN, no touch *)
Definition no_key (G : fs) (p : path) (usage policy : Z) : Prop :=
  fdata G p = Some (repeat 0 1286) /\ fattr G p 255 = Some [10; 0; usage; policy; 1].
(** A PIN file: the value, three tries left of three, marked as the default *)
Definition default_secret (G : fs) (p : path) (v : bytes) : Prop :=
  fdata G p = Some v /\ fattr G p 0 = Some [3] /\ fattr G p 1 = Some [3] /\ fattr G p 0x81 = Some [1].
(** A new card: objects empty, CCC and CHUID with their random parts, slots without keys, the default management key (triple DES), PIN
    "123456" and PUK "12345678" *)
Definition new_card (G : fs) : Prop :=
  Forall (fun p => fdata G p = Some []) ["piv-pauc"; "piv-sigc"; "piv-mntc"; "piv-cauc"; "piv-82c"; "piv-83c"; "piv-pi"; "piv-fig"; "piv-face"] /\
  (exists r, zlen r = 21 /\ fdata G "piv-ccc" = Some ([0x53; 0x33; 0xf0; 0x15] ++ r ++
     [0xf1; 1; 0x21; 0xf2; 1; 0x21; 0xf3; 0; 0xf4; 1; 0; 0xf5; 1; 0x10; 0xf6; 0; 0xf7; 0; 0xfa; 0; 0xfb; 0; 0xfc; 0; 0xfd; 0; 0xfe; 0])) /\
  (exists r, zlen r = 16 /\ fdata G "piv-chu" = Some ([0x53; 0x3b; 0x30; 0x19; 0xd4; 0xe7; 0x39; 0xda; 0x73; 0x9c; 0xed; 0x39; 0xce; 0x73; 0x9d; 0x83;
     0x68; 0x58; 0x21; 0x08; 0x42; 0x10; 0x84; 0x21; 0xc8; 0x42; 0x10; 0xc3; 0xeb; 0x34; 0x10] ++ r ++ [0x35; 8; 0x32; 0x30; 0x35; 0x30; 0x30; 0x31; 0x30; 0x31; 0x3e; 0; 0xfe; 0])) /\
  no_key G "piv-pauk" 1 2 /\ no_key G "piv-sigk" 1 2 /\ no_key G "piv-mntk" 4 2 /\ no_key G "piv-cauk" 1 1 /\ no_key G "piv-82" 4 2 /\ no_key G "piv-83" 4 2 /\
  fdata G "piv-admk" = Some ([1; 2; 3; 4; 5; 6; 7; 8; 1; 2; 3; 4; 5; 6; 7; 8; 1; 2; 3; 4; 5; 6; 7; 8] ++ repeat 0 1262) /\
  fattr G "piv-admk" 255 = Some [11; 1; 2; 1; 1] /\ fattr G "piv-admk" 0x81 = Some [1] /\
  default_secret G "piv-pin" [49; 50; 51; 52; 53; 54; 0xFF; 0xFF] /\ default_secret G "piv-puk" [49; 50; 51; 52; 53; 54; 55; 56].
(** The identifiers of the additional algorithms, enabled *)
Definition default_ext : bytes := [1; 0xE0; 0x05; 0x16; 0xE1; 0x53; 0x54].

(** ** The installation as a sequence of updates *)
Definition key_items (p : path) (k : ckey) : list item := [W (WF p (k_data k) true); W (WA p KEY_META_ATTR (meta_bytes (k_meta k)))].
Definition pin_items (p : pin_t) (v : bytes) : list item :=
  [W (WF (pin_path p) v true); W (WA (pin_path p) RETRY_ATTR [3]); W (WA (pin_path p) DEFAULT_RETRY_ATTR [3])].
Definition slot_items (p : path) (usage policy : Z) : list item :=
  key_items p (mkKey (mkMeta KEY_TYPE_PKC_END KEY_ORIGIN_NOT_PRESENT usage policy TOUCH_POLICY_NEVER) (zeros KEY_SIZE)).
Definition objs1 : list item := map (fun p => W (WF p [] true)) ["piv-pauc"; "piv-sigc"; "piv-mntc"; "piv-cauc"; "piv-82c"; "piv-83c"; "piv-pi"; "piv-fig"; "piv-face"].
Definition items : list item :=
  objs1 ++ [RW 21 (fun r => WF "piv-ccc" (ccc_tpl r) true); RW 16 (fun r => WF "piv-chu" (chuid_tpl r) true)] ++
  slot_items "piv-pauk" SIGN PIN_POLICY_ONCE ++ slot_items "piv-sigk" SIGN PIN_POLICY_ONCE ++ slot_items "piv-mntk" KEY_AGREEMENT PIN_POLICY_ONCE ++
  slot_items "piv-cauk" SIGN PIN_POLICY_NEVER ++ slot_items "piv-82" KEY_AGREEMENT PIN_POLICY_ONCE ++ slot_items "piv-83" KEY_AGREEMENT PIN_POLICY_ONCE ++
  key_items CARD_ADMIN_KEY_PATH (mkKey (mkMeta TDEA KEY_ORIGIN_GENERATED ENCRYPT PIN_POLICY_NEVER TOUCH_POLICY_NEVER) (overlay DEFAULT_MGMT_KEY (zeros KEY_SIZE))) ++
  [W (WA CARD_ADMIN_KEY_PATH TAG_PIN_KEY_DEFAULT [1])] ++
  pin_items pin DEFAULT_PIN ++ [W (WA (pin_path pin) TAG_PIN_KEY_DEFAULT [1])] ++
  pin_items puk DEFAULT_PUK ++ [W (WA (pin_path puk) TAG_PIN_KEY_DEFAULT [1])].
Definition finish : M piv unit :=
  r <- get_file_size ALGORITHM_EXT_CONFIG_PATH ;;
  if match r with Some n => n =? 7 | None => false end then ret tt else
  modify (set_alg DEFAULT_ALG) ;;;
  must (write_file ALGORITHM_EXT_CONFIG_PATH DEFAULT_ALG 0 true).

Lemma bind_eq {S A B} (m m' : M S A) (k k' : A -> M S B) s e : (forall s e, m s e = m' s e) -> (forall a s e, k a s e = k' a s e) -> bind m k s e = bind m' k' s e.
Proof. intros H1 H2. unfold bind. rewrite H1. destruct (m' s e) as [[[a|w| |] s'] e']; auto. Qed.
Lemma key_eq {A} p k (c c' : M piv A) s e : (forall s e, c s e = script None [] c' s e) -> (must (ck_write_key p k) ;;; c) s e = script None (key_items p k) c' s e.
Proof.
  intros H. unfold key_items, script, must_w, wrun, must, ck_write_key, ck_write_key_metadata, die, bind. destruct (write_file p (k_data k) 0 true s e) as [[[[|]|w| |] s'] e']; cbn; try reflexivity.
  destruct (write_attr p KEY_META_ATTR (meta_bytes (k_meta k)) s' e') as [[[[|]|w| |] s2] e2]; cbn; try reflexivity. apply H.
Qed.
Lemma pin_eq {A} p v (c c' : M piv A) s e : (forall s e, c s e = script None [] c' s e) -> (mustz (pin_create p v 3) ;;; c) s e = script None (pin_items p v) c' s e.
Proof.
  intros H. unfold pin_items, script, must_w, wrun, mustz, pin_create, die, bind. destruct (write_file (pin_path p) v 0 true s e) as [[[[|]|w| |] s'] e']; cbn; try reflexivity.
  destruct (write_attr (pin_path p) RETRY_ATTR [3] s' e') as [[[[|]|w| |] s2] e2]; cbn; try reflexivity.
  destruct (write_attr (pin_path p) DEFAULT_RETRY_ATTR [3] s2 e2) as [[[[|]|w| |] s3] e3]; cbn; try reflexivity. apply H.
Qed.
Lemma script_app {S A} how (a b : list item) (k : M S A) : script how (a ++ b) k = script how a (script how b k).
Proof. induction a as [|[w|n f] a IH]; cbn [app script]; [reflexivity|rewrite IH; reflexivity|rewrite IH; reflexivity]. Qed.
Lemma install_eq s e : piv_install true s e = script None items finish (piv_poweroff s) e.
Proof.
  unfold piv_install, items. cbn [objs1 map]. rewrite !script_app. cbn [script]. unfold bind at 1, modify. unfold bind at 1, ret at 1.
  do 9 (apply bind_eq; [reflexivity|clear s e; intros _ s e]).
  do 2 (apply bind_eq; [reflexivity|clear s e; intros r s e]; apply bind_eq; [reflexivity|clear s e r; intros _ s e]).
  do 7 (apply key_eq; clear s e; intros s e; cbn [script]).
  apply bind_eq; [reflexivity|clear s e; intros _ s e]. apply pin_eq; clear s e; intros s e; cbn [script].
  apply bind_eq; [reflexivity|clear s e; intros _ s e]. apply pin_eq; clear s e; intros s e; cbn [script].
  apply bind_eq; [reflexivity|clear s e; intros _ s e]. reflexivity.
Qed.
Lemma items_ok R F : wok items R F.
Proof.
  unfold items, objs1, slot_items, key_items, pin_items. cbn [app map wok what rest]. 
  repeat match goal with |- True /\ _ => split; [exact Logic.I|] | |- (eff _ _ _ <> None) /\ _ => split; [repeat first [apply eff_some|apply eff_keep]|] end. exact Logic.I.
Qed.
Lemma items_alg : Forall (fun i => ~ touches "piv-alg" i) items.
Proof. unfold items, objs1, slot_items, key_items, pin_items. cbn [app map]. repeat constructor; intros (R & E); vm_compute in E; discriminate. Qed.
Lemma drawn_len n R : 0 <= n -> zlen (drawn n R) = n.
Proof. intros H. unfold drawn, zlen. rewrite firstn_length, app_length. unfold zeros. rewrite repeat_length. lia. Qed.
Lemma items_new R F : new_card (effs items R F).
Proof.
  unfold new_card, no_key, default_secret, fdata, fattr. rewrite !effs_file.
  split; [repeat (constructor; [rewrite effs_file; match goal with |- context [F ?p] => destruct (F p) end; reflexivity|]); constructor|].
  split; [exists (drawn 21 R); split; [apply drawn_len; lia|match goal with |- context [F ?p] => destruct (F p) end; reflexivity]|].
  split; [exists (drawn 16 (skipn 21 R)); split; [apply drawn_len; lia|match goal with |- context [F ?p] => destruct (F p) end; reflexivity]|].
  repeat split; match goal with |- context [F ?p] => destruct (F p) end; vm_compute; reflexivity.
Qed.
(** ** The images of an installation *)
Lemma log_nth {A} (Q : A -> Prop) l n d : Forall Q l -> Q d -> Q (nth n l d).
Proof. intros H Hd. revert n. induction H; intros [|n]; cbn; auto. Qed.
Definition img (G : fs) : Prop := G "piv-alg" = None \/ new_card G /\ (fdata G "piv-alg" = Some [] \/ fdata G "piv-alg" = Some default_ext).
Lemma new_card_other G p x : p = "piv-alg" -> new_card G -> new_card (fset G p x).
Proof.
  intros -> H. unfold new_card, no_key, default_secret, fdata, fattr in *. rewrite !fset_other by discriminate.
  destruct H as (H1 & H2). split; [|exact H2]. repeat (constructor; [rewrite fset_other by discriminate; match goal with |- match G ?p with _ => _ end = _ => apply (proj1 (Forall_forall _ _) H1 p) end; cbn; tauto|]). constructor.
Qed.
Lemma first_attempt F flt rnd : F "piv-alg" = None ->
  let '(o, s, e) := installed false piv_boot F flt rnd in
  img (e_fs e) /\ Forall img (e_log e) /\ (flt = [] -> o = Ret tt /\ new_card (e_fs e) /\ v_alg s = default_ext).
Proof.
  intros HN. unfold installed.
  set (Q := fun (o : out unit) (s : piv) e => img (e_fs e) /\ Forall img (e_log e) /\ (flt = [] -> o = Ret tt /\ new_card (e_fs e) /\ v_alg s = default_ext)).
  assert (W : wp (piv_install false) Q piv_boot (start F flt rnd [])).
  { assert (HI : forall X, (flt = [] -> X = []) -> wp (piv_install true) Q piv_boot (mkE F [F] X rnd [] [])).
    { intros X HX. unfold wp. rewrite install_eq. change (wp (script None items finish) Q (piv_poweroff piv_boot) (mkE F [F] X rnd [] [])).
      assert (HM : forall G, mid items rnd F G -> img G) by (intros G HG; left; rewrite (mid_other _ _ _ _ _ items_alg HG); exact HN).
      apply script_wp; [apply items_ok| |].
      - intros X' R' L' HX' HL. assert (HL' : Forall img L').
        { apply Forall_forall. intros G HG. destruct (HL G HG) as [[<-|[]]|H]; [left; exact HN|apply HM, H]. }
        pose proof (items_new rnd F) as HC. set (F1 := effs items rnd F) in *. assert (HA : F1 "piv-alg" = None) by (unfold F1; rewrite (effs_other _ _ _ _ items_alg); exact HN). clearbody F1.
        unfold finish. apply wp_bind, wp_get_file_size. intros X2 r HX2 Hr. assert (r = None) as -> by (destruct Hr as [Hr|Hr]; [exact Hr|]; rewrite Hr; unfold fsize, ALGORITHM_EXT_CONFIG_PATH; rewrite HA; reflexivity).
        apply wp_bind, wp_modify. unfold must, ALGORITHM_EXT_CONFIG_PATH.
        assert (C1 : img (fcreate F1 "piv-alg")).
        { unfold fcreate. rewrite HA. right. split; [apply new_card_other; auto|]. left. unfold fdata. rewrite fset_same. reflexivity. }
        assert (HC2 : new_card (fwrite F1 "piv-alg" DEFAULT_ALG 0 true)).
        { unfold fwrite, fcreate. rewrite HA, fset_same. apply new_card_other; [reflexivity|]. apply new_card_other; auto. }
        assert (C2 : img (fwrite F1 "piv-alg" DEFAULT_ALG 0 true)) by (right; split; [exact HC2|right; apply fdata_fwrite_trunc]).
        assert (C3 : Forall img (lcreate F1 L' "piv-alg")) by (unfold lcreate; rewrite HA; constructor; assumption).
        apply wp_bind, wp_write_file.
        + intros X3 HX3. apply wp_ret. split; [exact C2|]. split; [constructor; assumption|]. intros E. split; [reflexivity|]. split; [exact HC2|reflexivity].
        + intros N X3. split; [left; exact HA|]. split; [exact HL'|]. intros E. elim N. destruct (HX2 (HX' (HX E))). assumption.
        + intros N X3. split; [exact C1|]. split; [exact C3|]. intros E. elim N. destruct (HX2 (HX' (HX E))). assumption.
      - intros X' R' L' F' HX' HL HF. split; [apply HM, HF|]. split; [|intros E; elim HX'; auto].
        apply Forall_forall. intros G HG. destruct (HL G HG) as [[<-|[]]|H]; [left; exact HN|apply HM, H]. }
    unfold start. unfold piv_install in *. apply wp_bind, wp_modify. apply wp_bind, wp_bind, wp_get_file_size. intros X r HX Hr. apply wp_ret.
    assert (r = None) as -> by (destruct Hr as [Hr|Hr]; [exact Hr|]; rewrite Hr; unfold fsize, ALGORITHM_EXT_CONFIG_PATH; rewrite HN; reflexivity).
    exact (HI X (fun E => proj1 (HX E))). }
  unfold wp in W. destruct (piv_install _ _ _) as [[o s'] e']. exact W.
Qed.
Lemma later_attempt G flt rnd : new_card G -> (fdata G "piv-alg" = Some [] \/ fdata G "piv-alg" = Some default_ext) -> hd FNone flt = FNone ->
  let '(o, s, e) := installed false piv_boot G flt rnd in
  e_fs e = G /\ e_log e = [G] /\ (flt = [] -> o = Ret tt /\ v_alg s = overlay (match fdata G "piv-alg" with Some d => d | None => [] end) (repeat 0 7)).
Proof.
  intros HC HA Hf. unfold installed, piv_install, bind, modify, ret, get_file_size, got, read_file, pop_fault, start. unfold bind. cbn [e_flt e_fs]. unfold fdata, ALGORITHM_EXT_CONFIG_PATH in *.
  destruct flt as [|[| |] flt]; try discriminate Hf; cbn [e_fs]; destruct (G "piv-alg") as [f|] eqn:E; try (destruct HA; discriminate); cbn [e_flt e_fs].
  - rewrite E. cbn [Z.ltb Z.compare]. split; [reflexivity|]. split; [reflexivity|]. intros _. split; [reflexivity|]. cbn [set_alg v_alg piv_poweroff piv_boot]. destruct HA as [HA|HA]; injection HA as ->; reflexivity.
  - destruct flt as [|[| |] flt]; cbn [e_fs]; rewrite ?E; (split; [reflexivity|]; split; [reflexivity|discriminate]).
Qed.
(** The storage [F] after any number of boots, each of them interrupted: there may be storage errors (but not when the first thing is looked
    up, whether there is an installation), and the power fails when the [n]-th last update is current. *)
Inductive interrupted (F : fs) : fs -> Prop :=
  | I_none : interrupted F F
  | I_more G flt rnd n : interrupted F G -> hd FNone flt = FNone ->
      interrupted F (let '(_, _, e) := installed false piv_boot G flt rnd in nth n (e_log e) (e_fs e)).
(** C62.  However often the first installation is interrupted, an undisturbed boot ends with a new card.  The additional algorithms are
    enabled, or disabled. *)
Theorem C62_piv : forall F G, F "piv-alg" = None -> interrupted F G -> forall rnd,
  let '(o, s, e) := installed false piv_boot G [] rnd in
  o = Ret tt /\ new_card (e_fs e) /\ (v_alg s = default_ext \/ v_alg s = repeat 0 7).
Proof.
  intros F G HN HI rnd. assert (HG : img G).
  { induction HI as [|G flt r n HI IH Hf]; [left; exact HN|]. destruct IH as [IH|(IH1 & IH2)].
    - pose proof (first_attempt G flt r IH) as W. destruct (installed false piv_boot G flt r) as [[o s] e]. destruct W as (W1 & W2 & _). apply log_nth; assumption.
    - pose proof (later_attempt G flt r IH1 IH2 Hf) as W. destruct (installed false piv_boot G flt r) as [[o s] e]. destruct W as (W1 & W2 & _). rewrite W1, W2. assert (nth n [G] G = G) as -> by (destruct n as [|[|n]]; reflexivity). right. auto. }
  destruct HG as [HG|(H1 & H2)].
  - pose proof (first_attempt G [] rnd HG) as W. destruct (installed false piv_boot G [] rnd) as [[o s] e]. destruct W as (_ & _ & W). destruct (W eq_refl) as (W1 & W2 & W3). auto.
  - pose proof (later_attempt G [] rnd H1 H2 eq_refl) as W. destruct (installed false piv_boot G [] rnd) as [[o s] e]. destruct W as (W1 & _ & W). destruct (W eq_refl) as (W2 & W3). rewrite W1. split; [exact W2|]. split; [exact H1|].
    rewrite W3. destruct H2 as [->| ->]; vm_compute; auto.
Qed.
Print Assumptions C62_piv.
(** The second case happens: power lost between the creation of the last file and the end of its writing leaves them disabled, and no later
    boot changes that. *)
Theorem C62_piv_extensions_refuted : exists F n, F "piv-alg" = None /\ let '(_, _, e) := installed false piv_boot F [] [] in
  forall rnd, let '(o, s, e') := installed false piv_boot (nth n (e_log e) (e_fs e)) [] rnd in o = Ret tt /\ v_alg s = repeat 0 7 /\ e_fs e' = nth n (e_log e) (e_fs e).
Proof.
  exists fs_empty, 1%nat. split; [reflexivity|]. pose proof (first_attempt fs_empty [] [] eq_refl) as W.
  destruct (installed false piv_boot fs_empty [] []) as [[o0 s0] e0] eqn:E0. destruct W as (W1 & W2 & _). intros rnd.
  assert (HA : fdata (nth 1 (e_log e0) (e_fs e0)) "piv-alg" = Some []).
  { transitivity (let '(_, _, e) := installed false piv_boot fs_empty [] [] in fdata (nth 1 (e_log e) (e_fs e)) "piv-alg"); [rewrite E0; reflexivity|vm_compute; reflexivity]. }
  assert (HG : img (nth 1 (e_log e0) (e_fs e0))) by (apply log_nth; assumption). set (G := nth 1 (e_log e0) (e_fs e0)) in *. clearbody G.
  destruct HG as [HG|(HG & _)]; [unfold fdata in HA; rewrite HG in HA; discriminate|].
  pose proof (later_attempt G [] rnd HG (or_introl HA) eq_refl) as W. destruct (installed false piv_boot G [] rnd) as [[o s] e]. destruct W as (V1 & _ & W). destruct (W eq_refl) as (V2 & V3). rewrite HA in V3. auto.
Qed.
Print Assumptions C62_piv_extensions_refuted.
(** A device whose first two boots are interrupted, the first after the 30th update counted from the end, the second (with a storage error on the way) after all
    of those it made: it does not have its PUK yet. *)
Example C62_piv_ex : exists G, interrupted fs_empty G /\ G "piv-puk" = None /\ fdata G "piv-pauc" = Some [].
Proof.
  eexists. split; [eapply (I_more _ _ (repeat FNone 28 ++ [FEarly]) [] 0); [eapply (I_more _ _ [] [] 30); [apply I_none|reflexivity]|reflexivity]|]. vm_compute. split; reflexivity.
Qed.
