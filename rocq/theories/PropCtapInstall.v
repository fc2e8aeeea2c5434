(** C62 for FIDO: power loss during the first installation. *)
From Verif Require Import Sys Apdu Applet Ctap CtapSpec CtapToy Script.
Open Scope string_scope. Open Scope list_scope. Open Scope Z_scope.

(** ** Specification *)
(** A new authenticator: no credentials (their number is 0), no relying parties, counter 0, no PIN, keys of 32 bytes for the key handles and for hmac-secret *)
Definition new_token (G : fs) : Prop :=
  fdata G "ctap_dc" = Some [] /\ fattr G "ctap_dc" 0 = Some [0; 0; 0] /\ fdata G "ctap_dm" = Some [] /\
  fattr G "ctap_cert" 1 = Some [0; 0; 0; 0] /\ fattr G "ctap_cert" 2 = Some [] /\
  (exists k, zlen k = 32 /\ fattr G "ctap_cert" 4 = Some k) /\ (exists k, zlen k = 32 /\ fattr G "ctap_cert" 5 = Some k).
(** The serialized large-blob array of a new authenticator: an empty array and the first 16 bytes of its hash *)
Definition empty_array : bytes := [0x80; 0x76; 0xbe; 0x8b; 0x52; 0x8d; 0x00; 0x75; 0xf7; 0xaa; 0xe9; 0x8d; 0x6f; 0xa5; 0x7a; 0x6d; 0x3c].
(** The manufacturer's data, which no installation may touch: the attestation certificate (none is the same as an empty one) and its key *)
Definition attestation (G : fs) : option bytes * option bytes :=
  (match fdata G "ctap_cert" with Some d => Some d | None => Some [] end, fattr G "ctap_cert" 0).

Section S.
Variable K : fcrypto.
(** The storage [F] after any number of boots, each of them interrupted: there may be storage errors (but not when the first thing is looked
    up, whether there is an installation), and the power fails when the [n]-th last update is current. *)
Inductive interrupted (F : fs) : fs -> Prop :=
  | I_none : interrupted F F
  | I_more G flt rnd n : interrupted F G -> hd FNone flt = FNone ->
      interrupted F (let '(_, _, e) := ctap_install K false ctap_boot (start G flt rnd []) in nth n (e_log e) (e_fs e)).

(** ** The installation as a sequence of updates *)
Definition items : list item :=
  [W (WF DC_FILE [] true); W (WA DC_FILE DC_GENERAL_ATTR [0; 0; 0]); W (WF DC_META_FILE [] true); W (WF CTAP_CERT_FILE [] false);
   W (WA CTAP_CERT_FILE SIGN_CTR_ATTR [0; 0; 0; 0]); W (WA CTAP_CERT_FILE PIN_ATTR []);
   RW 32 (fun kh => WA CTAP_CERT_FILE KH_KEY_ATTR kh); RW 32 (fun he => WA CTAP_CERT_FILE HE_KEY_ATTR he)].
Definition finish : Mc unit := must (write_file LB_FILE empty_array 0 true).
Lemma items_ok R F : wok items R F.
Proof.
  unfold items. cbn [wok what rest]. 
  repeat match goal with |- True /\ _ => split; [exact Logic.I|] | |- (eff _ _ _ <> None) /\ _ => split; [repeat first [apply eff_some|apply eff_keep]|] end. exact Logic.I.
Qed.
Lemma items_lb : Forall (fun i => ~ touches "ctap_lb" i) items.
Proof. unfold items. repeat constructor; intros (R & E); vm_compute in E; discriminate. Qed.
Lemma drawn_len n R : 0 <= n -> zlen (drawn n R) = n.
Proof. intros H. unfold drawn, zlen. rewrite firstn_length, app_length. unfold zeros. rewrite repeat_length. lia. Qed.
Lemma items_new R F : new_token (effs items R F).
Proof.
  unfold new_token, fdata, fattr. rewrite !effs_file.
  repeat split; try (match goal with |- context [F ?p] => destruct (F p) end; reflexivity).
  - exists (drawn 32 R). split; [apply drawn_len; lia|]. match goal with |- context [F ?p] => destruct (F p) end; reflexivity.
  - exists (drawn 32 (skipn 32 R)). split; [apply drawn_len; lia|]. match goal with |- context [F ?p] => destruct (F p) end; reflexivity.
Qed.
Lemma att_same F G : G "ctap_cert" = F "ctap_cert" -> attestation G = attestation F.
Proof. intros H. unfold attestation, fdata, fattr. rewrite H. reflexivity. Qed.
Lemma att_eff w F : match w with WF p d tr => p = "ctap_cert" -> d = [] /\ tr = false | WA p a _ => a <> 0 end -> attestation (eff w F) = attestation F.
Proof.
  intros H. destruct (string_dec "ctap_cert" (wpath w)) as [E|N]; [|apply att_same, eff_other, N].
  unfold attestation, fdata, fattr. rewrite E, eff_same. destruct w as [p d tr|p a v]; cbn [wpath eff1] in *.
  - destruct (H (eq_sym E)) as (-> & ->). destruct (F p); reflexivity.
  - destruct (F p); [|reflexivity]. cbn [f_data f_attr]. unfold aset. destruct (Z.eqb_spec 0 a); [congruence|]. reflexivity.
Qed.
Lemma att_create p F : attestation (fcreate F p) = attestation F.
Proof.
  destruct (string_dec "ctap_cert" p) as [<-|N]; [|apply att_same, fcreate_other, N]. unfold attestation, fdata, fattr, fcreate.
  destruct (F "ctap_cert") eqn:E; [rewrite E; reflexivity|]. rewrite fset_same. reflexivity.
Qed.
Definition mild (i : item) : Prop := forall R, match what i R with WF p d tr => p = "ctap_cert" -> d = [] /\ tr = false | WA p a _ => a <> 0 \/ p <> "ctap_cert" end.
Lemma att_eff' w F : match w with WF p d tr => p = "ctap_cert" -> d = [] /\ tr = false | WA p a _ => a <> 0 \/ p <> "ctap_cert" end -> attestation (eff w F) = attestation F.
Proof.
  intros H. destruct w as [p d tr|p a v]; [apply att_eff; exact H|]. destruct H as [H|H]; [apply att_eff; exact H|]. apply att_same, eff_other. cbn. congruence.
Qed.
Lemma items_mild : Forall mild items.
Proof. unfold items. repeat (apply Forall_cons; [intros R; cbn [what]; first [intros E; discriminate E|left; discriminate|right; discriminate|auto]|]). apply Forall_nil. Qed.
Lemma att_mid ws : Forall mild ws -> forall R F G, mid ws R F G -> attestation G = attestation F.
Proof.
  induction 1 as [|i r Hi Hr IH]; intros R F G [->|HG]; try reflexivity; [destruct HG|].
  destruct HG as [->|HG]; [apply att_create|]. rewrite (IH _ _ _ HG). apply att_eff', Hi.
Qed.

(** ** The images of an installation *)
Lemma log_nth {A} (Q : A -> Prop) l n d : Forall Q l -> Q d -> Q (nth n l d).
Proof. intros H Hd. revert n. induction H; intros [|n]; cbn; auto. Qed.
Definition img (F G : fs) : Prop := attestation G = attestation F /\ (G "ctap_lb" = None \/ new_token G /\ (fdata G "ctap_lb" = Some [] \/ fdata G "ctap_lb" = Some empty_array)).
Lemma new_token_other G x : new_token G -> new_token (fset G "ctap_lb" x).
Proof. intros H. unfold new_token, fdata, fattr in *. rewrite !fset_other by discriminate. exact H. Qed.
Lemma init_wp (Q : out unit -> ctap -> env -> Prop) (k : Mc unit) s F L X R : (forall s R, wp k Q s (mkE F L X R [] [])) -> wp (cp_initialize K ;;; k) Q s (mkE F L X R [] []).
Proof. intros H. unfold cp_initialize, cp_regenerate, cp_reset_token. apply H. Qed.
Lemma first_attempt F flt rnd : F "ctap_lb" = None ->
  let '(o, s, e) := ctap_install K false ctap_boot (start F flt rnd []) in
  img F (e_fs e) /\ Forall (img F) (e_log e) /\ (flt = [] -> o = Ret tt /\ new_token (e_fs e) /\ fdata (e_fs e) "ctap_lb" = Some empty_array).
Proof.
  intros HN.
  set (Q := fun (o : out unit) (s : ctap) e => img F (e_fs e) /\ Forall (img F) (e_log e) /\ (flt = [] -> o = Ret tt /\ new_token (e_fs e) /\ fdata (e_fs e) "ctap_lb" = Some empty_array)).
  assert (W : wp (ctap_install K false) Q ctap_boot (start F flt rnd [])).
  { unfold ctap_install, start. apply wp_bind, wp_modify. apply wp_bind, wp_modify. apply init_wp. clear rnd. intros s rnd.
    apply wp_bind, wp_get_file_size. intros X r HX Hr.
    assert (r = None) as -> by (destruct Hr as [Hr|Hr]; [exact Hr|]; rewrite Hr; unfold fsize, LB_FILE; rewrite HN; reflexivity).
    change (wp (script (Some ERR_UNHANDLED) items finish) Q s (mkE F [F] X rnd [] [])).
    assert (HM : forall G, mid items rnd F G -> img F G) by (intros G HG; split; [apply (att_mid _ items_mild _ _ _ HG)|left; rewrite (mid_other _ _ _ _ _ items_lb HG); exact HN]).
    assert (H0 : img F F) by (split; [reflexivity|left; exact HN]).
    apply script_wp; [apply items_ok| |].
    - intros X' R' L' HX' HL. assert (HL' : Forall (img F) L').
      { apply Forall_forall. intros G HG. destruct (HL G HG) as [[<-|[]]|H]; [exact H0|apply HM, H]. }
      pose proof (items_new rnd F) as HC. pose proof (HM _ (mid_end items rnd F)) as (HT & _). set (F1 := effs items rnd F) in *. assert (HA : F1 "ctap_lb" = None) by (unfold F1; rewrite (effs_other _ _ _ _ items_lb); exact HN). clearbody F1.
      unfold finish, must, LB_FILE.
      assert (C1 : img F (fcreate F1 "ctap_lb")).
      { split; [rewrite att_create; exact HT|]. unfold fcreate. rewrite HA. right. split; [apply new_token_other, HC|]. left. unfold fdata. rewrite fset_same. reflexivity. }
      assert (HC2 : new_token (fwrite F1 "ctap_lb" empty_array 0 true)).
      { unfold fwrite, fcreate. rewrite HA, fset_same. apply new_token_other, new_token_other, HC. }
      assert (C2 : img F (fwrite F1 "ctap_lb" empty_array 0 true)).
      { split; [rewrite <- HT; apply att_same, fwrite_other; discriminate|]. right; split; [exact HC2|right; apply fdata_fwrite_trunc]. }
      assert (C3 : Forall (img F) (lcreate F1 L' "ctap_lb")) by (unfold lcreate; rewrite HA; constructor; assumption).
      apply wp_bind, wp_write_file.
      + intros X3 HX3. apply wp_guard; [intros _|discriminate]. split; [exact C2|]. split; [constructor; assumption|]. intros E. split; [reflexivity|]. split; [exact HC2|apply fdata_fwrite_trunc].
      + intros N X3. split; [split; [exact HT|left; exact HA]|]. split; [exact HL'|]. intros E. elim N. apply HX', HX, E.
      + intros N X3. split; [exact C1|]. split; [exact C3|]. intros E. elim N. apply HX', HX, E.
    - intros X' R' L' F' HX' HL HF. split; [apply HM, HF|]. split; [|intros E; elim HX'; apply HX, E].
      apply Forall_forall. intros G HG. destruct (HL G HG) as [[<-|[]]|H]; [exact H0|apply HM, H]. }
  unfold wp in W. destruct (ctap_install _ _ _ _) as [[o s'] e']. exact W.
Qed.
Lemma later_attempt G flt rnd : G "ctap_lb" <> None -> hd FNone flt = FNone ->
  let '(o, s, e) := ctap_install K false ctap_boot (start G flt rnd []) in e_fs e = G /\ e_log e = [G] /\ o <> UB.
Proof.
  intros HC Hf. unfold ctap_install, cp_initialize, cp_regenerate, cp_reset_token, random_buffer, bind, modify, ret, get_file_size, got, read_attr, pop_fault, start. unfold bind. cbn [e_flt e_fs e_rnd].
  unfold LB_FILE. destruct (G "ctap_lb") as [f|] eqn:E; [|congruence].
  destruct flt as [|[| |] flt]; try discriminate Hf; cbn [e_fs e_flt e_rnd e_log e_tch e_out hd] in *; rewrite E; cbn [e_fs e_flt e_log].
  - destruct (G CTAP_CERT_FILE) as [g|]; [destruct (f_attr g SM2_ATTR)|]; (split; [reflexivity|split; [reflexivity|discriminate]]).
  - destruct flt as [|[| |] flt]; cbn [e_fs]; try (split; [reflexivity|split; [reflexivity|discriminate]]);
      (destruct (G CTAP_CERT_FILE) as [g|]; [destruct (f_attr g SM2_ATTR)|]; (split; [reflexivity|split; [reflexivity|discriminate]])).
Qed.
Lemma interrupted_img F G : F "ctap_lb" = None -> interrupted F G -> img F G.
Proof.
  intros HN HI. induction HI as [|G flt r n HI IH Hf]; [split; [reflexivity|left; exact HN]|]. destruct IH as (IH0 & [IH|(IH1 & IH2)]).
  - pose proof (first_attempt G flt r IH) as W. destruct (ctap_install K false ctap_boot (start G flt r [])) as [[o s] e]. destruct W as (W1 & W2 & _).
    assert (W : img G (nth n (e_log e) (e_fs e))) by (apply log_nth; assumption). destruct W as (V1 & V2). split; [congruence|exact V2].
  - assert (N : G "ctap_lb" <> None) by (intros E; unfold fdata in IH2; rewrite E in IH2; destruct IH2; discriminate).
    pose proof (later_attempt G flt r N Hf) as W. destruct (ctap_install K false ctap_boot (start G flt r [])) as [[o s] e]. destruct W as (W1 & W2 & _). assert (E : nth n (e_log e) (e_fs e) = G) by (rewrite W1, W2; destruct n as [|[|n]]; reflexivity). rewrite E. split; auto.
Qed.
(** C62.  However often the first installation is interrupted, an undisturbed boot ends with a new authenticator, and what the manufacturer has
    stored before is untouched.  The large-blob array is the empty one, or missing. *)
Theorem C62_ctap : forall F G, F "ctap_lb" = None -> interrupted F G -> forall rnd,
  let '(o, s, e) := ctap_install K false ctap_boot (start G [] rnd []) in
  o <> UB /\ new_token (e_fs e) /\ attestation (e_fs e) = attestation F /\ (fdata (e_fs e) "ctap_lb" = Some empty_array \/ fdata (e_fs e) "ctap_lb" = Some []).
Proof.
  intros F G HN HI rnd. destruct (interrupted_img F G HN HI) as (H0 & [HG|(H1 & H2)]).
  - pose proof (first_attempt G [] rnd HG) as W. destruct (ctap_install K false ctap_boot (start G [] rnd [])) as [[o s] e]. destruct W as ((W0 & _) & _ & W). destruct (W eq_refl) as (W1 & W2 & W3). rewrite W1. split; [discriminate|]. split; [exact W2|]. split; [congruence|auto].
  - assert (N : G "ctap_lb" <> None) by (intros E; unfold fdata in H2; rewrite E in H2; destruct H2; discriminate).
    pose proof (later_attempt G [] rnd N eq_refl) as W. destruct (ctap_install K false ctap_boot (start G [] rnd [])) as [[o s] e]. destruct W as (W1 & _ & W). rewrite W1. split; [exact W|]. split; [exact H1|]. split; [exact H0|tauto].
Qed.
End S.
Print Assumptions C62_ctap.
(** Two interrupted boots of an empty device: it has no large-blob array and no key for hmac-secret yet. *)
Example C62_ctap_ex : exists G, interrupted toyf blank G /\ blank "ctap_lb" = None /\ G "ctap_lb" = None /\ fattr G "ctap_cert" 5 = None /\ fattr G "ctap_cert" 2 = Some [] /\ fdata G "ctap_cert" <> None.
Proof.
  eexists. split; [eapply (I_more _ _ _ (repeat FNone 8 ++ [FEarly]) [] 0); [eapply (I_more _ _ _ [] [] 8); [apply I_none|reflexivity]|reflexivity]|]. vm_compute. repeat split; discriminate.
Qed.
