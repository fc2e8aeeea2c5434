(** C40: TERMINATE DF and ACTIVATE FILE.  C62 (OpenPGP part): power loss during the first installation. *)
From Verif Require Import Sys Apdu Applet Frame Pin PinProofs Tlv Key PropKey Pgp PgpSpec PgpFlags PropPgpAccess PropPgpCount PropPgpTouch.
Open Scope string_scope. Open Scope list_scope. Open Scope Z_scope.

(** ** Specification *)
(** The mark of a terminated card *)
Definition terminated (F : fs) : Prop := exists l, fattr F "pgp-data" 0xFC = Some (1 :: l).
Definition mark (F : fs) : option bytes := fattr F "pgp-data" 0xFC.
(** No attempts are left for PW3. *)
Definition blocked_pw3 (F : fs) : Prop := (exists l, fattr F "pgp-pw3" 0 = Some (0 :: l) \/ fattr F "pgp-pw3" 0 = Some []) \/ fdata F "pgp-pw3" = Some [].
(** The factory state: contents and attributes of every file *)
Definition holds (F : fs) (p : path) (d : bytes) (attrs : list (Z * bytes)) : Prop :=
  fdata F p = Some d /\ Forall (fun x => fattr F p (fst x) = Some (snd x)) attrs.
Definition no_key (usage : Z) : list (Z * bytes) := [(0xFF, [7; 0; usage; 0; 0]); (0, repeat 0 20); (1, repeat 0 4)].
Definition factory (F : fs) : Prop :=
  holds F "pgp-data" [] [(0xFC, [0]); (0x5E, []); (0x5B, []); (0x2D, []); (0x35, [0x39]); (0xC4, [0]); (0xFF, repeat 0 20); (0xFE, repeat 0 20); (0xFD, repeat 0 20); (0xFB, [0]); (0x93, [0; 0; 0])] /\
  holds F "pgp-sigk" (repeat 0 1286) (no_key 1) /\ holds F "pgp-deck" (repeat 0 1286) (no_key 2) /\ holds F "pgp-autk" (repeat 0 1286) (no_key 1) /\
  holds F "pgp-sigc" [] [] /\ holds F "pgp-decc" [] [] /\ holds F "pgp-autc" [] [] /\
  holds F "pgp-pw1" [0x31; 0x32; 0x33; 0x34; 0x35; 0x36] [(0, [3]); (1, [3])] /\
  holds F "pgp-pw3" [0x31; 0x32; 0x33; 0x34; 0x35; 0x36; 0x37; 0x38] [(0, [3]); (1, [3])] /\
  holds F "pgp-rc" [] [(0, [3]); (1, [3])].

(** ** Installation as a list of updates *)
Inductive op := WF (p : path) (d : bytes) | WA (p : path) (a : Z) (v : bytes).
Definition apply1 (F : fs) (o : op) : fs := match o with WF p d => fwrite F p d 0 true | WA p a v => fsetattr F p a v end.
Definition apply_ops (l : list op) (F : fs) : fs := fold_left apply1 l F.
Definition key_ops (p : path) (u : Z) : list op := [WF p (zeros KEY_SIZE); WA p 0xFF [RSA2048; 0; u; 0; 0]; WA p 0 (zeros 20); WA p 1 (zeros 4)].
Definition pin_ops (p : path) (d : bytes) : list op := [WF p d; WA p 0 [3]; WA p 1 [3]].
Definition before_end : list op :=
  [WF "pgp-data" []; WA "pgp-data" 0xFC [1]; WA "pgp-data" 0x5E []; WA "pgp-data" 0x5B []; WA "pgp-data" 0x2D []; WA "pgp-data" 0x35 [0x39]; WA "pgp-data" 0xC4 [0]] ++
  key_ops "pgp-sigk" 1 ++ key_ops "pgp-deck" 2 ++ key_ops "pgp-autk" 1 ++
  [WA "pgp-data" 0xFF (zeros 20); WA "pgp-data" 0xFE (zeros 20); WA "pgp-data" 0xFD (zeros 20); WA "pgp-data" 0xFB [0]; WA "pgp-data" 0x93 (zeros 3);
   WF "pgp-sigc" []; WF "pgp-decc" []; WF "pgp-autc" []] ++
  pin_ops "pgp-pw1" DEFAULT_PW1 ++ pin_ops "pgp-pw3" DEFAULT_PW3 ++ pin_ops "pgp-rc" [].
Definition all_ops : list op := before_end ++ [WA "pgp-data" 0xFC [0]].
(** What a list of updates (last first) leaves *)
Fixpoint last_data (l : list op) (p : path) : option bytes :=
  match l with [] => None | WF q d :: l => if String.eqb p q then Some d else last_data l p | WA _ _ _ :: l => last_data l p end.
Fixpoint last_attr (l : list op) (p : path) (a : Z) : option bytes :=
  match l with
  | [] => None
  | WF _ _ :: l => last_attr l p a
  | WA q b v :: l => if String.eqb p q && (a =? b) then match last_data l p with Some _ => Some v | None => None end else last_attr l p a
  end.
Lemma apply_snoc l o F : apply_ops (l ++ [o]) F = apply1 (apply_ops l F) o.
Proof. unfold apply_ops. rewrite fold_left_app. reflexivity. Qed.
Lemma last_data_ok p d F : forall l, last_data l p = Some d -> fdata (apply_ops (rev l) F) p = Some d.
Proof.
  induction l as [|[q x|q a v] l IH]; cbn [last_data]; [discriminate|..]; intros H; cbn [rev]; rewrite apply_snoc; cbn [apply1].
  - destruct (String.eqb_spec p q) as [-> |N].
    + injection H as ->. rewrite fdata_fwrite_trunc. reflexivity.
    + unfold fdata. rewrite fwrite_other by congruence. apply IH. exact H.
  - rewrite fdata_fsetattr. apply IH. exact H.
Qed.
Lemma last_attr_ok p a v F : forall l, last_attr l p a = Some v -> fattr (apply_ops (rev l) F) p a = Some v.
Proof.
  induction l as [|[q x|q b w] l IH]; cbn [last_attr]; [discriminate|..]; intros H; cbn [rev]; rewrite apply_snoc; cbn [apply1].
  - specialize (IH H). destruct (String.eqb_spec p q) as [-> |N].
    + rewrite fattr_fwrite; [exact IH|]. unfold fattr in IH. destruct (apply_ops (rev l) F q); discriminate.
    + unfold fattr. rewrite fwrite_other by congruence. exact IH.
  - destruct (String.eqb_spec p q) as [-> |N]; cbn [andb] in H.
    + destruct (Z.eqb_spec a b) as [-> |Nb].
      * destruct (last_data l q) as [d|] eqn:E; [|discriminate]. injection H as ->. rewrite fattr_fsetattr, Z.eqb_refl; [reflexivity|].
        apply (last_data_ok q d F) in E. unfold fdata in E. destruct (apply_ops (rev l) F q); discriminate.
      * specialize (IH H). unfold fattr in IH. destruct (apply_ops (rev l) F q) as [f|] eqn:E; [|discriminate]. rewrite fattr_fsetattr by congruence.
        destruct (Z.eqb_spec a b); [contradiction|]. unfold fattr. rewrite E. exact IH.
    + unfold fattr. rewrite fsetattr_other by congruence. apply IH. exact H.
Qed.
Lemma ops_data l p d F : last_data (rev l) p = Some d -> fdata (apply_ops l F) p = Some d.
Proof. intros H. rewrite <- (rev_involutive l). apply last_data_ok. exact H. Qed.
Lemma ops_attr l p a d F : last_attr (rev l) p a = Some d -> fattr (apply_ops l F) p a = Some d.
Proof. intros H. rewrite <- (rev_involutive l). apply last_attr_ok. exact H. Qed.
Lemma ops_factory F : factory (apply_ops all_ops F).
Proof.
  unfold factory, holds. repeat match goal with |- _ /\ _ => split end; try (apply ops_data; vm_compute; reflexivity);
    repeat first [apply Forall_nil | apply Forall_cons; [apply ops_attr; vm_compute; reflexivity|]].
Qed.

Lemma wp_ext {S A} (m m' : M S A) Q s e : (forall s e, m s e = m' s e) -> wp m' Q s e -> wp m Q s e.
Proof. intros H. unfold wp. rewrite H. exact (fun x => x). Qed.
Section Inst.
Variable F0 : fs.
(** Images on the way *)
Definition good (G : fs) : Prop := terminated G \/ factory G \/ mark G = mark F0.
Definition keeps (o : op) : Prop := match o with WF _ _ => True | WA p a _ => p <> "pgp-data" \/ a <> 0xFC end.
Lemma mark_create F p : mark (fcreate F p) = mark F.
Proof.
  unfold mark, fattr, fcreate. destruct (F p) eqn:E; [reflexivity|]. destruct (String.eqb_spec "pgp-data" p) as [<-|N]; [rewrite fset_same, E; reflexivity|rewrite fset_other by congruence; reflexivity].
Qed.
Lemma mark_keeps F o : keeps o -> mark (apply1 F o) = mark F.
Proof.
  destruct o as [p d|p a v]; cbn [keeps apply1]; intros H.
  - rewrite <- (mark_create F p). unfold mark, fwrite. destruct (fcreate F p p) as [f|] eqn:E; [|pose proof (fcreate_some F p); congruence].
    unfold fattr. destruct (String.eqb_spec "pgp-data" p) as [<-|N]; [rewrite fset_same, E; reflexivity|rewrite fset_other by congruence; reflexivity].
  - unfold mark, fattr, fsetattr. destruct (F p) as [f|] eqn:E; [|reflexivity]. destruct (String.eqb_spec "pgp-data" p) as [<-|N]; [|rewrite fset_other by congruence; reflexivity].
    rewrite fset_same, E. cbn [f_attr]. destruct H as [H|H]; [congruence|]. apply aset_other. congruence.
Qed.
(** Before the last update the mark is the old one or 1. *)
Definition early (G : fs) : Prop := terminated G \/ mark G = mark F0.
Lemma early_mark F G : mark G = mark F -> early F -> early G.
Proof. intros E [(l & H)|H]; [left; exists l; unfold mark in E; congruence|right; congruence]. Qed.
Definition doing (l : list op) (F : fs) (L : list fs) : Prop := F = apply_ops l F0 /\ early F /\ Forall early L.
Lemma in_attr p a v (Q : out unit -> pgp -> env -> Prop) s F L X R T O l :
  p <> "pgp-data" \/ a <> 0xFC \/ v = [1] -> last_data (rev l) p <> None -> doing l F L ->
  (forall F' L' X', (X = [] -> X' = []) -> doing (l ++ [WA p a v]) F' L' -> Q (Ret tt) s (mkE F' L' X' R T O)) ->
  (forall F' L' X', X <> [] -> early F' -> Forall early L' -> Q Fail s (mkE F' L' X' R T O)) ->
  wp (must (write_attr p a v)) Q s (mkE F L X R T O).
Proof.
  intros Hk Hl (E1 & E2 & E3) H1 H2. apply wp_must, wp_write_attr.
  - intros V X' HX. assert (HM : keeps (WA p a v) -> early (fsetattr F p a v)).
    { intros W. eapply early_mark; [|exact E2]. change (fsetattr F p a v) with (apply1 F (WA p a v)). apply mark_keeps. exact W. }
    assert (E : early (fsetattr F p a v)).
    { destruct (String.eqb_spec p "pgp-data") as [-> |N]; [|apply HM; left; exact N].
      destruct (Z.eq_dec a 0xFC) as [-> |N]; [|apply HM; right; exact N]. destruct Hk as [Hk|[Hk|Hk]]; try congruence.
      left. exists []. rewrite fattr_fsetattr by exact V. subst v. reflexivity. }
    apply H1; [exact HX|]. split; [rewrite apply_snoc, <- E1; reflexivity|]. split; [exact E|constructor; assumption].
  - intros V X' _. apply H2; [|assumption|assumption]. destruct V as [V|V]; [exact V|]. exfalso.
    destruct (last_data (rev l) p) as [d|] eqn:E; [|congruence]. apply (ops_data l p d F0) in E. rewrite <- E1 in E. unfold fdata in E. rewrite V in E. discriminate.
Qed.
Lemma in_file p d (Q : out unit -> pgp -> env -> Prop) s F L X R T O l : doing l F L ->
  (forall F' L' X', (X = [] -> X' = []) -> doing (l ++ [WF p d]) F' L' -> Q (Ret tt) s (mkE F' L' X' R T O)) ->
  (forall F' L' X', X <> [] -> early F' -> Forall early L' -> Q Fail s (mkE F' L' X' R T O)) ->
  wp (must (write_file p d 0 true)) Q s (mkE F L X R T O).
Proof.
  intros (E1 & E2 & E3) H1 H2.
  assert (EC : early (fcreate F p)) by (eapply early_mark; [apply mark_create|exact E2]).
  assert (EL : Forall early (lcreate F L p)) by (unfold lcreate; destruct (F p); [exact E3|constructor; assumption]).
  assert (EW : early (fwrite F p d 0 true)) by (eapply early_mark; [|exact E2]; change (fwrite F p d 0 true) with (apply1 F (WF p d)); apply mark_keeps; exact I).
  apply wp_must, wp_write_file.
  - intros X' HX. apply H1; [exact HX|]. split; [rewrite apply_snoc, <- E1; reflexivity|]. split; [exact EW|constructor; assumption].
  - intros N X'. apply H2; assumption.
  - intros N X'. apply H2; assumption.
Qed.
Lemma in_pin pp d (Q : out unit -> pgp -> env -> Prop) s F L X R T O l : pin_path pp <> "pgp-data" -> doing l F L ->
  (forall F' L' X', (X = [] -> X' = []) -> doing (l ++ pin_ops (pin_path pp) d) F' L' -> Q (Ret tt) s (mkE F' L' X' R T O)) ->
  (forall F' L' X', X <> [] -> early F' -> Forall early L' -> Q Fail s (mkE F' L' X' R T O)) ->
  wp (mustz (pin_create pp d 3)) Q s (mkE F L X R T O).
Proof.
  intros Hp H H1 H2.
  assert (EQ : forall s e, mustz (pin_create pp d 3) s e = (must (write_file (pin_path pp) d 0 true) ;;; must (write_attr (pin_path pp) 0 [3]) ;;; must (write_attr (pin_path pp) 1 [3])) s e).
  { intros s1 e1. unfold mustz, must, pin_create, bind, ret, fail, RETRY_ATTR, DEFAULT_RETRY_ATTR. destruct (write_file (pin_path pp) d 0 true s1 e1) as [[[[]| | |] s2] e2]; try reflexivity.
    cbn [negb]. destruct (write_attr (pin_path pp) 0 [3] s2 e2) as [[[[]| | |] s3] e3]; try reflexivity.
    cbn [negb]. destruct (write_attr (pin_path pp) 1 [3] s3 e3) as [[[[]| | |] s4] e4]; reflexivity. }
  apply (wp_ext _ _ _ _ _ EQ).
  assert (HL : forall x, last_data (rev ((l ++ [WF (pin_path pp) d]) ++ x)) (pin_path pp) <> None).
  { intros x. rewrite rev_app_distr, rev_app_distr. cbn [rev app]. induction (rev x) as [|[q y|q y z] r IH]; cbn [app last_data]; [rewrite String.eqb_refl; discriminate|destruct (String.eqb _ _); [discriminate|exact IH]|exact IH]. }
  apply wp_bind, (in_file _ _ _ _ _ _ _ _ _ _ l); [exact H| |exact H2]. intros F1 L1 X1 C1 D1.
  apply wp_bind, (in_attr _ _ _ _ _ _ _ _ _ _ _ (l ++ [WF (pin_path pp) d])); [auto|rewrite <- (app_nil_r (l ++ _)); apply HL|exact D1| |intros F' L' X' N; apply H2; intros V; apply N; auto].
  intros F2 L2 X2 C2 D2.
  apply (in_attr _ _ _ _ _ _ _ _ _ _ _ ((l ++ [WF (pin_path pp) d]) ++ [WA (pin_path pp) 0 [3]])); [auto|apply HL|exact D2| |intros F' L' X' N; apply H2; intros V; apply N; auto].
  intros F3 L3 X3 C3 D3. apply H1; [auto|]. rewrite <- !app_assoc in D3. exact D3.
Qed.
Lemma in_key p u (Q : out unit -> pgp -> env -> Prop) s F L X R T O l : p <> "pgp-data" -> doing l F L ->
  (forall F' L' X', (X = [] -> X' = []) -> doing (l ++ key_ops p u) F' L' -> Q (Ret tt) s (mkE F' L' X' R T O)) ->
  (forall F' L' X', X <> [] -> early F' -> Forall early L' -> Q Fail s (mkE F' L' X' R T O)) ->
  wp (install_key p u) Q s (mkE F L X R T O).
Proof.
  intros Hp H H1 H2.
  assert (EQ : forall s e, must (ck_write_key p (empty_key u)) s e = (must (write_file p (zeros KEY_SIZE) 0 true) ;;; must (write_attr p 0xFF [RSA2048; 0; u; 0; 0])) s e).
  { intros s1 e1. unfold must, ck_write_key, ck_write_key_metadata, bind, KEY_META_ATTR, empty_key, meta_bytes. cbn [k_data k_meta m_type m_origin m_usage m_pin m_touch].
    destruct (write_file p (zeros KEY_SIZE) 0 true s1 e1) as [[[[]| | |] s2] e2]; reflexivity. }
  unfold install_key. apply wp_bind, (wp_ext _ _ _ _ _ EQ).
  assert (HL : forall x, last_data (rev ((l ++ [WF p (zeros KEY_SIZE)]) ++ x)) p <> None).
  { intros x. rewrite rev_app_distr, rev_app_distr. cbn [rev app]. induction (rev x) as [|[q y|q y z] r IH]; cbn [app last_data]; [rewrite String.eqb_refl; discriminate|destruct (String.eqb _ _); [discriminate|exact IH]|exact IH]. }
  apply wp_bind, (in_file _ _ _ _ _ _ _ _ _ _ l); [exact H| |exact H2]. intros F1 L1 X1 C1 D1.
  apply (in_attr _ _ _ _ _ _ _ _ _ _ _ (l ++ [WF p (zeros KEY_SIZE)])); [auto|rewrite <- (app_nil_r (l ++ _)); apply HL|exact D1| |intros F' L' X' N; apply H2; intros V; apply N; auto].
  intros F2 L2 X2 C2 D2.
  apply wp_bind, (in_attr _ _ _ _ _ _ _ _ _ _ _ ((l ++ [WF p (zeros KEY_SIZE)]) ++ [WA p 0xFF [RSA2048; 0; u; 0; 0]])); [auto|apply HL|exact D2| |intros F' L' X' N; apply H2; intros V; apply N; auto].
  intros F3 L3 X3 C3 D3. rewrite <- app_assoc in D3.
  apply (in_attr _ _ _ _ _ _ _ _ _ _ _ ((l ++ [WF p (zeros KEY_SIZE)]) ++ [WA p 0xFF [RSA2048; 0; u; 0; 0]; WA p 0 (zeros 20)])); [auto|apply HL|exact D3| |intros F' L' X' N; apply H2; intros V; apply N; auto].
  intros F4 L4 X4 C4 D4. apply H1; [auto|]. rewrite <- !app_assoc in D4. exact D4.
Qed.
(** An installation: either it succeeds and leaves the factory state, or it fails; every image on the way has the old mark, or is terminated, or is the factory state. *)
Ltac ins1 H2 :=
  match goal with
  | D : doing ?l ?F ?L |- wp _ _ _ (mkE ?F ?L ?X _ _ _) =>
    apply wp_bind;
    first
    [ apply (in_file _ _ _ _ F L X _ _ _ l); [exact D| |intros F' L' X' N; apply H2; intros V; apply N; auto]
    | apply (in_attr _ _ _ _ _ F L X _ _ _ l); [first [left; discriminate | right; left; discriminate | right; right; reflexivity]|vm_compute; discriminate|exact D| |intros F' L' X' N; apply H2; intros V; apply N; auto]
    | apply (in_key _ _ _ _ F L X _ _ _ l); [discriminate|exact D| |intros F' L' X' N; apply H2; intros V; apply N; auto]
    | apply (in_pin _ _ _ _ F L X _ _ _ l); [discriminate|exact D| |intros F' L' X' N; apply H2; intros V; apply N; auto]
    | apply wp_modify ];
    try (clear D; let F' := fresh "F" in let L' := fresh "L" in let X' := fresh "X" in let C := fresh "C" in let D' := fresh "D" in
      intros F' L' X' C D'; cbn [app key_ops pin_ops] in D';
      lazymatch goal with C0 : _ = [] -> X = [] |- _ => pose proof (fun V => C (C0 V)); clear C0 C | _ => idtac end)
  end.
Lemma install_ok s (X0 X : list fault) L R T O (Q : out unit -> pgp -> env -> Prop) : (X0 = [] -> X = []) -> Forall early L ->
  (forall F' L' X' s', factory F' -> Forall good L' -> Q (Ret tt) s' (mkE F' L' X' R T O)) ->
  (forall F' L' X' s', X0 <> [] -> early F' -> Forall early L' -> Q Fail s' (mkE F' L' X' R T O)) ->
  wp (pgp_install true) Q s (mkE F0 L X R T O).
Proof.
  intros HX HL H1 H2. assert (D0 : doing [] F0 L) by (split; [reflexivity|]; split; [right; reflexivity|exact HL]).
  unfold pgp_install. apply wp_bind, wp_modify, wp_bind, wp_ret. cbv iota. unfold reset_sig_counter.
  do 22 (ins1 H2).
  match goal with D : doing ?l ?F ?L |- wp (must (write_attr ?p ?a ?v)) _ _ _ => destruct D as (E1 & E2 & E3); apply wp_must, wp_write_attr end.
  - intros V X' _.
    match goal with E1 : ?F = apply_ops ?l _ |- _ => assert (HG : factory (apply1 F (WA DATA_PATH ATTR_TERMINATED [0])));
      [assert (EL : l ++ [WA DATA_PATH ATTR_TERMINATED [0]] = all_ops) by (vm_compute; reflexivity); rewrite E1, <- apply_snoc, EL; apply ops_factory|] end.
    apply H1; [exact HG|]. constructor; [right; left; exact HG|]. eapply Forall_impl; [|exact E3]. intros G [W|W]; [left; exact W|right; right; exact W].
  - intros V X' _. apply H2; [|assumption|assumption]. destruct V as [V|V]; [intros W; apply V; match goal with C : X0 = [] -> _ |- _ => exact (C W) end|]. exfalso.
    match type of E1 with ?F = apply_ops ?l _ => assert (W : fdata F DATA_PATH = Some []); [rewrite E1; apply ops_data; vm_compute; reflexivity|] end.
    clear E1 E2 E3. unfold fdata in W. rewrite V in W. discriminate.
Qed.
End Inst.

(** ** TERMINATE *)
Section Mark.
Variable K : crypto.
Variable nfc : bool.
Variables t1 t2 junk : Z.
Notation body := (pgp_body K nfc t1 t2 junk).
Lemma mark_other m q : q <> "pgp-data" -> indep (fun G => mark G = m) q.
Proof. intros Hq G x H. unfold mark, fattr in *. rewrite fset_other by congruence. exact H. Qed.
Lemma mark_attr m a v : a <> 0xFC -> forall G f, mark G = m -> G "pgp-data" = Some f -> mark (fset G "pgp-data" (Some (mkF (f_data f) (aset (f_attr f) a v)))) = m.
Proof. intros Ha G f H E. unfold mark, fattr in *. rewrite fset_same. cbn [f_attr]. rewrite E in H. rewrite aset_other by congruence. exact H. Qed.
Lemma mark_write m d o t : frame (fun _ : pgp => True) (fun G => mark G = m) (write_file "pgp-data" d o t).
Proof.
  assert (HS : forall G f x, mark G = m -> G "pgp-data" = Some f -> mark (fset G "pgp-data" (Some (mkF x (f_attr f)))) = m).
  { intros G f x H E. unfold mark, fattr in *. rewrite fset_same. cbn [f_attr]. rewrite E in H. exact H. }
  intros s e H. apply fr_pop in H. unfold wp, write_file. destruct (pop_fault e) as [x e']. cbn [snd] in H.
  destruct x; try exact H; (destruct (e_fs e' "pgp-data") as [f|] eqn:E;
    [ rewrite ?E; first [exact H | apply fgood_commit; [exact H|]; apply HS; [apply H|exact E]] | ]).
  all: assert (H1 : fgood (fun _ : pgp => True) (fun G => mark G = m) s (commit (fset (e_fs e') "pgp-data" (Some (mkF [] no_attr))) e')) by
      (apply fgood_commit; [exact H|]; destruct H as (_ & H & _); unfold mark, fattr in *; rewrite fset_same; rewrite E in H; exact H).
  - cbn [e_fs commit]. rewrite ?fset_same. apply fgood_commit; [exact H1|]. apply (HS _ (mkF [] no_attr)); [apply H1|apply fset_same].
  - exact H1.
Qed.
Ltac frm := repeat first [
    match goal with
    | |- frame _ _ (match cert_path ?g with _ => _ end) => let E := fresh in destruct (cert_path g) eqn:E; [apply cert_paths in E|]
    | |- frame _ _ (match get_key_path ?g with _ => _ end) => let E := fresh in destruct (get_key_path g) eqn:E; [apply key_paths in E; destruct E as [E ?]|]
    | |- frame _ _ (write_file ?p _ _ _) => first [apply mark_write | apply fr_write_file, mark_other; first [discriminate | assumption]]
    | |- frame _ _ (write_attr _ _ _) =>
        first [apply fr_write_attr, mark_other; first [discriminate | assumption] | apply fr_write_attr_at, mark_attr; discriminate]
    end | frame1 ].
Lemma fr_mark m c tail : c_ins c <> 0x44 -> c_ins c <> 0xE6 -> frame (fun _ => True) (fun G => mark G = m) (body c tail).
Proof.
  intros N1 N2. unfold pgp_body. cbv zeta.
  apply fr_bind; [apply fr_guard|intros _]. apply fr_bind; [apply fr_selection; auto|intros _].
  apply fr_bind; [apply fr_read_attr|intros [v|]]; [|apply fr_except]. apply fr_bind; [apply fr_guard|intros _].
  destruct (c_ins c =? 0xA4); [unfold pgp_select; pgp_unfold; frm|].
  destruct (Z.eqb_spec (c_ins c) 0x44); [contradiction|].
  destruct (c_ins c =? 0xCA); [unfold pgp_get_data, application_related_data, discretionary_data, cardholder_related_data, pw_status_bytes; pgp_unfold; frm|].
  destruct (c_ins c =? 0xA5); [unfold pgp_select_data; pgp_unfold; frm|].
  destruct (c_ins c =? 0xCC); [unfold pgp_get_next_data; pgp_unfold; frm|].
  destruct (c_ins c =? 0x20); [unfold pgp_verify, verify_with, verify_pin; pgp_unfold; frm|].
  destruct (c_ins c =? 0x24); [unfold pgp_change_reference_data, change_with, verify_prefix, update_rest; pgp_unfold; frm|].
  destruct (c_ins c =? 0x2C); [unfold pgp_reset_retry_counter, verify_prefix, update_rest; pgp_unfold; frm|].
  destruct (c_ins c =? 0xDA); [unfold pgp_put_data, put_algorithm, put_uif, put_resetting_code; pgp_unfold; frm|].
  destruct (c_ins c =? 0xDB); [unfold pgp_import; pgp_unfold; frm|].
  destruct (c_ins c =? 0x47); [unfold pgp_generate; pgp_unfold; frm|].
  destruct (c_ins c =? 0x2A).
  { destruct (_ && _).
    { unfold pgp_sign_or_auth; pgp_unfold; frm. }
    destruct (_ && _); [unfold pgp_decipher; pgp_unfold; frm|apply fr_except]. }
  destruct (c_ins c =? 0x88); [unfold pgp_sign_or_auth; pgp_unfold; frm|].
  destruct (c_ins c =? 0x84); [unfold pgp_get_challenge; pgp_unfold; frm|].
  destruct (Z.eqb_spec (c_ins c) 0xE6); [contradiction|].
  apply fr_except.
Qed.
End Mark.
(** Executing [x] may leave the storage [G] (at the end, or if the power fails on the way). *)
Definition may_leave (K : crypto) (d : dev) (x : cmd) (G : fs) : Prop := let '(_, _, e) := exec K d x in G = e_fs e \/ In G (e_log e).
Definition terminate_cmd (c : capdu) : Prop := c_cla c = 0 /\ c_ins c = 0xE6 /\ c_p1 c = 0 /\ c_p2 c = 0.
Definition activate_cmd (c : capdu) : Prop := c_cla c = 0 /\ c_ins c = 0x44 /\ c_p1 c = 0 /\ c_p2 c = 0.
Lemma retries_zero (Q : out Z -> pgp -> env -> Prop) s F L X R T O :
  (forall X' r, (r = 0 -> blocked_pw3 F) -> Q (Ret r) s (mkE F L X' R T O)) -> wp (pin_get_retries pw3) Q s (mkE F L X R T O).
Proof.
  intros H. unfold pin_get_retries, pin_get_attr, pin_get_size. apply wp_bind, wp_get_file_size. intros X1 r _ Hr.
  assert (W : forall X2, wp (a <- read_attr (pin_path pw3) RETRY_ATTR ;; match a with Some v => ret (attr1 v) | None => ret PIN_IO_FAIL end) Q s (mkE F L X2 R T O)).
  { intros X2. apply wp_bind, wp_read_attr. intros X3 [v|] _ Hv; apply wp_ret, H; [|discriminate].
    destruct Hv as [Hv|Hv]; [discriminate|]. intros E. apply attr1_zero in E. left. destruct E as [-> |(l & ->)]; [exists []|exists l]; auto. }
  destruct r as [[| |]|]; try apply W. apply wp_ret, H. intros _. right. destruct Hr as [Hr|Hr]; [discriminate|]. cbn [pin_path pw3] in Hr. unfold fsize, fdata in *.
  destruct (F "pgp-pw3") as [f|]; [|discriminate]. injection Hr as Hr. cbn [option_map]. destruct (f_data f) as [|b l] eqn:E; [reflexivity|].
  unfold zlen in Hr. cbn [length] in Hr. lia.
Qed.
(** The card becomes terminated (and the mark changes in any way) only by TERMINATE DF, given while PW3 has been shown in this session or while PW3 is blocked; or by
    ACTIVATE (see below). *)
Theorem C40_terminate : forall K tr d x G, since_boot K tr d -> may_leave K d x G -> mark G <> mark (d_fs d) -> c_ins (x_apdu x) <> 0x44 ->
  terminate_cmd (x_apdu x) /\ terminated G /\ (given 0x83 tr \/ blocked_pw3 (d_fs d)).
Proof.
  intros K tr d x G H HG Hm N44. destruct (Z.eq_dec (c_ins (x_apdu x)) 0xE6) as [IE6|NE6].
  2: { exfalso. apply Hm. unfold may_leave, exec in HG.
       pose proof (frame_apdu (fun _ => True) (fun G => mark G = mark (d_fs d)) _ (d_ram d) (d_fs d) (x_flt x) (x_rnd x) (x_tch x) (fr_mark K (x_nfc x) (x_t1 x) (x_t2 x) (x_junk x) (mark (d_fs d)) (x_apdu x) (x_tail x) N44 NE6) I eq_refl) as W.
       destruct (run_apdu _ _ _) as [[r s'] e']. destruct W as (_ & W1 & W2). destruct HG as [-> |HG]; [exact W1|]. rewrite Forall_forall in W2. apply W2. exact HG. }
  assert (HF : g_pw3 (d_ram d) = true -> given 0x83 tr) by (intros V; apply (given_of K tr d); [cbn; auto|exact H|exact V]).
  pose proof (exec_wp K d x (fun _ _ e' => (G = e_fs e' \/ In G (e_log e')) -> mark G <> mark (d_fs d) -> terminate_cmd (x_apdu x) /\ terminated G /\ (given 0x83 tr \/ blocked_pw3 (d_fs d)))) as HW.
  unfold may_leave in HG. destruct (exec K d x) as [[r0 s0] e0]. apply HW; [|exact HG|exact Hm]. clear HW HG Hm r0 s0 e0.
  assert (HN : (G = d_fs d \/ In G [d_fs d]) -> mark G <> mark (d_fs d) -> terminate_cmd (x_apdu x) /\ terminated G /\ (given 0x83 tr \/ blocked_pw3 (d_fs d))).
  { intros [-> |[<-|[]]] N; elim N; reflexivity. }
  unfold pgp_body, start. rewrite IE6. apply wp_bind, wp_guard; intros G1; [|exact HN].
  apply wp_bind, wp_selection; [intros s1 (_ & _ & S1)|intros _; exact HN].
  apply wp_bind, wp_read_attr; intros X1 [tv|] _ _; [|apply wp_except; exact HN]. cbv zeta. apply wp_bind, wp_guard; intros G2; [|exact HN].
  cbn [Z.eqb Pos.eqb]. unfold pgp_terminate. apply wp_bind, wp_guard; intros G3; [|exact HN]. apply wp_bind, retries_zero. intros X2 r Hr.
  wif Hneg; [exact HN|]. apply wp_bind.
  assert (W : forall X', (given 0x83 tr \/ blocked_pw3 (d_fs d)) -> wp (must (write_attr DATA_PATH ATTR_TERMINATED [1]);;; ret SW_NO_ERROR) (fun _ _ e' => (G = e_fs e' \/ In G (e_log e')) -> mark G <> mark (d_fs d) -> terminate_cmd (x_apdu x) /\ terminated G /\ (given 0x83 tr \/ blocked_pw3 (d_fs d))) s1 (mkE (d_fs d) [d_fs d] X' (x_rnd x) (x_tch x) [])).
  { intros X' HP. apply wp_bind, wp_must, wp_write_attr; [|intros V X3 _; exact HN]. intros V X3 _. apply wp_ret. cbn [e_fs e_log].
    assert (HT : terminated (fsetattr (d_fs d) DATA_PATH ATTR_TERMINATED [1])).
    { exists []. unfold DATA_PATH, ATTR_TERMINATED. rewrite fattr_fsetattr by exact V. reflexivity. }
    intros HG N. split; [repeat split; lia|]. split; [|exact HP]. destruct HG as [-> |[<-|[<-|[]]]]; try exact HT. elim N. reflexivity. }
  wif Hpos.
  - unfold assert_admin. apply wp_bind, wp_get, wp_guard; intros G4; [|exact HN]. apply W. left. apply HF. congruence.
  - apply wp_ret, W. right. apply Hr. lia.
Qed.
Print Assumptions C40_terminate.
(** TERMINATE answered 9000 leaves the card terminated. *)
Theorem C40_done : forall K d x r d', step K d (Do x) = Some (Some r, d') -> terminate_cmd (x_apdu x) -> r_sw r = 0x9000 -> terminated (d_fs d').
Proof.
  intros K d x r d' Hs (HC & HI & H1 & H2) Hr. cbn [step] in Hs.
  pose proof (exec_wp K d x (fun r' s' e' => forall r, r' = Some r -> r_sw r = 0x9000 -> terminated (e_fs e'))) as HW.
  destruct (exec K d x) as [[[r'|] s'] e']; [|discriminate]. injection Hs as -> <-. cbn [d_fs]. apply HW with (r := r); [|reflexivity|exact Hr]. clear - HC HI H1 H2.
  unfold pgp_body, start. rewrite HI, HC. apply wp_bind, wp_guard; intros G1; [|discriminate G1].
  apply wp_bind, wp_selection; [intros s1 _|intros V; rewrite HI in V; discriminate]. apply wp_bind, wp_read_attr; intros X1 [tv|] _ _; [|apply wp_except; nosw].
  cbv zeta. apply wp_bind, wp_guard; intros G2; [|nosw]. cbn [Z.eqb Pos.eqb]. unfold pgp_terminate. apply wp_bind, wp_guard; intros G3; [|nosw].
  apply wp_bind, retries_zero. intros X2 n _. wif Hneg; [apply wp_fail; nosw|]. apply wp_bind.
  assert (WW : forall X', wp (must (write_attr DATA_PATH ATTR_TERMINATED [1]);;; ret SW_NO_ERROR) (fun o s' e' => forall r, match o with Ret w | Exc w => Some (mkR (e_out e') w) | Fail => Some (mkR (e_out e') SW_UNABLE_TO_PROCESS) | UB => None end = Some r -> r_sw r = 0x9000 -> terminated (e_fs e')) s1 (mkE (d_fs d) [d_fs d] X' (x_rnd x) (x_tch x) [])).
  { intros X'. apply wp_bind, wp_must, wp_write_attr; [|intros V X3 _; nosw]. intros V X3 _. apply wp_ret. cbn [e_fs e_log]. intros r _ _. exists [].
    unfold DATA_PATH, ATTR_TERMINATED. rewrite fattr_fsetattr by exact V. reflexivity. }
  wif Hpos; [|apply wp_ret, WW]. unfold assert_admin. apply wp_bind, wp_get, wp_guard; intros G4; [apply WW|nosw].
Qed.
Print Assumptions C40_done.
(** A terminated card executes nothing but SELECT and ACTIVATE: every other command is refused, gives no data and changes nothing. *)
Theorem C40_terminated : forall K d x, terminated (d_fs d) -> c_ins (x_apdu x) <> 0x44 -> c_ins (x_apdu x) <> 0xA4 ->
  let '(r, _, e) := exec K d x in
  exists sw, r = Some (mkR [] sw) /\ e_fs e = d_fs d /\ e_log e = [d_fs d] /\
  (sw = 0x6285 \/ sw = 0x6900 /\ x_flt x <> [] \/ sw = 0x6E00 /\ c_cla (x_apdu x) <> 0 \/ sw = 0x6985 /\ c_ins (x_apdu x) = 0xCC).
Proof.
  intros K d x (l & HT) N44 NA4.
  apply (exec_wp K d x (fun r _ e => exists sw, r = Some (mkR [] sw) /\ e_fs e = d_fs d /\ e_log e = [d_fs d] /\
    (sw = 0x6285 \/ sw = 0x6900 /\ x_flt x <> [] \/ sw = 0x6E00 /\ c_cla (x_apdu x) <> 0 \/ sw = 0x6985 /\ c_ins (x_apdu x) = 0xCC))).
  unfold pgp_body, start. apply wp_bind, wp_guard; intros G1; [|eexists; split; [reflexivity|]; repeat split; right; right; left; split; [reflexivity|lia]].
  apply wp_bind, wp_selection; [intros s1 _|intros V; eexists; split; [reflexivity|]; repeat split; auto 10].
  apply wp_bind, wp_read_attr; intros X1 tv HX Hv. unfold DATA_PATH, ATTR_TERMINATED in *. rewrite HT in *.
  destruct tv as [tv|].
  2: { apply wp_except. eexists; split; [reflexivity|]; repeat split. right. left. split; [reflexivity|]. intros E. destruct (HX E). discriminate. }
  destruct Hv as [Hv|Hv]; [discriminate|]. injection Hv as ->. cbv zeta. apply wp_bind, wp_guard; intros G2.
  - exfalso. cbn [attr1 Z.eqb Pos.eqb andb] in G2. destruct (Z.eqb_spec (c_ins (x_apdu x)) 0x44); [contradiction|]. destruct (Z.eqb_spec (c_ins (x_apdu x)) 0xA4); [contradiction|]. discriminate.
  - eexists; split; [reflexivity|]; repeat split. auto.
Qed.
Print Assumptions C40_terminated.
(** ACTIVATE on a terminated card: with a working storage it is answered 9000 and leaves the factory state.  If the storage fails or the power is lost on the way the
    card is still terminated (so that ACTIVATE can be repeated) or in its factory state. *)
Theorem C40_activate : forall K d x, terminated (d_fs d) -> activate_cmd (x_apdu x) ->
  let '(r, _, e) := exec K d x in
  (r = Some (mkR [] 0x9000) /\ factory (e_fs e) \/ r = Some (mkR [] 0x6900) /\ x_flt x <> [] /\ terminated (e_fs e)) /\
  Forall (fun G => terminated G \/ factory G) (e_log e).
Proof.
  intros K d x HT (HC & HI & H1 & H2).
  apply (exec_wp K d x (fun r _ e => (r = Some (mkR [] 0x9000) /\ factory (e_fs e) \/ r = Some (mkR [] 0x6900) /\ x_flt x <> [] /\ terminated (e_fs e)) /\ Forall (fun G => terminated G \/ factory G) (e_log e))).
  unfold pgp_body, start. rewrite HI, HC. apply wp_bind, wp_guard; intros G1; [|discriminate G1].
  apply wp_bind, wp_selection; [intros s1 _|intros V; rewrite HI in V; discriminate].
  pose proof HT as (l & HM). apply wp_bind, wp_read_attr; intros X1 tv HX Hv. unfold DATA_PATH, ATTR_TERMINATED in HX, Hv. rewrite HM in *.
  destruct tv as [tv|].
  2: { apply wp_except. split; [right; split; [reflexivity|]; split; [|exact HT]; intros E; destruct (HX E); discriminate|]. constructor; [left; exact HT|constructor]. }
  destruct Hv as [Hv|Hv]; [discriminate|]. injection Hv as ->. cbv zeta. apply wp_bind, wp_guard; intros G2; [|discriminate G2]. cbn [attr1 Z.eqb Pos.eqb].
  apply wp_bind, wp_guard; intros G3; [|discriminate G3]. unfold pgp_activate. apply wp_bind, wp_guard; intros G4; [|rewrite H1, H2 in G4; discriminate G4].
  assert (HE : forall G, early (d_fs d) G -> terminated G).
  { intros G [W|W]; [exact W|]. exists l. unfold mark in W. rewrite W. exact HM. }
  apply wp_bind, (install_ok (d_fs d) s1 (x_flt x)); [intros E; apply HX; exact E|constructor; [left; exact HT|constructor]|..].
  - intros F' L' X' s' HF HL. apply wp_ret. split; [left; auto|]. eapply Forall_impl; [|exact HL]. intros G [W|[W|W]]; [auto|auto|]. left. apply HE. right. exact W.
  - intros F' L' X' s' N HF HL. split; [right; split; [reflexivity|]; split; [exact N|apply HE; exact HF]|]. eapply Forall_impl; [|exact HL]. intros G W. left. apply HE. exact W.
Qed.
Print Assumptions C40_activate.
(** ACTIVATE on a card that is not terminated is refused and changes nothing. *)
Theorem C40_not_terminated : forall K d x, live (d_fs d) -> c_ins (x_apdu x) = 0x44 ->
  let '(r, _, e) := exec K d x in (forall a, r = Some a -> r_data a = [] /\ r_sw a <> 0x9000) /\ r <> None /\ e_fs e = d_fs d /\ e_log e = [d_fs d].
Proof.
  intros K d x (l & HL) HI.
  apply (exec_wp K d x (fun r _ e => (forall a, r = Some a -> r_data a = [] /\ r_sw a <> 0x9000) /\ r <> None /\ e_fs e = d_fs d /\ e_log e = [d_fs d])).
  Ltac refused := split; [intros a E; injection E as <-; split; [reflexivity|discriminate]|]; split; [discriminate|split; reflexivity].
  unfold pgp_body, start. rewrite HI. apply wp_bind, wp_guard; intros G1; [|refused].
  apply wp_bind, wp_selection; [intros s1 _|intros V; rewrite HI in V; discriminate].
  apply wp_bind, wp_read_attr; intros X1 [tv|] _ Hv; [|apply wp_except; refused]. cbv zeta. apply wp_bind, wp_guard; intros G2; [|refused].
  destruct Hv as [Hv|Hv]; [discriminate|]. unfold DATA_PATH, ATTR_TERMINATED in Hv. rewrite HL in Hv. injection Hv as ->. cbn [attr1 Z.eqb Pos.eqb].
  apply wp_bind, wp_guard; intros G3; [discriminate G3|refused].
Qed.
Print Assumptions C40_not_terminated.

(** ** Power loss during the first installation (C62) *)
(** A storage without OpenPGP data.  Whatever fails, and whenever the power is lost, the storage found at the next boot has no OpenPGP data (so that the installation is
    done again), or is marked as terminated (so that ACTIVATE completes it, C40_activate), or is in the factory state; or it has the data file without the mark. *)
Theorem C62_pgp_partial : forall F flt, F "pgp-data" = None ->
  let '(o, _, e) := installed false pgp_boot F flt in
  (flt = [] -> o = Ret tt /\ factory (e_fs e)) /\
  Forall (fun G => G "pgp-data" = None \/ terminated G \/ factory G \/ (G "pgp-data" <> None /\ mark G = None)) (e_log e).
Proof.
  intros F flt HN. unfold installed.
  assert (HM : mark F = None) by (unfold mark, fattr; rewrite HN; reflexivity).
  set (Q := fun (o : out unit) (_ : pgp) e => (flt = [] -> o = Ret tt /\ factory (e_fs e)) /\
    Forall (fun G => G "pgp-data" = None \/ terminated G \/ factory G \/ (G "pgp-data" <> None /\ mark G = None)) (e_log e)).
  assert (W : wp (pgp_install false) Q pgp_boot (start F flt [] [])).
  { assert (HG : forall G, good F G -> G "pgp-data" = None \/ terminated G \/ factory G \/ (G "pgp-data" <> None /\ mark G = None)).
    { intros G [W|[W|W]]; [auto|auto|]. destruct (G "pgp-data") eqn:E; [right; right; right; split; [discriminate|congruence]|auto]. }
    assert (HI : forall X, (flt = [] -> X = []) -> wp (pgp_install true) Q pgp_boot (mkE F [F] X [] [] [])).
    { intros X HX. apply (install_ok F _ flt); [exact HX|constructor; [right; reflexivity|constructor]|..].
      - intros F' L' X' s' HF HL. split; [auto|]. eapply Forall_impl; [|exact HL]. exact HG.
      - intros F' L' X' s' N _ HL. split; [intros E; elim N; exact E|]. eapply Forall_impl; [|exact HL]. intros G [W|W]; apply HG; [left; exact W|right; right; exact W]. }
    unfold start. unfold pgp_install in *. apply wp_bind, wp_modify. apply wp_bind, wp_bind, wp_get_file_size. intros X r HX Hr. apply wp_ret.
    assert (Er : r = None) by (destruct Hr as [Hr|Hr]; [exact Hr|]; rewrite Hr; unfold fsize, DATA_PATH; rewrite HN; reflexivity). subst r.
    assert (HX' : flt = [] -> X = []) by (intros E; apply HX; exact E). specialize (HI X HX'). exact HI. }
  unfold wp in W. destruct (pgp_install _ _ _) as [[o s'] e']. exact W.
Qed.
Print Assumptions C62_pgp_partial.
(** In that last case the applet is lost: it is not installed again at boot, and every command (SELECT and ACTIVATE included) is refused, for ever.  One power cut during
    the first boot of a working device leads there. *)
Definition dead (d : dev) : Prop := d_fs d "pgp-data" <> None /\ mark (d_fs d) = None.
Lemma dead_refuses K d x : dead d -> let '(r, _, e) := exec K d x in
  (exists sw, r = Some (mkR [] sw) /\ In sw [0x6900; 0x6E00; 0x6985]) /\ e_fs e = d_fs d /\ e_log e = [d_fs d].
Proof.
  intros (_ & HM). apply (exec_wp K d x (fun r _ e => (exists sw, r = Some (mkR [] sw) /\ In sw [0x6900; 0x6E00; 0x6985]) /\ e_fs e = d_fs d /\ e_log e = [d_fs d])).
  unfold pgp_body, start. apply wp_bind, wp_guard; intros G1; [|split; [eexists; split; [reflexivity|cbn; auto]|auto]].
  apply wp_bind, wp_selection; [intros s1 _|intros V; split; [eexists; split; [reflexivity|cbn; auto]|auto]].
  apply wp_bind, wp_read_attr; intros X1 tv _ Hv. assert (Et : tv = None) by (destruct Hv as [Hv|Hv]; [exact Hv|rewrite Hv; exact HM]). subst tv.
  apply wp_except. split; [eexists; split; [reflexivity|cbn; auto]|auto].
Qed.
Definition no_reset (v : ev) : Prop := match v with Install _ | InstallCut _ _ _ => False | Cut _ _ flt => hd FNone flt = FNone | _ => True end.
Theorem C62_pgp_refuted : exists F, F "pgp-data" = None /\ exists n, let '(_, _, e) := installed false pgp_boot F [] in
  forall K d0 tr d, d0 = boot (nth n (e_log e) (e_fs e)) [] -> hist K d0 tr d -> Forall (fun y => no_reset (snd (fst y))) tr ->
  forall x r d', step K d (Do x) = Some (r, d') -> exists sw, r = Some (mkR [] sw) /\ In sw [0x6900; 0x6E00; 0x6985].
Proof.
  exists fs_empty. split; [reflexivity|].
  assert (exists n, let '(_, _, e) := installed false pgp_boot fs_empty [] in (match nth n (e_log e) (e_fs e) "pgp-data" with Some _ => true | None => false end) = true /\ mark (nth n (e_log e) (e_fs e)) = None) as (n & H).
  { exists 46%nat. vm_compute. split; reflexivity. }
  exists n. destruct (installed false pgp_boot fs_empty []) as [[o s] e]. destruct H as (A & B). revert A B. generalize (nth n (e_log e) (e_fs e)). clear.
  intros G A B K d0 tr d E0 Hh Hn. assert (HD : d_fs d0 = G) by (subst d0; apply boot_same; destruct (G "pgp-data"); discriminate).
  assert (W : dead d).
  { clear E0. induction Hh as [d0|d0 tr d v o d' Hh IH Hok Hst]; [split; rewrite HD; [destruct (G "pgp-data"); discriminate|exact B]|].
    apply Forall_app in Hn. destruct Hn as (Hn1 & Hn2). inversion Hn2 as [|? ? Hn3 _]; subst. cbn [fst snd] in Hn3. specialize (IH Hn1 eq_refl). clear Hn1 Hn2.
    destruct v as [x|x k flt| |flt|flt k flt'|F]; cbn [no_reset] in Hn3; try contradiction.
    - pose proof (dead_refuses K d x IH) as W. cbn [step] in Hst. destruct (exec K d x) as [[[r|] s'] e']; [|discriminate]. injection Hst as <- <-. destruct W as (_ & W & _). unfold dead. cbn [d_fs]. rewrite W. exact IH.
    - pose proof (dead_refuses K d x IH) as W. cbn [step] in Hst. destruct (exec K d x) as [[r s'] e']. injection Hst as <- <-. destruct W as (_ & W1 & W2).
      assert (E : nth k (e_log e') (e_fs e') = d_fs d) by (rewrite W1, W2; destruct k as [|[|k]]; reflexivity). rewrite E. unfold dead. rewrite boot_same2; [exact IH|apply IH|exact Hn3].
    - cbn [step] in Hst. injection Hst as <- <-. exact IH.
    - cbn [step] in Hst. injection Hst as <- <-. unfold dead, mark, fattr in *. cbn [d_fs ev_ok] in *. rewrite Hok by (cbn; auto). exact IH. }
  intros x r d' Hs. pose proof (dead_refuses K d x W) as V. cbn [step] in Hs. destruct (exec K d x) as [[[r'|] s'] e']; [|discriminate]. injection Hs as <- <-.
  destruct V as ((sw & V & V') & _). exists sw. auto.
Qed.
Print Assumptions C62_pgp_refuted.
(** PW3 is shown, the card is terminated and refuses to work; power is lost while it is activated; the second attempt succeeds. *)
Definition ex_end : list ev :=
  [Do (plain (mkC 0 0xE6 0 0 [] 0)); Do (plain verify83); Do (plain (mkC 0 0xE6 0 0 [] 0)); Do (plain verify83); Cut (plain (mkC 0 0x44 0 0 [] 0)) 20 []; Do (plain verify83); Do (plain (mkC 0 0x44 0 0 [] 0)); Do (plain verify83)].
Example C40_ex : exists tr d, since_boot toy tr d /\ map (fun e => snd (fst e)) tr = ex_end /\
  sws tr = [Some 0x6982; Some 0x9000; Some 0x9000; Some 0x6285; None; Some 0x6285; Some 0x9000; Some 0x9000] /\
  (forall y, nth_error tr 6 = Some y -> terminated (d_fs (fst (fst y)))) /\ live (d_fs d).
Proof.
  destruct (sees_ran (run_all toy (boot fs_empty []) ex_end)
    (fun tr d => (sws tr, option_map (fun y => mark (d_fs (fst (fst y)))) (nth_error tr 6), mark (d_fs d)))
    ([Some 0x6982; Some 0x9000; Some 0x9000; Some 0x6285; None; Some 0x6285; Some 0x9000; Some 0x9000], Some (Some [1]), Some [0])) as (tr & d & E & H); [vm_compute; reflexivity|].
  pose proof (f_equal (fun x => fst (fst x)) H) as H1. pose proof (f_equal (fun x => snd (fst x)) H) as H2. pose proof (f_equal snd H) as H3. cbn [fst snd] in H1, H2, H3. clear H.
  exists tr, d. split; [eapply run_all_since; [|exact E]; unfold ex_end; bytes_ok|]. split; [exact (run_all_events _ _ _ _ _ E)|]. split; [exact H1|].
  split; [|exists []; exact H3]. intros y Hy. rewrite Hy in H2. cbn [option_map] in H2. exists []. injection H2 as H2. exact H2.
Qed.
(** The hypotheses of C40_activate and C62_pgp_partial. *)
Example C62_pgp_ex : fs_empty "pgp-data" = None /\ (let '(o, _, e) := installed false pgp_boot fs_empty [FNone; FNone; FNone; FNone; FNone; FNone; FNone; FEarly] in o = Fail /\ terminated (e_fs e)).
Proof. split; [reflexivity|]. vm_compute. split; [reflexivity|]. exists []. reflexivity. Qed.
