(** C64: changes of the OpenPGP passwords. *)
From Verif Require Import Sys Apdu Applet Frame Pin PinProofs Tlv Key PropKey Pgp PgpSpec PgpFlags PropPgpAccess PropPgpCount PropPgpTouch PropPgpEnd.
Open Scope string_scope. Open Scope list_scope. Open Scope Z_scope.

(** ** Specification *)
(** The passwords have lengths within the limits (PW1 6..64, PW3 8..64, resetting code 8..64 or none). *)
Definition sizes_ok (F : fs) : Prop :=
  (exists a, fdata F "pgp-pw1" = Some a /\ 6 <= zlen a <= 64) /\ (exists a, fdata F "pgp-pw3" = Some a /\ 8 <= zlen a <= 64) /\
  (exists a, fdata F "pgp-rc" = Some a /\ (a = [] \/ 8 <= zlen a <= 64)).
(** The data begin with the current, unblocked, password stored in [p]. *)
Definition begins_with (F : fs) (p : path) (c : capdu) : Prop :=
  exists pw new, fdata F p = Some pw /\ pw <> [] /\ c_data c = pw ++ new /\ tries F p <> 0.
(** RESET RETRY COUNTER: P1 = 0 with the resetting code, P1 = 2 by the administrator *)
Definition reset_cmd (p1 : Z) (c : capdu) : Prop := c_cla c = 0 /\ c_ins c = 0x2C /\ c_p1 c = p1 /\ c_p2 c = 0x81.

Lemma wp_both {S A} (m : M S A) (Q1 Q2 : out A -> S -> env -> Prop) s e : wp m Q1 s e -> wp m Q2 s e -> wp m (fun o s' e' => Q1 o s' e' /\ Q2 o s' e') s e.
Proof. unfold wp. destruct (m s e) as [[o s'] e']. auto. Qed.
(** ** Commands that cannot change PW1 and PW3 *)
Section Frames.
Variable K : crypto.
Variable nfc : bool.
Variables t1 t2 junk : Z.
Notation body := (pgp_body K nfc t1 t2 junk).
Variable F0 : fs.
Definition same_pw (G : fs) : Prop := fdata G "pgp-pw1" = fdata F0 "pgp-pw1" /\ fdata G "pgp-pw3" = fdata F0 "pgp-pw3".
Lemma pw_other q : q <> "pgp-pw1" -> q <> "pgp-pw3" -> indep same_pw q.
Proof. intros H1 H2 G x (A & B). split; unfold fdata in *; rewrite fset_other by congruence; assumption. Qed.
Lemma pw_attr q a v : forall G f, same_pw G -> G q = Some f -> same_pw (fset G q (Some (mkF (f_data f) (aset (f_attr f) a v)))).
Proof.
  intros G f (A & B) E. split.
  - destruct (String.eqb_spec "pgp-pw1" q) as [<-|N]; unfold fdata in *; [rewrite fset_same; rewrite E in A; exact A|rewrite fset_other by congruence; exact A].
  - destruct (String.eqb_spec "pgp-pw3" q) as [<-|N]; unfold fdata in *; [rewrite fset_same; rewrite E in B; exact B|rewrite fset_other by congruence; exact B].
Qed.
Lemma cert_pw k p : cert_path k = Some p -> p <> "pgp-pw1" /\ p <> "pgp-pw3".
Proof. unfold cert_path. destruct (k =? 0); [|destruct (k =? 1); [|destruct (k =? 2)]]; intros H; try discriminate H; injection H as <-; split; discriminate. Qed.
Lemma key_pw k p : get_key_path k = Some p -> p <> "pgp-pw1" /\ p <> "pgp-pw3".
Proof. unfold get_key_path. destruct (k =? 0xB6); [|destruct (k =? 0xB8); [|destruct (k =? 0xA4)]]; intros H; try discriminate H; injection H as <-; split; discriminate. Qed.
Ltac frp := repeat first [
    match goal with
    | |- frame _ _ (match cert_path ?g with _ => _ end) => let E := fresh in destruct (cert_path g) eqn:E; [apply cert_pw in E; destruct E|]
    | |- frame _ _ (match get_key_path ?g with _ => _ end) => let E := fresh in destruct (get_key_path g) eqn:E; [apply key_pw in E; destruct E|]
    | |- frame _ _ (write_file ?p _ _ _) => apply fr_write_file, pw_other; first [discriminate | assumption]
    | |- frame _ _ (write_attr _ _ _) => apply fr_write_attr_at, pw_attr
    end | frame1 ].
Lemma fr_pw c tail : c_ins c <> 0x44 -> c_ins c <> 0x24 -> c_ins c <> 0x2C -> frame (fun _ => True) same_pw (body c tail).
Proof.
  intros N1 N2 N3. unfold pgp_body. cbv zeta.
  apply fr_bind; [apply fr_guard|intros _]. apply fr_bind; [apply fr_selection; auto|intros _].
  apply fr_bind; [apply fr_read_attr|intros [v|]]; [|apply fr_except]. apply fr_bind; [apply fr_guard|intros _].
  destruct (c_ins c =? 0xA4); [unfold pgp_select; pgp_unfold; frp|].
  destruct (Z.eqb_spec (c_ins c) 0x44); [contradiction|].
  destruct (c_ins c =? 0xCA); [unfold pgp_get_data, application_related_data, discretionary_data, cardholder_related_data, pw_status_bytes; pgp_unfold; frp|].
  destruct (c_ins c =? 0xA5); [unfold pgp_select_data; pgp_unfold; frp|].
  destruct (c_ins c =? 0xCC); [unfold pgp_get_next_data; pgp_unfold; frp|].
  destruct (c_ins c =? 0x20); [unfold pgp_verify, verify_with, verify_pin; pgp_unfold; frp|].
  destruct (Z.eqb_spec (c_ins c) 0x24); [contradiction|].
  destruct (Z.eqb_spec (c_ins c) 0x2C); [contradiction|].
  destruct (c_ins c =? 0xDA); [unfold pgp_put_data, put_algorithm, put_uif, put_resetting_code; pgp_unfold; frp|].
  destruct (c_ins c =? 0xDB); [unfold pgp_import; pgp_unfold; frp|].
  destruct (c_ins c =? 0x47); [unfold pgp_generate; pgp_unfold; frp|].
  destruct (c_ins c =? 0x2A).
  { destruct (_ && _).
    { unfold pgp_sign_or_auth; pgp_unfold; frp. }
    destruct (_ && _); [unfold pgp_decipher; pgp_unfold; frp|apply fr_except]. }
  destruct (c_ins c =? 0x88); [unfold pgp_sign_or_auth; pgp_unfold; frp|].
  destruct (c_ins c =? 0x84); [unfold pgp_get_challenge; pgp_unfold; frp|].
  destruct (c_ins c =? 0xE6); [unfold pgp_terminate; pgp_unfold; frp|].
  apply fr_except.
Qed.
(** ** CHANGE REFERENCE DATA, RESET RETRY COUNTER *)
Definition kept_pw (e : env) : Prop := same_pw (e_fs e) /\ Forall same_pw (e_log e).
Lemma fr_verify p setv (s : pgp) buf len e : kept_pw e -> wp (pin_verify p setv buf len) (fun _ _ e' => kept_pw e') s e.
Proof.
  intros H. assert (W : frame (fun _ : pgp => True) same_pw (pin_verify p setv buf len)).
  { unfold pin_verify, pin_verify_gen. frp. }
  specialize (W s e). unfold wp in *. destruct (pin_verify p setv buf len s e) as [[o s'] e']. apply W. split; [exact I|exact H].
Qed.
Definition too (p : pin_t) (n : Z) : Prop := n < pin_min p \/ pin_max p < n.
Lemma verify_len p setv buf len (s : pgp) F L X R T O :
  wp (pin_verify p setv buf len) (fun o _ e' => (too p len -> o = Ret (PIN_LENGTH_INVALID, None) /\ e' = mkE F L X R T O) /\ (forall k, o = Ret (PIN_LENGTH_INVALID, k) -> too p len)) s (mkE F L X R T O).
Proof using.
  clear.
  unfold pin_verify, pin_verify_gen. apply wp_bind, wp_modify. unfold too.
  destruct ((len <? pin_min p) || (pin_max p <? len)) eqn:El.
  - apply wp_ret. split; [auto|intros; lia].
  - assert (N : ~ (len < pin_min p \/ pin_max p < len)) by lia.
    assert (HR : forall o s' e', (forall k, o <> Ret (PIN_LENGTH_INVALID, k)) -> (len < pin_min p \/ pin_max p < len -> o = Ret (PIN_LENGTH_INVALID, None) /\ e' = mkE F L X R T O) /\ (forall k : option Z, o = Ret (PIN_LENGTH_INVALID, k) -> len < pin_min p \/ pin_max p < len) /\ (s' : pgp) = s').
    { intros o s' e' H. split; [tauto|]. split; [|reflexivity]. intros k E. elim (H k E). }
    eapply (wp_mono _ (fun o s' e' => forall k : option Z, o <> Ret (PIN_LENGTH_INVALID, k))); [|intros o s' e' H; destruct (HR o s' e' H) as (A & B & _); split; [exact A|exact B]]. clear HR.
    apply wp_bind, wp_read_attr. intros X1 [a|] _ _; [|apply wp_ret; discriminate].
    destruct (attr1 a =? 0); [apply wp_ret; discriminate|]. apply wp_bind, wp_read_file. intros X2 [d|] _ _; [|apply wp_ret; discriminate].
    apply wp_bind, wp_need_any; [intros x1 _|discriminate]. apply wp_bind, wp_need_any; [intros x2 _|discriminate].
    match goal with |- wp (if ?b then _ else _) _ _ _ => destruct b end.
    + apply wp_bind, wp_write_attr; intros _ X4 _; apply wp_ret; discriminate.
    + apply wp_bind, wp_modify, wp_bind, wp_read_attr. intros X3 [b|] _ _; [|apply wp_ret; discriminate]. apply wp_bind, wp_write_attr; intros _ X4 _; apply wp_ret; discriminate.
Qed.
Lemma prefix_ok p setv c size (Q : out unit -> pgp -> env -> Prop) s X R T O L F : pin_max p = 64 -> 0 <= size \/ size = NEG -> 1 <= pin_min p -> kept_pw (mkE F L X R T O) ->
  (forall d, fdata F (pin_path p) = Some d -> zlen d <= 64) ->
  (forall o s' F' L' X', o <> Ret tt -> kept_pw (mkE F' L' X' R T O) -> Q o s' (mkE F' L' X' R T O)) ->
  (forall s' F' L' X', begins_with F (pin_path p) c -> kept_pw (mkE F' L' X' R T O) -> Q (Ret tt) s' (mkE F' L' X' R T O)) ->
  (forall s' F' L' X', too p (u8 (if c_lc c <? size then c_lc c else size)) -> kept_pw (mkE F' L' X' R T O) -> Q (Ret tt) s' (mkE F' L' X' R T O)) ->
  wp (verify_prefix junk p setv c size) Q s (mkE F L X R T O).
Proof using junk F0.
  clear - junk F0.
  intros Hm Hsz Hmin HK H64 H1 H2 H3. unfold verify_prefix. apply wp_bind. set (n := u8 (if c_lc c <? size then c_lc c else size)) in *.
  assert (Hn : n <= 64 -> n <= zlen (c_data c)).
  { subst n. intros H. unfold u8, c_lc, NEG in *. pose proof (zlen_nonneg (c_data c)).
    destruct Hsz as [Hsz|Hsz].
    - destruct (Z.ltb_spec (zlen (c_data c)) size); [apply Z.mod_le; lia|]. pose proof (Z.mod_le size 256 Hsz ltac:(lia)). lia.
    - rewrite Hsz in *. destruct (Z.ltb_spec (zlen (c_data c)) (-5)); [lia|]. change (-5 mod 256) with 251 in H. lia. }
  eapply wp_mono. { apply wp_both; [apply fr_verify; exact HK|]. apply wp_both; [apply verify_len|].
    apply (verify_flag p setv (c_data c) n (fun o s' e' => exists F' L' X' r k v, o = Ret (r, k) /\ e' = mkE F' L' X' R T O /\
      (v = true -> tries F (pin_path p) <> 0 /\ value F (pin_path p) = Some (slice 0 n (c_data c))) /\ (r = 0 -> v = true) /\ (v = true -> k <> None /\ k <> Some 0) /\
      (r = 0 \/ r = PIN_IO_FAIL \/ (r = PIN_AUTH_FAIL /\ v = false /\ k <> None) \/ (r = PIN_LENGTH_INVALID /\ v = false /\ k = None)))).
    - subst n. unfold u8. lia.
    - rewrite Hm. exact Hn.
    - lia.
    - intros F' L' X' r k v A B C D. exists F', L', X', r, k, v. auto 10. }
  intros o s' e' (HK' & (HL1 & HL2) & F' & L' & X' & r & k & v & -> & -> & A & B & C & D).
  destruct D as [-> |[-> |[(-> & -> & Hk)|(-> & -> & ->)]]].
  - rewrite (B eq_refl) in *. destruct (A eq_refl) as (V1 & V2). destruct (C eq_refl) as (K1 & K2). cbn [Z.eqb Pos.eqb negb PIN_IO_FAIL PIN_AUTH_FAIL].
    destruct k as [k|]; [|congruence]. apply wp_bind, wp_guard; intros G3; [|exfalso; apply K2; f_equal; lia].
    apply wp_guard; intros G4; [|discriminate]. apply H2; [|exact HK'].
    assert (Nt : ~ too p n) by (intros W; destruct (HL1 W) as (V & _); discriminate V). unfold too in Nt. specialize (Hn ltac:(lia)).
    unfold value in V2. destruct (fdata F (pin_path p)) as [d|] eqn:Ed; [|discriminate]. unfold option_map in V2. apply (f_equal (fun o => match o with Some x => x | None => [] end)) in V2. cbv beta iota in V2.
    assert (Ld : (length d <= 64)%nat) by (specialize (H64 d eq_refl); unfold zlen in H64; lia).
    rewrite firstn_all2 in V2 by exact Ld. exists d, (skipn (Z.to_nat n) (c_data c)). split; [exact Ed|]. split.
    + intros E. rewrite E in V2. assert (L0 : length (slice 0 n (c_data c)) = 0%nat) by (rewrite <- V2; reflexivity). unfold slice in L0. change (Z.to_nat 0) with 0%nat in L0. rewrite skipn_O, firstn_length in L0. unfold zlen in Hn. lia.
    + split; [|exact V1]. rewrite V2. unfold slice. change (Z.to_nat 0) with 0%nat. rewrite skipn_O, firstn_skipn. reflexivity.
  - rewrite Z.eqb_refl. apply wp_fail. apply H1; [discriminate|exact HK'].
  - cbn [Z.eqb Pos.eqb negb PIN_IO_FAIL PIN_AUTH_FAIL]. apply wp_bind, wp_guard; intros G3; [|apply H1; [discriminate|exact HK']].
    apply wp_guard; intros G4; [discriminate|]. apply H1; [discriminate|exact HK'].
  - cbn [Z.eqb Pos.eqb negb PIN_IO_FAIL PIN_AUTH_FAIL]. apply wp_bind, wp_guard; intros G3; [|apply H1; [discriminate|exact HK']].
    apply wp_guard; intros G4; [|discriminate]. apply H3; [apply (HL2 None); reflexivity|exact HK'].
Qed.
(** The new password follows: nothing is written when the length of the old one was refused. *)
Lemma rest_ok p q setv c tail size s e : 1 <= pin_min p -> pin_max p = 64 -> pin_max q = 64 -> size = NEG \/ pin_min p <= size <= 64 -> too p (u8 (if c_lc c <? size then c_lc c else size)) -> kept_pw e ->
  wp (update_rest q setv c tail size) (fun o _ e' => o = UB \/ kept_pw e') s e.
Proof using F0.
  clear - F0.
  intros Hmin Hm Hq Hsz Ht HK. unfold update_rest. apply wp_bind, wp_guard; intros G; [|right; exact HK]. cbv zeta.
  assert (Hneg : size = NEG).
  { destruct Hsz as [Hsz|Hsz]; [exact Hsz|]. exfalso. destruct (Z.ltb_spec (c_lc c) size); [discriminate|]. unfold too, u8 in Ht. rewrite Z.mod_small in Ht by lia. lia. }
  subst size. change (NEG <? 0) with true. cbv iota. apply wp_bind. wif W; [|left; reflexivity]. apply wp_ret. apply wp_bind. unfold pin_update. rewrite W. apply wp_ret.
  cbn [Z.eqb Pos.eqb negb PIN_IO_FAIL PIN_LENGTH_INVALID]. apply wp_bind, wp_guard; intros G2; [discriminate|right; exact HK].
Qed.
Lemma rest_other p q setv c tail size D (s : pgp) e : q <> pin_path p -> fdata (e_fs e) q = D -> Forall (fun G => fdata G q = D) (e_log e) ->
  wp (update_rest p setv c tail size) (fun _ _ e' => fdata (e_fs e') q = D /\ Forall (fun G => fdata G q = D) (e_log e')) s e.
Proof using.
  clear.
  intros Hq H1 H2. assert (HI : indep (fun G => fdata G q = D) (pin_path p)) by (intros G x E; unfold fdata in *; rewrite fset_other by congruence; exact E).
  assert (W : frame (fun _ : pgp => True) (fun G => fdata G q = D) (update_rest p setv c tail size)).
  { unfold update_rest, pin_update. repeat first [frame1 | apply fr_write_file; exact HI | apply fr_write_attr; exact HI]. }
  specialize (W s e). unfold wp in *. destruct (update_rest p setv c tail size s e) as [[o s'] e']. apply W. split; [exact I|]. split; [exact H1|exact H2].
Qed.
End Frames.

(** ** The theorem *)
(** On a card whose passwords have lengths within the limits: PW1 and PW3 change only (in the final storage, or in what a power failure leaves) by
    - ACTIVATE on a card that is not in use (factory reset, C40),
    - CHANGE REFERENCE DATA whose data begin with the current password, which is not blocked,
    - for PW1: RESET RETRY COUNTER whose data begin with the resetting code, which is set and not blocked, or by the administrator (PW3 given in this session).
    What is missing: the run must not read before the command buffer, which it does if the size of the old password cannot be read (C64_size_refuted). *)
Theorem C64_partial : forall K tr d x G, since_boot K tr d -> sizes_ok (d_fs d) -> may_leave K d x G -> (let '(r, _, _) := exec K d x in r <> None) ->
  let c := x_apdu x in let F := d_fs d in
  (fdata G "pgp-pw1" <> fdata F "pgp-pw1" ->
     (c_ins c = 0x44 /\ ~ live F) \/ (change_cmd 0x81 c /\ begins_with F "pgp-pw1" c) \/
     (reset_cmd 0 c /\ begins_with F "pgp-rc" c) \/ (reset_cmd 2 c /\ given 0x83 tr)) /\
  (fdata G "pgp-pw3" <> fdata F "pgp-pw3" -> (c_ins c = 0x44 /\ ~ live F) \/ (change_cmd 0x83 c /\ begins_with F "pgp-pw3" c)).
Proof.
  intros K tr d x G H Hsz HG Hub c F.
  set (A1 := (c_ins c = 0x44 /\ ~ live F) \/ (change_cmd 0x81 c /\ begins_with F "pgp-pw1" c) \/ (reset_cmd 0 c /\ begins_with F "pgp-rc" c) \/ (reset_cmd 2 c /\ given 0x83 tr)).
  set (A3 := (c_ins c = 0x44 /\ ~ live F) \/ (change_cmd 0x83 c /\ begins_with F "pgp-pw3" c)).
  assert (HS : same_pw F G -> (fdata G "pgp-pw1" <> fdata F "pgp-pw1" -> A1) /\ (fdata G "pgp-pw3" <> fdata F "pgp-pw3" -> A3)) by (intros (E1 & E3); split; intros N; contradiction).
  destruct (Z.eq_dec (c_ins c) 0x44) as [I44|N44].
  { destruct (fattr F "pgp-data" 0xFC) as [[|a l]|] eqn:E.
    1, 3: (split; intros _; left; (split; [exact I44|]); intros (l & W); congruence).
    destruct (Z.eq_dec a 0) as [-> |Na]; [|split; intros _; left; (split; [exact I44|]); intros (l' & W); congruence].
    apply HS. assert (HL : live F) by (exists l; exact E). pose proof (activate_refused K d x I44 HL) as W. unfold may_leave in HG.
    destruct (exec K d x) as [[r s'] e']. destruct W as (W1 & W2). assert (G = F) as -> by (destruct HG as [HG|HG]; [rewrite HG; exact W1|rewrite W2 in HG; destruct HG as [HG|[]]; symmetry; exact HG]). split; reflexivity. }
  destruct (Z.eq_dec (c_ins c) 0x24) as [I24|N24]; [|destruct (Z.eq_dec (c_ins c) 0x2C) as [I2C|N2C]].
  3: { apply HS. unfold may_leave, exec in HG.
       pose proof (frame_apdu (fun _ => True) (same_pw F) _ (d_ram d) (d_fs d) (x_flt x) (x_rnd x) (x_tch x) (fr_pw K (x_nfc x) (x_t1 x) (x_t2 x) (x_junk x) F (x_apdu x) (x_tail x) N44 N24 N2C) I ltac:(split; reflexivity)) as W.
       destruct (run_apdu _ _ _) as [[r s'] e']. destruct W as (_ & W1 & W2). destruct HG as [-> |HG]; [exact W1|]. rewrite Forall_forall in W2. apply W2. exact HG. }
  all: pose proof (exec_wp K d x (fun r _ e' => r = None \/ (kept_pw F e' \/ ((forall G, (G = e_fs e' \/ In G (e_log e')) -> (fdata G "pgp-pw1" <> fdata F "pgp-pw1" -> A1) /\ (fdata G "pgp-pw3" <> fdata F "pgp-pw3" -> A3))))) ) as HW.
  all: unfold may_leave in HG; destruct (exec K d x) as [[r0 s0] e0].
  all: match type of HW with ?P -> _ => assert (HP : P) end;
    [|destruct (HW HP) as [V|[(V1 & V2)|V]]; [contradiction| |exact (V G HG)]; apply HS; destruct HG as [-> |HG]; [exact V1|rewrite Forall_forall in V2; apply V2; exact HG]].
  all: clear HW HG Hub r0 s0 e0 HS G.
  all: set (Post := fun (o : out Z) (_ : pgp) e' => o = UB \/ kept_pw F e' \/ forall G, (G = e_fs e' \/ In G (e_log e')) -> (fdata G "pgp-pw1" <> fdata F "pgp-pw1" -> A1) /\ (fdata G "pgp-pw3" <> fdata F "pgp-pw3" -> A3)).
  all: apply (wp_mono _ Post); [|intros o s' e' [-> |[W|W]]; [left; reflexivity|right; left; exact W|right; right; exact W]].
  all: assert (HK0 : forall X R T O, kept_pw F (mkE F [F] X R T O)) by (intros; split; [split; reflexivity|constructor; [split; reflexivity|constructor]]).
  all: assert (HN : forall o s' X R T O, Post o s' (mkE F [F] X R T O)) by (intros; right; left; apply HK0).
  all: unfold pgp_body, start; fold c F; apply wp_bind, wp_guard; intros G1; [|apply HN].
  all: apply wp_bind, wp_selection; [intros s1 (_ & _ & S1)|intros _; apply HN].
  all: apply wp_bind, wp_read_attr; intros X1 [tv|] _ _; [|apply wp_except, HN]; cbv zeta; apply wp_bind, wp_guard; intros G2; [|apply HN].
  all: destruct Hsz as ((a1 & D1 & R1) & (a3 & D3 & R3) & (ac & Dc & Rc)); fold F in D1, D3, Dc.
  - rewrite I24. cbn [Z.eqb Pos.eqb]. unfold pgp_change_reference_data. apply wp_bind, wp_guard; intros G3; [|apply HN].
    assert (HC : forall p setv q s X (B : Prop), pin_max p = 64 -> 1 <= pin_min p -> (q = "pgp-pw1" \/ q = "pgp-pw3") -> q <> pin_path p ->
      (exists a, fdata F (pin_path p) = Some a /\ pin_min p <= zlen a <= 64) ->
      (begins_with F (pin_path p) c -> forall G, fdata G q = fdata F q -> (fdata G "pgp-pw1" <> fdata F "pgp-pw1" -> A1) /\ (fdata G "pgp-pw3" <> fdata F "pgp-pw3" -> A3)) ->
      wp (change_with (x_junk x) p setv c (x_tail x)) Post s (mkE F [F] X (x_rnd x) (x_tch x) [])).
    { clear s1 X1 S1. intros p setv q s X B Hm Hmin Hq Hqp (a & Ea & La) HB. unfold change_with, pin_get_size. apply wp_bind, wp_get_file_size. intros X1 r _ Hr. cbv zeta.
      set (size := match r with Some n => n | None => NEG end).
      assert (Hsize : size = NEG \/ pin_min p <= size <= 64).
      { subst size. destruct r as [n|]; [|auto]. destruct Hr as [Hr|Hr]; [discriminate|]. right. unfold fsize, fdata in *. destruct (F (pin_path p)) as [f|]; [|discriminate]. cbn [option_map] in Ea. injection Ea as Ea. injection Hr as Hr. rewrite Hr, Ea. lia. }
      apply wp_bind, (prefix_ok (x_junk x) F); [exact Hm|lia|exact Hmin|apply HK0|intros d0 E0; rewrite Ea in E0; injection E0 as <-; lia|..].
      - intros o s' F' L' X' Ho HK. destruct o as [[]| | |]; [congruence|..]; right; left; exact HK.
      - intros s' F' L' X' Hw (HK1 & HK2). eapply wp_mono.
        { apply (rest_other p q setv c (x_tail x) size (fdata F q)); [exact Hqp|..]; cbn [e_fs e_log] in *.
          - destruct HK1 as (V1 & V2). destruct Hq as [-> | ->]; assumption.
          - eapply Forall_impl; [|exact HK2]. intros G (V1 & V2). destruct Hq as [-> | ->]; assumption. }
        intros o s2 e2 (W1 & W2). right. right. intros G HG. apply (HB Hw). destruct HG as [-> |HG]; [exact W1|]. rewrite Forall_forall in W2. apply W2. exact HG.
      - intros s' F' L' X' Ht HK. eapply wp_mono; [apply (rest_ok F p p); [exact Hmin|exact Hm|exact Hm|exact Hsize|exact Ht|exact HK]|]. intros o s2 e2 [W|W]; [left; exact W|right; left; exact W]. }
    wif P1; [|wif P3; [|apply wp_except, HN]].
    + apply wp_bind, wp_modify, wp_bind, wp_modify. apply (HC _ _ "pgp-pw3" _ _ True); [reflexivity|cbn; lia|auto|discriminate|exists a1; auto|].
      intros Hw G EG. split; intros N; [|contradiction]. right. left. split; [repeat split; lia|exact Hw].
    + apply (HC _ _ "pgp-pw1" _ _ True); [reflexivity|cbn; lia|auto|discriminate|exists a3; auto|].
      intros Hw G EG. split; intros N; [contradiction|]. right. split; [repeat split; lia|exact Hw].
  - rewrite I2C. cbn [Z.eqb Pos.eqb]. unfold pgp_reset_retry_counter. apply wp_bind, wp_guard; intros G3; [|apply HN].
    assert (HR : forall n s F' L' X', A1 -> kept_pw F (mkE F' L' X' (x_rnd x) (x_tch x) []) -> wp (update_rest pw1 setpw1 c (x_tail x) n) Post s (mkE F' L' X' (x_rnd x) (x_tch x) [])).
    { intros n s F' L' X' HA (HK1 & HK2). eapply wp_mono.
      { apply (rest_other pw1 "pgp-pw3" setpw1 c (x_tail x) n (fdata F "pgp-pw3")); [discriminate|..]; cbn [e_fs e_log] in *.
        - apply HK1.
        - eapply Forall_impl; [|exact HK2]. intros G (V1 & V2). exact V2. }
      intros o s2 e2 (W1 & W2). right. right. intros G HG. split; [intros _; exact HA|]. intros N. elim N. destruct HG as [-> |HG]; [exact W1|]. rewrite Forall_forall in W2. apply W2. exact HG. }
    apply wp_bind. wif P0.
    + unfold pin_get_size. apply wp_bind, wp_get_file_size. intros X2 r _ Hr. cbv zeta. set (size := match r with Some n => n | None => NEG end). apply wp_bind, wp_guard; intros G4; [|apply HN].
      assert (Hsize : size = NEG \/ pin_min rc <= size <= 64).
      { subst size. destruct r as [n|]; [|auto]. destruct Hr as [Hr|Hr]; [discriminate|]. right. cbn [pin_path pin_min rc] in *. unfold fsize, fdata in *. destruct (F "pgp-rc") as [f|]; [|discriminate]. cbn [option_map] in Dc. injection Dc as Dc. injection Hr as Hr. rewrite Dc in Hr. subst n. 
        destruct Rc as [-> |Rc]; [discriminate G4|exact Rc]. }
      apply wp_bind, (prefix_ok (x_junk x) F); [reflexivity|cbn [pin_min rc] in Hsize; lia|cbn; lia|apply HK0|cbn [pin_path rc]; intros d0 E0; rewrite Dc in E0; injection E0 as <-; destruct Rc as [Rc|Rc]; [rewrite Rc; vm_compute; discriminate|lia]|..].
      * intros o s' F' L' X' Ho HK. destruct o as [[]| | |]; [congruence|..]; right; left; exact HK.
      * intros s' F' L' X' Hw HK. apply wp_ret. apply HR; [|exact HK]. right. right. left. split; [repeat split; lia|exact Hw].
      * intros s' F' L' X' Ht HK. apply wp_ret. eapply wp_mono; [apply (rest_ok F rc pw1); [cbn; lia|reflexivity|reflexivity|exact Hsize|exact Ht|exact HK]|]. intros o s2 e2 [W|W]; [left; exact W|right; left; exact W].
    + unfold assert_admin. apply wp_bind, wp_bind, wp_get, wp_guard; intros G4; [|apply HN]. apply wp_ret. apply HR; [|apply HK0].
      right. right. right. split; [repeat split; lia|]. apply (given_of K tr d); [cbn; auto|exact H|]. unfold flag. cbn [Z.eqb Pos.eqb]. congruence.
Qed.
Print Assumptions C64_partial.

(** ** The lengths stay within the limits *)
Section Sizes.
Variable K : crypto.
Variable nfc : bool.
Variables t1 t2 junk : Z.
Notation body := (pgp_body K nfc t1 t2 junk).
Notation T := (fun _ : pgp => True).
Definition okk (G : fs) : Prop := sizes_ok G /\ G "pgp-data" <> None.
Lemma sz_other q : q <> "pgp-pw1" /\ q <> "pgp-pw3" /\ q <> "pgp-rc" /\ q <> "pgp-data" -> indep okk q.
Proof. intros (H1 & H2 & H3 & H4) G x H. unfold okk, sizes_ok, fdata in *. rewrite !fset_other by congruence. exact H. Qed.
Lemma sz_attr q a v : forall G f, okk G -> G q = Some f -> okk (fset G q (Some (mkF (f_data f) (aset (f_attr f) a v)))).
Proof.
  intros G f ((A & B & C) & D) E. split; [split; [|split]|].
  - destruct (String.eqb_spec "pgp-pw1" q) as [<-|N]; unfold fdata in *; [rewrite fset_same; rewrite E in A; exact A|rewrite fset_other by congruence; exact A].
  - destruct (String.eqb_spec "pgp-pw3" q) as [<-|N]; unfold fdata in *; [rewrite fset_same; rewrite E in B; exact B|rewrite fset_other by congruence; exact B].
  - destruct (String.eqb_spec "pgp-rc" q) as [<-|N]; unfold fdata in *; [rewrite fset_same; rewrite E in C; exact C|rewrite fset_other by congruence; exact C].
  - destruct (String.eqb_spec "pgp-data" q) as [<-|N]; [rewrite fset_same; discriminate|rewrite fset_other by congruence; exact D].
Qed.
Lemma sz_data d o t : frame T okk (write_file "pgp-data" d o t).
Proof.
  apply fr_write_file_at; [intros F H; apply H|]. intros F f x (A & B) E. split; [|rewrite fset_same; discriminate]. unfold sizes_ok, fdata in *. rewrite !fset_other by discriminate. exact A.
Qed.
Definition fits (p : path) (d : bytes) : Prop :=
  p = "pgp-pw1" /\ 6 <= zlen d <= 64 \/ p = "pgp-pw3" /\ 8 <= zlen d <= 64 \/ p = "pgp-rc" /\ (d = [] \/ 8 <= zlen d <= 64).
Lemma sz_write p d : fits p d -> frame T okk (write_file p d 0 true).
Proof.
  intros Hd s e H. apply fr_pop in H. unfold wp, write_file. destruct (pop_fault e) as [x e']. cbn [snd] in H.
  pose proof H as (_ & ((A & B & C) & D) & _).
  assert (Hp : e_fs e' p <> None).
  { destruct Hd as [(-> & _)|[(-> & _)|(-> & _)]]; [destruct A as (? & W & _)|destruct B as (? & W & _)|destruct C as (? & W & _)]; unfold fdata in W; destruct (e_fs e' _); discriminate. }
  destruct (e_fs e' p) as [f|] eqn:E; [|congruence].
  destruct x; try exact H. rewrite E. apply fgood_commit; [exact H|].
  assert (Ed : (if (length d =? 0)%nat then [] else write_at [] 0 d) = d) by (rewrite write_at_nil; destruct d; reflexivity).
  rewrite Ed. destruct Hd as [(-> & Hd)|[(-> & Hd)|(-> & Hd)]]; (split; [|rewrite fset_other by discriminate; exact D]).
  - split; [exists d; unfold fdata; rewrite fset_same; auto|]. split; unfold fdata in *; rewrite fset_other by discriminate; assumption.
  - split; [unfold fdata in *; rewrite fset_other by discriminate; assumption|]. split; [exists d; unfold fdata; rewrite fset_same; auto|unfold fdata in *; rewrite fset_other by discriminate; assumption].
  - split; [unfold fdata in *; rewrite fset_other by discriminate; assumption|]. split; [unfold fdata in *; rewrite fset_other by discriminate; assumption|exists d; unfold fdata; rewrite fset_same; auto].
Qed.
Lemma sz_update p setv buf len : p = pw1 \/ p = pw3 \/ p = rc -> frame T okk (pin_update p setv buf len).
Proof.
  intros Hp. unfold pin_update. destruct ((len <? pin_min p) || (pin_max p <? len)) eqn:El; [apply fr_ret|].
  apply fr_bind; [apply fr_modify; auto|intros _]. destruct (sub buf 0 len) as [x|] eqn:Es; [|intros s e H; exact H]. apply fr_need_some.
  assert (Hx : zlen x = len).
  { apply sub_some in Es. destruct Es as (_ & E1 & E2 & ->). unfold slice, zlen in *. change (Z.to_nat 0) with 0%nat. rewrite skipn_O, firstn_length. lia. }
  apply fr_bind; [apply sz_write|intros ok].
  - unfold fits. destruct Hp as [-> |[-> | ->]]; cbn [pin_min pin_max pin_path pw1 pw3 rc] in *; unfold MAX_PIN_LENGTH in *;
      [left; split; [reflexivity|lia]|right; left; split; [reflexivity|lia]|right; right; split; [reflexivity|right; lia]].
  - repeat first [match goal with |- frame _ _ (write_attr _ _ _) => apply fr_write_attr_at, sz_attr end | frame1].
Qed.
Lemma sz_clear : frame T okk (pin_clear rc).
Proof. unfold pin_clear. apply fr_bind; [apply sz_write; right; right; auto|intros ok]. repeat first [match goal with |- frame _ _ (write_attr _ _ _) => apply fr_write_attr_at, sz_attr end | frame1]. Qed.
Lemma cert_sz k p : cert_path k = Some p -> p <> "pgp-pw1" /\ p <> "pgp-pw3" /\ p <> "pgp-rc" /\ p <> "pgp-data".
Proof. unfold cert_path. destruct (k =? 0); [|destruct (k =? 1); [|destruct (k =? 2)]]; intros H; try discriminate H; injection H as <-; repeat split; discriminate. Qed.
Lemma key_sz k p : get_key_path k = Some p -> p <> "pgp-pw1" /\ p <> "pgp-pw3" /\ p <> "pgp-rc" /\ p <> "pgp-data".
Proof. unfold get_key_path. destruct (k =? 0xB6); [|destruct (k =? 0xB8); [|destruct (k =? 0xA4)]]; intros H; try discriminate H; injection H as <-; repeat split; discriminate. Qed.
Ltac frs := repeat first [
    match goal with
    | |- frame _ _ (match cert_path ?g with _ => _ end) => let E := fresh in destruct (cert_path g) eqn:E; [apply cert_sz in E; idtac|]
    | |- frame _ _ (match get_key_path ?g with _ => _ end) => let E := fresh in destruct (get_key_path g) eqn:E; [apply key_sz in E; idtac|]
    | |- frame _ _ (pin_update _ _ _ _) => apply sz_update; auto
    | |- frame _ _ (pin_clear _) => apply sz_clear
    | |- frame _ _ (write_file ?p _ _ _) => first [apply sz_data | apply fr_write_file, sz_other; first [assumption | repeat split; discriminate]]
    | |- frame _ _ (write_attr _ _ _) => apply fr_write_attr_at, sz_attr
    end | frame1 ].
Ltac sz_unfold :=
  unfold must, mustz, got, opt, ck_write_key, ck_write_key_metadata, ck_read_key, ck_read_key_metadata, ck_generate_key,
    attr_upto, attr_exact, reset_sig_counter, fill_attr, out_ok, retries_byte, count_signature, touch_if, pgp_touch, assert_admin,
    put_attr, pin_verify, pin_verify_gen, pin_get_retries, pin_get_default_retries, pin_get_attr, pin_get_size, Admin.fill_sn.
Lemma fr_sizes c tail : c_ins c <> 0x44 -> frame T okk (body c tail).
Proof.
  intros N1. unfold pgp_body. cbv zeta.
  apply fr_bind; [apply fr_guard|intros _]. apply fr_bind; [apply fr_selection; auto|intros _].
  apply fr_bind; [apply fr_read_attr|intros [v|]]; [|apply fr_except]. apply fr_bind; [apply fr_guard|intros _].
  destruct (c_ins c =? 0xA4); [unfold pgp_select; sz_unfold; frs|].
  destruct (Z.eqb_spec (c_ins c) 0x44); [contradiction|].
  destruct (c_ins c =? 0xCA); [unfold pgp_get_data, application_related_data, discretionary_data, cardholder_related_data, pw_status_bytes; sz_unfold; frs|].
  destruct (c_ins c =? 0xA5); [unfold pgp_select_data; sz_unfold; frs|].
  destruct (c_ins c =? 0xCC); [unfold pgp_get_next_data; sz_unfold; frs|].
  destruct (c_ins c =? 0x20); [unfold pgp_verify, verify_with, verify_pin; sz_unfold; frs|].
  destruct (c_ins c =? 0x24); [unfold pgp_change_reference_data, change_with, verify_prefix, update_rest; sz_unfold; frs|].
  destruct (c_ins c =? 0x2C); [unfold pgp_reset_retry_counter, verify_prefix, update_rest; sz_unfold; frs|].
  destruct (c_ins c =? 0xDA); [unfold pgp_put_data, put_algorithm, put_uif, put_resetting_code; sz_unfold; frs|].
  destruct (c_ins c =? 0xDB); [unfold pgp_import; sz_unfold; frs|].
  destruct (c_ins c =? 0x47); [unfold pgp_generate; sz_unfold; frs|].
  destruct (c_ins c =? 0x2A).
  { destruct (_ && _).
    { unfold pgp_sign_or_auth; sz_unfold; frs. }
    destruct (_ && _); [unfold pgp_decipher; sz_unfold; frs|apply fr_except]. }
  destruct (c_ins c =? 0x88); [unfold pgp_sign_or_auth; sz_unfold; frs|].
  destruct (c_ins c =? 0x84); [unfold pgp_get_challenge; sz_unfold; frs|].
  destruct (c_ins c =? 0xE6); [unfold pgp_terminate; sz_unfold; frs|].
  apply fr_except.
Qed.
End Sizes.
Lemma factory_sizes F : factory F -> sizes_ok F.
Proof.
  intros (_ & _ & _ & _ & _ & _ & _ & (A & _) & (B & _) & (C & _)). split; [|split]; eexists; (split; [eassumption|]); [vm_compute; split; discriminate|vm_compute; split; discriminate|left; reflexivity].
Qed.
(** The condition on the lengths holds in the factory state, and no command (failing, interrupted, on a faulty storage) breaks it, as long as the card is not put back to its factory state. *)
Theorem C64_lengths : forall K d0 tr d, hist K d0 tr d -> d_fs d0 "pgp-data" <> None -> factory (d_fs d0) \/ sizes_ok (d_fs d0) ->
  Forall (fun e => ~ starts_over (fst (fst e)) (snd (fst e))) tr -> sizes_ok (d_fs d).
Proof.
  intros K d0 tr d H Hd Hk Ha. assert (H0 : sizes_ok (d_fs d0)) by (destruct Hk as [Hk|Hk]; [apply factory_sizes; exact Hk|exact Hk]). clear Hk.
  assert (W : sizes_ok (d_fs d) /\ d_fs d "pgp-data" <> None); [|apply W].
  assert (HX : forall d x, sizes_ok (d_fs d) -> d_fs d "pgp-data" <> None -> ~ (c_ins (x_apdu x) = 0x44 /\ ~ live (d_fs d)) ->
    let '(_, _, e') := exec K d x in (sizes_ok (e_fs e') /\ e_fs e' "pgp-data" <> None) /\ Forall (fun G => sizes_ok G /\ G "pgp-data" <> None) (e_log e')).
  { clear. intros d x Hs Hd N. 
    destruct (Z.eq_dec (c_ins (x_apdu x)) 0x44) as [I44|N44].
    - assert (L : live (d_fs d)).
      { unfold live. destruct (fattr (d_fs d) "pgp-data" 0xFC) as [[|a l]|] eqn:E.
        - elim N. split; [exact I44|]. intros (l & H). congruence.
        - destruct (Z.eq_dec a 0) as [-> |Na]; [eauto|]. elim N. split; [exact I44|]. intros (l' & H). congruence.
        - elim N. split; [exact I44|]. intros (l & H). congruence. }
      pose proof (activate_refused K d x I44 L) as W. destruct (exec K d x) as [[r s'] e']. destruct W as (-> & ->). split; [auto|constructor; [auto|constructor]].
    - pose proof (frame_apdu (fun _ => True) okk _ (d_ram d) (d_fs d) (x_flt x) (x_rnd x) (x_tch x) (fr_sizes K (x_nfc x) (x_t1 x) (x_t2 x) (x_junk x) (x_apdu x) (x_tail x) N44) I (conj Hs Hd)) as W.
      unfold exec. destruct (run_apdu _ _ _) as [[r s'] e']. apply W. }
  induction H as [d0|d0 tr d v o d' H IH Hok Hst]; [auto|].
  apply Forall_app in Ha. destruct Ha as (Ha1 & Ha2). inversion Ha2 as [|? ? Ha3 _]; subst. cbn [fst snd] in Ha3. destruct (IH Hd Ha1 H0) as (I1 & I2). clear IH.
  destruct v as [x|x n flt| |flt|flt n flt'|F]; cbn [starts_over] in Ha3; try tauto.
  - pose proof (HX d x I1 I2 Ha3) as W. cbn [step] in Hst. destruct (exec K d x) as [[[r|] s'] e']; [|discriminate]. injection Hst as <- <-. apply W.
  - pose proof (HX d x I1 I2 ltac:(tauto)) as W. cbn [step] in Hst. destruct (exec K d x) as [[r s'] e']. injection Hst as <- <-.
    destruct W as (W1 & W2). assert (G : sizes_ok (nth n (e_log e') (e_fs e')) /\ nth n (e_log e') (e_fs e') "pgp-data" <> None) by (apply (Forall_nth_default (fun G => sizes_ok G /\ G "pgp-data" <> None)); assumption).
    rewrite boot_same2; [exact G|apply G|]. destruct (hd FNone flt) eqn:E; [reflexivity|elim Ha3; right; discriminate|elim Ha3; right; discriminate].
  - cbn [step] in Hst. injection Hst as <- <-. auto.
  - cbn [step] in Hst. injection Hst as <- <-. cbn [d_fs ev_ok] in *. unfold sizes_ok, fdata in *. rewrite !Hok by (cbn; auto 10). auto.
Qed.
Print Assumptions C64_lengths.

(** If the size of the old password cannot be read, CHANGE REFERENCE DATA goes on without verification, and reads the new password from before the command buffer. *)
Definition change81 : cmd := mkCmd (mkC 0 0x24 0 0x81 [0x30; 0x30; 0x30; 0x30; 0x30; 0x30] 0) (repeat 0 200) false 0 0 3 [FNone; FEarly] [] [].
Theorem C64_size_refuted : exists tr d x, since_boot toy tr d /\ sizes_ok (d_fs d) /\ factory (d_fs d) /\ change_cmd 0x81 (x_apdu x) /\ ~ begins_with (d_fs d) "pgp-pw1" (x_apdu x) /\
  (let '(r, _, _) := exec toy d x in r = None).
Proof.
  exists [], (boot fs_empty []), change81.
  assert (HF : factory (d_fs (boot fs_empty []))).
  { pose proof (C62_pgp_partial fs_empty [] eq_refl) as W. unfold boot. destruct (installed false pgp_boot fs_empty []) as [[o s] e]. destruct W as (W & _). apply (W eq_refl). }
  split; [exists fs_empty, []; constructor|]. split; [apply factory_sizes; exact HF|]. split; [exact HF|]. split; [repeat split|]. split.
  - intros (pw & new & A & _ & B & _). destruct HF as (_ & _ & _ & _ & _ & _ & _ & (C & _) & _). rewrite C in A. injection A as <-. discriminate B.
  - assert (E : fst (fst (exec toy (boot fs_empty []) change81)) = None) by (vm_compute; reflexivity). destruct (exec _ _ _) as [[r s] e]. exact E.
Qed.
Print Assumptions C64_size_refuted.
(** PW1 is changed with the old password, and reset by the administrator. *)
Definition ex_change : list ev :=
  [Do (plain (mkC 0 0x24 0 0x81 (DEFAULT_PW1 ++ [0x61; 0x62; 0x63; 0x64; 0x65; 0x66; 0x67]) 0)); Do (plain verify83); Do (plain (mkC 0 0x2C 2 0x81 [0x31; 0x32; 0x33; 0x34; 0x35; 0x37] 0))].
Example C64_ex : exists tr d, since_boot toy tr d /\ sws tr = [Some 0x9000; Some 0x9000; Some 0x9000] /\ map (fun y => fdata (d_fs (fst (fst y))) "pgp-pw1") tr =
  [Some DEFAULT_PW1; Some [0x61; 0x62; 0x63; 0x64; 0x65; 0x66; 0x67]; Some [0x61; 0x62; 0x63; 0x64; 0x65; 0x66; 0x67]] /\ fdata (d_fs d) "pgp-pw1" = Some [0x31; 0x32; 0x33; 0x34; 0x35; 0x37].
Proof.
  destruct (sees_ran (run_all toy (boot fs_empty []) ex_change)
    (fun tr d => (sws tr, map (fun y => fdata (d_fs (fst (fst y))) "pgp-pw1") tr, fdata (d_fs d) "pgp-pw1"))
    ([Some 0x9000; Some 0x9000; Some 0x9000], [Some DEFAULT_PW1; Some [0x61; 0x62; 0x63; 0x64; 0x65; 0x66; 0x67]; Some [0x61; 0x62; 0x63; 0x64; 0x65; 0x66; 0x67]], Some [0x31; 0x32; 0x33; 0x34; 0x35; 0x37])) as (tr & d & E & H); [vm_compute; reflexivity|].
  pose proof (f_equal (fun x => fst (fst x)) H) as H1. pose proof (f_equal (fun x => snd (fst x)) H) as H2. pose proof (f_equal snd H) as H3. cbn [fst snd] in H1, H2, H3. clear H.
  exists tr, d. split; [eapply run_all_since; [|exact E]; unfold ex_change; bytes_ok|]. auto.
Qed.
