(** The PIN functions under storage errors, as rules for proofs about the applets that call them. *)
From Verif Require Import Sys Applet Pin PinProofs.
Open Scope string_scope. Open Scope list_scope. Open Scope Z_scope.

Section PinWp.
Context {S : Type}.
Variable p : pin_t.
Variable setv : bool -> S -> S.
Hypothesis setv2 : forall a b s, setv a (setv b s) = setv a s.
Notation P := (pin_path p).
Hypothesis Hmin : 0 <= pin_min p.
Hypothesis Hmax : pin_max p <= 64.

Lemma wp_pin_verify N d c buf len (Q : out (Z * option Z) -> S -> env -> Prop) s F L X R T O :
  len <= zlen buf -> N < 256 -> pin_inv p N d c F ->
  (~ pin_min p <= len <= pin_max p -> Q (Ret (PIN_LENGTH_INVALID, None)) (setv false s) (mkE F L X R T O)) ->
  (pin_min p <= len <= pin_max p ->
    (X <> [] -> forall X' r v, (v = true -> c <> 0 /\ slice 0 len buf = d) -> Q (Ret (PIN_IO_FAIL, r)) (setv v s) (mkE F L X' R T O)) /\
    (forall X', (X = [] -> X' = []) ->
      (c = 0 -> Q (Ret (PIN_AUTH_FAIL, Some 0)) (setv false s) (mkE F L X' R T O)) /\
      (c <> 0 -> slice 0 len buf <> d -> let F' := fsetattr F P RETRY_ATTR [c - 1] in
        pin_inv p N d (c - 1) F' -> Q (Ret (PIN_AUTH_FAIL, Some (c - 1))) (setv false s) (mkE F' (F' :: L) X' R T O)) /\
      (c <> 0 -> slice 0 len buf = d -> let F' := fsetattr F P RETRY_ATTR [N] in
        pin_inv p N d N F' -> Q (Ret (0, Some c)) (setv true s) (mkE F' (F' :: L) X' R T O)))) ->
  wp (pin_verify p setv buf len) Q s (mkE F L X R T O).
Proof.
  intros Hlen HN Hi HQ1 HQ2. pose proof Hi as (Hd & H64 & Hc & Ha & Hb).
  pose proof (fdata_some _ _ _ Hd) as HF. unfold pin_verify, pin_verify_gen.
  apply wp_bind. unfold wp at 1, modify.
  destruct ((len <? pin_min p) || (pin_max p <? len)) eqn:El; [apply wp_ret, HQ1; lia|].
  destruct (HQ2 ltac:(lia)) as [HQio HQ]. clear HQ1 HQ2.
  apply wp_bind, wp_read_attr. intros X1 r1 N1 [->|Hr1].
  { apply wp_ret. apply HQio; [|discriminate]. intros E. destruct (N1 E); congruence. }
  rewrite Ha in Hr1; subst r1. cbn [attr1].
  destruct (Z.eqb_spec c 0) as [->|Hc0]; [apply wp_ret, HQ; [intros E; apply (N1 E)|reflexivity]|].
  assert (Hfr : fread F P 0 PIN_MAX_LENGTH = Some d).
  { unfold fread. unfold fdata in Hd. destruct (F P); [|discriminate]. cbn. injection Hd as ->.
    f_equal. unfold slice. cbn [Z.to_nat skipn]. apply firstn_all2. unfold zlen, PIN_MAX_LENGTH in *; lia. }
  apply wp_bind, wp_read_file. rewrite Hfr. intros X2 r2 N2 [->|Hr2].
  { apply wp_ret. apply HQio; [|discriminate]. intros E. destruct (N1 E) as [E1 _]. destruct (N2 E1); congruence. }
  subst r2. cbv iota.
  rewrite (sub_ok buf 0 len) by lia.
  destruct (cmp_ok (-1) [] d buf len) as [y [Hy Hcmp]]; try assumption; try lia.
  cbv zeta in Hy, Hcmp.
  apply wp_bind. unfold wp at 1, need, ret.
  apply wp_bind. rewrite Hy. unfold wp at 1, need, ret. rewrite Hcmp.
  destruct (beqb (slice 0 len buf) d && (zlen d =? len)) eqn:Em; cbn [negb].
  - apply andb_true_iff in Em. destruct Em as [Em1 _]. apply beqb_eq in Em1.
    apply wp_bind. unfold wp at 1, modify. rewrite setv2.
    apply wp_bind, wp_read_attr. intros X3 r3 N3 [->|Hr3].
    { apply wp_ret. apply HQio; [|auto]. intros E. destruct (N1 E) as [E1 _]. destruct (N2 E1) as [E2 _]. destruct (N3 E2); congruence. }
    rewrite Hb in Hr3; subst r3. cbn [attr1].
    apply wp_bind, wp_write_attr.
    + intros _ X4 N4. apply wp_ret. cbn [negb]. apply HQ; [intros E; apply N4, N3, N2, N1, E|assumption|assumption|]. eapply pin_inv_setattr; eauto; lia.
    + intros E4 X4 N4. apply wp_ret. cbn [negb]. apply HQio; [|auto]. intros E. destruct E4 as [E4|E4]; [|contradiction]. apply E4, N3, N2, N1, E.
  - assert (slice 0 len buf <> d) as Hne.
    { intros E1. rewrite E1, beqb_refl in Em. cbn in Em. apply Z.eqb_neq in Em. apply Em. rewrite <- E1, zlen_slice; lia. }
    assert (u8 (c - 1) = c - 1) as Hu8 by (unfold u8; rewrite Z.mod_small; lia).
    cbv zeta. rewrite Hu8.
    apply wp_bind, wp_write_attr.
    + intros _ X4 N4. apply wp_ret. cbn [negb]. apply HQ; [intros E; apply N4, N2, N1, E|assumption|assumption|]. eapply pin_inv_setattr; eauto; lia.
    + intros E4 X4 N4. apply wp_ret. cbn [negb]. apply HQio; [|discriminate]. intros E. destruct E4 as [E4|E4]; [|contradiction]. apply E4, N2, N1, E.
Qed.

Lemma wp_pin_update N d c buf len (Q : out Z -> S -> env -> Prop) s F L X R T O :
  len <= zlen buf -> N < 256 -> pin_inv p N d c F ->
  (~ pin_min p <= len <= pin_max p -> Q (Ret PIN_LENGTH_INVALID) s (mkE F L X R T O)) ->
  (pin_min p <= len <= pin_max p -> let F1 := fwrite F P (slice 0 len buf) 0 true in
    pin_inv p N (slice 0 len buf) c F1 ->
    (X <> [] -> forall X', Q (Ret PIN_IO_FAIL) (setv false s) (mkE F L X' R T O)) /\
    (X <> [] -> forall X', Q (Ret PIN_IO_FAIL) (setv false s) (mkE F1 (F1 :: L) X' R T O)) /\
    (forall X', (X = [] -> X' = []) -> let F2 := fsetattr F1 P RETRY_ATTR [N] in
       pin_inv p N (slice 0 len buf) N F2 -> Q (Ret 0) (setv false s) (mkE F2 (F2 :: F1 :: L) X' R T O))) ->
  wp (pin_update p setv buf len) Q s (mkE F L X R T O).
Proof.
  intros Hlen HN Hi HQ1 HQ. pose proof Hi as (Hd & H64 & Hc & Ha & Hb).
  pose proof (fdata_some _ _ _ Hd) as HF. unfold pin_update.
  destruct ((len <? pin_min p) || (pin_max p <? len)) eqn:El; [apply wp_ret, HQ1; lia|].
  assert (pin_inv p N (slice 0 len buf) c (fwrite F P (slice 0 len buf) 0 true)) as Hi1 by (eapply pin_inv_write; [rewrite zlen_slice; lia|eassumption]).
  destruct (HQ ltac:(lia) Hi1) as (HQa & HQb & HQc). clear HQ HQ1.
  assert (El1 : lcreate F L P = L) by (unfold lcreate; destruct (F P); [reflexivity|contradiction]).
  assert (El2 : fcreate F P = F) by (unfold fcreate; destruct (F P); [reflexivity|contradiction]).
  apply wp_bind, wp_modify. rewrite (sub_ok buf 0 len) by lia. apply wp_bind. unfold wp at 1, need, ret.
  apply wp_bind, wp_write_file.
  - intros X1 N1. rewrite El1. cbn [negb]. apply wp_bind, wp_read_attr. intros X2 r2 N2 [->|Hr2].
    { apply wp_ret, HQb. intros E. destruct (N2 (N1 E)) as [_ E2]. destruct Hi1 as (_ & _ & _ & _ & E3). rewrite E3 in E2. discriminate. }
    destruct Hi1 as (E1 & _ & _ & _ & E3). rewrite E3 in Hr2. subst r2. cbn [attr1].
    apply wp_bind, wp_write_attr.
    + intros _ X3 N3. apply wp_ret, HQc; [intros E; apply N3, N2, N1, E|]. eapply pin_inv_setattr; [lia|]. eapply pin_inv_write; [rewrite zlen_slice; lia|eassumption].
    + intros E4 X3 N3. apply wp_ret, HQb. intros E. destruct E4 as [E4|E4]; [|eapply fdata_some; eassumption]. apply E4, N2, N1, E.
  - intros Hx X1. apply wp_ret, HQa, Hx.
  - intros Hx X1. rewrite El1, El2. apply wp_ret, HQa, Hx.
Qed.

Lemma wp_pin_retries N d c (Q : out Z -> S -> env -> Prop) s F L X R T O :
  pin_inv p N d c F ->
  (forall X' r, r = PIN_IO_FAIL -> X <> [] -> Q (Ret r) s (mkE F L X' R T O)) ->
  (forall X' r, r = c -> d <> [] -> (X = [] -> X' = []) -> Q (Ret r) s (mkE F L X' R T O)) ->
  (forall X', d = [] -> (X = [] -> X' = []) -> Q (Ret 0) s (mkE F L X' R T O)) ->
  (X <> [] -> d = [] -> forall X', Q (Ret c) s (mkE F L X' R T O)) ->
  wp (pin_get_retries p) Q s (mkE F L X R T O).
Proof.
  intros (Hd & H64 & Hc & Ha & Hb) H1 H2 H3 H4. unfold pin_get_retries, pin_get_attr, pin_get_size.
  assert (Hs : fsize F P = Some (zlen d)) by (unfold fsize, fdata in *; destruct (F P); [|discriminate]; injection Hd as ->; reflexivity).
  apply wp_bind, wp_get_file_size. rewrite Hs. intros X1 r1 N1 Hr1.
  assert (HA : (X = [] -> r1 = Some (zlen d)) -> (X = [] -> d <> []) -> wp (a <- read_attr P RETRY_ATTR;; match a with Some v => ret (attr1 v) | None => ret PIN_IO_FAIL end) Q s (mkE F L X1 R T O)).
  { intros Hr Hd0. apply wp_bind, wp_read_attr. rewrite Ha. intros X2 r2 N2 [->|Hr2].
    - apply wp_ret, H1; [reflexivity|]. intros E. destruct (N1 E) as [E1 _]. destruct (N2 E1); discriminate.
    - subst r2. apply wp_ret. cbn [attr1]. destruct d as [|x d'].
      + apply H4; [|reflexivity]. intros E. apply (Hd0 E). reflexivity.
      + apply H2; [reflexivity|discriminate|]. intros E. apply N2, N1, E. }
  destruct r1 as [z|]; [destruct Hr1 as [Hr1|Hr1]; [discriminate|]; injection Hr1 as ->|].
  - destruct (zlen d) eqn:Ez.
    + apply wp_ret, H3; [destruct d; [reflexivity|rewrite zlen_cons in Ez; pose proof (zlen_nonneg d); lia]|]. intros E; apply N1, E.
    + apply HA; [reflexivity|]. intros _ ->. discriminate Ez.
    + apply HA; [reflexivity|]. intros _ ->. discriminate Ez.
  - apply HA; [intros E; apply N1, E|]. intros E. destruct (N1 E); discriminate.
Qed.
End PinWp.

(** [pin_create] over an existing well-formed PIN with the same number of tries *)
Section Create.
Context {S : Type}.
Variable p : pin_t.
Notation P := (pin_path p).
Lemma wp_pin_create N d c buf (Q : out Z -> S -> env -> Prop) s F L X R T O :
  pin_inv p N d c F -> zlen buf <= 64 ->
  (forall X' F' L' r, (X = [] -> X' = []) ->
     (forall q, q <> P -> F' q = F q) -> (exists d' c', (d' = d \/ d' = buf) /\ pin_inv p N d' c' F') ->
     (forall G, In G L' -> In G L \/ (forall q, q <> P -> G q = F q) /\ exists d' c', (d' = d \/ d' = buf) /\ pin_inv p N d' c' G) ->
     (r = 0 /\ pin_inv p N buf N F' \/ r = PIN_IO_FAIL /\ X <> []) ->
     Q (Ret r) s (mkE F' L' X' R T O)) ->
  wp (pin_create p buf N) Q s (mkE F L X R T O).
Proof.
  intros Hi Hz HQ. pose proof Hi as (Hd & H64 & Hc & Ha & Hb). pose proof (fdata_some _ _ _ Hd) as HF.
  assert (El1 : lcreate F L P = L) by (unfold lcreate; destruct (F P); [reflexivity|contradiction]).
  assert (El2 : fcreate F P = F) by (unfold fcreate; destruct (F P); [reflexivity|contradiction]).
  unfold pin_create. set (F1 := fwrite F P buf 0 true).
  assert (Hi1 : pin_inv p N buf c F1) by (eapply pin_inv_write; eassumption).
  assert (HF1 : F1 P <> None) by apply fwrite_some.
  set (F2 := fsetattr F1 P RETRY_ATTR [N]).
  assert (Hi2 : pin_inv p N buf N F2) by (eapply pin_inv_setattr; [lia|eassumption]).
  assert (HF2 : F2 P <> None) by (apply fsetattr_some, HF1).
  set (F3 := fsetattr F2 P DEFAULT_RETRY_ATTR [N]).
  assert (Hi3 : pin_inv p N buf N F3).
  { destruct Hi2 as (E1 & E2 & E3 & E4 & E5). unfold pin_inv, F3. rewrite fdata_fsetattr, !fattr_fsetattr by assumption.
    change (RETRY_ATTR =? DEFAULT_RETRY_ATTR) with false. change (DEFAULT_RETRY_ATTR =? DEFAULT_RETRY_ATTR) with true. cbv iota.
    split; [exact E1|]. split; [exact E2|]. split; [exact E3|]. split; [exact E4|reflexivity]. }
  assert (O1 : forall q, q <> P -> F1 q = F q) by (intros; apply fwrite_other; assumption).
  assert (O2 : forall q, q <> P -> F2 q = F q) by (intros; unfold F2; rewrite fsetattr_other by assumption; auto).
  assert (O3 : forall q, q <> P -> F3 q = F q) by (intros; unfold F3; rewrite fsetattr_other by assumption; auto).
  apply wp_bind, wp_write_file; rewrite ?El1, ?El2.
  2: { intros Hx X1. apply wp_ret, HQ; [contradiction|reflexivity|eauto|auto|auto]. }
  2: { intros Hx X1. apply wp_ret, HQ; [contradiction|reflexivity|eauto|auto|auto]. }
  intros X1 N1. fold F1. cbn [negb].
  apply wp_bind, wp_write_attr; fold F2.
  2: { intros Hx X2 N2. apply wp_ret, HQ; [auto|exact O1|eauto|intros G [<-|HG]; eauto 9|].
       right. split; [reflexivity|]. intros E. destruct Hx as [Hx|Hx]; [apply Hx, N1, E|contradiction]. }
  intros _ X2 N2. cbn [negb]. apply wp_bind, wp_write_attr; fold F3.
  2: { intros Hx X3 N3. apply wp_ret, HQ; [auto|exact O2|eauto|intros G [<-|[<-|HG]]; eauto 9|].
       right. split; [reflexivity|]. intros E. destruct Hx as [Hx|Hx]; [apply Hx, N2, N1, E|contradiction]. }
  intros _ X3 N3. cbn [negb]. apply wp_ret, HQ; [auto|exact O3|eauto|intros G [<-|[<-|[<-|HG]]]; eauto 9|auto].
Qed.
End Create.
