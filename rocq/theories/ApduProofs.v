(** Proofs about the APDU layer. *)
From Verif Require Import Base Apdu ApduSpec.

(** ** C01: decoding *)

Lemma nth_cons_list (l : bytes) : 0 < zlen l -> exists x r, l = x :: r.
Proof. destruct l; [unfold zlen; cbn; lia|eauto]. Qed.

Ltac bcrd H :=
  match type of H with
  | context [bc_rd ?l ?i _] =>
    let E := fresh "E" in unfold bc_rd in H at 1; destruct (rd l i) eqn:E; [|discriminate]
  end.

Lemma build_capdu_no_ub cmd : all_bytes cmd -> build_capdu cmd <> BcUB.
Proof.
  intros Hb. unfold build_capdu.
  destruct (Z.ltb_spec (zlen cmd) 4) as [|Hl]; [discriminate|].
  destruct cmd as [|cla [|ins [|p1 [|p2 t]]]]; try (unfold zlen in Hl; cbn in Hl; lia).
  set (cmd := cla :: ins :: p1 :: p2 :: t) in *.
  unfold bc_rd at 1. replace (rd cmd 0) with (Some cla) by reflexivity.
  unfold bc_rd at 1. replace (rd cmd 1) with (Some ins) by reflexivity.
  unfold bc_rd at 1. replace (rd cmd 2) with (Some p1) by reflexivity.
  unfold bc_rd at 1. replace (rd cmd 3) with (Some p2) by reflexivity.
  destruct (Z.eqb_spec (zlen cmd) 4) as [|H4]; [discriminate|].
  unfold bc_rd at 1. destruct (rd_some cmd 4) as [lc Hlc]; [lia|]. rewrite Hlc.
  pose proof (rd_byte _ _ _ Hb Hlc) as Hlcb. unfold is_byte in Hlcb.
  destruct (Z.eqb_spec (zlen cmd) 5); [discriminate|].
  destruct ((lc >? 0) && (zlen cmd =? 5 + lc)) eqn:E1.
  { unfold bc_sub. rewrite sub_ok by lia. discriminate. }
  destruct ((lc >? 0) && (zlen cmd =? 6 + lc)) eqn:E2.
  { unfold bc_sub. rewrite sub_ok by lia. unfold bc_rd.
    destruct (rd_some cmd (5 + lc)) as [le Hle]; [lia|]. rewrite Hle. discriminate. }
  destruct (Z.eqb_spec (zlen cmd) 7) as [H7|H7].
  { destruct (negb (lc =? 0)); [discriminate|].
    unfold bc_rd. destruct (rd_some cmd 5) as [h Hh]; [lia|]. destruct (rd_some cmd 6) as [l Hl6]; [lia|].
    rewrite Hh, Hl6. discriminate. }
  destruct (negb (lc =? 0) || (zlen cmd <? 7)) eqn:E3; [discriminate|].
  unfold bc_rd at 1. destruct (rd_some cmd 5) as [h Hh]; [lia|]. rewrite Hh.
  unfold bc_rd at 1. destruct (rd_some cmd 6) as [l Hl6]; [lia|]. rewrite Hl6.
  pose proof (rd_byte _ _ _ Hb Hh) as Hhb. pose proof (rd_byte _ _ _ Hb Hl6) as Hlb.
  unfold is_byte in *.
  destruct (h * 256 + l =? 0) eqn:E0; [discriminate|].
  destruct (Z.eqb_spec (zlen cmd) (7 + (h * 256 + l))).
  { unfold bc_sub. rewrite sub_ok by lia. discriminate. }
  destruct (Z.eqb_spec (zlen cmd) (9 + (h * 256 + l))); [|discriminate].
  unfold bc_sub. rewrite sub_ok by lia. unfold bc_rd.
  destruct (rd_some cmd (7 + (h * 256 + l))) as [a Ha]; [lia|].
  destruct (rd_some cmd (8 + (h * 256 + l))) as [b Hb']; [lia|].
  rewrite Ha, Hb'. discriminate.
Qed.

Lemma rd_skip_hdr cla ins p1 p2 t i :
  4 <= i -> rd (cla :: ins :: p1 :: p2 :: t) i = rd t (i - 4).
Proof.
  intros H. rewrite !rd_cons_S by lia. f_equal. lia.
Qed.
Lemma slice_skip_hdr cla ins p1 p2 t i n :
  4 <= i -> slice i n (cla :: ins :: p1 :: p2 :: t) = slice (i - 4) n t.
Proof. intros H. rewrite !slice_cons_S by lia. f_equal. lia. Qed.

Lemma rd_skip7 a b c d e f g t i :
  7 <= i -> rd (a :: b :: c :: d :: e :: f :: g :: t) i = rd t (i - 7).
Proof. intros H. rewrite !rd_cons_S by lia. f_equal. lia. Qed.

Lemma to_be2 h l : is_byte h -> is_byte l -> to_be 2 (h * 256 + l) = [h; l].
Proof.
  unfold is_byte; intros Hh Hl. cbn [to_be app].
  rewrite Z.div_add_l, (Z.div_small l), Z.add_0_r by lia.
  rewrite (Z.mod_small h) by lia.
  rewrite Z.add_comm, Z.mod_add, Z.mod_small by lia. reflexivity.
Qed.

Lemma split_at (n : Z) (l : bytes) : 0 <= n <= zlen l ->
  exists a b, l = a ++ b /\ zlen a = n.
Proof.
  intros H. exists (firstn (Z.to_nat n) l), (skipn (Z.to_nat n) l).
  rewrite firstn_skipn. split; [reflexivity|]. rewrite zlen_firstn. lia.
Qed.

Lemma zlen1 (l : bytes) : zlen l = 1 -> exists x, l = [x].
Proof. destruct l as [|x [|y r]]; unfold zlen; cbn [length]; try lia; eauto. Qed.
Lemma zlen2 (l : bytes) : zlen l = 2 -> exists x y, l = [x; y].
Proof. destruct l as [|x [|y [|z r]]]; unfold zlen; cbn [length]; try lia; eauto. Qed.

Lemma build_capdu_sound cmd c : all_bytes cmd -> build_capdu cmd = BcOk c -> iso_apdu cmd c.
Proof.
  intros Hb H. unfold build_capdu in H.
  destruct (Z.ltb_spec (zlen cmd) 4) as [|Hl]; [discriminate|].
  destruct cmd as [|cla [|ins [|p1 [|p2 t]]]]; try (unfold zlen in Hl; cbn in Hl; lia).
  assert (Hlen : zlen (cla :: ins :: p1 :: p2 :: t) = 4 + zlen t) by (rewrite !zlen_cons; lia).
  rewrite Hlen in H.
  unfold bc_rd in H at 1. rewrite rd_cons_0 in H.
  unfold bc_rd in H at 1. change (rd (cla :: ins :: p1 :: p2 :: t) 1) with (Some ins) in H. cbv beta iota in H.
  unfold bc_rd in H at 1. change (rd (cla :: ins :: p1 :: p2 :: t) 2) with (Some p1) in H. cbv beta iota in H.
  unfold bc_rd in H at 1. change (rd (cla :: ins :: p1 :: p2 :: t) 3) with (Some p2) in H. cbv beta iota in H.
  assert (Hbt : all_bytes t) by (do 4 (inversion Hb as [|? ? _ Hb']; clear Hb; subst; rename Hb' into Hb); exact Hb).
  destruct (Z.eqb_spec (4 + zlen t) 4) as [H4|H4].
  { injection H as <-. assert (t = []) by (apply zlen_zero; lia). subst. constructor. }
  destruct t as [|lc t]; [cbn in H4; lia|].
  rewrite zlen_cons in H. unfold bc_rd in H at 1.
  change (rd (cla :: ins :: p1 :: p2 :: lc :: t) 4) with (Some lc) in H. cbv beta iota in H.
  inversion Hbt as [|? ? Hlcb Hbt']; subst. unfold is_byte in Hlcb.
  destruct (Z.eqb_spec (4 + (1 + zlen t)) 5) as [H5|H5].
  { injection H as <-. assert (t = []) by (apply zlen_zero; lia). subst.
    change (if lc =? 0 then 256 else lc) with (ne_short lc). constructor. }
  destruct ((lc >? 0) && (4 + (1 + zlen t) =? 5 + lc)) eqn:E1.
  { unfold bc_sub in H. destruct (sub _ 5 lc) as [d|] eqn:Es; [|discriminate].
    apply sub_some in Es. destruct Es as (_ & _ & _ & ->). injection H as <-.
    rewrite slice_skip_hdr by lia. change (5 - 4) with 1. rewrite slice_cons_S by lia. change (1 - 1) with 0.
    assert (Elc : lc = zlen t) by lia. rewrite Elc, slice_all.
    rewrite Elc in *. change (cla :: ins :: p1 :: p2 :: zlen t :: t) with ([cla; ins; p1; p2; zlen t] ++ t).
    constructor. lia. }
  destruct ((lc >? 0) && (4 + (1 + zlen t) =? 6 + lc)) eqn:E2.
  { destruct (split_at lc t) as (d & e & -> & Hd); [lia|]. rewrite zlen_app in E2.
    destruct (zlen1 e) as [le ->]; [lia|].
    unfold bc_sub in H. destruct (sub _ 5 lc) as [d'|] eqn:Es; [|discriminate].
    apply sub_some in Es. destruct Es as (_ & _ & _ & ->).
    rewrite slice_skip_hdr in H by lia. change (5 - 4) with 1 in H. rewrite slice_cons_S in H by lia. change (1 - 1) with 0 in H.
    rewrite <- Hd, slice_0_app in H.
    unfold bc_rd in H. rewrite rd_skip_hdr, rd_cons_S, rd_app_r in H by lia.
    replace (5 + zlen d - 4 - 1 - zlen d) with 0 in H by lia. rewrite rd_cons_0 in H. injection H as <-.
    rewrite <- Hd in *.
    change (if le =? 0 then 256 else le) with (ne_short le).
    change (cla :: ins :: p1 :: p2 :: zlen d :: d ++ [le]) with ([cla; ins; p1; p2; zlen d] ++ d ++ [le]).
    constructor. lia. }
  destruct (Z.eqb_spec (4 + (1 + zlen t)) 7) as [H7|H7].
  { destruct (zlen2 t) as (h & l & ->); [lia|].
    destruct (Z.eqb_spec lc 0) as [->|]; [|discriminate]. cbn [negb] in H.
    unfold bc_rd in H. change (rd [cla; ins; p1; p2; 0; h; l] 5) with (Some h) in H.
    change (rd [cla; ins; p1; p2; 0; h; l] 6) with (Some l) in H. injection H as <-.
    inversion Hbt' as [|? ? Hh Hr]; subst. inversion Hr as [|? ? Hl6 _]; subst.
    change [cla; ins; p1; p2; 0; h; l] with ([cla; ins; p1; p2; 0] ++ [h; l]).
    rewrite <- (to_be2 h l) by assumption.
    change (if h * 256 + l =? 0 then 65536 else h * 256 + l) with (ne_ext (h * 256 + l)).
    constructor. unfold is_byte in *; lia. }
  destruct (negb (lc =? 0) || (4 + (1 + zlen t) <? 7)) eqn:E3; [discriminate|].
  assert (lc = 0) by lia. subst lc.
  destruct t as [|h [|l t]]; try (cbn in E3; lia).
  rewrite !zlen_cons in *.
  unfold bc_rd in H at 1. change (rd (cla :: ins :: p1 :: p2 :: 0 :: h :: l :: t) 5) with (Some h) in H. cbv beta iota in H.
  unfold bc_rd in H at 1. change (rd (cla :: ins :: p1 :: p2 :: 0 :: h :: l :: t) 6) with (Some l) in H. cbv beta iota in H.
  inversion Hbt' as [|? ? Hh Hr]; subst. inversion Hr as [|? ? Hl6 _]; subst.
  pose proof Hh as Hh'; pose proof Hl6 as Hl6'. unfold is_byte in Hh', Hl6'.
  set (n := h * 256 + l) in *.
  destruct (Z.eqb_spec n 0) as [|Hn]; [discriminate|].
  destruct (Z.eqb_spec (4 + (1 + (1 + (1 + zlen t)))) (7 + n)) as [H3e|H3e].
  { unfold bc_sub in H. destruct (sub _ 7 n) as [d|] eqn:Es; [|discriminate].
    apply sub_some in Es. destruct Es as (_ & _ & _ & ->). injection H as <-.
    rewrite slice_skip_hdr by lia. change (7 - 4) with 3. rewrite !slice_cons_S by lia. change (3 - 1 - 1 - 1) with 0.
    assert (En : n = zlen t) by lia. rewrite En, slice_all.
    change (cla :: ins :: p1 :: p2 :: 0 :: h :: l :: t) with ([cla; ins; p1; p2; 0] ++ [h; l] ++ t).
    rewrite <- (to_be2 h l) by assumption. fold n. rewrite En. constructor. unfold n in *; lia. }
  destruct (Z.eqb_spec (4 + (1 + (1 + (1 + zlen t)))) (9 + n)) as [H4e|H4e]; [|discriminate].
  destruct (split_at n t) as (d & e & -> & Hd); [unfold n in *; lia|]. rewrite zlen_app in H4e.
  destruct (zlen2 e) as (a & b & ->); [lia|].
  unfold bc_sub in H. destruct (sub _ 7 n) as [d'|] eqn:Es; [|discriminate].
  apply sub_some in Es. destruct Es as (_ & _ & _ & ->).
  rewrite slice_skip_hdr in H by lia. change (7 - 4) with 3 in H. rewrite !slice_cons_S in H by lia. change (3 - 1 - 1 - 1) with 0 in H.
  rewrite <- Hd, slice_0_app in H.
  unfold bc_rd in H.
  rewrite (rd_skip7 _ _ _ _ _ _ _ _ (7 + zlen d)), rd_app_r in H by (pose proof (zlen_nonneg d); lia).
  replace (7 + zlen d - 7 - zlen d) with 0 in H by lia. rewrite rd_cons_0 in H.
  rewrite (rd_skip7 _ _ _ _ _ _ _ _ (8 + zlen d)), rd_app_r in H by (pose proof (zlen_nonneg d); lia).
  replace (8 + zlen d - 7 - zlen d) with 1 in H by lia.
  change (rd [a; b] 1) with (Some b) in H. injection H as <-.
  inversion Hr as [|? ? _ Hr3]; subst. apply Forall_app in Hr3. destruct Hr3 as [_ Hab].
  inversion Hab as [|? ? Ha Hb2]; subst. inversion Hb2 as [|? ? Hbb _]; subst.
  change (cla :: ins :: p1 :: p2 :: 0 :: h :: l :: d ++ [a; b]) with ([cla; ins; p1; p2; 0] ++ [h; l] ++ d ++ [a; b]).
  rewrite <- (to_be2 h l), <- (to_be2 a b) by assumption. fold n. rewrite <- Hd.
  change (if a * 256 + b =? 0 then 65536 else a * 256 + b) with (ne_ext (a * 256 + b)).
  constructor; unfold is_byte in *; lia.
Qed.

Lemma to_be2_val v : 0 <= v < 65536 -> exists h l, to_be 2 v = [h; l] /\ is_byte h /\ is_byte l /\ h * 256 + l = v.
Proof.
  intros H. exists (v / 256), (v mod 256). cbn [to_be app].
  assert (0 <= v / 256 < 256) by (split; [apply Z.div_pos; lia|apply Z.div_lt_upper_bound; lia]).
  rewrite (Z.mod_small (v / 256)) by lia.
  pose proof (Z.mod_pos_bound v 256). pose proof (Z.div_mod v 256). unfold is_byte.
  repeat split; try lia.
Qed.

Ltac hdr5 H :=
  unfold build_capdu; rewrite !zlen_cons, ?zlen_app, ?zlen_cons, ?zlen_nil.

Lemma build_capdu_complete cmd c : iso_apdu cmd c -> build_capdu cmd = BcOk c.
Proof.
  intros H. destruct H as
    [cla ins p1 p2|cla ins p1 p2 le|cla ins p1 p2 d Hd|cla ins p1 p2 d le Hd|cla ins p1 p2 le Hle
    |cla ins p1 p2 d Hd|cla ins p1 p2 d le Hd Hle].
  - reflexivity.
  - unfold build_capdu. reflexivity.
  - unfold build_capdu, bc_rd, bc_sub. cbn [app].
    rewrite !zlen_cons.
    destruct (Z.ltb_spec (1 + (1 + (1 + (1 + (1 + zlen d))))) 4); [lia|].
    change (rd (cla :: ins :: p1 :: p2 :: zlen d :: d) 0) with (Some cla).
    change (rd (cla :: ins :: p1 :: p2 :: zlen d :: d) 1) with (Some ins).
    change (rd (cla :: ins :: p1 :: p2 :: zlen d :: d) 2) with (Some p1).
    change (rd (cla :: ins :: p1 :: p2 :: zlen d :: d) 3) with (Some p2).
    change (rd (cla :: ins :: p1 :: p2 :: zlen d :: d) 4) with (Some (zlen d)). cbv iota.
    destruct (Z.eqb_spec (1 + (1 + (1 + (1 + (1 + zlen d))))) 4); [lia|].
    destruct (Z.eqb_spec (1 + (1 + (1 + (1 + (1 + zlen d))))) 5); [lia|].
    replace ((zlen d >? 0) && (1 + (1 + (1 + (1 + (1 + zlen d)))) =? 5 + zlen d)) with true by lia.
    rewrite sub_ok by (rewrite ?zlen_cons; lia).
    rewrite slice_skip_hdr by lia. change (5 - 4) with 1. rewrite slice_cons_S by lia. change (1 - 1) with 0.
    rewrite slice_all. reflexivity.
  - unfold build_capdu, bc_rd, bc_sub. cbn [app].
    rewrite !zlen_cons, !zlen_app, zlen_cons, zlen_nil.
    set (cmd := cla :: ins :: p1 :: p2 :: zlen d :: d ++ [le]).
    destruct (Z.ltb_spec (1 + (1 + (1 + (1 + (1 + (zlen d + (1 + 0))))))) 4); [lia|].
    change (rd cmd 0) with (Some cla). change (rd cmd 1) with (Some ins). change (rd cmd 2) with (Some p1).
    change (rd cmd 3) with (Some p2). change (rd cmd 4) with (Some (zlen d)). cbv iota.
    destruct (Z.eqb_spec (1 + (1 + (1 + (1 + (1 + (zlen d + (1 + 0))))))) 4); [lia|].
    destruct (Z.eqb_spec (1 + (1 + (1 + (1 + (1 + (zlen d + (1 + 0))))))) 5); [lia|].
    replace ((zlen d >? 0) && (1 + (1 + (1 + (1 + (1 + (zlen d + (1 + 0)))))) =? 5 + zlen d)) with false by lia.
    replace ((zlen d >? 0) && (1 + (1 + (1 + (1 + (1 + (zlen d + (1 + 0)))))) =? 6 + zlen d)) with true by lia.
    unfold cmd. rewrite sub_ok by (autorewrite with zlen; lia).
    rewrite slice_skip_hdr by lia. change (5 - 4) with 1. rewrite slice_cons_S by lia. change (1 - 1) with 0.
    rewrite slice_0_app. rewrite rd_skip_hdr, rd_cons_S, rd_app_r by lia.
    replace (5 + zlen d - 4 - 1 - zlen d) with 0 by lia. reflexivity.
  - destruct (to_be2_val le Hle) as (h & l & -> & Hh & Hl & <-). cbn [app].
    unfold build_capdu. reflexivity.
  - destruct (to_be2_val (zlen d)) as (h & l & -> & Hh & Hl & Ev); [lia|]. cbn [app].
    unfold build_capdu, bc_rd, bc_sub. rewrite !zlen_cons.
    set (cmd := cla :: ins :: p1 :: p2 :: 0 :: h :: l :: d).
    destruct (Z.ltb_spec (1 + (1 + (1 + (1 + (1 + (1 + (1 + zlen d))))))) 4); [lia|].
    change (rd cmd 0) with (Some cla). change (rd cmd 1) with (Some ins). change (rd cmd 2) with (Some p1).
    change (rd cmd 3) with (Some p2). change (rd cmd 4) with (Some 0). change (rd cmd 5) with (Some h). change (rd cmd 6) with (Some l). cbv iota.
    destruct (Z.eqb_spec (1 + (1 + (1 + (1 + (1 + (1 + (1 + zlen d))))))) 4); [lia|].
    destruct (Z.eqb_spec (1 + (1 + (1 + (1 + (1 + (1 + (1 + zlen d))))))) 5); [lia|].
    cbn [Z.gtb Z.compare andb].
    destruct (Z.eqb_spec (1 + (1 + (1 + (1 + (1 + (1 + (1 + zlen d))))))) 7); [lia|].
    replace (negb (0 =? 0) || (1 + (1 + (1 + (1 + (1 + (1 + (1 + zlen d)))))) <? 7)) with false by lia.
    rewrite Ev. destruct (Z.eqb_spec (zlen d) 0); [lia|].
    destruct (Z.eqb_spec (1 + (1 + (1 + (1 + (1 + (1 + (1 + zlen d))))))) (7 + zlen d)); [|lia].
    unfold cmd. rewrite sub_ok by (rewrite ?zlen_cons; lia).
    rewrite slice_skip_hdr by lia. change (7 - 4) with 3. rewrite !slice_cons_S by lia. change (3 - 1 - 1 - 1) with 0.
    rewrite slice_all. reflexivity.
  - destruct (to_be2_val (zlen d)) as (h & l & -> & Hh & Hl & Ev); [lia|].
    destruct (to_be2_val le Hle) as (a & b & -> & Ha & Hb & Ele). cbn [app].
    unfold build_capdu, bc_rd, bc_sub. rewrite !zlen_cons, !zlen_app, !zlen_cons, zlen_nil.
    set (cmd := cla :: ins :: p1 :: p2 :: 0 :: h :: l :: d ++ [a; b]).
    set (N := 1 + (1 + (1 + (1 + (1 + (1 + (1 + (zlen d + (1 + (1 + 0)))))))))).
    assert (HN : N = zlen d + 9) by (unfold N; lia).
    destruct (Z.ltb_spec N 4); [lia|].
    change (rd cmd 0) with (Some cla). change (rd cmd 1) with (Some ins). change (rd cmd 2) with (Some p1).
    change (rd cmd 3) with (Some p2). change (rd cmd 4) with (Some 0). change (rd cmd 5) with (Some h). change (rd cmd 6) with (Some l). cbv iota.
    destruct (Z.eqb_spec N 4); [lia|].
    destruct (Z.eqb_spec N 5); [lia|].
    cbn [Z.gtb Z.compare andb].
    destruct (Z.eqb_spec N 7); [lia|].
    replace (negb (0 =? 0) || (N <? 7)) with false by lia.
    rewrite Ev. destruct (Z.eqb_spec (zlen d) 0); [lia|].
    destruct (Z.eqb_spec N (7 + zlen d)); [lia|].
    destruct (Z.eqb_spec N (9 + zlen d)); [|lia].
    unfold cmd. rewrite sub_ok by (autorewrite with zlen; lia).
    rewrite slice_skip_hdr by lia. change (7 - 4) with 3. rewrite !slice_cons_S by lia. change (3 - 1 - 1 - 1) with 0.
    rewrite slice_0_app.
    rewrite (rd_skip7 _ _ _ _ _ _ _ _ (7 + zlen d)), rd_app_r by (pose proof (zlen_nonneg d); lia).
    replace (7 + zlen d - 7 - zlen d) with 0 by lia. rewrite rd_cons_0.
    rewrite (rd_skip7 _ _ _ _ _ _ _ _ (8 + zlen d)), rd_app_r by (pose proof (zlen_nonneg d); lia).
    replace (8 + zlen d - 7 - zlen d) with 1 by lia. change (rd [a; b] 1) with (Some b).
    cbv beta iota. rewrite Ele. reflexivity.
Qed.

(** ** C02, C03: command chaining *)

Lemma splice_nil l off : splice l off [] = l.
Proof. unfold splice; cbn [app length]. rewrite Nat.add_0_r. apply firstn_skipn. Qed.

Lemma firstn_app_l {A} n (a b : list A) : (n <= length a)%nat -> firstn n (a ++ b) = firstn n a.
Proof. intros H; rewrite firstn_app. replace (n - length a)%nat with 0%nat by lia. cbn; apply app_nil_r. Qed.
Lemma skipn_app_r {A} n (a b : list A) : (length a <= n)%nat -> skipn n (a ++ b) = skipn (n - length a) b.
Proof. intros H; rewrite skipn_app, skipn_all2 by lia; reflexivity. Qed.
Lemma firstn_exact {A} (a b : list A) n : n = length a -> firstn n (a ++ b) = a.
Proof. intros ->. rewrite firstn_app, firstn_all, Nat.sub_diag; cbn; apply app_nil_r. Qed.

Lemma splice_splice l off a b : 0 <= off -> off + zlen a + zlen b <= zlen l ->
  splice (splice l off a) (off + zlen a) b = splice l off (a ++ b).
Proof.
  intros Ho Hl. unfold splice. unfold zlen in Hl.
  assert (Hf : length (firstn (Z.to_nat off) l) = Z.to_nat off) by (rewrite firstn_length; lia).
  set (F := firstn (Z.to_nat off) l) in *. set (K := skipn (Z.to_nat off + length a) l).
  rewrite (app_assoc F a K). rewrite (firstn_exact (F ++ a)) by (rewrite app_length, Hf; unfold zlen; lia).
  rewrite (skipn_app_r _ (F ++ a)) by (rewrite app_length, Hf; unfold zlen; lia).
  unfold K. rewrite skipn_skipn, <- !app_assoc. do 3 f_equal.
  rewrite !app_length, Hf. unfold zlen. f_equal. lia.
Qed.

Lemma slice_splice l off d : 0 <= off -> off + zlen d <= zlen l ->
  slice 0 (off + zlen d) (splice l off d) = slice 0 off l ++ d.
Proof.
  intros Ho Hl. unfold slice, splice. cbn [Z.to_nat skipn].
  assert (Hf : length (firstn (Z.to_nat off) l) = Z.to_nat off) by (rewrite firstn_length; unfold zlen in Hl; lia).
  rewrite app_assoc. apply firstn_exact. rewrite app_length, Hf. unfold zlen; lia.
Qed.

Definition chain_ok (ex : chain) (buf : bytes) : Prop :=
  zlen buf = APDU_BUFFER_SIZE /\ (x_on ex = true -> 0 <= x_lc ex <= APDU_BUFFER_SIZE).
Definition chain_abs (ex : chain) (buf : bytes) : option (header * bytes) :=
  if x_on ex then Some ((x_cla ex, x_ins ex, x_p1 ex, x_p2 ex), slice 0 (x_lc ex) buf) else None.

Lemma land16 z : negb (Z.land z 0x10 =? 0) = Z.testbit z 4.
Proof.
  destruct (Z.testbit z 4) eqn:E.
  - apply negb_true_iff, Z.eqb_neq. intros H.
    assert (Z.testbit (Z.land z 16) 4 = false) by (rewrite H; apply Z.testbit_0_l).
    rewrite Z.land_spec, E in H0. discriminate.
  - apply negb_false_iff, Z.eqb_eq. apply Z.bits_inj'. intros n Hn.
    rewrite Z.land_spec, Z.testbit_0_l. destruct (Z.eq_dec n 4) as [->|Hne]; [rewrite E; reflexivity|].
    change 16 with (2 ^ 4). rewrite Z.pow2_bits_false by lia. apply andb_false_r.
Qed.

Definition abs_out (r : chain_res) : chain_out :=
  match r with NotLast => CWait | Last c => CRun c | Overflow => CRefused end.

Lemma apdu_input_refines ex buf c : chain_ok ex buf ->
  let '(r, ex', buf') := apdu_input ex buf c in
  chain_ok ex' buf' /\ spec_chain (chain_abs ex buf) c = (abs_out r, chain_abs ex' buf').
Proof.
  intros [Hbuf Hon]. unfold apdu_input, spec_chain, header_of.
  set (cla := Z.land (c_cla c) 0xEF).
  set (fresh := mkX true cla (c_ins c) (c_p1 c) (c_p2 c) 0).
  match goal with |- context [if negb (x_on ex) then fresh else ?e] => set (ex1 := if negb (x_on ex) then fresh else e) end.
  match goal with |- context [match chain_abs ex buf with Some _ => _ | None => _ end] =>
    set (base := match chain_abs ex buf with
      | Some (h', d) => if header_eqb h' (cla, c_ins c, c_p1 c, c_p2 c) then d else []
      | None => [] end) end.
  assert (Hex : base = slice 0 (x_lc ex1) buf /\ 0 <= x_lc ex1 <= APDU_BUFFER_SIZE /\ x_on ex1 = true
     /\ x_cla ex1 = cla /\ x_ins ex1 = c_ins c /\ x_p1 ex1 = c_p1 c /\ x_p2 ex1 = c_p2 c).
  { unfold ex1, base, chain_abs. destruct (x_on ex) eqn:E; cbn [negb].
    - unfold header_eqb.
      destruct (Z.eqb_spec (x_cla ex) cla); cbn [negb orb andb]; [|repeat split; cbn; solve [reflexivity | unfold APDU_BUFFER_SIZE; lia]].
      destruct (Z.eqb_spec (x_ins ex) (c_ins c)); cbn [negb orb andb]; [|repeat split; cbn; solve [reflexivity | unfold APDU_BUFFER_SIZE; lia]].
      destruct (Z.eqb_spec (x_p1 ex) (c_p1 c)); cbn [negb orb andb]; [|repeat split; cbn; solve [reflexivity | unfold APDU_BUFFER_SIZE; lia]].
      destruct (Z.eqb_spec (x_p2 ex) (c_p2 c)); cbn [negb orb andb]; [|repeat split; cbn; solve [reflexivity | unfold APDU_BUFFER_SIZE; lia]].
      repeat split; auto; apply Hon; reflexivity.
    - repeat split; cbn; solve [reflexivity | unfold APDU_BUFFER_SIZE; lia]. }
  destruct Hex as (Hbase & Hlc & Hon1 & Hc1 & Hc2 & Hc3 & Hc4).
  clearbody ex1 base.
  assert (Hzb : zlen base = x_lc ex1).
  { rewrite Hbase, zlen_slice by lia. rewrite Hbuf. lia. }
  rewrite Hzb. unfold c_lc. change 1340 with APDU_BUFFER_SIZE.
  destruct (x_lc ex1 + zlen (c_data c) >? APDU_BUFFER_SIZE) eqn:Eov.
  - split; [split; auto|]. unfold chain_abs. rewrite Hon1, Hc1, Hc2, Hc3, Hc4, Hbase. reflexivity.
  - pose proof (zlen_nonneg (c_data c)).
    rewrite land16.
    assert (Hsl : slice 0 (x_lc ex1 + zlen (c_data c)) (splice buf (x_lc ex1) (c_data c)) = base ++ c_data c)
      by (rewrite slice_splice by lia; congruence).
    destruct (Z.testbit (c_cla c) 4); (split; [split; [rewrite zlen_splice by lia; assumption | cbn; intros; lia]|]);
      unfold chain_abs; cbn [x_on x_cla x_ins x_p1 x_p2 x_lc abs_out]; rewrite ?Hsl, Hc1, Hc2, Hc3, Hc4; reflexivity.
Qed.

(** The dispatcher keeps the buffer invariant. *)
Definition disp_ok {St} (d : disp St) : Prop :=
  chain_ok (d_x d) (d_buf d) /\ 0 <= rc_sent (d_r d) /\ 0 <= rc_len (d_r d) <= APDU_BUFFER_SIZE
  /\ rc_sent (d_r d) <= rc_len (d_r d).

Lemma byte_bit4 cla : is_byte cla -> Z.testbit cla 4 = false ->
  Z.land (cla + 16) 239 = Z.land cla 239 /\ Z.land cla 239 = cla /\ Z.testbit (cla + 16) 4 = true.
Proof.
  unfold is_byte. intros Hb Ht.
  assert (H : forallb (fun n => let c := Z.of_nat n in
      implb (negb (Z.testbit c 4)) ((Z.land (c + 16) 239 =? Z.land c 239) && (Z.land c 239 =? c) && Z.testbit (c + 16) 4)) (seq 0 256) = true)
    by (vm_compute; reflexivity).
  rewrite forallb_forall in H. specialize (H (Z.to_nat cla)).
  cbv beta zeta in H. rewrite Z2Nat.id in H by lia. rewrite Ht in H. cbn [negb implb] in H.
  assert (Hi : In (Z.to_nat cla) (seq 0 256)) by (apply in_seq; lia).
  specialize (H Hi). apply andb_true_iff in H. destruct H as [H H3]. apply andb_true_iff in H. destruct H as [H1 H2].
  apply Z.eqb_eq in H1, H2. auto.
Qed.

Section Chaining.
  Context {St : Type} (A : applets St).

  (** With [pre] already accumulated. *)
  Definition mid (d : disp St) (cla ins p1 p2 : Z) (buf0 pre : bytes) : disp St :=
    mkD (d_cur d) (if applet_eqb (d_cur d) PIV then PivOther else d_piv d)
        (mkX true cla ins p1 p2 (zlen pre)) (d_r d) (splice buf0 0 pre) (d_app d).

  Lemma magic_bit cla ins p1 p2 d le : is_byte cla ->
    ~ (cla = 0xEF /\ ins = 0xEE /\ p1 = 0xFF /\ p2 = 0xEE) ->
    is_magic (mkC (cla + 16) ins p1 p2 d le) = false.
  Proof. unfold is_byte, is_magic; cbn; intros; lia. Qed.

  Lemma magic_nobit cla ins p1 p2 d le : is_byte cla -> Z.testbit cla 4 = false ->
    is_magic (mkC cla ins p1 p2 d le) = false.
  Proof.
    unfold is_magic; cbn [c_cla c_ins c_p1 c_p2]; intros _ Ht.
    destruct (Z.eqb_spec cla 255) as [->|]; [discriminate|reflexivity].
  Qed.

  Lemma piv_no_bypass d ins : (d_cur d = PIV -> ins <> 0xCB /\ ins <> 0xDB /\ ins <> 0xC0) ->
    let ps := if applet_eqb (d_cur d) PIV then next_piv (d_piv d) ins else d_piv d in
    applet_eqb (d_cur d) PIV && piv_bypass ps ins = false /\
    ps = (if applet_eqb (d_cur d) PIV then PivOther else @d_piv St d).
  Proof.
    intros H. destruct (applet_eqb (d_cur d) PIV) eqn:E; cbn [andb]; [|auto].
    assert (d_cur d = PIV) by (destruct (d_cur d); auto; discriminate).
    specialize (H H0). unfold next_piv.
    destruct (Z.eqb_spec ins 203); [lia|]. destruct (Z.eqb_spec ins 192); [lia|].
    destruct (d_piv d); cbn [piv_bypass]; split; try reflexivity; apply Z.eqb_neq; lia.
  Qed.

  Lemma process_notlast d cla ins p1 p2 buf0 pre b le :
    chainable d cla ins p1 p2 -> zlen buf0 = APDU_BUFFER_SIZE -> zlen pre + zlen b <= APDU_BUFFER_SIZE ->
    process_apdu A (mid d cla ins p1 p2 buf0 pre) (mkC (cla + 16) ins p1 p2 b le)
    = (mkR [] SW_NO_ERROR, mid d cla ins p1 p2 buf0 (pre ++ b)).
  Proof.
    intros (Hb & Ht & Hm & Hp) Hbuf Hl.
    destruct (byte_bit4 cla Hb Ht) as (E1 & E2 & E3).
    unfold process_apdu. rewrite magic_bit by assumption.
    destruct (piv_no_bypass (mid d cla ins p1 p2 buf0 pre) ins Hp) as [Hby Hps].
    cbv zeta in Hby, Hps. cbn [c_ins].
    rewrite Hby, Hps. unfold apdu_input. unfold c_lc. cbn [c_cla c_ins c_p1 c_p2 c_data mid d_x x_on x_cla x_ins x_p1 x_p2 negb].
    rewrite E1, E2, !Z.eqb_refl. cbn [negb orb x_lc].
    destruct (zlen pre + zlen b >? APDU_BUFFER_SIZE) eqn:E; [lia|].
    rewrite land16, E3. cbn [x_cla x_ins x_p1 x_p2].
    cbn [d_cur d_piv d_r d_buf d_app mid]. unfold mid.
    replace (zlen pre + zlen b) with (zlen (pre ++ b)) by (rewrite zlen_app; lia).
    rewrite <- (splice_splice buf0 0 pre b) by lia. rewrite Z.add_0_l.
    destruct (applet_eqb (d_cur d) PIV); reflexivity.
  Qed.

  Lemma process_first d cla ins p1 p2 b le :
    chainable d cla ins p1 p2 -> fresh_for d cla ins p1 p2 -> zlen (d_buf d) = APDU_BUFFER_SIZE ->
    zlen b <= APDU_BUFFER_SIZE ->
    process_apdu A d (mkC (cla + 16) ins p1 p2 b le)
    = (mkR [] SW_NO_ERROR, mid d cla ins p1 p2 (d_buf d) b).
  Proof.
    intros (Hb & Ht & Hm & Hp) Hf Hbuf Hl.
    destruct (byte_bit4 cla Hb Ht) as (E1 & E2 & E3).
    unfold process_apdu. rewrite magic_bit by assumption.
    destruct (piv_no_bypass d ins Hp) as [Hby Hps].
    cbv zeta in Hby, Hps. cbn [c_ins].
    rewrite Hby, Hps. unfold apdu_input, c_lc. cbn [c_cla c_ins c_p1 c_p2 c_data].
    rewrite E1, E2.
    match goal with |- context [if negb (x_on (d_x d)) then ?f else ?e] =>
      replace (if negb (x_on (d_x d)) then f else e) with f end.
    2:{ destruct (x_on (d_x d)) eqn:Eon; cbn [negb]; [|reflexivity].
        destruct Hf as [Hf|Hf]; [congruence|].
        destruct (Z.eqb_spec (x_cla (d_x d)) cla); cbn [negb orb]; [|reflexivity].
        destruct (Z.eqb_spec (x_ins (d_x d)) ins); cbn [negb orb]; [|reflexivity].
        destruct (Z.eqb_spec (x_p1 (d_x d)) p1); cbn [negb orb]; [|reflexivity].
        destruct (Z.eqb_spec (x_p2 (d_x d)) p2); cbn [negb orb]; [|reflexivity].
        exfalso; apply Hf; congruence. }
    cbn [x_lc x_cla x_ins x_p1 x_p2].
    destruct (0 + zlen b >? APDU_BUFFER_SIZE) eqn:E; [lia|].
    rewrite land16, E3. rewrite Z.add_0_l. reflexivity.
  Qed.

  (** Last block on top of [pre] = the whole command as one block. *)
  Lemma process_last d cla ins p1 p2 pre b le :
    chainable d cla ins p1 p2 -> fresh_for d cla ins p1 p2 -> zlen (d_buf d) = APDU_BUFFER_SIZE ->
    zlen pre + zlen b <= APDU_BUFFER_SIZE ->
    process_apdu A (mid d cla ins p1 p2 (d_buf d) pre) (mkC cla ins p1 p2 b le)
    = process_apdu A d (mkC cla ins p1 p2 (pre ++ b) le).
  Proof.
    intros (Hb & Ht & Hm & Hp) Hf Hbuf Hl.
    destruct (byte_bit4 cla Hb Ht) as (E1 & E2 & E3).
    unfold process_apdu. rewrite !magic_nobit by assumption. cbn [c_ins].
    destruct (piv_no_bypass d ins Hp) as [Hby Hps].
    destruct (piv_no_bypass (mid d cla ins p1 p2 (d_buf d) pre) ins Hp) as [Hby' Hps'].
    cbv zeta in Hby, Hps, Hby', Hps'.
    rewrite Hby, Hps, Hby', Hps'.
    unfold apdu_input, c_lc. cbn [c_cla c_ins c_p1 c_p2 c_data c_le mid d_x x_on x_cla x_ins x_p1 x_p2 negb].
    rewrite E2, !Z.eqb_refl. cbn [negb orb x_lc].
    match goal with |- context [if negb (x_on (d_x d)) then ?f else ?e] =>
      replace (if negb (x_on (d_x d)) then f else e) with f end.
    2:{ destruct (x_on (d_x d)) eqn:Eon; cbn [negb]; [|reflexivity].
        destruct Hf as [Hf|Hf]; [congruence|].
        destruct (Z.eqb_spec (x_cla (d_x d)) cla); cbn [negb orb]; [|reflexivity].
        destruct (Z.eqb_spec (x_ins (d_x d)) ins); cbn [negb orb]; [|reflexivity].
        destruct (Z.eqb_spec (x_p1 (d_x d)) p1); cbn [negb orb]; [|reflexivity].
        destruct (Z.eqb_spec (x_p2 (d_x d)) p2); cbn [negb orb]; [|reflexivity].
        exfalso; apply Hf; congruence. }
    cbn [x_lc x_cla x_ins x_p1 x_p2]. rewrite zlen_app, Z.add_0_l.
    destruct (zlen pre + zlen b >? APDU_BUFFER_SIZE) eqn:E; [lia|].
    rewrite land16, Ht.
    cbn [d_cur d_piv d_r d_buf d_app mid].
    rewrite <- (splice_splice (d_buf d) 0 pre b) by lia. rewrite Z.add_0_l.
    destruct (applet_eqb (d_cur d) PIV); reflexivity.
  Qed.

  Lemma run_blocks_from d cla ins p1 p2 le pre b more :
    chainable d cla ins p1 p2 -> fresh_for d cla ins p1 p2 -> zlen (d_buf d) = APDU_BUFFER_SIZE ->
    zlen (pre ++ b ++ concat more) <= APDU_BUFFER_SIZE ->
    run A (mid d cla ins p1 p2 (d_buf d) pre) (blocks cla ins p1 p2 le b more)
    = let '(o, d') := process_apdu A d (mkC cla ins p1 p2 (pre ++ b ++ concat more) le) in
      (repeat (mkR [] SW_NO_ERROR) (length more) ++ [o], d').
  Proof.
    intros Hc Hf Hbuf. revert pre b. induction more as [|b' more IH]; intros pre b Hl.
    - cbn [blocks run concat length repeat app]. rewrite app_nil_r in *. rewrite zlen_app in Hl.
      rewrite process_last by assumption. destruct (process_apdu A d _); reflexivity.
    - cbn [blocks run concat length repeat app] in *.
      rewrite process_notlast by (try assumption; autorewrite with zlen in Hl; pose proof (zlen_nonneg b'); pose proof (zlen_nonneg (concat more)); lia).
      rewrite IH by (rewrite <- app_assoc; assumption).
      rewrite <- app_assoc. destruct (process_apdu A d _); reflexivity.
  Qed.

  Lemma chaining_concat d cla ins p1 p2 le b more :
    chainable d cla ins p1 p2 -> fresh_for d cla ins p1 p2 -> zlen (d_buf d) = APDU_BUFFER_SIZE ->
    zlen (b ++ concat more) <= APDU_BUFFER_SIZE ->
    run A d (blocks cla ins p1 p2 le b more)
    = let '(o, d') := process_apdu A d (mkC cla ins p1 p2 (b ++ concat more) le) in
      (repeat (mkR [] SW_NO_ERROR) (length more) ++ [o], d').
  Proof.
    intros Hc Hf Hbuf Hl. destruct more as [|b' more].
    - cbn [blocks run concat length repeat app]. rewrite app_nil_r. destruct (process_apdu A d _); reflexivity.
    - cbn [blocks run concat length repeat app] in *.
      rewrite process_first by (try assumption; autorewrite with zlen in Hl; pose proof (zlen_nonneg b'); pose proof (zlen_nonneg (concat more)); lia).
      rewrite run_blocks_from by assumption.
      destruct (process_apdu A d _); reflexivity.
  Qed.
End Chaining.

Fixpoint run_input (ex : chain) (buf : bytes) (cs : list capdu) : list chain_res :=
  match cs with
  | [] => []
  | c :: r => let '(o, ex', buf') := apdu_input ex buf c in o :: run_input ex' buf' r
  end.
Fixpoint run_spec_chain (p : option (header * bytes)) (cs : list capdu) : list chain_out :=
  match cs with
  | [] => []
  | c :: r => let '(o, p') := spec_chain p c in o :: run_spec_chain p' r
  end.

Lemma chaining_history ex buf cs : chain_ok ex buf ->
  map abs_out (run_input ex buf cs) = run_spec_chain (chain_abs ex buf) cs.
Proof.
  revert ex buf; induction cs as [|c cs IH]; intros ex buf Hok; cbn [run_input run_spec_chain map]; [reflexivity|].
  pose proof (apdu_input_refines ex buf c Hok) as Hr.
  destruct (apdu_input ex buf c) as [[o ex'] buf']. destruct Hr as [Hok' ->].
  cbn [map]. f_equal. apply IH, Hok'.
Qed.

(** ** C04, C05: response chaining *)

Lemma apdu_output_spec ex buf le :
  0 <= rc_sent ex -> rc_sent ex <= rc_len ex -> rc_len ex <= APDU_BUFFER_SIZE -> zlen buf = APDU_BUFFER_SIZE -> 0 <= le ->
  let rest := slice (rc_sent ex) (rc_len ex - rc_sent ex) buf in
  let '(o, ex') := apdu_output ex buf le in
  [o] = segments rest (rc_sw ex) [le] /\
  rc_len ex' = rc_len ex /\ rc_sw ex' = rc_sw ex /\ rc_sent ex <= rc_sent ex' <= rc_len ex /\
  slice (rc_sent ex') (rc_len ex' - rc_sent ex') buf = skipn (Z.to_nat le) rest.
Proof.
  unfold APDU_BUFFER_SIZE. intros H0 H1 H2 Hbuf Hle. cbv zeta. unfold apdu_output.
  set (L := rc_len ex) in *. set (s := rc_sent ex) in *.
  assert (Eu : u16 (L - s) = L - s) by (unfold u16; apply Z.mod_small; lia). rewrite Eu.
  set (n := if L - s >? le then le else L - s).
  assert (Hn : n = Z.min le (L - s)) by (unfold n; destruct (L - s >? le) eqn:?; lia).
  assert (Eu2 : u16 (s + n) = s + n) by (unfold u16; apply Z.mod_small; lia). rewrite Eu2.
  set (rest := slice s (L - s) buf).
  assert (Hrest : zlen rest = L - s) by (unfold rest; rewrite zlen_slice by lia; lia).
  assert (Ed : slice s n buf = firstn (Z.to_nat le) rest).
  { unfold rest, slice. rewrite firstn_firstn. f_equal. lia. }
  assert (Es : slice (s + n) (L - (s + n)) buf = skipn (Z.to_nat le) rest).
  { destruct (Z.leb_spec le (L - s)) as [Hc|Hc].
    - assert (n = le) by lia. unfold rest.
      replace (L - s) with (n + (L - (s + n))) by lia. rewrite slice_split by lia.
      rewrite skipn_app_r by (pose proof (zlen_slice s n buf ltac:(lia) ltac:(lia)); unfold zlen in *; lia).
      replace (Z.to_nat le - length (slice s n buf))%nat with 0%nat by (pose proof (zlen_slice s n buf ltac:(lia) ltac:(lia)); unfold zlen in *; lia).
      reflexivity.
    - rewrite skipn_all2 by (unfold zlen in Hrest; lia).
      unfold slice. replace (Z.to_nat (L - (s + n))) with 0%nat by lia. reflexivity. }
  cbn [segments rc_len rc_sw rc_sent].
  repeat split; try lia; [|exact Es].
  f_equal. f_equal; [exact Ed|].
  assert (Hlater : zlen (skipn (Z.to_nat le) rest) = L - (s + n)) by (rewrite zlen_skipn, Hrest; lia).
  rewrite Hlater.
  destruct (Z.ltb_spec (s + n) L).
  - destruct (Z.eqb_spec (L - (s + n)) 0); [lia|].
    destruct (L - (s + n) >? 255) eqn:E; lia.
  - destruct (Z.eqb_spec (L - (s + n)) 0); [reflexivity|lia].
Qed.

Lemma segments_cons rest sw le les :
  segments rest sw (le :: les) = segments rest sw [le] ++ segments (skipn (Z.to_nat le) rest) sw les.
Proof. reflexivity. Qed.

Section Responses.
  Context {St : Type} (A : applets St).

  Lemma input_single x buf c : x_on x = false -> is_byte (c_cla c) -> Z.testbit (c_cla c) 4 = false -> c_lc c <= APDU_BUFFER_SIZE ->
    zlen buf = APDU_BUFFER_SIZE ->
    apdu_input x buf c = (Last c, mkX false (c_cla c) (c_ins c) (c_p1 c) (c_p2 c) (c_lc c), splice buf 0 (c_data c)).
  Proof.
    intros Hx Hb Ht Hl Hbuf. destruct (byte_bit4 _ Hb Ht) as (_ & E2 & _).
    unfold apdu_input. rewrite Hx. cbn [negb x_lc x_cla x_ins x_p1 x_p2].
    destruct (0 + c_lc c >? APDU_BUFFER_SIZE) eqn:E; [lia|]. rewrite land16, Ht, E2, Z.add_0_l.
    f_equal. f_equal. f_equal. destruct c as [cla ins p1 p2 dd le]; cbn in *. f_equal.
    pose proof (slice_splice buf 0 dd ltac:(lia)) as Hs. rewrite Z.add_0_l in Hs. unfold c_lc in *. cbn in *.
    rewrite Hs by lia. reflexivity.
  Qed.

  Lemma land_not16 cla : cla = 0 \/ cla = 128 -> is_byte cla /\ Z.testbit cla 4 = false.
  Proof. intros [-> | ->]; (split; [unfold is_byte; lia|reflexivity]). Qed.

  Definition ready (d : disp St) : Prop :=
    x_on (d_x d) = false /\ zlen (d_buf d) = APDU_BUFFER_SIZE /\ 0 <= rc_sent (d_r d) <= rc_len (d_r d) /\
    rc_len (d_r d) <= APDU_BUFFER_SIZE /\ (d_cur d = PIV -> d_piv d = PivOther).
  Definition unsent (d : disp St) : bytes :=
    slice (rc_sent (d_r d)) (rc_len (d_r d) - rc_sent (d_r d)) (d_buf d).

  Lemma get_response_step d c : ready d -> get_response c ->
    exists d', process_apdu A d c = (mkR (firstn (Z.to_nat (max_le (c_le c))) (unsent d))
          (if zlen (skipn (Z.to_nat (max_le (c_le c))) (unsent d)) =? 0 then rc_sw (d_r d)
           else 0x6100 + Z.min 255 (zlen (skipn (Z.to_nat (max_le (c_le c))) (unsent d)))), d')
      /\ ready d' /\ unsent d' = skipn (Z.to_nat (max_le (c_le c))) (unsent d)
      /\ rc_sw (d_r d') = rc_sw (d_r d) /\ d_app d' = d_app d /\ d_cur d' = d_cur d.
  Proof.
    intros (Hx & Hbuf & Hs & Hlen & Hp) (Hcla & Hins & Hdata & Hle).
    destruct (land_not16 _ Hcla) as [Hb Ht].
    unfold process_apdu.
    assert (Hm : is_magic c = false) by (unfold is_magic; rewrite Hins; destruct (c_cla c =? 255); reflexivity).
    rewrite Hm, Hins.
    assert (Hps : (if applet_eqb (d_cur d) PIV then next_piv (d_piv d) 192 else d_piv d) = d_piv d /\
        applet_eqb (d_cur d) PIV && piv_bypass (d_piv d) 192 = false).
    { destruct (applet_eqb (d_cur d) PIV) eqn:E; [|split; reflexivity].
      rewrite Hp by (destruct (d_cur d); auto; discriminate). split; reflexivity. }
    destruct Hps as [-> ->].
    assert (Hlc : c_lc c = 0) by (unfold c_lc; rewrite Hdata; reflexivity).
    rewrite (input_single _ _ _ Hx Hb Ht) by (try assumption; unfold APDU_BUFFER_SIZE; lia).
    rewrite Hdata, splice_nil, Hlc.
    assert (Hg : is_get_response (clamp_le c) = true).
    { unfold is_get_response, clamp_le; cbn. rewrite Hins. destruct Hcla as [-> | ->]; reflexivity. }
    rewrite Hg. cbn [clamp_le c_le]. fold (max_le (c_le c)). change APDU_BUFFER_SIZE with 1340 in *.
    pose proof (apdu_output_spec (d_r d) (d_buf d) (max_le (c_le c)) ltac:(lia) ltac:(lia) ltac:(unfold APDU_BUFFER_SIZE; lia)
       Hbuf ltac:(unfold max_le; lia)) as Ho. cbv zeta in Ho.
    fold (max_le (c_le c)). change (Z.min (c_le c) 1340) with (max_le (c_le c)).
    destruct (apdu_output (d_r d) (d_buf d) (max_le (c_le c))) as [o rc'].
    destruct Ho as (Ho & Hl' & Hsw & Hs' & Hr).
    injection Ho as Ho. subst o. eexists. split; [reflexivity|].
    unfold ready, unsent. cbn [d_x d_buf d_r d_cur d_piv d_app x_on].
    repeat split; try assumption; try lia. rewrite Hl'; exact Hlen.
  Qed.

  Lemma get_responses d gs : ready d -> Forall get_response gs ->
    fst (run A d gs) = segments (unsent d) (rc_sw (d_r d)) (map (fun c => max_le (c_le c)) gs)
    /\ d_app (snd (run A d gs)) = d_app d.
  Proof.
    revert d; induction gs as [|g gs IH]; intros d Hd Hg; [split; reflexivity|].
    inversion Hg as [|? ? Hg1 Hg2]; subst.
    destruct (get_response_step d g Hd Hg1) as (d' & Hp & Hr' & Hu & Hsw & Happ & _).
    cbn [run map]. rewrite Hp. specialize (IH d' Hr' Hg2). destruct (run A d' gs) as [os d2]. cbn [fst snd] in *.
    destruct IH as [IH1 IH2]. rewrite IH1, Hu, Hsw. split; [reflexivity|congruence].
  Qed.

  (** A non-SELECT command executed by an applet answering through the chaining buffer. *)
  Lemma exec_chained d c r st :
    plain d c -> zlen (d_buf d) = APDU_BUFFER_SIZE -> is_magic c = false ->
    c_ins c <> 0xC0 -> is_select c = false -> chained_applet (d_cur d) -> 0 <= c_le c ->
    exec A (d_cur d) (clamp_le c) (d_app d) = (r, st) -> zlen (r_data r) <= APDU_BUFFER_SIZE ->
    exists d', process_apdu A d c = (mkR (firstn (Z.to_nat (max_le (c_le c))) (r_data r))
          (if zlen (skipn (Z.to_nat (max_le (c_le c))) (r_data r)) =? 0 then r_sw r
           else 0x6100 + Z.min 255 (zlen (skipn (Z.to_nat (max_le (c_le c))) (r_data r)))), d')
      /\ ready d' /\ unsent d' = skipn (Z.to_nat (max_le (c_le c))) (r_data r)
      /\ rc_sw (d_r d') = r_sw r /\ d_app d' = st /\ d_cur d' = d_cur d.
  Proof.
    intros (Hx & Hb & Ht & Hlc & Hp) Hbuf Hm Hins Hsel Hch Hle He Hlr.
    unfold process_apdu. rewrite Hm.
    destruct (piv_no_bypass d (c_ins c) Hp) as [Hby Hps]. cbv zeta in Hby, Hps. rewrite Hby, Hps.
    rewrite (input_single _ _ _ Hx Hb Ht Hlc Hbuf).
    assert (Hg : is_get_response (clamp_le c) = false)
      by (unfold is_get_response, clamp_le; cbn; destruct (Z.eqb_spec (c_ins c) 192); [lia|apply andb_false_r]).
    rewrite Hg. change (is_select (clamp_le c)) with (is_select c). rewrite Hsel.
    unfold run_current. cbn [d_cur d_app d_buf d_r d_piv d_x rc_sent].
    assert (Hc : forall (T : Type) (x y z : T), match d_cur d with OPENPGP | PIV | FIDO => x | OATH | ADMIN | NDEF => y | NULL => z end = x)
      by (intros; destruct Hch as [-> | [-> | ->]]; reflexivity).
    rewrite Hc, He. cbn [clamp_le c_le]. change (Z.min (c_le c) APDU_BUFFER_SIZE) with (max_le (c_le c)).
    set (buf1 := splice (d_buf d) 0 (c_data c)).
    assert (Hb1 : zlen buf1 = APDU_BUFFER_SIZE) by (unfold buf1; rewrite zlen_splice; unfold c_lc in *; lia).
    set (buf2 := splice buf1 0 (r_data r)).
    assert (Hb2 : zlen buf2 = APDU_BUFFER_SIZE) by (unfold buf2; rewrite zlen_splice; lia).
    assert (Hsl : slice 0 (zlen (r_data r)) buf2 = r_data r)
      by (pose proof (slice_splice buf1 0 (r_data r) ltac:(lia) ltac:(lia)) as Q; rewrite Z.add_0_l in Q; exact Q).
    pose proof (zlen_nonneg (r_data r)).
    pose proof (apdu_output_spec (mkRC (zlen (r_data r)) (r_sw r) 0) buf2 (max_le (c_le c))) as Ho.
    cbn [rc_sent rc_len rc_sw] in Ho. specialize (Ho ltac:(lia) ltac:(lia) ltac:(lia) Hb2 ltac:(unfold max_le; lia)).
    rewrite Z.sub_0_r, Hsl in Ho. cbv zeta in Ho.
    destruct (apdu_output _ buf2 (max_le (c_le c))) as [o rc'].
    destruct Ho as (Ho & Hl' & Hsw & Hs' & Hr).
    injection Ho as Ho. subst o. eexists. split; [reflexivity|].
    unfold ready, unsent. cbn [d_x d_buf d_r d_cur d_piv d_app x_on].
    repeat split; try assumption; try lia.
    intros ->; reflexivity.
  Qed.

  (** C04 *)
  Lemma response_chaining d c gs r st :
    plain d c -> zlen (d_buf d) = APDU_BUFFER_SIZE -> is_magic c = false ->
    c_ins c <> 0xC0 -> is_select c = false -> chained_applet (d_cur d) -> 0 <= c_le c ->
    exec A (d_cur d) (clamp_le c) (d_app d) = (r, st) -> zlen (r_data r) <= APDU_BUFFER_SIZE ->
    Forall get_response gs ->
    fst (run A d (c :: gs)) = segments (r_data r) (r_sw r) (map (fun c => max_le (c_le c)) (c :: gs))
    /\ d_app (snd (run A d (c :: gs))) = st.
  Proof.
    intros. destruct (exec_chained d c r st) as (d' & Hp & Hr' & Hu & Hsw & Happ & _); try assumption.
    cbn [run map]. rewrite Hp.
    pose proof (get_responses d' gs Hr' ltac:(assumption)) as [G1 G2].
    destruct (run A d' gs) as [os d2]. cbn [fst snd] in *. rewrite G1, Hu, Hsw. split; [reflexivity|congruence].
  Qed.
End Responses.

Lemma firstn_plus {A} n m (l : list A) : firstn n l ++ firstn m (skipn n l) = firstn (n + m) l.
Proof.
  revert l; induction n as [|n IH]; intros l; [reflexivity|].
  destruct l; cbn; [destruct m; reflexivity|]. f_equal. apply IH.
Qed.

(** What [segments] means: the data concatenate to the response. *)
Lemma segments_concat rest sw les : Forall (fun le => 0 <= le) les ->
  concat (map r_data (segments rest sw les)) = firstn (Z.to_nat (fold_right Z.add 0 les)) rest.
Proof.
  revert rest; induction les as [|le les IH]; intros rest H; cbn [segments map concat fold_right]; [reflexivity|].
  inversion H as [|? ? H1 H2]; subst. cbn [r_data]. rewrite IH by assumption.
  assert (0 <= fold_right Z.add 0 les) by (clear IH H H1; induction H2; cbn; lia).
  rewrite Z2Nat.inj_add by lia. apply firstn_plus.
Qed.

(** C05: what actually happens when an applet answering directly is used in between. *)
Section Leak.
  Context {St : Type} (A : applets St).

  Lemma find_aid_oath : find_aid (aid OATH) = Some OATH.
  Proof. reflexivity. Qed.

  Lemma stale_response d c r st g :
    plain d c -> zlen (d_buf d) = APDU_BUFFER_SIZE -> is_magic c = false ->
    c_ins c <> 0xC0 -> is_select c = false -> chained_applet (d_cur d) -> 0 <= c_le c ->
    exec A (d_cur d) (clamp_le c) (d_app d) = (r, st) -> zlen (r_data r) <= APDU_BUFFER_SIZE ->
    7 <= zlen (r_data r) -> get_response g -> zlen (r_data r) <= c_le g ->
    exists o1 o2 sw d',
      run A d [c; mkC 0 0xA4 4 0 (aid OATH) 256; g]
      = ([o1; o2; mkR (aid OATH ++ skipn 7 (r_data r)) sw], d').
  Proof.
    intros Hpl Hbuf Hm Hins Hsel Hch Hle He Hlr Hl7 Hg Hleg.
    pose proof Hpl as (Hx & Hb & Ht & Hlc & Hp).
    cbn [run].
    unfold process_apdu at 1. rewrite Hm.
    destruct (piv_no_bypass d (c_ins c) Hp) as [Hby Hps]. cbv zeta in Hby, Hps. rewrite Hby, Hps.
    rewrite (input_single _ _ _ Hx Hb Ht Hlc Hbuf).
    assert (Hgr : is_get_response (clamp_le c) = false)
      by (unfold is_get_response, clamp_le; cbn; destruct (Z.eqb_spec (c_ins c) 192); [lia|apply andb_false_r]).
    rewrite Hgr. change (is_select (clamp_le c)) with (is_select c). rewrite Hsel.
    unfold run_current at 1. cbn [d_cur d_app d_buf d_r d_piv d_x rc_sent].
    assert (Hc : forall (T : Type) (x y z : T), match d_cur d with OPENPGP | PIV | FIDO => x | OATH | ADMIN | NDEF => y | NULL => z end = x)
      by (intros; destruct Hch as [-> | [-> | ->]]; reflexivity).
    rewrite Hc, He. cbn [clamp_le c_le]. change (Z.min (c_le c) APDU_BUFFER_SIZE) with (max_le (c_le c)).
    set (buf1 := splice (d_buf d) 0 (c_data c)).
    assert (Hb1 : zlen buf1 = APDU_BUFFER_SIZE) by (unfold buf1; rewrite zlen_splice; unfold c_lc in *; lia).
    set (buf2 := splice buf1 0 (r_data r)).
    assert (Hb2 : zlen buf2 = APDU_BUFFER_SIZE) by (unfold buf2; rewrite zlen_splice; lia).
    pose proof (zlen_nonneg (r_data r)).
    pose proof (apdu_output_spec (mkRC (zlen (r_data r)) (r_sw r) 0) buf2 (max_le (c_le c))) as Ho.
    cbn [rc_sent rc_len rc_sw] in Ho. specialize (Ho ltac:(lia) ltac:(lia) ltac:(lia) Hb2 ltac:(unfold max_le; lia)).
    cbv zeta in Ho.
    destruct (apdu_output _ buf2 (max_le (c_le c))) as [o1 rc1].
    destruct Ho as (_ & Hl1 & Hsw1 & Hs1 & _).
    exists o1.
    (* SELECT OATH *)
    set (ps := if applet_eqb (d_cur d) PIV then PivOther else d_piv d).
    set (d1 := mkD (d_cur d) ps (mkX false (c_cla c) (c_ins c) (c_p1 c) (c_p2 c) (c_lc c)) rc1 buf2 st).
    set (sel := mkC 0 0xA4 4 0 (aid OATH) 256).
    assert (Hps1 : applet_eqb (d_cur d1) PIV && piv_bypass (if applet_eqb (d_cur d1) PIV then next_piv (d_piv d1) (c_ins sel) else d_piv d1) (c_ins sel) = false).
    { apply (piv_no_bypass d1 (c_ins sel)). intros _. cbn. lia. }
    unfold process_apdu at 1. change (is_magic sel) with false. cbv iota. rewrite Hps1.
    rewrite input_single by (try reflexivity; cbn; try (unfold is_byte; lia); try assumption; unfold APDU_BUFFER_SIZE; unfold c_lc; cbn; lia).
    change (is_get_response (clamp_le sel)) with false. change (is_select (clamp_le sel)) with true.
    change (c_data (clamp_le sel)) with (aid OATH). rewrite find_aid_oath.
    cbn [applet_eqb andb].
    unfold run_current at 1. cbn [d_cur d_app d_r d_x d_buf d_piv].
    destruct (exec A OATH _ _) as [o2 st2]. exists o2.
    (* GET RESPONSE *)
    set (buf3 := splice buf2 0 (c_data sel)).
    assert (Hb3 : zlen buf3 = APDU_BUFFER_SIZE) by (unfold buf3; rewrite zlen_splice; [assumption|lia|change (zlen (c_data sel)) with 7; unfold APDU_BUFFER_SIZE in *; lia]).
    match goal with |- context [process_apdu A ?D g] => set (d2 := D) end.
    pose proof (get_response_step A d2 g) as Hgs.
    destruct Hgs as (d3 & Hg3 & _).
    { unfold ready, d2. cbn [d_x d_buf d_r d_cur d_piv x_on rc_sent rc_len d1].
      repeat split; try assumption; try lia. discriminate. }
    { exact Hg. }
    assert (Hun : unsent d2 = aid OATH ++ skipn 7 (r_data r)).
    { unfold unsent, d2. cbn [d_r d_buf rc_sent rc_len d1]. rewrite Hl1, Z.sub_0_r.
      unfold buf3, buf2. cbn [c_data sel].
      unfold splice at 1. cbn [Z.to_nat firstn app Nat.add].
      change (length (aid OATH)) with 7%nat.
      destruct (split_at 7 (r_data r)) as (a & b & Eab & Ha); [lia|].
      rewrite Eab. rewrite zlen_app, Ha.
      unfold splice. cbn [Z.to_nat firstn app Nat.add].
      unfold zlen in Ha. assert (Ha' : length a = 7%nat) by lia.
      assert (Hsk : forall t : bytes, skipn 7 (a ++ t) = t)
        by (intros t; rewrite skipn_app_r by lia; rewrite Ha'; reflexivity).
      rewrite <- app_assoc, !Hsk.
      unfold slice. change (Z.to_nat 0) with 0%nat.
      match goal with |- firstn ?n (skipn 0 ?l) = _ => change (skipn 0 l) with l end.
      rewrite app_assoc. apply firstn_exact. rewrite app_length. change (length (aid OATH)) with 7%nat. unfold zlen; lia. }
    rewrite Hun in Hg3. rewrite Hg3.
    assert (Hfull : firstn (Z.to_nat (max_le (c_le g))) (aid OATH ++ skipn 7 (r_data r)) = aid OATH ++ skipn 7 (r_data r)).
    { apply firstn_all2. rewrite app_length, skipn_length. change (length (aid OATH)) with 7%nat.
      unfold max_le. unfold zlen, APDU_BUFFER_SIZE in *. lia. }
    rewrite Hfull. eexists. eexists. reflexivity.
  Qed.
End Leak.

(** ** C06: routing *)
Lemma aid_matches_spec d a : aid_matches d a = true <-> exists rest, d = aid a ++ rest.
Proof.
  unfold aid_matches. rewrite andb_true_iff, beqb_eq. split.
  - intros [_ H]. exists (skipn (Z.to_nat (zlen (aid a))) d). rewrite <- H at 1.
    unfold slice. change (Z.to_nat 0) with 0%nat. change (skipn 0 d) with d. symmetry; apply firstn_skipn.
  - intros [rest ->]. split; [|apply slice_0_app]. rewrite zlen_app. pose proof (zlen_nonneg rest). lia.
Qed.

Lemma aid_unique a b r1 r2 : a <> NULL -> b <> NULL -> aid a ++ r1 = aid b ++ r2 -> a = b.
Proof. intros Ha Hb H. destruct a, b; try reflexivity; try (exfalso; congruence); cbn in H; discriminate H. Qed.

Lemma find_aid_spec d a : find_aid d = Some a <-> a <> NULL /\ exists rest, d = aid a ++ rest.
Proof.
  unfold find_aid. split.
  - intros H. apply find_some in H. destruct H as [Hin Hm]. split.
    + intros ->. cbn in Hin. intuition discriminate.
    + apply aid_matches_spec, Hm.
  - intros [Hn Hr].
    assert (Hin : In a [PIV; FIDO; OATH; ADMIN; OPENPGP; NDEF]) by (destruct a; cbn; tauto).
    destruct (find (aid_matches d) [PIV; FIDO; OATH; ADMIN; OPENPGP; NDEF]) as [b|] eqn:E.
    + apply find_some in E. destruct E as [Hb Hm]. apply aid_matches_spec in Hm.
      destruct Hm as [r1 E1], Hr as [r2 E2]. f_equal. apply (aid_unique b a r1 r2); [|exact Hn|congruence].
      intros ->. cbn in Hb. intuition discriminate.
    + exfalso. apply (find_none _ _ E) in Hin. apply aid_matches_spec in Hr. congruence.
Qed.

Lemma applet_eqb_spec a b : reflect (a = b) (applet_eqb a b).
Proof. destruct a, b; constructor; congruence. Qed.

Section Routing.
  Variables (resp : list event -> rapdu) (ndef : list event -> bool).
  Let A := recorder resp ndef.


  Definition rinv (d : disp (list event)) : Prop :=
    routed (d_app d) /\
    (d_cur d <> NULL -> last_exec (d_app d) = Some (d_cur d)) /\
    (d_cur d = NULL -> last_exec (d_app d) = None).

  Lemma routed_exec_same h a c : routed h -> last_exec h = Some a -> (forall b, selects c b -> b = a) ->
    routed (EExec a c :: h).
  Proof.
    intros H1 H2 H3. destruct h as [|e h]; [discriminate|].
    destruct e; cbn [routed] in *; try tauto.
  Qed.

  Lemma not_select_selects c b : is_select c = false -> selects c b -> False.
  Proof. unfold is_select, selects. intros H (H1 & H2 & H3 & H4 & _). rewrite H1, H2, H3, H4 in H. discriminate. Qed.

  Lemma run_current_inv d c : d_cur d <> NULL ->
    routed (EExec (d_cur d) c :: d_app d) -> rinv (snd (run_current A d c)).
  Proof.
    intros Hn Hr. unfold run_current, rinv.
    destruct (d_cur d) eqn:E; try congruence; cbn [exec recorder A];
      try (destruct (apdu_output _ _ _) as [o rc]); cbn [snd d_app d_cur last_exec];
      (split; [exact Hr|]); split; congruence.
  Qed.

  Lemma process_rinv d c : rinv d -> rinv (snd (process_apdu A d c)).
  Proof.
    intros (Hr & Hl & Hn). unfold process_apdu.
    destruct (is_magic c); [cbn [snd]; unfold rinv; cbn [d_app d_cur recorder eject A routed last_exec]; auto|].
    destruct (applet_eqb_spec (d_cur d) PIV) as [Ep|Ep]; cbn [andb].
    - destruct (piv_bypass (next_piv (d_piv d) (c_ins c)) (c_ins c)) eqn:Eb.
      { cbn [exec recorder A snd]. unfold rinv. cbn [d_app d_cur last_exec].
        rewrite Ep in *. split; [|split; congruence].
        apply routed_exec_same; [exact Hr|apply Hl; discriminate|].
        intros b (_ & Hins & _). unfold clamp_le in Hins; cbn [c_ins] in Hins. rewrite Hins in Eb.
        destruct (d_piv d); discriminate. }
      destruct (apdu_input (d_x d) (d_buf d) c) as [[res x] buf].
      destruct res as [|c0|]; try (cbn [snd]; unfold rinv; cbn [d_app d_cur]; auto; fail).
      destruct (is_get_response (clamp_le c0)).
      { destruct (apdu_output _ _ _). cbn [snd]; unfold rinv; cbn [d_app d_cur]; auto. }
      destruct (is_select (clamp_le c0)) eqn:Es.
      + destruct (find_aid (c_data (clamp_le c0))) as [i|] eqn:Ef;
          [|cbn [snd]; unfold rinv; cbn [d_app d_cur]; auto].
        destruct (applet_eqb i NDEF && negb (ndef_on A (d_app d))); [cbn [snd]; unfold rinv; cbn [d_app d_cur]; auto|].
        apply find_aid_spec in Ef. destruct Ef as [Hi Hpre].
        assert (Hsel : selects (clamp_le c0) i).
        { unfold is_select in Es. unfold selects. repeat split; try assumption; lia. }
        apply run_current_inv; [cbn [d_cur]; exact Hi|]. cbn [d_cur d_app].
        destruct (applet_eqb_spec i (d_cur d)) as [Ei|Ei].
        * apply routed_exec_same; [exact Hr|rewrite Ei; apply Hl; congruence|].
          intros b (_ & _ & _ & _ & Hb & r2 & E2). destruct Hpre as [r1 E1].
          apply (aid_unique b i r2 r1); [exact Hb|exact Hi|congruence].
        * cbn [poweroff recorder A routed]. split; [exact Hsel|split; [|exact Hr]].
          destruct (applet_eqb_spec (d_cur d) NULL) as [E0|E0]; [rewrite Hn by assumption; discriminate|].
          rewrite Hl by assumption. congruence.
      + assert (Hsel : forall b, selects (clamp_le c0) b -> b = d_cur d)
          by (intros b Hb; exfalso; eapply not_select_selects; eauto).
        assert (E0 : d_cur d <> NULL) by congruence.
        apply run_current_inv; cbn [d_cur d_app]; [exact E0|].
        apply routed_exec_same; auto.
    - destruct (apdu_input (d_x d) (d_buf d) c) as [[res x] buf].
      destruct res as [|c0|]; try (cbn [snd]; unfold rinv; cbn [d_app d_cur]; auto; fail).
      destruct (is_get_response (clamp_le c0)).
      { destruct (apdu_output _ _ _). cbn [snd]; unfold rinv; cbn [d_app d_cur]; auto. }
      destruct (is_select (clamp_le c0)) eqn:Es.
      + destruct (find_aid (c_data (clamp_le c0))) as [i|] eqn:Ef;
          [|cbn [snd]; unfold rinv; cbn [d_app d_cur]; auto].
        destruct (applet_eqb i NDEF && negb (ndef_on A (d_app d))); [cbn [snd]; unfold rinv; cbn [d_app d_cur]; auto|].
        apply find_aid_spec in Ef. destruct Ef as [Hi Hpre].
        assert (Hsel : selects (clamp_le c0) i).
        { unfold is_select in Es. unfold selects. repeat split; try assumption; lia. }
        apply run_current_inv; [cbn [d_cur]; exact Hi|]. cbn [d_cur d_app].
        destruct (applet_eqb_spec i (d_cur d)) as [Ei|Ei].
        * apply routed_exec_same; [exact Hr|rewrite Ei; apply Hl; congruence|].
          intros b (_ & _ & _ & _ & Hb & r2 & E2). destruct Hpre as [r1 E1].
          apply (aid_unique b i r2 r1); [exact Hb|exact Hi|congruence].
        * cbn [poweroff recorder A routed]. split; [exact Hsel|split; [|exact Hr]].
          destruct (applet_eqb_spec (d_cur d) NULL) as [E0|E0]; [rewrite Hn by assumption; discriminate|].
          rewrite Hl by assumption. congruence.
      + assert (Hsel : forall b, selects (clamp_le c0) b -> b = d_cur d)
          by (intros b Hb; exfalso; eapply not_select_selects; eauto).
        destruct (applet_eqb_spec (d_cur d) NULL) as [E0|E0].
        * unfold run_current. cbn [d_cur]. rewrite E0. cbn [snd]; unfold rinv; cbn [d_app d_cur]. split; [exact Hr|]. split; [congruence|intros _; apply Hn, E0].
        * apply run_current_inv; cbn [d_cur d_app]; [exact E0|].
          apply routed_exec_same; auto.
  Qed.

  Lemma run_routed cs : routed (d_app (snd (run A (disp_init []) cs))).
  Proof.
    assert (H : forall d, rinv d -> rinv (snd (run A d cs))).
    { induction cs as [|c cs IH]; intros d Hd; [exact Hd|].
      cbn [run]. pose proof (process_rinv d c Hd) as Hp. destruct (process_apdu A d c) as [o d1].
      specialize (IH d1 Hp). destruct (run A d1 cs) as [os d2]. exact IH. }
    apply H. unfold rinv, disp_init; cbn. split; [exact I|split; congruence].
  Qed.
End Routing.

(** ** A successful SELECT reaches its applet, for any applets. *)
Lemma select_effect {St} (A : applets St) d c a r st :
  plain d c -> zlen (d_buf d) = APDU_BUFFER_SIZE -> selects c a -> (a = NDEF -> ndef_on A (d_app d) = true) ->
  exec A a (clamp_le c) (if applet_eqb a (d_cur d) then d_app d else poweroff A (d_app d)) = (r, st) ->
  d_cur (snd (process_apdu A d c)) = a /\ d_app (snd (process_apdu A d c)) = st.
Proof.
  intros (Hx & Hb & Ht & Hlc & Hp) Hbuf Hs Hnd He. pose proof Hs as (H1 & H2 & H3 & H4 & H5 & H6).
  unfold process_apdu.
  assert (Hm : is_magic c = false) by (unfold is_magic; rewrite H1; reflexivity). rewrite Hm.
  destruct (piv_no_bypass d (c_ins c) Hp) as [Hby Hps]. cbv zeta in Hby, Hps. rewrite Hby, Hps.
  rewrite (input_single _ _ _ Hx Hb Ht Hlc Hbuf).
  assert (Hg : is_get_response (clamp_le c) = false) by (unfold is_get_response; cbn; rewrite H1, H2; reflexivity).
  assert (Hsel : is_select (clamp_le c) = true) by (unfold is_select; cbn; rewrite H1, H2, H3, H4; reflexivity).
  rewrite Hg, Hsel. change (c_data (clamp_le c)) with (c_data c).
  rewrite (proj2 (find_aid_spec (c_data c) a)) by auto.
  assert (Hndef : applet_eqb a NDEF && negb (ndef_on A (d_app d)) = false).
  { destruct (applet_eqb_spec a NDEF) as [E|E]; [rewrite (Hnd E)|]; reflexivity. }
  rewrite Hndef. unfold run_current. cbn [d_cur d_app d_buf d_r d_x d_piv].
  destruct a; try congruence; rewrite He; try destruct (apdu_output _ _ _); split; reflexivity.
Qed.

(** A SELECT of an unknown AID (or of a disabled NDEF applet) changes nothing. *)
Lemma select_unknown {St} (A : applets St) d c :
  plain d c -> zlen (d_buf d) = APDU_BUFFER_SIZE -> is_select c = true ->
  (forall a, selects c a -> a = NDEF /\ ndef_on A (d_app d) = false) ->
  fst (process_apdu A d c) = mkR [] SW_FILE_NOT_FOUND /\
  d_cur (snd (process_apdu A d c)) = d_cur d /\ d_app (snd (process_apdu A d c)) = d_app d.
Proof.
  intros (Hx & Hb & Ht & Hlc & Hp) Hbuf Hs Hno.
  assert (H : c_cla c = 0 /\ c_ins c = 164 /\ c_p1 c = 4 /\ c_p2 c = 0) by (unfold is_select in Hs; lia).
  destruct H as (H1 & H2 & H3 & H4).
  unfold process_apdu.
  assert (Hm : is_magic c = false) by (unfold is_magic; rewrite H1; reflexivity). rewrite Hm.
  destruct (piv_no_bypass d (c_ins c) Hp) as [Hby Hps]. cbv zeta in Hby, Hps. rewrite Hby, Hps.
  rewrite (input_single _ _ _ Hx Hb Ht Hlc Hbuf).
  assert (Hg : is_get_response (clamp_le c) = false) by (unfold is_get_response; cbn; rewrite H1, H2; reflexivity).
  rewrite Hg. change (is_select (clamp_le c)) with (is_select c). rewrite Hs. change (c_data (clamp_le c)) with (c_data c).
  destruct (find_aid (c_data c)) as [a|] eqn:Ef; [|repeat split].
  apply find_aid_spec in Ef. destruct (Hno a) as [-> Hn].
  { unfold selects. tauto. }
  rewrite Hn. cbn. repeat split.
Qed.

(** ** C07: buffer ownership *)
Lemma owner_eqb_spec a b : reflect (a = b) (owner_eqb a b).
Proof. destruct a, b; constructor; congruence. Qed.

Definition own_inv (w : owner) (g : owner -> bool) : Prop := forall o, g o = true -> w = o /\ o <> O_NONE.

Lemma own_step_inv w g a : real_owner a -> own_inv w g ->
  let '(w', ret) := own_step w a in own_inv w' (grant_step g a ret).
Proof.
  intros Hre Hi. destruct a as [o|o|o|o]; cbn [own_step grant_step real_owner] in *.
  - unfold cas. destruct (owner_eqb_spec w O_NONE) as [->|Hw]; [|exact Hi].
    intros x Hx. destruct (Hi x Hx). congruence.
  - destruct (owner_eqb_spec w o) as [->|Hw]; [|exact Hi].
    intros x. destruct (owner_eqb_spec x o) as [->|Hx]; [auto|]. intros Hg. destruct (Hi x Hg). congruence.
  - unfold cas. intros x. destruct (owner_eqb_spec x o) as [->|Hx]; [discriminate|].
    intros Hg. destruct (Hi x Hg) as [-> Hn]. destruct (owner_eqb_spec x o); [congruence|auto].
  - exact Hi.
Qed.

Lemma run_own_inv l w g : Forall real_owner l -> own_inv w g ->
  own_inv (fst (run_own w g l)) (snd (run_own w g l)).
Proof.
  revert w g; induction l as [|a l IH]; intros w g Hl Hi; [exact Hi|].
  inversion Hl as [|? ? H1 H2]; subst. cbn [run_own].
  pose proof (own_step_inv w g a H1 Hi) as Hs. destruct (own_step w a) as [w' ret].
  apply IH; assumption.
Qed.

Lemma own_exclusive l a b : Forall real_owner l ->
  let g := snd (run_own O_NONE (fun _ => false) l) in g a = true -> g b = true -> a = b.
Proof.
  intros Hl g Ha Hb.
  pose proof (run_own_inv l O_NONE (fun _ => false) Hl) as Hi.
  assert (H0 : own_inv O_NONE (fun _ => false)) by (intros o Ho; discriminate).
  specialize (Hi H0). destruct (Hi a Ha), (Hi b Hb). congruence.
Qed.
