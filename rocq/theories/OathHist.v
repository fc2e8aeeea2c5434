(** Proofs about histories of the OATH device. *)
From Coq Require Import Permutation.
From Verif Require Import Sys Apdu Applet Pass Oath OathProofs OathCmds OathEff OathSpec OathPres.
Open Scope string_scope. Open Scope list_scope. Open Scope Z_scope.

(** ** Changes of the records by one event; [b]: a PUT, DELETE or RENAME was carried out *)
Inductive chg (c : capdu) (rs : list bytes) : bool -> list bytes -> Prop :=
| G_inc rs1 : Forall2 incd rs rs1 -> chg c rs false rs1
| G_hotp j : 0 <= j < zlen rs -> islive (nth (Z.to_nat j) rs []) = true ->
    r_type (nth (Z.to_nat j) rs []) = OATH_TYPE_HOTP -> ctr_of (nth (Z.to_nat j) rs []) + 1 < 2 ^ 64 ->
    chg c rs false (upd (Z.to_nat j) (splice (nth (Z.to_nat j) rs []) 133 (to_be 8 (ctr_of (nth (Z.to_nat j) rs []) + 1))) rs)
| G_put name key prop chal i r : c_ins c = OATH_INS_PUT -> c_p1 c = 0 -> c_p2 c = 0 ->
    parse_put (c_data c) = Ret (name, key, prop, chal) -> ~ In name (names rs) ->
    0 <= i <= zlen rs -> (i < zlen rs -> islive (nth (Z.to_nat i) rs []) = false) ->
    rec_ok r -> rname r = name -> rkey r = key -> r_prop r = prop -> r_chal r = chal ->
    chg c rs true (upd (Z.to_nat i) r rs)
| G_del name j : c_ins c = OATH_INS_DELETE -> parse_name 2 (c_data c) = Ret name -> 1 <= zlen name <= 64 -> at_name rs name j ->
    chg c rs true (upd (Z.to_nat j) (dead (nth (Z.to_nat j) rs [])) rs)
| G_ren old new j : c_ins c = OATH_INS_RENAME -> parse_rename (c_data c) = Ret (old, new) ->
    1 <= zlen old <= 64 -> 1 <= zlen new <= 64 -> all_bytes new -> ~ In new (names rs) -> at_name rs old j ->
    chg c rs true (upd (Z.to_nat j) (renamed (nth (Z.to_nat j) rs []) new) rs).

Lemma chg_refl c (rs : list bytes) : chg c rs false rs. Proof. apply G_inc, incs_refl. Qed.

Lemma upd_nth_id {A} n (rs : list A) d : (n < length rs)%nat -> upd n (nth n rs d) rs = rs.
Proof.
  revert n; induction rs as [|x t IH]; intros [|n] H; cbn [length] in H; try lia; [reflexivity|].
  unfold upd in *. cbn [firstn nth skipn app]. f_equal. apply IH. lia.
Qed.
Lemma Forall2_upd n (rs : list bytes) r1 : (n < length rs)%nat -> incd (nth n rs []) r1 -> Forall2 incd rs (upd n r1 rs).
Proof.
  revert n; induction rs as [|x t IH]; intros [|n] H Hi; cbn [length] in H; try lia; unfold upd in *; cbn [firstn nth skipn app] in *.
  - constructor; [assumption|apply incs_refl].
  - constructor; [left; reflexivity|]. apply IH; [lia|assumption].
Qed.

Lemma F2_length {A B} (R : A -> B -> Prop) l m : Forall2 R l m -> length l = length m.
Proof. induction 1; cbn [length]; congruence. Qed.

(** Every image committed during a command, and the final one. *)
Definition img (c : capdu) (rs : list bytes) (h : bytes) (G : fs) : Prop :=
  exists b rs1 k1, oath_ok G rs1 /\ attrs_ok G k1 h /\ chg c rs b rs1.

Section Hist.
Variables hmac_sha1 hmac_sha256 hmac_sha512 : bytes -> bytes -> bytes.
Hypothesis Hsha1 : digest_ok 20 hmac_sha1.
Hypothesis Hsha256 : digest_ok 32 hmac_sha256.
Hypothesis Hsha512 : digest_ok 64 hmac_sha512.
Variable junk : bytes.
Hypothesis Hjunk : zlen junk = 141.
Hypothesis Hjunkb : all_bytes junk.
Notation eff := (eff hmac_sha1 hmac_sha256 hmac_sha512).
Notation step := (step hmac_sha1 hmac_sha256 hmac_sha512 junk).
Notation hist := (hist hmac_sha1 hmac_sha256 hmac_sha512 junk).

Lemma logs_img F L L' c rs k h (A : list bytes -> Prop) : attrs_ok F k h -> (forall x, A x -> exists b, chg c rs b x) ->
  logs (ximg F A) L L' -> logs (img c rs h) L L'.
Proof.
  intros Ha HA. apply logs_mono. intros G (x & Hok & Hs & Hx). destruct (HA x Hx) as [b Hb].
  exists b, x, k. split; [assumption|]. split; [eapply attrs_ok_same; eassumption|assumption].
Qed.
Lemma logs_one (P : fs -> Prop) G L : P G -> logs P L (G :: L).
Proof. intros H. exists [G]. split; [reflexivity|]. constructor; [assumption|constructor]. Qed.

Definition carried (c : capdu) (o : out Z) : bool :=
  match o with Ret sw => (sw =? 0x9000) && ((c_ins c =? 1) || (c_ins c =? 2) || (c_ins c =? 5)) | _ => false end.

Lemma lpage_sw le rs acc : fst (fst (lpage le rs acc)) = 0x9000 \/ fst (fst (lpage le rs acc)) = 0x61FF.
Proof. revert acc; induction rs as [|r t IH]; intros acc; cbn [lpage]; [left; reflexivity|]. destruct (_ <? _); [right; reflexivity|apply IH]. Qed.

Lemma calc_chg c (rs : list bytes) j (r : bytes) d off rec' chal : r = nth (Z.to_nat j) rs [] -> 0 <= j < zlen rs -> rec_ok r -> islive r = true -> all_bytes chal ->
  calc_ok r d off rec' chal -> chg c rs false (upd (Z.to_nat j) rec' rs).
Proof.
  intros Er Hj Hr Hl Hb [(Ht & _ & [[Hi ->]|(Hi & Hz & Hle & ->)])|(Ht & Hlt & -> & ->)].
  - rewrite Er, upd_nth_id by (unfold zlen in Hj; lia). apply chg_refl.
  - apply G_inc, Forall2_upd; [unfold zlen in Hj; lia|]. rewrite <- Er. right. repeat split; try assumption.
    exists chal. repeat split; assumption.
  - rewrite Er in *. apply (G_hotp c rs j); assumption.
Qed.

Lemma at_live (rs : list bytes) name j : Forall rec_ok rs -> 1 <= zlen name -> at_name rs name j ->
  islive (nth (Z.to_nat j) rs []) = true /\ rec_ok (nth (Z.to_nat j) rs []).
Proof.
  intros Hok Hn [Hj E]. assert (rec_ok (nth (Z.to_nat j) rs [])) as Hr by (apply oks_nth; assumption).
  split; [|assumption]. apply islive_spec; [assumption|]. rewrite E. intros ->. change (zlen (@nil Z)) with 0 in Hn. lia.
Qed.

Lemma eff_chg nfc c (rs : list bytes) k h s F L X T o s' F' L' T' out rs' k' :
  oath_ok F rs -> attrs_ok F k h -> inv s rs -> all_bytes (c_data c) ->
  eff nfc c rs k h s F L X T o s' F' L' T' out rs' k' ->
  o <> UB /\ oath_ok F' rs' /\ attrs_ok F' k' h /\ inv s' rs' /\ chg c rs (carried c o) rs' /\ logs (img c rs h) L L'.
Proof.
  intros Hok Hat Hinv Hb H. pose proof Hok as (_ & Hoks & _).
  assert (Hnc : forall o, (forall sw, o = Ret sw -> ~ (c_ins c = 1 \/ c_ins c = 2 \/ c_ins c = 5)) -> carried c o = false).
  { intros [sw| | |] Hx; try reflexivity. specialize (Hx sw eq_refl). unfold carried. lia. }
  assert (forall w, o = Exc w -> s' = s -> F' = F -> L' = L -> rs' = rs -> k' = k ->
     o <> UB /\ oath_ok F' rs' /\ attrs_ok F' k' h /\ inv s' rs' /\ chg c rs (carried c o) rs' /\ logs (img c rs h) L L') as Hexc.
  { intros w -> -> -> -> -> ->. split; [discriminate|]. split; [assumption|]. split; [assumption|]. split; [assumption|].
    split; [apply chg_refl|apply logs_nil]. }
  assert (Hinc : forall x : list bytes, Forall2 incd rs x -> exists b, chg c rs b x) by (intros x Hx; exists false; apply G_inc, Hx).
  assert (Hinv1 : forall s1 rs1, inv s1 rs -> zlen rs <= zlen rs1 -> inv s1 rs1).
  { intros s1 rs1 [H1 H2] H3. split; [assumption|]. destruct H2; [left; assumption|right; lia]. }
  assert (Hlen2 : forall x, Forall2 incd rs x -> zlen rs <= zlen x).
  { intros x Hx. apply F2_length in Hx. unfold zlen. lia. }
  assert (Hlenu : forall i x, zlen rs <= zlen (upd i x rs)).
  { intros i x. unfold upd, zlen. rewrite app_length. cbn [length]. rewrite firstn_length, skipn_length. lia. }
  assert (inv (at_start c s) rs) as Hinva.
  { unfold at_start. destruct (_ =? _); [assumption|apply inv_idx0; assumption]. }
  destruct H; try (eapply Hexc; reflexivity).
  - (* put *)
    assert (chg c rs true (upd (Z.to_nat i) r rs)) as Hc by (eapply G_put; eassumption).
    assert (attrs_ok F' k h) as Ha' by (eapply attrs_ok_same; eassumption).
    split; [discriminate|]. split; [assumption|]. split; [assumption|]. split; [eapply Hinv1; [assumption|apply Hlenu]|].
    unfold carried. rewrite H. cbn. split; [assumption|]. apply logs_one. exists true. eauto.
  - (* delete *)
    subst rs'. assert (chg c rs true (upd (Z.to_nat j) (dead (nth (Z.to_nat j) rs [])) rs)) as Hc by (eapply G_del; eassumption).
    split; [discriminate|]. split; [assumption|]. split; [eapply attrs_ok_same; eassumption|].
    split; [eapply Hinv1; [exact Hinv|apply Hlenu]|]. unfold carried. rewrite H. cbn. split; [assumption|].
    eapply logs_img; [eassumption| |eassumption]. intros x [-> | ->]; [exists false; apply chg_refl|exists true; assumption].
  - (* rename *)
    subst rs'. assert (chg c rs true (upd (Z.to_nat j) (renamed (nth (Z.to_nat j) rs []) new) rs)) as Hc by (eapply G_ren; eassumption).
    assert (attrs_ok F' k h) as Ha' by (eapply attrs_ok_same; eassumption).
    split; [discriminate|]. split; [assumption|]. split; [assumption|]. split; [eapply Hinv1; [assumption|apply Hlenu]|].
    unfold carried. rewrite H. cbn. split; [assumption|]. apply logs_one. exists true. eauto.
  - (* list bad *)
    split; [discriminate|]. split; [assumption|]. split; [assumption|]. split; [assumption|]. split; [apply chg_refl|apply logs_nil].
  - (* list *)
    split; [discriminate|]. split; [assumption|]. split; [assumption|].
    pose proof (lpage_rest (c_le c) (skipn (Z.to_nat (o_idx (at_start c s))) rs) []) as Hr. rewrite H3 in Hr. cbn [snd] in Hr.
    assert (zlen rest <= zlen rs) as Hr2 by (unfold zlen in *; rewrite skipn_length in Hr; lia).
    pose proof (zlen_nonneg rest). split.
    { subst s'. destruct Hinv as [(I1 & I2 & I3 & I4) _]. split.
      - unfold st_ok. cbn [o_idx o_cbuf o_clen oset_rem oset_idx]. repeat split; try assumption; try lia.
      - right. cbn [o_idx oset_rem oset_idx]. lia. }
    split; [|apply logs_nil]. rewrite Hnc; [apply chg_refl|]. intros sw0 _ Hi. destruct H as [H|[H _]]; rewrite H in Hi; cbv in Hi; lia.
  - (* calc *)
    assert (chg c rs false rs') as Hc.
    { destruct H10 as [(_ & _ & -> & _)|(_ & -> & _)]; [apply chg_refl|].
      destruct (at_live rs name j Hoks ltac:(lia) H5) as [Hl Hr]. refine (calc_chg c rs j _ (c_data c) (2 + zlen name) rec' chal eq_refl (proj1 H5) Hr Hl _ H8).
      destruct H8 as [(_ & Hp & _)|(_ & _ & -> & _)]; [|apply to_be_bytes].
      pose proof (parse_challenge_sound (c_data c) (2 + zlen name) ltac:(pose proof (zlen_nonneg name); lia) Hb) as Hs.
      rewrite Hp in Hs. apply Hs. }
    assert (oath_ok F' rs' /\ same_attrs F F' /\ (L' = L \/ L' = F' :: L) /\ zlen rs <= zlen rs') as (Hok' & Hsa & HL & Hz).
    { destruct H10 as [(-> & -> & -> & _)|(-> & -> & Ho & Hs)].
      - split; [assumption|]. split; [apply same_attrs_refl|]. split; [left; reflexivity|lia].
      - split; [assumption|]. split; [assumption|]. split; [right; reflexivity|apply Hlenu]. }
    assert (attrs_ok F' k h) as Ha' by (eapply attrs_ok_same; eassumption).
    split; [discriminate|]. split; [assumption|]. split; [assumption|]. split; [eapply Hinv1; [exact Hinv|lia]|].
    split; [unfold carried; rewrite H; cbn; assumption|]. destruct HL as [-> | ->]; [apply logs_nil|apply logs_one; exists false; eauto].
  - (* all bad *)
    split; [discriminate|]. split; [assumption|]. split; [assumption|]. split; [assumption|]. split; [apply chg_refl|apply logs_nil].
  - (* all *)
    split; [discriminate|]. split; [assumption|]. split; [eapply attrs_ok_same; eassumption|].
    split; [eapply Hinv1; [eassumption|apply Hlen2; assumption]|].
    rewrite Hnc; [|intros sw0 _ Hi; destruct H as [[H _]|[H _]]; rewrite H in Hi; cbv in Hi; lia].
    split; [apply G_inc; assumption|]. eapply logs_img; eassumption.
  - split; [discriminate|]. split; [assumption|]. split; [eapply attrs_ok_same; eassumption|].
    split; [eapply Hinv1; [eassumption|apply Hlen2; assumption]|].
    split; [apply G_inc; assumption|]. eapply logs_img; eassumption.
  - (* set code: clear *)
    split; [discriminate|]. split; [assumption|]. split; [assumption|]. split; [eapply inv_ext; [exact Hinv|reflexivity..]|].
    rewrite Hnc; [|intros sw0 _ Hi; rewrite H in Hi; cbv in Hi; lia]. split; [apply chg_refl|]. apply logs_one. exists false, rs, []. repeat split; try assumption; try apply H4; try apply H5. apply chg_refl.
  - split; [discriminate|]. split; [assumption|]. split; [assumption|]. split; [eapply inv_ext; [exact Hinv|reflexivity..]|].
    rewrite Hnc; [|intros sw0 _ Hi; rewrite H in Hi; cbv in Hi; lia]. split; [apply chg_refl|]. apply logs_one. exists false, rs, key. repeat split; try assumption; try apply H5; try apply H6. apply chg_refl.
  - split; [discriminate|]. split; [assumption|]. split; [assumption|]. split.
    { destruct H2 as [-> | ->]; [assumption|]. eapply inv_ext; [exact Hinv|reflexivity..]. }
    split; [apply chg_refl|apply logs_nil].
  - split; [discriminate|]. split; [assumption|]. split; [assumption|]. split; [eapply inv_ext; [exact Hinv|reflexivity..]|].
    rewrite Hnc; [|intros sw0 _ Hi; rewrite H in Hi; cbv in Hi; lia]. split; [apply chg_refl|apply logs_nil].
  - split; [discriminate|]. split; [assumption|]. split; [assumption|]. split; [eapply inv_ext; [exact Hinv|reflexivity..]|].
    rewrite Hnc; [|intros sw0 _ Hi; rewrite H in Hi; cbv in Hi; lia]. split; [apply chg_refl|apply logs_nil].
  - split; [discriminate|]. split; [assumption|]. split; [assumption|]. split; [eapply inv_ext; [exact Hinv|reflexivity..]|].
    rewrite Hnc; [|intros sw0 _ Hi; rewrite H in Hi; cbv in Hi; lia]. split; [apply chg_refl|apply logs_nil].
  - (* set default *)
    split; [discriminate|]. split; [eapply ok_other; [eassumption|exact Hok]|]. split; [eapply attrs_ok_same; [apply attrs_other; eassumption|assumption]|].
    split; [eapply inv_ext; [exact Hinv|reflexivity..]|].
    rewrite Hnc; [|intros sw0 _ Hi; rewrite H in Hi; cbv in Hi; lia]. split; [apply chg_refl|].
    eapply (logs_img F L L' c rs k h (fun x => x = rs)); [assumption|intros x ->; exists false; apply chg_refl|].
    eapply logs_mono; [|eassumption]. apply (ximg_self F rs); [assumption|reflexivity].
  - (* fail *)
    split; [discriminate|]. split; [assumption|]. split; [eapply attrs_ok_same; eassumption|].
    split; [eapply Hinv1; [eassumption|apply Hlen2; assumption]|]. split; [apply G_inc; assumption|]. eapply logs_img; eassumption.
Qed.

Lemma cpage_exc le tr chal rs acc w dn rest :
  cpage hmac_sha1 hmac_sha256 hmac_sha512 le tr chal rs acc = (Exc w, dn, rest) -> w = 0x6982.
Proof.
  revert acc dn; induction rs as [|r t IH]; intros acc dn; cbn [cpage]; [discriminate|].
  destruct (_ <? _); [discriminate|]. destruct (cstep chal r).
  - destruct (cpage _ _ _ le tr chal t _) as [[o dn1] rest1] eqn:E. intros [= -> <- ->]. eapply IH, E.
  - intros [= <- _ _]. reflexivity.
Qed.
Lemma eff_exc nfc c rs k h s F L X T w s' F' L' T' out rs' k' :
  eff nfc c rs k h s F L X T (Exc w) s' F' L' T' out rs' k' -> w <> 0x9000 /\ out = [].
Proof.
  intros H. inversion H; subst; (split; [|reflexivity]); try assumption; try discriminate.
  match goal with H : _ = (Exc w, _, _) |- _ => rewrite (cpage_exc _ _ _ _ _ _ _ _ H) end. discriminate.
Qed.

(** ** The invariant of the device *)
Definition good (d : dev) (rs : list bytes) (k h : bytes) : Prop :=
  oath_ok (d_fs d) rs /\ attrs_ok (d_fs d) k h /\ inv (d_ram d) rs /\ slots_ok (o_slots (d_ram d)) /\ pfile_ok (d_fs d).

Lemma pfile_read F c : pfile_ok F -> fdata F PASS_FILE = Some c -> zlen c = SLOTS_SIZE ->
  fread F PASS_FILE 0 SLOTS_SIZE = Some c /\ forall o, zlen o = SLOTS_SIZE -> overlay c o = c.
Proof.
  intros Hp Hd Hz. unfold fdata, fread in *. destruct (F PASS_FILE) as [f|]; [|discriminate]. injection Hd as ->.
  split.
  - change (0 <? 0) with false. cbv iota. f_equal. unfold slice. change (Z.to_nat 0) with 0%nat. cbn [skipn].
    apply firstn_all2. unfold zlen in Hz. lia.
  - intros o Ho. unfold overlay. rewrite skipn_all2 by (unfold zlen, SLOTS_SIZE in *; lia). apply app_nil_r.
Qed.

Lemma boot_pass s F L R (Q : out bool -> oath -> env -> Prop) :
  pfile_ok F -> slots_ok (o_slots s) ->
  (forall s' F' L', slots_ok (o_slots s') -> s' = oset_slots (o_slots s') s -> oath_same F F' -> pfile_ok F' ->
     (forall c, fdata F PASS_FILE = Some c -> zlen c = SLOTS_SIZE -> F' = F /\ o_slots s' = slots_of c) ->
     Q (Ret true) s' (mkE F' L' [] R [] [])) ->
  wp (pass_install o_slots oset_slots false) Q s (mkE F L [] R [] []).
Proof.
  intros Hp Hs H. unfold pass_install. apply wp_bind, wp_get_file_size. intros X1 sz Hx1 _. destruct (Hx1 eq_refl) as [-> ->].
  cbn [orb]. unfold fsize.
  assert (Hsave : fsize F PASS_FILE <> Some SLOTS_SIZE -> wp (modify (oset_slots (slot_zero, slot_zero)) ;;; save_slots o_slots) Q s (mkE F L [] R [] [])).
  { intros Hsz. apply wp_bind, wp_modify. unfold save_slots. apply wp_bind, wp_get.
    apply wp_write_file.
    - intros X' HX'. rewrite (HX' eq_refl). apply H; try reflexivity.
      + apply slots_zero_ok.
      + apply oath_same_write.
      + unfold fwrite, fcreate. destruct (F PASS_FILE) as [f|] eqn:E.
        * rewrite E. change (o_slots (oset_slots (slot_zero, slot_zero) s)) with (slot_zero, slot_zero).
          change ((length (slots_bytes (slot_zero, slot_zero)) =? 0)%nat) with false. cbv zeta iota. rewrite write_at_nil.
          apply pfile_slots, slots_zero_ok.
        * rewrite fset_same. cbn [f_data f_attr]. change (o_slots (oset_slots (slot_zero, slot_zero) s)) with (slot_zero, slot_zero).
          change ((length (slots_bytes (slot_zero, slot_zero)) =? 0)%nat) with false. cbv zeta iota. rewrite write_at_nil.
          apply pfile_slots, slots_zero_ok.
      + intros c Hc Hz. exfalso. apply Hsz. unfold fsize, fdata in *. destruct (F PASS_FILE); [|discriminate]. injection Hc as ->. congruence.
    - intros Hx. exfalso; apply Hx; reflexivity.
    - intros Hx. exfalso; apply Hx; reflexivity. }
  destruct (F PASS_FILE) as [f|] eqn:Ef.
  - destruct (Z.eqb_spec (zlen (f_data f)) SLOTS_SIZE) as [Ez|Ez]; cbn [negb].
    + apply wp_bind, wp_read_file. intros X2 r Hx2 _. destruct (Hx2 eq_refl) as [-> ->].
      assert (fdata F PASS_FILE = Some (f_data f)) as Hd by (unfold fdata; rewrite Ef; reflexivity).
      destruct (pfile_read F (f_data f) Hp Hd Ez) as [-> Ho].
      apply wp_bind, wp_get. apply wp_bind, wp_modify. apply wp_ret. rewrite Ho by (apply slots_bytes_len; assumption).
      apply H; try reflexivity; [apply Hp; assumption|assumption|].
      intros c Hc Hz. rewrite Hd in Hc. injection Hc as <-. split; reflexivity.
    + apply Hsave. unfold fsize. rewrite Ef. congruence.
  - apply Hsave. unfold fsize. rewrite Ef. discriminate.
Qed.

Lemma recs_size F rs : recs_of F rs -> exists n, fsize F OATH_FILE = Some n.
Proof. intros [Hd _]. unfold fdata, fsize in *. destruct (F OATH_FILE); [eauto|discriminate]. Qed.

(** Booting on a well-formed storage keeps the store and locks the applet. *)
Lemma boot_good F rnd rs k h : oath_ok F rs -> attrs_ok F k h -> pfile_ok F ->
  good (oboot F rnd) rs k h /\ o_valid (d_ram (oboot F rnd)) = false /\ oath_same F (d_fs (oboot F rnd)) /\
  o_chal (d_ram (oboot F rnd)) = zeros 8 /\
  (forall c, fdata F PASS_FILE = Some c -> zlen c = SLOTS_SIZE ->
     d_fs (oboot F rnd) = F /\ o_slots (d_ram (oboot F rnd)) = slots_of c).
Proof.
  intros Hok Hat Hp.
  assert (wp (oath_install false ;;; pass_install o_slots oset_slots false)
    (fun _ s e => good (mkDev s (e_fs e)) rs k h /\ o_valid s = false /\ oath_same F (e_fs e) /\ o_chal s = zeros 8 /\
      (forall c, fdata F PASS_FILE = Some c -> zlen c = SLOTS_SIZE -> e_fs e = F /\ o_slots s = slots_of c)) oath_boot (start F [] rnd [])) as H.
  { destruct (recs_size F rs (proj1 Hok)) as [n Hn]. unfold start. apply wp_bind. unfold oath_install. apply wp_bind, wp_modify.
    apply wp_bind, wp_get_file_size. intros X1 sz Hx1 _. destruct (Hx1 eq_refl) as [-> ->]. rewrite Hn. apply wp_ret.
    apply boot_pass; [assumption|apply slots_zero_ok|].
    intros s' F' L' Hs Es Hsame Hp' Hc. cbn [e_fs]. rewrite Es.
    assert (inv (oset_slots (o_slots s') (oath_poweroff oath_boot)) rs) as Hi.
    { split; [|left; reflexivity]. split; [cbv; discriminate|]. split; [reflexivity|]. split; [apply zeros_bytes|]. cbv; split; discriminate. }
    split; [|split; [reflexivity|split; [assumption|split; [reflexivity|exact Hc]]]].
    split; [eapply ok_other; [exact Hsame|exact Hok]|]. split; [eapply attrs_ok_same; [apply attrs_other, Hsame|exact Hat]|].
    split; [exact Hi|]. split; assumption. }
  unfold wp in H. unfold oboot. destruct ((oath_install false ;;; pass_install o_slots oset_slots false) oath_boot (start F [] rnd [])) as [[o s] e]. exact H.
Qed.

(** The very first boot, on empty storage. *)
Lemma boot_empty rnd : exists h, good (oboot fs_empty rnd) [] [] h.
Proof.
  set (h := firstn (Z.to_nat 8) (rnd ++ zeros 8)). exists h.
  assert (zlen h = 8) as Hz.
  { unfold h, zlen. rewrite firstn_length, app_length. change (length (zeros 8)) with 8%nat. lia. }
  assert (wp (oath_install false ;;; pass_install o_slots oset_slots false)
    (fun _ s e => good (mkDev s (e_fs e)) [] [] h) oath_boot (start fs_empty [] rnd [])) as H.
  { unfold start. apply wp_bind. unfold oath_install. apply wp_bind, wp_modify.
    apply wp_bind, wp_get_file_size. intros X1 sz Hx1 _. destruct (Hx1 eq_refl) as [-> ->].
    change (fsize fs_empty OATH_FILE) with (@None Z). cbv iota.
    apply wp_bind, wp_write_file; [|intros Hx; exfalso; apply Hx; reflexivity|intros Hx; exfalso; apply Hx; reflexivity].
    intros X2 Hx2. rewrite (Hx2 eq_refl). cbn [negb].
    set (F1 := fwrite fs_empty OATH_FILE [] 0 true).
    assert (F1 OATH_FILE <> None) as HF1 by (cbv; discriminate).
    apply wp_bind, wp_write_attr; [|intros [Hx|Hx]; [exfalso; apply Hx; reflexivity|contradiction]].
    intros _ X3 Hx3. rewrite (Hx3 eq_refl). cbn [negb].
    set (F2 := fsetattr F1 OATH_FILE ATTR_KEY []).
    assert (F2 OATH_FILE <> None) as HF2 by (cbv; discriminate).
    apply wp_bind. unfold random_buffer, wp at 1. cbn [e_rnd e_fs e_log e_flt e_tch e_out].
    change (firstn (Z.to_nat HANDLE_LEN) (rnd ++ zeros HANDLE_LEN)) with h.
    apply wp_write_attr; [|intros [Hx|Hx]; [exfalso; apply Hx; reflexivity|contradiction]].
    intros _ X4 Hx4. rewrite (Hx4 eq_refl).
    set (F3 := fsetattr F2 OATH_FILE ATTR_HANDLE h).
    assert (pfile_ok F3) as Hp by (intros c Hc; discriminate Hc).
    apply boot_pass; [assumption|apply slots_zero_ok|].
    intros s' F' L' Hs Es Hsame Hp' Hc. cbn [e_fs]. rewrite Es.
    assert (oath_ok F3 []) as Hok.
    { split; [split; [reflexivity|constructor]|]. split; [constructor|]. split; [cbv; discriminate|constructor]. }
    assert (attrs_ok F3 [] h) as Hat.
    { split; [reflexivity|]. split; [left; reflexivity|]. split; [reflexivity|assumption]. }
    split; [eapply ok_other; [exact Hsame|exact Hok]|]. split; [eapply attrs_ok_same; [apply attrs_other, Hsame|exact Hat]|].
    split; [|split; assumption]. split; [|left; reflexivity]. split; [cbv; discriminate|]. split; [reflexivity|].
    split; [apply zeros_bytes|]. cbv; split; discriminate. }
  unfold wp in H. unfold oboot. destruct ((oath_install false ;;; pass_install o_slots oset_slots false) oath_boot (start fs_empty [] rnd [])) as [[o s] e]. exact H.
Qed.

(** ** Events *)
Definition store_cmd (c : capdu) : bool := (c_ins c =? 1) || (c_ins c =? 2) || (c_ins c =? 5).
Definition ev_chg (ev : event) (o : obs) (rs rs' : list bytes) : Prop :=
  match ev, o with
  | Cmd _ c _ _ _, Resp r => chg c rs ((r_sw r =? 0x9000) && store_cmd c) rs'
  | CutCmd _ c _ _ _ _, _ => exists b, chg c rs b rs'
  | _, _ => forall c, chg c rs false rs'
  end.

Lemma cmd_spec nfc c flt rnd tch d rs k h : good d rs k h -> all_bytes (c_data c) ->
  match cmd_run hmac_sha1 hmac_sha256 hmac_sha512 junk nfc c flt rnd tch d with
  | (None, _, _) => False
  | (Some r, s', e') => exists oc rs' k',
      eff nfc c rs k h (d_ram d) (d_fs d) [d_fs d] flt tch oc s' (e_fs e') (e_log e') (e_tch e') (r_data r) rs' k' /\
      r_sw r = match oc with Ret sw => sw | Exc w => w | _ => 0x6900 end /\
      good (mkDev s' (e_fs e')) rs' k' h /\ chg c rs ((r_sw r =? 0x9000) && store_cmd c) rs' /\
      logs (img c rs h) [d_fs d] (e_log e') /\ Forall pfile_ok (e_log e')
  end.
Proof.
  intros (Hok & Hat & Hinv & Hsl & Hpf) Hb. unfold cmd_run, oath_process_apdu, run_apdu, start.
  cbn [e_fs e_log e_flt e_rnd e_tch e_out].
  pose proof (wp_oath_body hmac_sha1 hmac_sha256 hmac_sha512 Hsha1 Hsha256 Hsha512 junk Hjunk Hjunkb nfc c rs k h (d_ram d) (d_fs d) [d_fs d] flt rnd tch Hok Hat Hb Hinv) as H.
  pose proof (pres_body hmac_sha1 hmac_sha256 hmac_sha512 junk nfc c (d_ram d) (mkE (d_fs d) [d_fs d] flt rnd tch [])) as Hpr.
  unfold wp in H, Hpr. destruct (oath_body _ _ _ _ _ _ _ _) as [[oc s'] e'].
  destruct Hpr as (Hsl' & Hpf' & Hpl').
  { split; [assumption|]. split; [assumption|]. constructor; [assumption|constructor]. }
  destruct H as (rs' & k' & He).
  destruct (eff_chg _ _ _ _ _ _ _ _ _ _ _ _ _ _ _ _ _ _ Hok Hat Hinv Hb He) as (Hub & Hok' & Hat' & Hinv' & Hchg & Hl').
  assert (good (mkDev s' (e_fs e')) rs' k' h) as Hg.
  { split; [assumption|]. split; [assumption|]. split; [assumption|]. split; assumption. }
  destruct oc as [sw|w| |]; [| | |contradiction].
  - exists (Ret sw), rs', k'. split; [assumption|]. split; [reflexivity|]. split; [assumption|]. split; [exact Hchg|]. split; assumption.
  - exists (Exc w), rs', k'. split; [assumption|]. split; [reflexivity|]. split; [assumption|]. split; [|split; assumption].
    destruct (eff_exc _ _ _ _ _ _ _ _ _ _ _ _ _ _ _ _ _ _ He) as [Hw _]. cbn [r_sw].
    destruct (Z.eqb_spec w 0x9000); [contradiction|]. exact Hchg.
  - exists Fail, rs', k'. split; [assumption|]. split; [reflexivity|]. split; [assumption|]. split; [exact Hchg|]. split; assumption.
Qed.

(** What a touch types. *)
Definition the_slot (kind : Z) (s : oath) : slot := if kind =? 1 then fst (o_slots s) else snd (o_slots s).
Definition enter (a : slot) : bytes := if negb (sl_enter a =? 0) then [13] else [].
Inductive typed (kind : Z) (d : dev) (rs : list bytes) (flt : list fault) : option bytes -> fs -> list fs -> list bytes -> Prop :=
| T_none : typed kind d rs flt None (d_fs d) [d_fs d] rs
| T_off : sl_type (the_slot kind (d_ram d)) = PASS_SLOT_OFF -> typed kind d rs flt (Some []) (d_fs d) [d_fs d] rs
| T_static : sl_type (the_slot kind (d_ram d)) = PASS_SLOT_STATIC ->
    typed kind d rs flt (Some (slice 0 (sl_password_len (the_slot kind (d_ram d))) (sl_password (the_slot kind (d_ram d))) ++ enter (the_slot kind (d_ram d))))
      (d_fs d) [d_fs d] rs
| T_oath j h code F' L' rs' : sl_type (the_slot kind (d_ram d)) = PASS_SLOT_OATH ->
    let r := nth (Z.to_nat j) rs [] in
    sl_oath_offset (the_slot kind (d_ram d)) = j * REC -> 0 <= j < zlen rs -> islive r = true -> r_type r = OATH_TYPE_HOTP ->
    ctr_of r + 1 < 2 ^ 64 ->
    let ch := to_be 8 (ctr_of r + 1) in
    oath_hmac hmac_sha1 hmac_sha256 hmac_sha512 (splice r 133 ch) ch = Some h -> oath_trunc h = Some code ->
    (F' = d_fs d /\ L' = [d_fs d] /\ rs' = rs /\ flt <> [] \/
     L' = [F'; d_fs d] /\ rs' = upd (Z.to_nat j) (splice r 133 ch) rs /\ oath_ok F' rs' /\ same_attrs (d_fs d) F') ->
    typed kind d rs flt (Some (digits_of (Z.to_nat (r_digits r)) (be code) ++ enter (the_slot kind (d_ram d)))) F' L' rs'.

Lemma touch_spec kind flt d rs k h : good d rs k h ->
  match touch_run hmac_sha1 hmac_sha256 hmac_sha512 junk kind flt d with
  | (Ret t, s', e') => s' = d_ram d /\ exists rs', typed kind d rs flt t (e_fs e') (e_log e') rs' /\
      ((kind = 1 \/ kind = 2) -> flt = [] -> sl_type (the_slot kind (d_ram d)) = PASS_SLOT_STATIC -> t <> None) /\
      good (mkDev s' (e_fs e')) rs' k h /\ (forall c, chg c rs false rs') /\
      logs (fun G => exists rs1, oath_ok G rs1 /\ attrs_ok G k h /\ forall c, chg c rs false rs1) [d_fs d] (e_log e') /\ Forall pfile_ok (e_log e')
  | _ => False
  end.
Proof.
  intros Hg. pose proof Hg as (Hok & Hat & Hinv & Hsl & Hpf). unfold touch_run, start.
  pose proof (pres_touch hmac_sha1 hmac_sha256 hmac_sha512 junk kind (d_ram d) (mkE (d_fs d) [d_fs d] flt [] [] [])) as Hpr.
  assert (pgood (d_ram d) (mkE (d_fs d) [d_fs d] flt [] [] [])) as Hpg.
  { split; [assumption|]. split; [assumption|]. constructor; [assumption|constructor]. }
  specialize (Hpr Hpg).
  assert (wp (pass_handle_touch hmac_sha1 hmac_sha256 hmac_sha512 junk kind) (fun o s' e' =>
    exists t, o = Ret t /\ s' = d_ram d /\ exists rs', typed kind d rs flt t (e_fs e') (e_log e') rs' /\
      ((kind = 1 \/ kind = 2) -> flt = [] -> sl_type (the_slot kind (d_ram d)) = PASS_SLOT_STATIC -> t <> None) /\
      oath_ok (e_fs e') rs' /\ attrs_ok (e_fs e') k h /\ inv (d_ram d) rs' /\ (forall c, chg c rs false rs') /\
      logs (fun G => exists rs1, oath_ok G rs1 /\ attrs_ok G k h /\ forall c, chg c rs false rs1) [d_fs d] (e_log e'))
    (d_ram d) (mkE (d_fs d) [d_fs d] flt [] [] [])) as H.
  { unfold pass_handle_touch. apply wp_bind, wp_get.
    assert (Hsame : forall t X', typed kind d rs flt t (d_fs d) [d_fs d] rs ->
      ((kind = 1 \/ kind = 2) -> flt = [] -> sl_type (the_slot kind (d_ram d)) = PASS_SLOT_STATIC -> t <> None) ->
      exists t0, Ret t = Ret t0 /\ d_ram d = d_ram d /\ exists rs', typed kind d rs flt t0 (d_fs d) [d_fs d] rs' /\
      ((kind = 1 \/ kind = 2) -> flt = [] -> sl_type (the_slot kind (d_ram d)) = PASS_SLOT_STATIC -> t0 <> None) /\
      oath_ok (d_fs d) rs' /\ attrs_ok (d_fs d) k h /\ inv (d_ram d) rs' /\ (forall c, chg c rs false rs') /\
      logs (fun G => exists rs1, oath_ok G rs1 /\ attrs_ok G k h /\ forall c, chg c rs false rs1) [d_fs d] (e_log (mkE (d_fs d) [d_fs d] X' [] [] []))).
    { intros t X' Ht Hn. exists t. split; [reflexivity|]. split; [reflexivity|]. exists rs. split; [assumption|]. split; [assumption|].
      split; [assumption|]. split; [assumption|]. split; [assumption|]. split; [intros; apply chg_refl|]. apply logs_nil. }
    destruct ((kind =? 1) || (kind =? 2)) eqn:Ek; cbn [negb].
    2:{ apply wp_ret. apply (Hsame None flt); [apply T_none|]. intros; lia. }
    cbv zeta. fold (the_slot kind (d_ram d)). set (a := the_slot kind (d_ram d)).
    assert (slot_ok a) as Ha.
    { unfold a, the_slot. destruct (kind =? 1); apply Hsl. }
    destruct Ha as (Ha1 & Ha2 & Ha3).
    destruct (Z.eqb_spec (sl_type a) PASS_SLOT_OFF) as [E0|E0].
    { apply wp_ret. apply (Hsame (Some []) flt); [apply T_off; exact E0|discriminate]. }
    destruct (Z.eqb_spec (sl_type a) PASS_SLOT_OATH) as [E1|E1].
    { destruct (Ha3 E1) as [Ho _]. apply wp_bind.
      apply (wp_by_offset hmac_sha1 hmac_sha256 hmac_sha512 Hsha1 Hsha256 Hsha512 junk Hjunk (sl_oath_offset a) rs); [assumption|assumption| |].
      - intros n X' Hx. apply wp_ret. apply (Hsame None X'); [apply T_none|]. intros _ _ E. fold a in E. rewrite E in E1. discriminate.
      - intros j code X' F' L' Hx Hoff Hj r Hl Ht Hlt ch rec' (hh & Hh & Htr) Hst.
        assert (rec_ok r) as Hr by (apply oks_nth; [apply Hok|assumption]).
        assert (r_digits r <= 8) as Hd8 by apply Hr.
        destruct (Z.ltb_spec 33 (r_digits r)); [lia|]. apply wp_ret. cbn [e_fs e_log].
        assert (chg (mkC 0 0 0 0 [] 0) rs false (upd (Z.to_nat j) rec' rs)) as _ by (apply G_hotp; assumption).
        eexists; split; [reflexivity|]. split; [reflexivity|].
        destruct Hst as [(-> & -> & Hne)|(-> & Hok' & Hsa)].
        + exists rs. split; [eapply T_oath with (j := j) (h := hh); try eassumption|].
          { left. repeat split; assumption. }
          split; [discriminate|]. split; [assumption|]. split; [assumption|]. split; [assumption|]. split; [intros; apply chg_refl|apply logs_nil].
        + exists (upd (Z.to_nat j) rec' rs).
          assert (forall c, chg c rs false (upd (Z.to_nat j) rec' rs)) as Hc by (intros c; apply G_hotp; assumption).
          assert (attrs_ok F' k h) as Ha' by (eapply attrs_ok_same; eassumption).
          split; [eapply T_oath with (j := j) (h := hh); try eassumption|].
          { right. split; [reflexivity|]. split; [reflexivity|]. split; assumption. }
          split; [discriminate|]. split; [assumption|]. split; [assumption|].
          split; [|split; [assumption|]].
          { destruct Hinv as [I1 I2]. split; [assumption|]. destruct I2 as [I2|I2]; [left; assumption|right].
            assert (zlen (upd (Z.to_nat j) rec' rs) = zlen rs) as ->; [|assumption].
            unfold upd, zlen in *. rewrite app_length. cbn [length]. rewrite firstn_length, skipn_length. lia. }
          apply logs_one. exists (upd (Z.to_nat j) rec' rs). split; [assumption|]. split; assumption. }
    destruct (Z.eqb_spec (sl_type a) PASS_SLOT_STATIC) as [E2|E2].
    { specialize (Ha2 E2). apply wp_bind.
      assert (zlen (sl_password a) = 32) as Hz by (unfold sl_password; rewrite zlen_slice; lia).
      rewrite sub_ok by lia. apply wp_ret. apply wp_ret. apply (Hsame (Some _) flt); [apply T_static; exact E2|discriminate]. }
    apply wp_ret. apply (Hsame None flt); [apply T_none|]. intros _ _ E. contradiction. }
  unfold wp in H, Hpr. destruct (pass_handle_touch _ _ _ _ _ _ _) as [[o s'] e'].
  destruct H as (t & -> & -> & rs' & Ht & Hn & H1 & H2 & H3 & H4 & H5). destruct Hpr as (P1 & P2 & P3).
  split; [reflexivity|]. exists rs'. split; [assumption|]. split; [assumption|].
  split; [|split; [assumption|split; assumption]]. split; [assumption|]. split; [assumption|]. split; [assumption|]. split; assumption.
Qed.
End Hist.
