(** What each OATH command does, for every fault pattern, relative to the list of stored records. *)
From Verif Require Import Sys Apdu Applet Pass Oath OathProofs.
From Coq Require Import Permutation.
Open Scope string_scope. Open Scope list_scope. Open Scope Z_scope.

(** ** Counters *)
Lemma incr_rev_spec l : all_bytes l ->
  match incr_rev l with
  | Some l' => zlen l' = zlen l /\ all_bytes l' /\ be (rev l') = be (rev l) + 1
  | None => be (rev l) = 256 ^ zlen l - 1
  end.
Proof.
  induction l as [|b l IH]; intros Hb; cbn [incr_rev]; [reflexivity|].
  inversion Hb as [|? ? Hb0 Hbl]; subst. unfold is_byte in Hb0. specialize (IH Hbl).
  cbn [rev]. rewrite be_snoc. unfold u8. destruct (Z.eq_dec b 255) as [->|Hn].
  - change ((255 + 1) mod 256 =? 0) with true. cbv iota. destruct (incr_rev l) as [l'|]; cbn [option_map].
    + destruct IH as (Hz & Hbl' & E). rewrite !zlen_cons. split; [lia|]. split; [constructor; [unfold is_byte; lia|assumption]|].
      cbn [rev]. rewrite be_snoc. lia.
    + rewrite IH, zlen_cons, Z.pow_add_r by (try apply zlen_nonneg; lia). lia.
  - rewrite Z.mod_small by lia. destruct (Z.eqb_spec (b + 1) 0); [lia|].
    rewrite !zlen_cons. split; [lia|]. split; [constructor; [unfold is_byte; lia|assumption]|].
    cbn [rev]. rewrite be_snoc. lia.
Qed.

Lemma be_inj a b : all_bytes a -> all_bytes b -> zlen a = zlen b -> be a = be b -> a = b.
Proof.
  intros Ha Hb Hz E. rewrite <- (to_be_be a Ha), <- (to_be_be b Hb). rewrite E. f_equal. unfold zlen in Hz. lia.
Qed.

Lemma increase_spec r : rec_ok r ->
  oath_increase_counter r =
  if be (r_chal r) =? 2 ^ 64 - 1 then None else Some (splice r 133 (to_be 8 (be (r_chal r) + 1))).
Proof.
  intros Hr. destruct Hr as (Hz & Hb & _). unfold oath_increase_counter.
  assert (all_bytes (r_chal r)) as Hbc by (apply all_bytes_slice; assumption).
  pose proof (r_chal_len r Hz) as Hl. pose proof (be_nonneg _ Hbc) as Hbe. rewrite Hl in Hbe. change (256 ^ 8) with (2 ^ 64) in Hbe.
  assert (all_bytes (rev (r_chal r))) as Hbr by (unfold all_bytes; apply Forall_rev; assumption).
  pose proof (incr_rev_spec (rev (r_chal r)) Hbr) as H. rewrite rev_involutive, zlen_rev, Hl in H.
  destruct (incr_rev (rev (r_chal r))) as [l'|].
  - destruct H as (Hz' & Hb' & E). destruct (Z.eqb_spec (be (r_chal r)) (2 ^ 64 - 1)) as [E1|E1].
    + exfalso. assert (all_bytes (rev l')) as Hbr' by (unfold all_bytes; apply Forall_rev; assumption).
      pose proof (be_nonneg _ Hbr') as Hx. rewrite zlen_rev, Hz' in Hx. change (256 ^ 8) with (2 ^ 64) in Hx. lia.
    + f_equal. f_equal. apply be_inj.
      * unfold all_bytes; apply Forall_rev; assumption.
      * apply to_be_bytes.
      * rewrite zlen_rev, zlen_to_be. lia.
      * rewrite be_to_be, E. change (256 ^ Z.of_nat 8) with (2 ^ 64). rewrite Z.mod_small by lia. reflexivity.
  - destruct (Z.eqb_spec (be (r_chal r)) (2 ^ 64 - 1)); [reflexivity|]. change (256 ^ 8) with (2 ^ 64) in H. lia.
Qed.

Lemma be_cons x l : be (x :: l) = x * 256 ^ zlen l + be l.
Proof. unfold be. cbn [be_acc]. rewrite be_acc_lin. lia. Qed.
Lemma bgtb_spec a b : all_bytes a -> all_bytes b -> zlen a = zlen b -> bgtb a b = (be b <? be a).
Proof.
  revert b; induction a as [|x a IH]; intros [|y b] Ha Hb Hz.
  - reflexivity.
  - rewrite zlen_cons in Hz; change (zlen (@nil Z)) with 0 in Hz. pose proof (zlen_nonneg b). lia.
  - rewrite zlen_cons in Hz; change (zlen (@nil Z)) with 0 in Hz. pose proof (zlen_nonneg a). lia.
  - inversion Ha as [|? ? Hx Ha']; subst. inversion Hb as [|? ? Hy Hb']; subst.
    rewrite !zlen_cons in Hz. assert (zlen a = zlen b) as Hz' by lia. cbn [bgtb]. rewrite !be_cons, Hz'.
    pose proof (be_nonneg a Ha') as Hna. pose proof (be_nonneg b Hb') as Hnb. rewrite Hz' in Hna.
    destruct (Z.eqb_spec x y) as [->|Hn]; [rewrite IH by assumption; lia|].
    set (p := 256 ^ zlen b) in *. destruct (Z.ltb_spec y x); destruct (Z.ltb_spec (y * p + be b) (x * p + be a)); nia.
Qed.

(** *** LIST: one entry, one segment *)
Definition lent (r : bytes) : bytes := [OATH_TAG_NAME_LIST; r_name_len r + 1; r_algbyte r] ++ rname r.
(** One segment over the remaining records: status, response, records left. *)
Fixpoint lpage (le : Z) (rs : list bytes) (acc : bytes) : Z * bytes * list bytes :=
  match rs with
  | [] => (SW_NO_ERROR, acc, [])
  | r :: t => if le <? zlen acc + 3 + r_name_len r then (0x61FF, acc, r :: t)
              else lpage le t (if islive r then acc ++ lent r else acc)
  end.
Lemma lpage_rest le rs acc : zlen (snd (lpage le rs acc)) <= zlen rs.
Proof.
  revert acc; induction rs as [|r t IH]; intros acc; cbn [lpage]; [reflexivity|].
  destruct (_ <? _); [reflexivity|]. rewrite zlen_cons. specialize (IH (if islive r then acc ++ lent r else acc)). lia.
Qed.
Lemma skipn_nth (rs : list bytes) n : (n < length rs)%nat -> skipn n rs = nth n rs [] :: skipn (S n) rs.
Proof.
  revert n; induction rs as [|r t IH]; intros [|n] H; cbn [length] in H; try lia; [reflexivity|].
  cbn [skipn nth]. apply IH. lia.
Qed.
Lemma oset_idx_idx a b s : oset_idx a (oset_idx b s) = oset_idx a s. Proof. destruct s; reflexivity. Qed.
Lemma oset_idx_id s : oset_idx (o_idx s) s = s. Proof. destruct s; reflexivity. Qed.

Section Cmds.
Variables hmac_sha1 hmac_sha256 hmac_sha512 : bytes -> bytes -> bytes.
Hypothesis Hsha1 : forall k m, zlen (hmac_sha1 k m) = 20 /\ all_bytes (hmac_sha1 k m).
Hypothesis Hsha256 : forall k m, zlen (hmac_sha256 k m) = 32 /\ all_bytes (hmac_sha256 k m).
Hypothesis Hsha512 : forall k m, zlen (hmac_sha512 k m) = 64 /\ all_bytes (hmac_sha512 k m).
Variable junk : bytes.
Hypothesis Hjunk : zlen junk = REC.
Hypothesis Hjunkb : all_bytes junk.

Notation answer := (answer hmac_sha1 hmac_sha256 hmac_sha512).
Notation oath_hmac := (oath_hmac hmac_sha1 hmac_sha256 hmac_sha512).

(** ** Dynamic truncation *)
Lemma trunc_ok h : all_bytes h -> 20 <= zlen h ->
  exists b, oath_trunc h = Some b /\ zlen b = 4 /\ all_bytes b /\
  be b = be (slice (Z.land (nth (length h - 1) h 0) 15) 4 h) mod 2 ^ 31.
Proof.
  intros Hb Hz. unfold oath_trunc. rewrite rd_nth by lia.
  replace (Z.to_nat (zlen h - 1)) with (length h - 1)%nat by (unfold zlen; lia).
  set (l := nth (length h - 1) h 0). pose proof (nth_byte h (length h - 1) Hb) as Hl. fold l in Hl.
  change 15 with (Z.ones 4). rewrite Z.land_ones by lia. pose proof (Z.mod_pos_bound l (2 ^ 4) ltac:(lia)) as Hm.
  rewrite sub_ok by lia. set (o := l mod 2 ^ 4) in *.
  assert (all_bytes (slice o 4 h)) as Hbs by (apply all_bytes_slice; assumption).
  assert (zlen (slice o 4 h) = 4) as Hzs by (rewrite zlen_slice; lia).
  destruct (slice o 4 h) as [|b0 r]; [discriminate Hzs|]. rewrite zlen_cons in Hzs.
  inversion Hbs as [|? ? H0 Hr]; subst. exists (Z.land b0 0x7F :: r). split; [reflexivity|].
  change 0x7F with (Z.ones 7). rewrite Z.land_ones by lia. unfold is_byte in H0.
  pose proof (Z.mod_pos_bound b0 (2 ^ 7) ltac:(lia)).
  split; [rewrite zlen_cons; lia|]. split; [constructor; [unfold is_byte; lia|assumption]|].
  rewrite !be_cons. replace (zlen r) with 3 by lia. pose proof (be_nonneg r Hr) as Hbr. replace (zlen r) with 3 in Hbr by lia.
  change (256 ^ 3) with (2 ^ 24) in *.
  pose proof (Z.div_mod b0 (2 ^ 7) ltac:(lia)) as Hdm.
  apply Z.mod_unique with (q := b0 / 2 ^ 7); [left|]; change (2 ^ 31) with 2147483648; change (2 ^ 24) with 16777216 in *;
    change (2 ^ 7) with 128 in *; lia.
Qed.

Lemma hmac_ok r chal : rec_ok r -> exists h, oath_hmac r chal = Some h /\ all_bytes h /\ 20 <= zlen h <= 64.
Proof.
  intros Hr. unfold Oath.oath_hmac. rewrite (r_secret_ok r Hr). eexists; split; [reflexivity|].
  destruct (_ =? _); [|destruct (_ =? _)].
  - destruct (Hsha1 (slice 68 (r_key_len r - 2) r) chal). split; [assumption|lia].
  - destruct (Hsha256 (slice 68 (r_key_len r - 2) r) chal). split; [assumption|lia].
  - destruct (Hsha512 (slice 68 (r_key_len r - 2) r) chal). split; [assumption|lia].
Qed.
Lemma answer_ok tr r chal : rec_ok r -> exists a, answer tr r chal = Some a.
Proof.
  intros Hr. destruct (hmac_ok r chal Hr) as (h & E & Hb & Hz). unfold Oath.answer. rewrite E. destruct tr; [|eauto].
  destruct (trunc_ok h Hb) as (b & -> & _); [lia|eauto].
Qed.

(** ** Storage changes of a command *)
Definition same_attrs (F G : fs) : Prop := forall a, fattr G OATH_FILE a = fattr F OATH_FILE a.
(** [G] holds a well-formed store, whose records satisfy [A], with the attributes of [F]. *)
Definition ximg (F : fs) (A : list bytes -> Prop) (G : fs) : Prop :=
  exists rs', oath_ok G rs' /\ same_attrs F G /\ A rs'.
Definition logs (P : fs -> Prop) (L L' : list fs) : Prop := exists new, L' = new ++ L /\ Forall P new.
Lemma logs_nil P L : logs P L L. Proof. exists []; split; [reflexivity|constructor]. Qed.
Lemma logs_cons P F L L' : logs P L L' -> P F -> logs P L (F :: L').
Proof. intros (n & -> & H) HF. exists (F :: n). split; [reflexivity|constructor; assumption]. Qed.

Lemma wp_write_oath d off (Q : out bool -> oath -> env -> Prop) s F L X R T O :
  F OATH_FILE <> None ->
  (forall X', nxt X X' -> let F' := fwrite F OATH_FILE d off false in Q (Ret true) s (mkE F' (F' :: L) X' R T O)) ->
  (X <> [] -> forall X', Q (Ret false) s (mkE F L X' R T O)) ->
  wp (write_file OATH_FILE d off false) Q s (mkE F L X R T O).
Proof.
  intros HF H1 H2. apply wp_write_file.
  - intros X' Hx. unfold lcreate. destruct (F OATH_FILE); [apply H1; assumption|congruence].
  - assumption.
  - intros Hx X'. unfold fcreate, lcreate. destruct (F OATH_FILE); [apply H2; assumption|congruence].
Qed.
Lemma same_attrs_fwrite F d off : F OATH_FILE <> None -> same_attrs F (fwrite F OATH_FILE d off false).
Proof. intros H a. apply fattr_fwrite, H. Qed.
Lemma same_attrs_refl F : same_attrs F F. Proof. intros a. reflexivity. Qed.

Lemma live_all rs : (forall m, 0 <= m < zlen rs -> islive (nth (Z.to_nat m) rs []) = true) -> live rs = rs.
Proof.
  intros Hl. unfold live. assert (forall r, In r rs -> islive r = true) as Ha.
  { intros r Hr. apply (In_nth _ _ []) in Hr as (n & Hn & E). rewrite <- E.
    specialize (Hl (Z.of_nat n)). rewrite Nat2Z.id in Hl. apply Hl. unfold zlen. lia. }
  clear Hl. induction rs as [|x l IH]; [reflexivity|]. cbn [filter].
  rewrite (Ha x (or_introl eq_refl)). f_equal. apply IH. intros r Hr. apply Ha. right; assumption.
Qed.

(** *** PUT *)
Lemma wp_put c rs (Q : out Z -> oath -> env -> Prop) s F L X R T O :
  oath_ok F rs -> all_bytes (c_data c) ->
  (forall w, w <> SW_NO_ERROR -> (c_p1 c <> 0 \/ c_p2 c <> 0 \/ parse_put (c_data c) = Exc w) ->
     Q (Exc w) s (mkE F L X R T O)) ->
  (X <> [] -> forall X', Q Fail s (mkE F L X' R T O)) ->
  (forall name key prop chal X', nxt X X' -> parse_put (c_data c) = Ret (name, key, prop, chal) ->
     In name (names rs) -> Q (Exc SW_CONDITIONS_NOT_SATISFIED) s (mkE F L X' R T O)) ->
  (forall name key prop chal X', nxt X X' -> parse_put (c_data c) = Ret (name, key, prop, chal) ->
     ~ In name (names rs) -> zlen (live rs) = MAX_RECORDS -> Q (Exc SW_NOT_ENOUGH_SPACE) s (mkE F L X' R T O)) ->
  (forall name key prop chal X' i r F', nxt X X' -> c_p1 c = 0 -> c_p2 c = 0 ->
     parse_put (c_data c) = Ret (name, key, prop, chal) ->
     ~ In name (names rs) -> 0 <= i <= zlen rs -> (i = zlen rs -> i < MAX_RECORDS) ->
     (i < zlen rs -> islive (nth (Z.to_nat i) rs []) = false) -> (i = zlen rs -> live rs = rs) ->
     rec_ok r -> rname r = name -> rkey r = key -> r_prop r = prop -> r_chal r = chal ->
     oath_ok F' (upd (Z.to_nat i) r rs) -> same_attrs F F' ->
     Q (Ret SW_NO_ERROR) s (mkE F' (F' :: L) X' R T O)) ->
  wp (oath_put junk c) Q s (mkE F L X R T O).
Proof.
  intros Hok Hb Hp Hf Hdup Hfull Hput. pose proof Hok as (Hrs & Hoks & H100 & Hnd).
  unfold oath_put. apply wp_bind, wp_guard; intros E1.
  2:{ apply Hp; [discriminate|]. lia. }
  apply wp_bind, wp_lift. pose proof (parse_put_sound (c_data c) Hb) as Hs.
  destruct (parse_put (c_data c)) as [[[[name key] prop] chal]|w| |] eqn:Ep; [| |contradiction|contradiction].
  2:{ apply Hp; auto. }
  destruct Hs as (po & imf & Hv & Hd & Hprop & Hchal).
  assert (all_bytes name /\ all_bytes key /\ is_byte prop /\ all_bytes chal /\ zlen chal = 8) as (Hbn & Hbk & Hbp & Hbc & Hzc).
  { rewrite Hd in Hb. unfold enc_put in Hb.
    apply all_bytes_app in Hb as [_ Hb]. apply all_bytes_app in Hb as [Hbn Hb]. apply all_bytes_app in Hb as [_ Hb].
    apply all_bytes_app in Hb as [Hbk Hb]. apply all_bytes_app in Hb as [Hbp Hbi].
    destruct Hv as (_ & _ & _ & _ & _ & Hvp & Hvi).
    split; [assumption|]. split; [assumption|]. split.
    { subst prop. destruct po; unfold is_byte; lia. }
    subst chal. destruct imf as [ctr|].
    - apply all_bytes_app in Hbi as [_ Hbi]. split; [apply all_bytes_app; split; [apply zeros_bytes|assumption]|].
      rewrite zlen_app, zlen_zeros by lia. lia.
    - split; [apply zeros_bytes|reflexivity]. }
  destruct Hv as (Hvn & Hvk & Hvt & Hva & Hvd & Hvp & Hvi).
  assert (name <> []) as Hne by (intros ->; change (zlen (@nil Z)) with 0 in Hvn; lia).
  apply wp_bind. apply (wp_n_records rs); [assumption| |assumption].
  intros X1 Hx1. apply wp_bind. pose proof (zlen_nonneg rs) as Hrs0.
  apply (wp_put_loop name rs); try assumption; try lia.
  - intros rec' X2 un Hx2 Hz Hbr Hnone Hun.
    assert (~ In name (names rs)) as Hni.
    { intros Hin. apply in_names in Hin; [|assumption|assumption]. destruct Hin as (m & Hm & E).
      apply (Hnone (Z.of_nat m)); [unfold zlen; lia|]. rewrite Nat2Z.id. assumption. }
    apply wp_bind, wp_guard; intros E2.
    + apply wp_bind. apply wp_write_oath; [eapply recs_some; eassumption| |].
      2:{ intros Hx X3. apply wp_fail, Hf. eapply nxt_ne; [eassumption|]. eapply nxt_ne; eassumption. }
      intros X3 Hx3. cbv zeta. apply wp_ret.
      destruct (fill_ok rec' name key prop chal) as (F1 & F2 & F3 & F4 & F5 & F6 & F7 & F8 & F9 & F10); try assumption; try lia.
      set (r := fill_record rec' name key prop chal) in *.
      assert (rec_ok r) as Hr.
      { unfold rec_ok, r_type, r_alg. rewrite F3, F5, F7, F9, F10. repeat split; try assumption; try lia.
        - subst prop; destruct po; lia.
        - subst prop; destruct po; lia. }
      assert (0 <= un <= zlen rs) as Hur by (destruct Hun as [[-> _]|[_ [? _]]]; lia).
      assert (un = zlen rs -> un < MAX_RECORDS) as Hmax by (intros ->; unfold MAX_RECORDS in *; lia).
      apply (Hput name key prop chal X3 un r); try assumption; try lia; try reflexivity.
      * eapply nxt_trans; [eassumption|]. eapply nxt_trans; eassumption.
      * intros ->. destruct Hun as [[_ Hl]|[_ [Hl _]]]; [|lia]. apply live_all, Hl. reflexivity.
      * eapply ok_upd; [exact Hok|assumption|lia|assumption|right; right; rewrite F4; assumption|].
        apply recs_write; [assumption|assumption|lia].
      * apply same_attrs_fwrite. eapply recs_some; eassumption.
    + apply (Hfull name key prop chal); try assumption; try reflexivity; [eapply nxt_trans; eassumption|].
      apply negb_false_iff, andb_true_iff in E2 as [E2 E3].
      destruct Hun as [[E Hl]|[_ [Hl _]]]; [|lia].
      rewrite (live_all rs (Hl eq_refl)). lia.
  - intros X2 m Hx2 Hm E. apply (Hdup name key prop chal); try assumption; try reflexivity; [eapply nxt_trans; eassumption|].
    apply in_names; [assumption|assumption|]. exists (Z.to_nat m). split; [unfold zlen in Hm; lia|assumption].
  - intros Hx X2. apply Hf. eapply nxt_ne; eassumption.
Qed.

(** *** Changes of other files *)
Definition oath_same (F G : fs) : Prop := G OATH_FILE = F OATH_FILE.
Lemma ok_other F G rs : oath_same F G -> oath_ok F rs -> oath_ok G rs.
Proof. intros H (Hr & Ho). split; [eapply recs_other; eassumption|assumption]. Qed.
Lemma attrs_other F G : oath_same F G -> same_attrs F G.
Proof. intros H a. unfold fattr. rewrite H. reflexivity. Qed.
Lemma oath_same_refl F : oath_same F F. Proof. reflexivity. Qed.
Lemma oath_same_write F d off tr : oath_same F (fwrite F PASS_FILE d off tr).
Proof. apply fwrite_other. discriminate. Qed.
Lemma oath_same_create F : oath_same F (fcreate F PASS_FILE).
Proof. apply fcreate_other. discriminate. Qed.
Lemma same_attrs_trans F G H : same_attrs F G -> same_attrs G H -> same_attrs F H.
Proof. intros H1 H2 a. rewrite H2. apply H1. Qed.
Lemma ximg_same F rs (A : list bytes -> Prop) G : oath_ok F rs -> A rs -> oath_same F G -> ximg F A G.
Proof. intros H1 H2 H3. exists rs. split; [eapply ok_other; eassumption|split; [apply attrs_other|]; assumption]. Qed.
Lemma logs_mono (P P' : fs -> Prop) L L' : (forall G, P G -> P' G) -> logs P L L' -> logs P' L L'.
Proof. intros H (n & -> & Hf). exists n. split; [reflexivity|]. eapply Forall_impl; [|exact Hf]. exact H. Qed.
Lemma logs_trans P L L' L'' : logs P L L' -> logs P L' L'' -> logs P L L''.
Proof. intros (n & -> & H) (m & -> & H'). exists (m ++ n). split; [apply app_assoc|apply Forall_app; split; assumption]. Qed.
Lemma logs_create F L : logs (oath_same F) L (lcreate F L PASS_FILE).
Proof.
  unfold lcreate. destruct (F PASS_FILE); [apply logs_nil|]. apply logs_cons; [apply logs_nil|apply oath_same_create].
Qed.

Lemma wp_save_slots (Q : out bool -> oath -> env -> Prop) s F L X R T O :
  (forall X' F' L', nxt X X' -> oath_same F F' -> logs (oath_same F) L L' ->
     fdata F' PASS_FILE = Some (slots_bytes (o_slots s)) -> Q (Ret true) s (mkE F' L' X' R T O)) ->
  (X <> [] -> forall X' F' L', oath_same F F' -> logs (oath_same F) L L' -> Q (Ret false) s (mkE F' L' X' R T O)) ->
  wp (save_slots o_slots) Q s (mkE F L X R T O).
Proof.
  intros H1 H2. unfold save_slots. apply wp_bind, wp_get. apply wp_write_file.
  - intros X' Hx. apply H1; [exact Hx|apply oath_same_write| |apply fdata_fwrite_trunc].
    apply logs_cons; [apply logs_create|apply oath_same_write].
  - intros Hx X'. apply H2; [assumption|apply oath_same_refl|apply logs_nil].
  - intros Hx X'. apply H2; [assumption|apply oath_same_create|apply logs_create].
Qed.

(** Slots after [pass_delete_oath]: the first slot which names the offset is switched off. *)
Definition slot_hits (off : Z) (a : slot) : bool := (sl_type a =? PASS_SLOT_OATH) && (sl_oath_offset a =? off).
Definition slot_off (a : slot) : slot := mkSlot PASS_SLOT_OFF (sl_u a) (sl_enter a).
Definition del_slots (off : Z) (sl : slots) : slots :=
  if slot_hits off (fst sl) then (slot_off (fst sl), snd sl)
  else if slot_hits off (snd sl) then (fst sl, slot_off (snd sl)) else sl.

Lemma wp_pass_delete off (Q : out bool -> oath -> env -> Prop) s F L X R T O :
  (forall X' F' L', nxt X X' -> oath_same F F' -> logs (oath_same F) L L' ->
     Q (Ret true) (oset_slots (del_slots off (o_slots s)) s) (mkE F' L' X' R T O)) ->
  (X <> [] -> forall X' F' L', oath_same F F' -> logs (oath_same F) L L' ->
     Q (Ret false) (oset_slots (del_slots off (o_slots s)) s) (mkE F' L' X' R T O)) ->
  wp (pass_delete_oath o_slots oset_slots off) Q s (mkE F L X R T O).
Proof.
  intros H1 H2. unfold pass_delete_oath. apply wp_bind, wp_get.
  destruct (o_slots s) as [a b] eqn:Es. unfold del_slots in *. cbn [fst snd] in *.
  fold (slot_hits off a). fold (slot_hits off b).
  destruct (slot_hits off a).
  - apply wp_bind, wp_modify. apply wp_save_slots.
    + intros X' F' L' Hx Hf Hl _. apply H1; assumption.
    + assumption.
  - destruct (slot_hits off b).
    + apply wp_bind, wp_modify. apply wp_save_slots.
      * intros X' F' L' Hx Hf Hl _. apply H1; assumption.
      * assumption.
    + apply wp_ret. specialize (H1 X F L (nxt_refl X) (oath_same_refl F) (logs_nil _ L)).
      rewrite <- Es in H1. destruct s. exact H1.
Qed.

(** *** DELETE *)
Definition dead (r : bytes) : bytes := splice r 0 [0].
Lemma dead_ok r : rec_ok r -> rec_ok (dead r) /\ islive (dead r) = false /\ rname (dead r) = [].
Proof.
  intros Hr. pose proof (rehead_ok r [] Hr) as H. change (splice r 0 (zlen [] :: [])) with (dead r) in H.
  destruct (rehead_fields r []) as (H1 & H2 & H3 & _); [apply Hr|change (zlen (@nil Z)) with 0; lia|].
  change (splice r 0 (zlen [] :: [])) with (dead r) in *.
  split; [apply H; [change (zlen (@nil Z)) with 0; lia|constructor]|].
  assert (rname (dead r) = []) as E by assumption.
  split; [|assumption]. destruct (islive (dead r)) eqn:El; [|reflexivity].
  apply islive_spec in El; [congruence|]. apply H; [change (zlen (@nil Z)) with 0; lia|constructor].
Qed.

Lemma wp_delete c rs (Q : out Z -> oath -> env -> Prop) s F L X R T O :
  oath_ok F rs -> all_bytes (c_data c) ->
  (forall w, w <> SW_NO_ERROR -> (c_p1 c <> 0 \/ c_p2 c <> 0 \/ parse_name 2 (c_data c) = Exc w) ->
     Q (Exc w) s (mkE F L X R T O)) ->
  (forall name X', nxt X X' -> parse_name 2 (c_data c) = Ret name -> ~ In name (names rs) ->
     Q (Exc SW_DATA_INVALID) s (mkE F L X' R T O)) ->
  (X <> [] -> forall s' X' F' L', s' = oset_slots (o_slots s') s ->
     oath_same F F' -> logs (oath_same F) L L' -> Q Fail s' (mkE F' L' X' R T O)) ->
  (forall name j X' F' L', nxt X X' -> c_p1 c = 0 -> c_p2 c = 0 -> parse_name 2 (c_data c) = Ret name ->
     1 <= zlen name <= 64 -> at_name rs name j ->
     let rs' := upd (Z.to_nat j) (dead (nth (Z.to_nat j) rs [])) rs in
     oath_ok F' rs' -> same_attrs F F' -> logs (ximg F (fun x => x = rs \/ x = rs')) L L' ->
     Q (Ret SW_NO_ERROR) (oset_slots (del_slots (j * REC) (o_slots s)) s) (mkE F' L' X' R T O)) ->
  wp (oath_delete junk c) Q s (mkE F L X R T O).
Proof.
  intros Hok Hb Hp Hnf Hf Hdel. pose proof Hok as (Hrs & Hoks & H100 & Hnd).
  unfold oath_delete. apply wp_bind, wp_guard; intros E1.
  2:{ apply Hp; [discriminate|]. lia. }
  apply wp_bind, wp_lift. pose proof (parse_name_sound 2 (c_data c)) as Hs.
  specialize (Hs ltac:(lia) Hb). destruct (parse_name 2 (c_data c)) as [name|w| |] eqn:Ep; [| |contradiction|contradiction].
  2:{ apply Hp; auto. }
  destruct Hs as (Hn & _ & _ & Hd).
  assert (name <> []) as Hne by (intros ->; change (zlen (@nil Z)) with 0 in Hn; lia).
  assert (forall X', X <> [] -> Q Fail s (mkE F L X' R T O)) as Hf0.
  { intros X' Hx. apply Hf; [assumption|destruct s; reflexivity|apply oath_same_refl|apply logs_nil]. }
  apply wp_bind. apply (wp_n_records rs); [assumption| |intros; apply Hf0; assumption].
  intros X1 Hx1. apply wp_bind. apply (wp_find junk Hjunk name rs); try assumption.
  - intros rec' X2 Hx2 Hz Hni. apply wp_bind, wp_guard; intros E2; [lia|].
    apply (Hnf name); [eapply nxt_trans; eassumption|reflexivity|assumption].
  - intros j X2 Hx2 Hj. assert (0 <= j < zlen rs) as Hjr by apply Hj.
    set (r := nth (Z.to_nat j) rs []) in *.
    assert (rec_ok r) as Hr by (apply oks_nth; assumption).
    destruct (dead_ok r Hr) as (Hd1 & Hd2 & Hd3).
    apply wp_bind, wp_guard; intros E2; [|lia].
    assert (nxt X X2) as Hx12 by (eapply nxt_trans; eassumption).
    apply wp_bind. apply wp_pass_delete.
    2:{ intros Hx X3 F' L' Hf' Hl'. apply wp_fail. apply Hf; [eapply nxt_ne; eassumption|reflexivity|assumption|assumption]. }
    intros X3 F1 L1 Hx3 Hf1 Hl1. cbn [negb]. apply wp_bind.
    assert (oath_ok F1 rs) as Hok1 by (eapply ok_other; eassumption).
    apply wp_write_oath; [eapply recs_some, Hok1| |].
    + intros X4 Hx4. cbv zeta. apply wp_ret.
      set (F2 := fwrite F1 OATH_FILE (splice r 0 [0]) (j * REC) false).
      assert (oath_ok F2 (upd (Z.to_nat j) (dead r) rs)) as Hok2.
      { eapply ok_upd; [exact Hok1|exact Hd1|lia|lia|right; left; exact Hd3|].
        apply recs_write; [apply Hok1|apply Hd1|lia]. }
      assert (same_attrs F F2) as Ha2.
      { eapply same_attrs_trans; [apply attrs_other; exact Hf1|]. apply same_attrs_fwrite. eapply recs_some, Hok1. }
      apply (Hdel name j); try assumption; try lia; try reflexivity.
      * eapply nxt_trans; [eassumption|]. eapply nxt_trans; eassumption.
      * apply logs_cons.
        -- eapply logs_mono; [|exact Hl1]. intros G HG. eapply ximg_same; [exact Hok| |exact HG]. left; reflexivity.
        -- exists (upd (Z.to_nat j) (dead r) rs). split; [assumption|]. split; [assumption|]. right; reflexivity.
    + intros Hx X4. apply wp_fail. apply Hf; [|reflexivity|assumption|assumption].
      eapply nxt_ne; [eassumption|]. eapply nxt_ne; eassumption.
  - intros Hx X2. apply Hf0. eapply nxt_ne; eassumption.
Qed.

(** *** RENAME *)
Definition renamed (r new : bytes) : bytes := splice r 0 (zlen new :: new).
Lemma wp_rename c rs (Q : out Z -> oath -> env -> Prop) s F L X R T O :
  oath_ok F rs -> all_bytes (c_data c) ->
  (forall w, w <> SW_NO_ERROR -> (c_p1 c <> 0 \/ c_p2 c <> 0 \/ parse_rename (c_data c) = Exc w) ->
     Q (Exc w) s (mkE F L X R T O)) ->
  (X <> [] -> forall X', Q Fail s (mkE F L X' R T O)) ->
  (forall old new X', nxt X X' -> parse_rename (c_data c) = Ret (old, new) -> In new (names rs) ->
     Q (Exc SW_CONDITIONS_NOT_SATISFIED) s (mkE F L X' R T O)) ->
  (forall old new X', nxt X X' -> parse_rename (c_data c) = Ret (old, new) -> ~ In new (names rs) -> ~ In old (names rs) ->
     Q (Exc SW_DATA_INVALID) s (mkE F L X' R T O)) ->
  (forall old new j X' F', nxt X X' -> c_p1 c = 0 -> c_p2 c = 0 -> parse_rename (c_data c) = Ret (old, new) ->
     1 <= zlen old <= 64 -> 1 <= zlen new <= 64 -> all_bytes new -> ~ In new (names rs) -> at_name rs old j ->
     oath_ok F' (upd (Z.to_nat j) (renamed (nth (Z.to_nat j) rs []) new) rs) -> same_attrs F F' ->
     Q (Ret SW_NO_ERROR) s (mkE F' (F' :: L) X' R T O)) ->
  wp (oath_rename junk c) Q s (mkE F L X R T O).
Proof.
  intros Hok Hb Hp Hf Hdup Hnf Hren. pose proof Hok as (Hrs & Hoks & H100 & Hnd).
  unfold oath_rename. apply wp_bind, wp_guard; intros E1.
  2:{ apply Hp; [discriminate|]. lia. }
  apply wp_bind, wp_lift. pose proof (parse_rename_sound (c_data c) Hb) as Hs.
  destruct (parse_rename (c_data c)) as [[old new]|w| |] eqn:Ep; [| |contradiction|contradiction].
  2:{ apply Hp; auto. }
  destruct Hs as (Ho & Hn & _ & Hbn & rest & Hd).
  assert (old <> []) as Hoe by (intros ->; change (zlen (@nil Z)) with 0 in Ho; lia).
  assert (new <> []) as Hne by (intros ->; change (zlen (@nil Z)) with 0 in Hn; lia).
  apply wp_bind. apply (wp_n_records rs); [assumption| |assumption].
  intros X1 Hx1. apply wp_bind. pose proof (zlen_nonneg rs) as Hrs0.
  apply (wp_rename_loop old new rs); try assumption; try lia.
  - intros rec' X2 idx Hx2 Hz Hnone Hidx.
    assert (~ In new (names rs)) as Hni.
    { intros Hin. apply in_names in Hin; [|assumption|assumption]. destruct Hin as (m & Hm & E).
      apply (Hnone (Z.of_nat m)); [unfold zlen; lia|]. rewrite Nat2Z.id. assumption. }
    apply wp_bind, wp_guard; intros E2.
    + destruct Hidx as [[E _]|(_ & Hi & Ei)]; [lia|].
      apply wp_bind. apply (wp_rd_rec idx rec' rs); [assumption|lia|assumption| |].
      2:{ intros Hx X3. apply Hf. eapply nxt_ne; [eassumption|]. eapply nxt_ne; eassumption. }
      intros X3 Hx3. set (r := nth (Z.to_nat idx) rs []) in *.
      assert (rec_ok r) as Hr by (apply oks_nth; [assumption|lia]).
      assert (rec_ok (renamed r new)) as Hr' by (apply rehead_ok; [assumption|lia|assumption]).
      assert (rname (renamed r new) = new) as En.
      { apply (rehead_fields r new); [apply Hr|lia]. }
      apply wp_bind, wp_write_oath; [eapply recs_some; eassumption| |].
      * intros X4 Hx4. cbv zeta. apply wp_ret. apply (Hren old new idx); try assumption; try lia; try reflexivity.
        -- eapply nxt_trans; [eassumption|]. eapply nxt_trans; [eassumption|]. eapply nxt_trans; eassumption.
        -- split; [lia|assumption].
        -- apply (ok_upd F rs idx (renamed r new) Hok Hr'); [lia|lia|right; right; rewrite En; exact Hni|].
           apply recs_write; [assumption|apply Hr'|lia].
        -- apply same_attrs_fwrite. eapply recs_some; eassumption.
      * intros Hx X4. apply wp_fail. apply Hf.
        eapply nxt_ne; [eassumption|]. eapply nxt_ne; [eassumption|]. eapply nxt_ne; eassumption.
    + destruct Hidx as [[_ Hno]|(_ & Hi & _)]; [|lia].
      apply (Hnf old new); try assumption; try reflexivity; [eapply nxt_trans; eassumption|].
      intros Hin. apply in_names in Hin; [|assumption|assumption]. destruct Hin as (m & Hm & E).
      apply (Hno eq_refl (Z.of_nat m)); [unfold zlen; lia|]. rewrite Nat2Z.id. assumption.
  - intros X2 m Hx2 Hm E. apply (Hdup old new); try assumption; try reflexivity; [eapply nxt_trans; eassumption|].
    apply in_names; [assumption|assumption|]. exists (Z.to_nat m). split; [unfold zlen in Hm; lia|assumption].
  - intros Hx X2. apply Hf. eapply nxt_ne; eassumption.
Qed.

(** *** Moving factor updates *)
Lemma wp_rechal rs j ch rec (Q : out bool -> oath -> env -> Prop) s F L X R T O :
  oath_ok F rs -> 0 <= j < zlen rs -> zlen ch = 8 -> all_bytes ch ->
  rec = splice (nth (Z.to_nat j) rs []) 133 ch ->
  (forall X' F', nxt X X' -> oath_ok F' (upd (Z.to_nat j) rec rs) -> same_attrs F F' ->
     Q (Ret true) s (mkE F' (F' :: L) X' R T O)) ->
  (X <> [] -> forall X', Q (Ret false) s (mkE F L X' R T O)) ->
  wp (oath_update_challenge_field rec (j * REC)) Q s (mkE F L X R T O).
Proof.
  intros Hok Hj Hc Hbc -> H1 H2. pose proof Hok as (Hrs & Hoks & _).
  set (r := nth (Z.to_nat j) rs []) in *. assert (rec_ok r) as Hr by (apply oks_nth; assumption).
  destruct (rechal_fields r ch Hr Hc) as (_ & _ & En & _ & _ & _ & Ec & _).
  unfold oath_update_challenge_field. rewrite Ec. apply wp_write_oath; [eapply recs_some; eassumption| |assumption].
  intros X' Hx. cbv zeta. apply H1; [assumption| |apply same_attrs_fwrite; eapply recs_some; eassumption].
  apply (ok_upd F rs j (splice r 133 ch) Hok); [apply rechal_ok; assumption|lia|lia| |].
  - left. split; [lia|assumption].
  - apply recs_write_chal; assumption.
Qed.

(** *** CALCULATE *)
(** Record [r] answers the challenge [chal] with the moving factor updated to [rec']. *)
Definition calc_ok (r d : bytes) (off : Z) (rec' chal : bytes) : Prop :=
  r_type r = OATH_TYPE_TOTP /\ parse_challenge d off = Ret chal /\
    (r_inc r = false /\ rec' = r \/
     r_inc r = true /\ zlen chal = 8 /\ be (r_chal r) <= be chal /\ rec' = splice r 133 chal)
  \/ r_type r = OATH_TYPE_HOTP /\ be (r_chal r) + 1 < 2 ^ 64 /\
     chal = to_be 8 (be (r_chal r) + 1) /\ rec' = splice r 133 chal.

Definition touch_bad (T : list Z) : bool :=
  (hd USER_PRESENCE_TIMEOUT T =? USER_PRESENCE_CANCEL) || (hd USER_PRESENCE_TIMEOUT T =? USER_PRESENCE_TIMEOUT).

Definition calc_refused (nfc : bool) (rs : list bytes) (T : list Z) (d : bytes) (w : Z) : Prop :=
  parse_name 3 d = Exc w \/
  exists name, parse_name 3 d = Ret name /\
    (~ In name (names rs) /\ w = SW_DATA_INVALID \/
     exists j, at_name rs name j /\ let r := nth (Z.to_nat j) rs [] in
       (r_touch r && negb nfc = true /\ touch_bad T = true /\ w = SW_SECURITY_STATUS_NOT_SATISFIED \/
        r_type r = OATH_TYPE_TOTP /\ parse_challenge d (2 + zlen name) = Exc w \/
        r_type r = OATH_TYPE_TOTP /\ r_inc r = true /\ w = SW_SECURITY_STATUS_NOT_SATISFIED /\
          (exists chal, parse_challenge d (2 + zlen name) = Ret chal /\ ~ (zlen chal = 8 /\ be (r_chal r) <= be chal)) \/
        r_type r = OATH_TYPE_HOTP /\ be (r_chal r) = 2 ^ 64 - 1 /\ w = SW_CONDITIONS_NOT_SATISFIED)).

Lemma wp_calculate nfc c rs (Q : out Z -> oath -> env -> Prop) s F L X R T O :
  oath_ok F rs -> all_bytes (c_data c) ->
  (forall w, c_p1 c <> 0 \/ ~ (c_p2 c = 0 \/ c_p2 c = 1) -> w = SW_WRONG_P1P2 -> Q (Exc w) s (mkE F L X R T O)) ->
  (forall w X' T', nxt X X' -> w <> SW_NO_ERROR -> calc_refused nfc rs T (c_data c) w ->
     Q (Exc w) s (mkE F L X' R T' O)) ->
  (X <> [] -> forall X' T', Q Fail s (mkE F L X' R T' O)) ->
  (forall name j rec' chal a X' T' F' L', nxt X X' -> c_p1 c = 0 -> (c_p2 c = 0 \/ c_p2 c = 1) ->
     parse_name 3 (c_data c) = Ret name -> 1 <= zlen name <= 64 -> at_name rs name j ->
     let r := nth (Z.to_nat j) rs [] in
     (r_touch r && negb nfc = true -> touch_bad T = false) ->
     T' = (if r_touch r && negb nfc then tl T else T) ->
     calc_ok r (c_data c) (2 + zlen name) rec' chal ->
     answer (c_p2 c =? 1) rec' chal = Some a ->
     (F' = F /\ L' = L /\ (X <> [] \/ rec' = r) \/
      L' = F' :: L /\ oath_ok F' (upd (Z.to_nat j) rec' rs) /\ same_attrs F F') ->
     Q (Ret SW_NO_ERROR) s (mkE F' L' X' R T' a)) ->
  wp (oath_calculate hmac_sha1 hmac_sha256 hmac_sha512 junk nfc c) Q s (mkE F L X R T O).
Proof.
  intros Hok Hb Hp Hexc Hf Hcalc. pose proof Hok as (Hrs & Hoks & H100 & Hnd).
  unfold oath_calculate. cbv zeta. apply wp_bind, wp_guard; intros E1.
  2:{ apply Hp; [lia|reflexivity]. }
  apply wp_bind, wp_lift. pose proof (parse_name_sound 3 (c_data c)) as Hs.
  specialize (Hs ltac:(lia) Hb). unfold calc_refused in Hexc.
  destruct (parse_name 3 (c_data c)) as [name|w| |] eqn:Ep; [| |contradiction|contradiction].
  2:{ apply Hexc; [apply nxt_refl|assumption|left; reflexivity]. }
  destruct Hs as (Hn & _ & _ & Hd).
  assert (name <> []) as Hne by (intros ->; change (zlen (@nil Z)) with 0 in Hn; lia).
  apply wp_bind. apply (wp_n_records rs); [assumption| |intros; apply Hf; assumption].
  intros X1 Hx1. apply wp_bind. apply (wp_find junk Hjunk name rs); try assumption.
  2: intros j X2 Hx2 Hj.
  1:{ intros rec' X2 Hx2 Hz Hni. apply wp_bind, wp_guard; intros E2; [lia|].
    apply Hexc; [eapply nxt_trans; eassumption|discriminate|]. right. exists name. split; [reflexivity|]. left. split; [assumption|reflexivity]. }
  2:{ intros Hx X2. apply Hf. eapply nxt_ne; eassumption. }
  assert (0 <= j < zlen rs) as Hjr by apply Hj.
  specialize (Hcalc name j).
  assert (forall w X' T', nxt X X' -> w <> SW_NO_ERROR ->
     let r := nth (Z.to_nat j) rs [] in
       (r_touch r && negb nfc = true /\ touch_bad T = true /\ w = SW_SECURITY_STATUS_NOT_SATISFIED \/
        r_type r = OATH_TYPE_TOTP /\ parse_challenge (c_data c) (2 + zlen name) = Exc w \/
        r_type r = OATH_TYPE_TOTP /\ r_inc r = true /\ w = SW_SECURITY_STATUS_NOT_SATISFIED /\
          (exists chal, parse_challenge (c_data c) (2 + zlen name) = Ret chal /\ ~ (zlen chal = 8 /\ be (r_chal r) <= be chal)) \/
        r_type r = OATH_TYPE_HOTP /\ be (r_chal r) = 2 ^ 64 - 1 /\ w = SW_CONDITIONS_NOT_SATISFIED) ->
     Q (Exc w) s (mkE F L X' R T' O)) as Hexc'.
  { intros w X' T' Hx Hw r Hr. apply Hexc; [assumption|assumption|]. right. exists name. split; [reflexivity|]. right. exists j.
    split; [assumption|]. exact Hr. }
  clear Hexc. cbv zeta in Hcalc, Hexc'.
  set (r := nth (Z.to_nat j) rs []) in *.
  assert (rec_ok r) as Hr by (apply oks_nth; assumption).
  assert (nxt X X2) as Hx12 by (eapply nxt_trans; eassumption).
  apply wp_bind, wp_guard; intros E2; [|lia].
  assert (forall T', (r_touch r && negb nfc = true -> touch_bad T = false) ->
     T' = (if r_touch r && negb nfc then tl T else T) ->
     wp (y <- (if r_type r =? OATH_TYPE_TOTP then
          chal <- lift (parse_challenge (c_data c) (2 + zlen name)) ;;
          r <- oath_enforce_increasing r (j * REC) chal ;;
          match r with
          | None => except SW_SECURITY_STATUS_NOT_SATISFIED
          | Some rec => ret (rec, chal)
          end
        else if r_type r =? OATH_TYPE_HOTP then
          match oath_increase_counter r with
          | None => except SW_CONDITIONS_NOT_SATISFIED
          | Some rec => oath_update_challenge_field rec (j * REC) ;;; ret (rec, r_chal rec)
          end
        else fail) ;;
        let '(rec, chal) := y in
        a <- need (answer (c_p2 c =? 1) rec chal) ;;
        set_out a ;;;
        ret SW_NO_ERROR) Q s (mkE F L X2 R T' O)) as Hrest.
  { intros T' Ht HT'. apply wp_bind.
    assert (all_bytes (r_chal r)) as Hbc by (apply all_bytes_slice, Hr).
    assert (zlen (r_chal r) = 8) as Hzc by (apply r_chal_len, Hr).
    assert (0 <= be (r_chal r) < 2 ^ 64) as H64.
    { pose proof (be_nonneg _ Hbc) as Hx. rewrite Hzc in Hx. exact Hx. }
    assert (forall rec' chal X' F' L', nxt X X' -> rec_ok rec' -> calc_ok r (c_data c) (2 + zlen name) rec' chal ->
      (F' = F /\ L' = L /\ (X <> [] \/ rec' = r) \/ L' = F' :: L /\ oath_ok F' (upd (Z.to_nat j) rec' rs) /\ same_attrs F F') ->
      wp (a <- need (answer (c_p2 c =? 1) rec' chal) ;; set_out a ;;; ret SW_NO_ERROR) Q s (mkE F' L' X' R T' O)) as Hans.
    { intros rec' chal X' F' L' Hx Hr' Hcok Hst. destruct (answer_ok (c_p2 c =? 1) rec' chal Hr') as (a & Ea).
      rewrite Ea. apply wp_bind, wp_ret. apply wp_bind, wp_set_out. apply wp_ret.
      apply (Hcalc rec' chal); try assumption; try lia; reflexivity. }
    destruct (Z.eqb_spec (r_type r) OATH_TYPE_TOTP) as [Et|Et].
    - apply wp_bind, wp_lift. pose proof (parse_challenge_sound (c_data c) (2 + zlen name) ltac:(lia) Hb) as Hcs.
      unfold calc_ok in Hans.
      destruct (parse_challenge (c_data c) (2 + zlen name)) as [chal|w| |]; [| |contradiction|contradiction].
      2:{ apply Hexc'; [assumption|assumption|]. right; left. split; [assumption|reflexivity]. }
      destruct Hcs as (Hcl & Hcb & _). apply wp_bind. unfold oath_enforce_increasing.
      destruct (r_inc r) eqn:Ei.
      + destruct (Z.eqb_spec (zlen chal) 8) as [Ec|Ec]; cbn [negb].
        2:{ apply wp_ret. apply Hexc'; [assumption|discriminate|]. right; right; left. repeat split; try assumption.
            exists chal. split; [reflexivity|]. intros []; congruence. }
        rewrite bgtb_spec by (try assumption; lia). destruct (Z.ltb_spec (be chal) (be (r_chal r))).
        * apply wp_ret. apply Hexc'; [assumption|discriminate|]. right; right; left. repeat split; try assumption.
          exists chal. split; [reflexivity|]. lia.
        * apply wp_bind. apply (wp_rechal rs j chal); try assumption; [reflexivity| |].
          -- intros X3 F3 Hx3 Hok3 Ha3. apply wp_ret. apply wp_ret. apply Hans.
             ++ eapply nxt_trans; eassumption.
             ++ apply rechal_ok; assumption.
             ++ left. split; [assumption|]. split; [reflexivity|]. right. repeat split; try assumption.
             ++ right. split; [reflexivity|]. split; assumption.
          -- intros Hx3 X3. apply wp_ret. apply wp_ret. apply Hans.
             ++ intros E. exfalso. apply Hx3. auto.
             ++ apply rechal_ok; assumption.
             ++ left. split; [assumption|]. split; [reflexivity|]. right. repeat split; try assumption.
             ++ left. repeat split; try reflexivity. left. intros E. apply Hx3. auto.
      + apply wp_ret. apply wp_ret. apply Hans; [assumption|assumption| |].
        * left. split; [assumption|]. split; [reflexivity|]. left. split; reflexivity.
        * left. repeat split; try reflexivity. right; reflexivity.
    - destruct (Z.eqb_spec (r_type r) OATH_TYPE_HOTP) as [Eh|Eh].
      2:{ destruct Hr as (_ & _ & _ & _ & Ht' & _). tauto. }
      rewrite increase_spec by assumption. destruct (Z.eqb_spec (be (r_chal r)) (2 ^ 64 - 1)) as [Ex|Ex].
      { apply Hexc'; [assumption|discriminate|]. right; right; right. repeat split; assumption. }
      set (ch := to_be 8 (be (r_chal r) + 1)).
      assert (zlen ch = 8) as Hzch by (unfold ch; rewrite zlen_to_be; reflexivity).
      assert (all_bytes ch) as Hbch by apply to_be_bytes.
      destruct (rechal_fields r ch Hr Hzch) as (_ & _ & _ & _ & _ & _ & Ec & _).
      apply wp_bind. apply (wp_rechal rs j ch); try assumption; [reflexivity| |].
      + intros X3 F3 Hx3 Hok3 Ha3. apply wp_ret. rewrite Ec. apply Hans.
        * eapply nxt_trans; eassumption.
        * apply rechal_ok; assumption.
        * right. repeat split; try assumption; try reflexivity. lia.
        * right. split; [reflexivity|]. split; assumption.
      + intros Hx3 X3. apply wp_ret. rewrite Ec. apply Hans.
        * intros E. exfalso. apply Hx3. auto.
        * apply rechal_ok; assumption.
        * right. repeat split; try assumption; try reflexivity. lia.
        * left. repeat split; try reflexivity. left. intros E. apply Hx3. auto. }
  apply wp_bind. destruct (r_touch r && negb nfc) eqn:Et.
  - apply wp_bind, wp_wait_touch. apply wp_guard; intros E3.
    + apply Hrest; [|reflexivity]. intros _. apply negb_true_iff in E3. exact E3.
    + apply Hexc'; [assumption|discriminate|]. left. split; [reflexivity|]. split; [|reflexivity].
      apply negb_false_iff in E3. exact E3.
  - apply wp_ret. apply Hrest; [discriminate|reflexivity].
Qed.

(** *** SET DEFAULT *)
Lemma wp_set_default c rs (Q : out Z -> oath -> env -> Prop) s F L X R T O :
  oath_ok F rs -> all_bytes (c_data c) ->
  (forall w X', nxt X X' -> w <> SW_NO_ERROR -> Q (Exc w) s (mkE F L X' R T O)) ->
  (X <> [] -> forall s' X' F' L', s' = oset_slots (o_slots s') s ->
     oath_same F F' -> logs (oath_same F) L L' -> Q Fail s' (mkE F' L' X' R T O)) ->
  (forall name j X' F' L', nxt X X' -> (c_p1 c = 1 \/ c_p1 c = 2) -> (c_p2 c = 0 \/ c_p2 c = 1) ->
     parse_name 2 (c_data c) = Ret name ->
     1 <= zlen name <= 64 -> at_name rs name j -> r_type (nth (Z.to_nat j) rs []) = OATH_TYPE_HOTP ->
     oath_same F F' -> logs (oath_same F) L L' ->
     let sl := upd_slot (c_p1 c - 1) (fun sl =>
       mkSlot PASS_SLOT_OATH (splice (sl_u sl) 0 (to_le4 (j * REC) ++ [zlen name] ++ name)) (c_p2 c)) (o_slots s) in
     fdata F' PASS_FILE = Some (slots_bytes sl) ->
     Q (Ret SW_NO_ERROR) (oset_slots sl s) (mkE F' L' X' R T O)) ->
  wp (oath_set_default junk c) Q s (mkE F L X R T O).
Proof.
  intros Hok Hb Hexc Hf Hset. pose proof Hok as (Hrs & Hoks & H100 & Hnd).
  unfold oath_set_default. apply wp_bind, wp_guard; intros E1.
  2:{ apply Hexc; [apply nxt_refl|discriminate]. }
  apply wp_bind, wp_guard; intros E1'.
  2:{ apply Hexc; [apply nxt_refl|discriminate]. }
  apply wp_bind, wp_lift. pose proof (parse_name_sound 2 (c_data c)) as Hs.
  specialize (Hs ltac:(lia) Hb). destruct (parse_name 2 (c_data c)) as [name|w| |] eqn:Ep; [| |contradiction|contradiction].
  2:{ apply Hexc; [apply nxt_refl|assumption]. }
  destruct Hs as (Hn & _ & _ & Hd).
  assert (name <> []) as Hne by (intros ->; change (zlen (@nil Z)) with 0 in Hn; lia).
  assert (forall X', X <> [] -> Q Fail s (mkE F L X' R T O)) as Hf0.
  { intros X' Hx. apply Hf; [assumption|destruct s; reflexivity|apply oath_same_refl|apply logs_nil]. }
  apply wp_bind. apply (wp_n_records rs); [assumption| |intros; apply Hf0; assumption].
  intros X1 Hx1. apply wp_bind. apply (wp_find junk Hjunk name rs); try assumption.
  - intros rec' X2 Hx2 Hz Hni. apply wp_bind, wp_guard; intros E2; [lia|].
    apply Hexc; [eapply nxt_trans; eassumption|discriminate].
  - intros j X2 Hx2 Hj. assert (0 <= j < zlen rs) as Hjr by apply Hj.
    assert (rname (nth (Z.to_nat j) rs []) = name) as En by apply Hj.
    specialize (Hset name j). cbv zeta in Hset.
    set (r := nth (Z.to_nat j) rs []) in *.
    assert (rec_ok r) as Hr by (apply oks_nth; assumption).
    apply wp_bind, wp_guard; intros E2; [|lia].
    assert (nxt X X2) as Hx12 by (eapply nxt_trans; eassumption).
    apply wp_bind, wp_guard; intros E3.
    2:{ apply Hexc; [assumption|discriminate]. }
    rewrite r_name_ok by assumption. rewrite En. apply wp_bind, wp_ret.
    apply wp_bind. unfold pass_update_oath. apply wp_bind, wp_modify. apply wp_save_slots.
    + intros X3 F3 L3 Hx3 Hf3 Hl3 Hd3. apply wp_ret. apply Hset; try assumption; try lia; try reflexivity.
      * eapply nxt_trans; eassumption.
      * destruct Hr as (_ & _ & _ & _ & Ht & _). destruct Ht as [Ht|Ht]; [assumption|]. lia.
    + intros Hx3 X3 F3 L3 Hf3 Hl3. apply wp_fail. apply Hf; [eapply nxt_ne; eassumption|reflexivity|assumption|assumption].
  - intros Hx X2. apply Hf0. eapply nxt_ne; eassumption.
Qed.

(** *** SET CODE, VALIDATE, SELECT *)
Definition attrs_ok (F : fs) (k h : bytes) : Prop :=
  fattr F OATH_FILE ATTR_KEY = Some k /\ (k = [] \/ zlen k = 16) /\
  fattr F OATH_FILE ATTR_HANDLE = Some h /\ zlen h = 8.
Lemma attrs_ok_same F G k h : same_attrs F G -> attrs_ok F k h -> attrs_ok G k h.
Proof. intros H (H1 & H2 & H3 & H4). unfold attrs_ok. rewrite !H. repeat split; assumption. Qed.

Lemma ok_setattr F rs a v : oath_ok F rs -> oath_ok (fsetattr F OATH_FILE a v) rs.
Proof.
  intros (Hr & Ho). split; [|exact Ho]. destruct Hr as [Hd Hf]. split; [|exact Hf].
  rewrite fdata_fsetattr. exact Hd.
Qed.
Lemma attrs_ok_key F k h v : F OATH_FILE <> None -> attrs_ok F k h -> v = [] \/ zlen v = 16 ->
  attrs_ok (fsetattr F OATH_FILE ATTR_KEY v) v h.
Proof.
  intros HF (H1 & H2 & H3 & H4) Hv. unfold attrs_ok. rewrite !fattr_fsetattr by assumption.
  rewrite Z.eqb_refl. change (ATTR_HANDLE =? ATTR_KEY) with false. cbv iota. repeat split; assumption.
Qed.

Lemma wp_set_code c rs k h (Q : out Z -> oath -> env -> Prop) s F L X R T O :
  oath_ok F rs -> attrs_ok F k h -> all_bytes (c_data c) ->
  (forall w, w <> SW_NO_ERROR -> Q (Exc w) s (mkE F L X R T O)) ->
  (X <> [] -> forall b X', Q Fail (oset_valid b s) (mkE F L X' R T O)) ->
  (forall X' F', nxt X X' -> c_p1 c = 0 -> c_p2 c = 0 -> parse_set_code (c_data c) = Ret None ->
     oath_ok F' rs -> attrs_ok F' [] h -> Q (Ret SW_NO_ERROR) (oset_valid true s) (mkE F' (F' :: L) X' R T O)) ->
  (forall key chal X' F', nxt X X' -> c_p1 c = 0 -> c_p2 c = 0 ->
     parse_set_code (c_data c) = Ret (Some (key, chal, hmac_sha1 key chal)) -> zlen key = 16 ->
     oath_ok F' rs -> attrs_ok F' key h -> Q (Ret SW_NO_ERROR) (oset_valid false s) (mkE F' (F' :: L) X' R T O)) ->
  wp (oath_set_code hmac_sha1 c) Q s (mkE F L X R T O).
Proof.
  intros Hok Hat Hb Hexc Hf Hclr Hset. pose proof Hok as (Hrs & _).
  assert (F OATH_FILE <> None) as HF by (eapply recs_some; eassumption).
  unfold oath_set_code. apply wp_bind, wp_guard; intros E1; [|apply Hexc; discriminate].
  apply wp_bind, wp_lift. pose proof (parse_set_code_sound (c_data c) Hb) as Hs.
  destruct (parse_set_code (c_data c)) as [[[[key chal] resp]|]|w| |]; [| | |contradiction|contradiction].
  - destruct Hs as (Hk & _). apply wp_bind, wp_guard; intros E2; [|apply Hexc; discriminate].
    apply beqb_eq in E2. subst resp. apply wp_bind, wp_modify. apply wp_bind, wp_write_attr.
    + intros _ X' Hx. apply wp_ret. apply (Hset key chal); try assumption; try lia; try reflexivity.
      * apply ok_setattr, Hok.
      * eapply attrs_ok_key; [assumption|eassumption|right; assumption].
    + intros [Hx|Hx] X' _; [|congruence]. apply wp_fail. apply Hf, Hx.
  - apply wp_bind, wp_modify. apply wp_bind, wp_write_attr.
    + intros _ X' Hx. apply wp_ret. apply Hclr; try assumption; try lia; try reflexivity.
      * apply ok_setattr, Hok.
      * eapply attrs_ok_key; [assumption|eassumption|left; reflexivity].
    + intros [Hx|Hx] X' _; [|congruence]. apply wp_fail. apply Hf, Hx.
  - apply Hexc, Hs.
Qed.

Lemma attr_buf_full n v : 0 <= n -> zlen v = n -> attr_buf n v = v.
Proof.
  intros Hn Hv. unfold attr_buf, slice. change (Z.to_nat 0) with 0%nat. cbn [skipn].
  rewrite firstn_app. replace (Z.to_nat n - length v)%nat with 0%nat by (unfold zlen in Hv; lia).
  rewrite firstn_O, app_nil_r. apply firstn_all2. unfold zlen in Hv. lia.
Qed.

(** A VALIDATE command that proves the access key [k] *)
Definition val_ok (c : capdu) (k : bytes) (s : oath) : Prop :=
  c_p1 c = 0 /\ c_p2 c = 0 /\ k <> [] /\ exists resp chal, parse_validate (c_data c) = Ret (resp, chal) /\ resp = hmac_sha1 k (o_chal s).
Lemma wp_validate c k h (Q : out Z -> oath -> env -> Prop) s F L X R T O :
  attrs_ok F k h -> all_bytes (c_data c) ->
  (forall w X', nxt X X' -> w <> SW_NO_ERROR -> ~ val_ok c k s -> Q (Exc w) s (mkE F L X' R T O)) ->
  (forall w X', nxt X X' -> w <> SW_NO_ERROR -> ~ val_ok c k s -> Q (Exc w) (oset_valid false s) (mkE F L X' R T O)) ->
  (X <> [] -> forall X', Q Fail s (mkE F L X' R T O)) ->
  (forall resp chal X', nxt X X' -> c_p1 c = 0 -> c_p2 c = 0 -> parse_validate (c_data c) = Ret (resp, chal) ->
     k <> [] -> resp = hmac_sha1 k (o_chal s) ->
     Q (Ret SW_NO_ERROR) (oset_valid true s) (mkE F L X' R T ([OATH_TAG_FULL_RESPONSE; 20] ++ hmac_sha1 k chal))) ->
  wp (oath_validate hmac_sha1 c) Q s (mkE F L X R T O).
Proof.
  intros (Hk & Hkl & _) Hb Hexc Hbad Hf Hv.
  unfold oath_validate. apply wp_bind, wp_guard; intros E1; [|apply Hexc; [apply nxt_refl|discriminate|intros (Hv1 & Hv2 & _); rewrite Hv1, Hv2 in E1; discriminate E1]].
  apply wp_bind, wp_lift. pose proof (parse_validate_sound (c_data c) Hb) as Hs.
  destruct (parse_validate (c_data c)) as [[resp chal]|w| |] eqn:Epv; [| |contradiction|contradiction].
  2:{ apply Hexc; [apply nxt_refl|assumption|]. intros (_ & _ & _ & ? & ? & Hv3 & _). congruence. }
  apply wp_bind, wp_read_attr. intros X' r Hx Hr. rewrite Hk in *.
  destruct Hr as [-> | ->].
  { apply wp_fail, Hf. intros E. destruct (Hx E) as [_ E']. discriminate. }
  assert (nxt X X') as Hx' by (intros E; apply Hx, E).
  apply wp_bind, wp_guard; intros E2.
  2:{ apply Hexc; [assumption|discriminate|]. intros (_ & _ & Hv3 & _). destruct k; [contradiction|]. rewrite zlen_cons in E2. pose proof (zlen_nonneg k). lia. }
  destruct Hkl as [->|Hkl]; [discriminate E2|].
  rewrite attr_buf_full by (unfold KEY_LEN; lia).
  apply wp_bind, wp_get. apply wp_bind, wp_modify. apply wp_bind, wp_guard; intros E3.
  - rewrite E3. apply wp_bind, wp_set_out. apply wp_ret. apply (Hv resp chal); try assumption; try lia; try reflexivity.
    + intros ->. discriminate Hkl.
    + apply beqb_eq in E3. congruence.
  - rewrite E3. apply Hbad; [assumption|discriminate|]. intros (_ & _ & _ & ? & ? & Hv3 & Hv4). rewrite Epv in Hv3. injection Hv3 as <- <-. rewrite Hv4, beqb_refl in E3. discriminate E3.
Qed.

Lemma wp_select c k h (Q : out Z -> oath -> env -> Prop) s F L X R T O :
  attrs_ok F k h ->
  (forall w, w <> SW_NO_ERROR -> c_p2 c <> 0 -> Q (Exc w) s (mkE F L X R T O)) ->
  (X <> [] -> forall X' O', Q Fail s (mkE F L X' R T O')) ->
  (forall X', nxt X X' -> k = [] ->
     Q (Ret SW_NO_ERROR) (oset_valid true s) (mkE F L X' R T ([0x79; 3; 6; 0; 0; 0x71; 8] ++ h))) ->
  (forall X' ch R', nxt X X' -> k <> [] -> zlen ch = 8 ->
     Q (Ret SW_NO_ERROR) (oset_chal ch s)
       (mkE F L X' R' T ([0x79; 3; 6; 0; 0; 0x71; 8] ++ h ++ [0x74; 8] ++ ch ++ [0x7B; 1; 1]))) ->
  wp (oath_select c) Q s (mkE F L X R T O).
Proof.
  intros (Hk & Hkl & Hh & Hhl) Hexc Hf H1 H2. unfold oath_select.
  apply wp_bind, wp_guard; intros E1; [|apply Hexc; [discriminate|lia]].
  apply wp_bind, wp_read_attr. intros X1 r Hx Hr. rewrite Hh in *. destruct Hr as [-> | ->].
  { apply wp_fail, Hf. intros E. destruct (Hx E) as [_ E']. discriminate. }
  assert (nxt X X1) as Hx1 by (intros E; apply Hx, E). clear Hx.
  rewrite attr_buf_full by (unfold HANDLE_LEN; lia). cbv zeta. apply wp_bind, wp_set_out.
  apply wp_bind, wp_read_attr. intros X2 r Hx Hr. rewrite Hk in *. destruct Hr as [-> | ->].
  { apply wp_fail, Hf. intros E. destruct (Hx (Hx1 E)) as [_ E']. discriminate. }
  assert (nxt X X2) as Hx2 by (intros E; apply Hx, Hx1, E). clear Hx.
  destruct (Z.eqb_spec (zlen k) 0) as [E|E].
  - apply wp_bind, wp_modify. apply wp_ret. apply H1; [assumption|]. destruct Hkl as [|Hkl]; [assumption|lia].
  - apply wp_bind. unfold wp, random_buffer. cbv iota zeta. cbn [e_rnd e_fs e_log e_flt e_tch e_out].
    set (ch := firstn (Z.to_nat MAX_CHALLENGE_LEN) (R ++ zeros MAX_CHALLENGE_LEN)).
    assert (zlen ch = 8) as Hc.
    { unfold ch, zlen. rewrite firstn_length, app_length. unfold zeros. rewrite repeat_length. unfold MAX_CHALLENGE_LEN. lia. }
    match goal with |- match ?m with _ => _ end => change (wp (modify (oset_chal ch) ;;;
        set_out (([OATH_TAG_VERSION; 3; 6; 0; 0; OATH_TAG_NAME; HANDLE_LEN] ++ h) ++ [OATH_TAG_CHALLENGE; 8] ++ ch ++ [OATH_TAG_ALGORITHM; 1; OATH_ALG_SHA1]) ;;;
        ret SW_NO_ERROR) Q s (mkE F L X2 (skipn (Z.to_nat MAX_CHALLENGE_LEN) R) T ([OATH_TAG_VERSION; 3; 6; 0; 0; OATH_TAG_NAME; HANDLE_LEN] ++ h))) end.
    apply wp_bind, wp_modify. apply wp_bind, wp_set_out. apply wp_ret. rewrite <- app_assoc. apply H2; [assumption| |assumption].
    intros ->. apply E. reflexivity.
Qed.

(** *** LIST *)
Lemma wp_list_loop le rs (Q : out (Z * bytes) -> oath -> env -> Prop) F L R T O :
  recs_of F rs -> Forall rec_ok rs -> zlen rs <= MAX_RECORDS -> forall k s rec acc X,
  Z.of_nat k = zlen rs - o_idx s -> 0 <= o_idx s -> zlen rec = REC ->
  (forall X', nxt X X' -> let '(sw, acc', rest) := lpage le (skipn (Z.to_nat (o_idx s)) rs) acc in
     Q (Ret (sw, acc')) (oset_idx (zlen rs - zlen rest) s) (mkE F L X' R T O)) ->
  (X <> [] -> forall i X', 0 <= i <= zlen rs -> Q Fail (oset_idx i s) (mkE F L X' R T O)) ->
  wp (list_loop k rec acc le) Q s (mkE F L X R T O).
Proof.
  intros Hrs Hok H100. induction k as [|k IH]; intros s rec acc X Hk Hi Hrec H1 H2; cbn [list_loop].
  - apply wp_ret. specialize (H1 X (nxt_refl X)).
    rewrite skipn_all2 in H1 by (unfold zlen in *; lia). cbn [lpage] in H1. change (zlen (@nil bytes)) with 0 in H1.
    replace (zlen rs - 0) with (o_idx s) in H1 by lia. rewrite oset_idx_id in H1. exact H1.
  - apply wp_bind, wp_get. apply wp_bind. apply (wp_rd_rec (o_idx s) rec rs); [assumption|lia|assumption| |].
    2:{ intros Hx X'. specialize (H2 Hx (o_idx s) X' ltac:(lia)). rewrite oset_idx_id in H2. exact H2. }
    intros X1 Hx1. set (r := nth (Z.to_nat (o_idx s)) rs []) in *.
    assert (rec_ok r) as Hr by (apply oks_nth; [assumption|lia]).
    assert (skipn (Z.to_nat (o_idx s)) rs = r :: skipn (Z.to_nat (o_idx s + 1)) rs) as Esk.
    { replace (Z.to_nat (o_idx s + 1)) with (S (Z.to_nat (o_idx s))) by lia. apply skipn_nth. unfold zlen in *. lia. }
    rewrite Esk in H1. cbn [lpage] in H1.
    destruct (le <? zlen acc + 3 + r_name_len r) eqn:El.
    + apply wp_ret. specialize (H1 X1 Hx1). cbv iota beta in H1.
      replace (zlen rs - zlen (r :: skipn (Z.to_nat (o_idx s + 1)) rs)) with (o_idx s) in H1.
      * rewrite oset_idx_id in H1. exact H1.
      * rewrite <- Esk. unfold zlen in *. rewrite skipn_length. lia.
    + unfold MAX_RECORDS in H100. assert (u8 (o_idx s + 1) = o_idx s + 1) as Eu by (unfold u8; apply Z.mod_small; lia).
      apply wp_bind, wp_modify. rewrite Eu.
      assert (forall acc', acc' = (if islive r then acc ++ lent r else acc) ->
        wp (list_loop k r acc' le) Q (oset_idx (o_idx s + 1) s) (mkE F L X1 R T O)) as Hgo.
      { intros acc' ->. apply IH.
        - cbn [o_idx oset_idx]. lia.
        - cbn [o_idx oset_idx]. lia.
        - apply Hr.
        - cbn [o_idx oset_idx]. intros X2 Hx2. specialize (H1 X2 ltac:(eapply nxt_trans; eassumption)).
          destruct (lpage le (skipn (Z.to_nat (o_idx s + 1)) rs) _) as [[sw acc'] rest]. rewrite oset_idx_idx. exact H1.
        - intros Hx2 i X2 Hi2. rewrite oset_idx_idx. apply H2; [eapply nxt_ne; eassumption|assumption]. }
      unfold islive in Hgo. destruct (r_name_len r =? 0); cbn [negb] in Hgo; [apply Hgo; reflexivity|].
      rewrite r_name_ok by assumption. apply wp_bind, wp_ret. apply Hgo. unfold lent, u8.
      destruct Hr as (_ & Hrb & Hrn & _). pose proof (rec_name_len r Hrb). rewrite (Z.mod_small (r_name_len r + 1)) by lia. reflexivity.
Qed.

Lemma wp_list c rs (Q : out Z -> oath -> env -> Prop) s F L X R T O :
  oath_ok F rs -> 0 <= o_idx s <= zlen rs ->
  (forall w, c_p1 c <> 0 \/ c_p2 c <> 0 -> w <> SW_NO_ERROR -> Q (Exc w) s (mkE F L X R T O)) ->
  (X <> [] -> forall i X', 0 <= i <= zlen rs -> Q Fail (oset_idx i (oset_rem REMAINING_LIST s)) (mkE F L X' R T O)) ->
  (forall X' sw acc rest, nxt X X' -> c_p1 c = 0 -> c_p2 c = 0 ->
     lpage (c_le c) (skipn (Z.to_nat (o_idx s)) rs) [] = (sw, acc, rest) ->
     Q (Ret sw) (oset_rem (if zlen rest =? 0 then REMAINING_NONE else REMAINING_LIST) (oset_idx (zlen rs - zlen rest) s))
       (mkE F L X' R T acc)) ->
  wp (oath_list junk c) Q s (mkE F L X R T O).
Proof.
  intros (Hrs & Hoks & H100 & _) Hi Hexc Hf H. unfold oath_list.
  apply wp_bind, wp_guard; intros E1; [|apply Hexc; [lia|discriminate]].
  apply wp_bind, wp_modify. apply wp_bind, (wp_n_records rs); [assumption| |].
  2:{ intros Hx X'. specialize (Hf Hx (o_idx s) X' Hi). destruct s; exact Hf. }
  intros X1 Hx1. apply wp_bind, wp_get. apply wp_bind. cbn [o_idx oset_rem].
  apply (wp_list_loop (c_le c) rs); try assumption; cbn [o_idx oset_rem]; [lia|lia| |].
  - intros X2 Hx2. destruct (lpage (c_le c) (skipn (Z.to_nat (o_idx s)) rs) []) as [[sw acc] rest] eqn:Ep.
    apply wp_bind, wp_get. cbn [o_idx oset_idx]. apply wp_bind.
    specialize (H X2 sw acc rest ltac:(eapply nxt_trans; eassumption) ltac:(lia) ltac:(lia) eq_refl).
    pose proof (zlen_nonneg rest) as Hr0.
    destruct (Z.leb_spec (zlen rs) (zlen rs - zlen rest)); destruct (Z.eqb_spec (zlen rest) 0); try lia.
    + apply wp_modify. apply wp_bind, wp_set_out. apply wp_ret. destruct s; exact H.
    + apply wp_ret. apply wp_bind, wp_set_out. apply wp_ret. destruct s; exact H.
  - intros Hx i X2 Hi2. apply Hf; [eapply nxt_ne; eassumption|assumption].
Qed.

(** *** CALCULATE ALL *)
(** The moving factor after answering [chal]; [None]: refused. *)
Definition cstep (chal r : bytes) : option bytes :=
  if islive r && (r_type r =? OATH_TYPE_TOTP) && negb (r_touch r) && r_inc r then
    if (zlen chal =? 8) && (be (r_chal r) <=? be chal) then Some (splice r 133 chal) else None
  else Some r.
Definition cent (tr : bool) (chal r : bytes) : bytes :=
  if islive r then
    [OATH_TAG_NAME; r_name_len r] ++ rname r ++
    (if r_type r =? OATH_TYPE_HOTP then [OATH_TAG_NO_RESP; 1; r_digits r]
     else if r_touch r then [OATH_TAG_REQ_TOUCH; 1; r_digits r]
     else match answer tr r chal with Some a => a | None => [] end)
  else [].
(** One segment: outcome, records already passed (updated), records left. *)
Fixpoint cpage (le : Z) (tr : bool) (chal : bytes) (rs : list bytes) (acc : bytes) : out (Z * bytes) * list bytes * list bytes :=
  match rs with
  | [] => (Ret (SW_NO_ERROR, acc), [], [])
  | r :: t =>
    if le <? 2 + r_name_len r + 2 + 1 + (if tr then 4 else 64) + zlen acc then (Ret (0x61FF, acc), [], r :: t)
    else match cstep chal r with
         | None => (Exc SW_SECURITY_STATUS_NOT_SATISFIED, [r], t)
         | Some r' => let '(o, dn, rest) := cpage le tr chal t (acc ++ cent tr chal r) in (o, r' :: dn, rest)
         end
  end.
Lemma cpage_len le tr chal rs acc o dn rest : cpage le tr chal rs acc = (o, dn, rest) -> zlen rs = zlen dn + zlen rest.
Proof.
  revert acc o dn rest; induction rs as [|r t IH]; intros acc o dn rest; cbn [cpage].
  - intros [= <- <- <-]. reflexivity.
  - destruct (_ <? _). { intros [= <- <- <-]. reflexivity. }
    destruct (cstep chal r).
    + destruct (cpage le tr chal t _) as [[o' dn'] rest'] eqn:E. intros [= <- <- <-].
      rewrite !zlen_cons. rewrite (IH _ _ _ _ E). lia.
    + intros [= <- <- <-]. rewrite !zlen_cons. change (zlen (@nil bytes)) with 0. lia.
Qed.

Lemma upd_mid {A} (pre : list A) r t x n : n = length pre -> upd n x (pre ++ r :: t) = pre ++ x :: t.
Proof.
  intros ->. unfold upd. rewrite firstn_app, firstn_all, Nat.sub_diag. cbn [firstn]. rewrite app_nil_r. f_equal. f_equal.
  rewrite skipn_app, skipn_all2 by lia. replace (S (length pre) - length pre)%nat with 1%nat by lia. reflexivity.
Qed.
Lemma nth_mid' {A} (pre : list A) r t d n : n = length pre -> nth n (pre ++ r :: t) d = r.
Proof. intros ->. rewrite app_nth2, Nat.sub_diag by lia. reflexivity. Qed.

Lemma answer_rechal tr r ch chal : rec_ok r -> zlen ch = 8 -> answer tr (splice r 133 ch) chal = answer tr r chal.
Proof.
  intros Hr Hc. destruct (rechal_fields r ch Hr Hc) as (_ & _ & _ & _ & _ & _ & _ & Ea & Ed & Es).
  unfold Oath.answer, Oath.oath_hmac. rewrite Es, Ed. unfold r_alg. rewrite Ea. reflexivity.
Qed.

Section Calc.
Variables (le : Z) (tr : bool) (chal : bytes) (A : list bytes -> Prop).
Hypothesis Hchal : all_bytes chal.
Hypothesis HA : forall pre r t r', cstep chal r = Some r' -> A (pre ++ r :: t) -> A (pre ++ r' :: t).

Lemma wp_calc_loop (Q : out (Z * bytes) -> oath -> env -> Prop) R T O :
  forall suf pre s rec acc F L X,
  oath_ok F (pre ++ suf) -> A (pre ++ suf) -> o_idx s = zlen pre -> zlen rec = REC ->
  remaining_eqb (o_rem s) REMAINING_CALC_TRUNC = tr -> slice 0 (o_clen s) (o_cbuf s) = chal ->
  (forall o dn dn' rest X' F' L', nxt X X' -> cpage le tr chal suf acc = (o, dn, rest) ->
     o <> Fail -> o <> UB -> zlen dn' = zlen dn -> (X = [] -> dn' = dn) ->
     oath_ok F' (pre ++ dn' ++ rest) -> A (pre ++ dn' ++ rest) -> same_attrs F F' -> logs (ximg F A) L L' ->
     Q o (oset_idx (zlen pre + zlen dn) s) (mkE F' L' X' R T O)) ->
  (X <> [] -> forall i rs' X' F' L', 0 <= i <= zlen (pre ++ suf) -> zlen rs' = zlen (pre ++ suf) ->
     oath_ok F' rs' -> A rs' -> same_attrs F F' -> logs (ximg F A) L L' ->
     Q Fail (oset_idx i s) (mkE F' L' X' R T O)) ->
  wp (calc_loop hmac_sha1 hmac_sha256 hmac_sha512 (length suf) rec acc le) Q s (mkE F L X R T O).
Proof.
  induction suf as [|r t IH]; intros pre s rec acc F L X Hok HA0 Hidx Hrec Htr Hch H1 H2; cbn [length calc_loop].
  - apply wp_ret. specialize (H1 (Ret (SW_NO_ERROR, acc)) [] [] [] X F L (nxt_refl X) eq_refl).
    change (zlen (@nil bytes)) with 0 in H1. rewrite Z.add_0_r, <- Hidx, oset_idx_id in H1.
    apply H1; try assumption; try discriminate; try reflexivity; [apply same_attrs_refl|apply logs_nil].
  - pose proof Hok as (Hrs & Hoks & H100 & Hnd). pose proof (zlen_nonneg pre) as Hp0. pose proof (zlen_nonneg t) as Ht0.
    assert (zlen (pre ++ r :: t) = zlen pre + 1 + zlen t) as Hz by (rewrite zlen_app, zlen_cons; lia).
    assert (0 <= o_idx s < zlen (pre ++ r :: t)) as Hi by lia.
    assert (nth (Z.to_nat (o_idx s)) (pre ++ r :: t) [] = r) as En by (apply nth_mid'; unfold zlen in Hidx; lia).
    assert (rec_ok r) as Hr by (rewrite <- En; apply oks_nth; assumption).
    apply wp_bind, wp_get. rewrite Htr. cbv zeta. apply wp_bind. apply (wp_rd_rec (o_idx s) rec (pre ++ r :: t)); try assumption.
    2:{ intros Hx X'. specialize (H2 Hx (o_idx s) (pre ++ r :: t) X' F L). rewrite oset_idx_id in H2.
        apply H2; try assumption; try lia; [apply same_attrs_refl|apply logs_nil]. }
    intros X1 Hx1. rewrite En. cbn [cpage] in H1.
    destruct (le <? 2 + r_name_len r + 2 + 1 + (if tr then 4 else 64) + zlen acc) eqn:El.
    { apply wp_ret. specialize (H1 (Ret (0x61FF, acc)) [] [] (r :: t) X1 F L Hx1 eq_refl).
      change (zlen (@nil bytes)) with 0 in H1. rewrite Z.add_0_r, <- Hidx, oset_idx_id in H1.
      apply H1; try assumption; try discriminate; try reflexivity; [apply same_attrs_refl|apply logs_nil]. }
    unfold MAX_RECORDS in H100.
    apply wp_bind, wp_modify. replace (u8 (o_idx s + 1)) with (zlen pre + 1) by (unfold u8; rewrite Z.mod_small; lia).
    (* one record passed: the stored one is [r''] *)
    assert (forall r' r'' acc' rec2 X2 F2 L2, cstep chal r = Some r' -> (r'' = r \/ r'' = r') -> (X = [] -> r'' = r') ->
      acc' = acc ++ cent tr chal r -> zlen rec2 = REC -> nxt X X2 ->
      oath_ok F2 (pre ++ r'' :: t) -> same_attrs F F2 -> logs (ximg F A) L L2 ->
      wp (calc_loop hmac_sha1 hmac_sha256 hmac_sha512 (length t) rec2 acc' le) Q (oset_idx (zlen pre + 1) s) (mkE F2 L2 X2 R T O)) as Hgo.
    { intros r' r'' acc' rec2 X2 F2 L2 Ec Hr2 Hr2x -> Hrec2 Hx2 Hok2 Ha2 Hl2.
      assert (A (pre ++ r'' :: t)) as HA2 by (destruct Hr2 as [->| ->]; [assumption|eapply HA; eassumption]).
      assert ((pre ++ [r'']) ++ t = pre ++ r'' :: t) as Eapp by (rewrite <- app_assoc; reflexivity).
      apply (IH (pre ++ [r''])).
      - rewrite Eapp. exact Hok2.
      - rewrite Eapp. exact HA2.
      - cbn [o_idx oset_idx]. rewrite zlen_app. reflexivity.
      - assumption.
      - exact Htr.
      - exact Hch.
      - intros o dn dn' rest X3 F3 L3 Hx3 Ecp Ho1 Ho2 Hzd Hdn Hok3 HA3 Ha3 Hl3. rewrite oset_idx_idx.
        rewrite Ec, Ecp in H1.
        replace (zlen (pre ++ [r'']) + zlen dn) with (zlen pre + zlen (r' :: dn)) by (rewrite zlen_app, !zlen_cons; change (zlen (@nil bytes)) with 0; lia).
        assert ((pre ++ [r'']) ++ dn' ++ rest = pre ++ (r'' :: dn') ++ rest) as Eapp' by (rewrite <- app_assoc; reflexivity).
        rewrite Eapp' in Hok3, HA3.
        apply (H1 o (r' :: dn) (r'' :: dn') rest); try assumption; try reflexivity.
        + eapply nxt_trans; eassumption.
        + rewrite !zlen_cons. lia.
        + intros E. rewrite (Hr2x E), (Hdn (Hx2 E)). reflexivity.
        + eapply same_attrs_trans; eassumption.
        + eapply logs_trans; [eassumption|]. eapply logs_mono; [|exact Hl3].
          intros G (y & Hy1 & Hy2 & Hy3). exists y. split; [assumption|]. split; [eapply same_attrs_trans; eassumption|assumption].
      - intros Hx3 i rs' X3 F3 L3 Hi3 Hz3 Hok3 HA3 Ha3 Hl3. rewrite oset_idx_idx. rewrite Eapp in Hi3, Hz3.
        assert (zlen (pre ++ r'' :: t) = zlen (pre ++ r :: t)) as Ezz by (rewrite !zlen_app, !zlen_cons; reflexivity).
        rewrite Ezz in Hi3, Hz3.
        apply (H2 ltac:(eapply nxt_ne; eassumption) i rs'); try assumption.
        + eapply same_attrs_trans; eassumption.
        + eapply logs_trans; [eassumption|]. eapply logs_mono; [|exact Hl3].
          intros G (y & Hy1 & Hy2 & Hy3). exists y. split; [assumption|]. split; [eapply same_attrs_trans; eassumption|assumption]. }
    assert (zlen r = REC) as Hzr by apply Hr.
    unfold cstep, cent in Hgo. unfold cstep in H1. unfold islive in *. destruct (r_name_len r =? 0) eqn:E0; cbn [negb andb] in Hgo, H1.
    { apply (Hgo r r); try assumption; try reflexivity; [left; reflexivity|rewrite app_nil_r; reflexivity|apply same_attrs_refl|apply logs_nil]. }
    rewrite r_name_ok by assumption. apply wp_bind, wp_ret.
    destruct (Z.eqb_spec (r_type r) OATH_TYPE_HOTP) as [Eh|Eh].
    { rewrite Eh in Hgo. change (OATH_TYPE_HOTP =? OATH_TYPE_TOTP) with false in Hgo. cbn [andb] in Hgo.
      apply (Hgo r r); try assumption; try reflexivity; [left; reflexivity| |apply same_attrs_refl|apply logs_nil].
      rewrite <- !app_assoc. reflexivity. }
    assert (r_type r = OATH_TYPE_TOTP) as Et by (destruct Hr as (_ & _ & _ & _ & [?|?] & _); congruence).
    rewrite Et in Hgo, H1. rewrite Z.eqb_refl in Hgo, H1. cbn [andb] in Hgo, H1.
    destruct (r_touch r) eqn:Eto; cbn [negb andb] in Hgo, H1.
    { apply (Hgo r r); try assumption; try reflexivity; [left; reflexivity| |apply same_attrs_refl|apply logs_nil].
      rewrite <- !app_assoc. reflexivity. }
    cbn [o_clen o_cbuf oset_idx]. rewrite Hch. apply wp_bind. unfold oath_enforce_increasing.
    destruct (r_inc r) eqn:Ei.
    + assert (all_bytes (r_chal r)) as Hbc by (apply all_bytes_slice, Hr).
      assert (zlen (r_chal r) = 8) as Hzc by (apply r_chal_len, Hr).
      assert (A (pre ++ [r] ++ t)) as HA0' by exact HA0.
      destruct (Z.eqb_spec (zlen chal) 8) as [Ec|Ec]; cbn [negb andb] in *.
      2:{ apply wp_ret. apply (H1 _ [r] [r] t X1 F L Hx1 eq_refl); try discriminate; try reflexivity; try assumption; [apply same_attrs_refl|apply logs_nil]. }
      rewrite bgtb_spec by (try assumption; lia).
      destruct (Z.ltb_spec (be chal) (be (r_chal r))); destruct (Z.leb_spec (be (r_chal r)) (be chal)); try lia.
      * apply wp_ret. apply (H1 _ [r] [r] t X1 F L Hx1 eq_refl); try discriminate; try reflexivity; try assumption; [apply same_attrs_refl|apply logs_nil].
      * set (r' := splice r 133 chal) in *.
        assert (rec_ok r') as Hr' by (apply rechal_ok; assumption).
        assert (answer tr r' chal = answer tr r chal) as Eans by (apply answer_rechal; assumption).
        destruct (answer_ok tr r chal Hr) as (a & Ea). rewrite Ea in *.
        assert (upd (Z.to_nat (o_idx s)) r' (pre ++ r :: t) = pre ++ r' :: t) as Eu by (apply upd_mid; unfold zlen in Hidx; lia).
        assert (A (pre ++ r' :: t)) as HAr'.
        { eapply HA; [|exact HA0]. unfold cstep, islive. rewrite E0, Et, Eto, Ei, Ec. cbn [negb andb]. rewrite !Z.eqb_refl.
          replace (be (r_chal r) <=? be chal) with true by lia. reflexivity. }
        apply wp_bind. apply (wp_rechal (pre ++ r :: t) (o_idx s) chal); try assumption; [rewrite En; reflexivity| |].
        -- intros X3 F3 Hx3 Hok3 Ha3. rewrite Eu in Hok3. apply wp_ret. rewrite Eans. apply wp_bind, wp_ret.
           apply (Hgo r' r'); try reflexivity; try assumption; [right; reflexivity| |apply Hr'|eapply nxt_trans; eassumption|].
           ++ rewrite <- !app_assoc. reflexivity.
           ++ apply logs_cons; [apply logs_nil|]. exists (pre ++ r' :: t). split; [assumption|]. split; assumption.
        -- intros Hx3 X3. apply wp_ret. rewrite Eans. apply wp_bind, wp_ret.
           apply (Hgo r' r); try reflexivity; try assumption; [left; reflexivity| | |apply Hr'| |apply same_attrs_refl|apply logs_nil].
           ++ intros E. exfalso. apply Hx3. auto.
           ++ rewrite <- !app_assoc. reflexivity.
           ++ intros E. exfalso. apply Hx3. auto.
    + apply wp_ret. destruct (answer_ok tr r chal Hr) as (a & Ea). rewrite Ea in *. apply wp_bind, wp_ret.
      apply (Hgo r r); try assumption; try reflexivity; [left; reflexivity| |apply same_attrs_refl|apply logs_nil].
      rewrite <- !app_assoc. reflexivity.
Qed.
End Calc.

(** Sizes of the applet's variables. *)
Definition st_ok (s : oath) : Prop :=
  0 <= o_idx s /\ zlen (o_cbuf s) = 8 /\ all_bytes (o_cbuf s) /\ 0 <= o_clen s <= 8.
(** The variables other than those of the paging. *)
Definition page_only (s s' : oath) : Prop :=
  o_valid s' = o_valid s /\ o_slots s' = o_slots s /\ o_chal s' = o_chal s.

Definition calc_seg (s : oath) (c : capdu) (chal : bytes) (tr : bool) : Prop :=
  if o_idx s =? 0 then
    1 <= zlen chal <= 8 /\ (exists rest, c_data c = [OATH_TAG_CHALLENGE; zlen chal] ++ chal ++ rest) /\ tr = (c_p2 c =? 1)
  else chal = slice 0 (o_clen s) (o_cbuf s) /\ tr = remaining_eqb (o_rem s) REMAINING_CALC_TRUNC.

(** Arguments CALCULATE ALL refuses *)
Definition call_bad (s : oath) (c : capdu) : Prop :=
  ~ (c_p2 c = 0 \/ c_p2 c = 1) \/
  o_idx s = 0 /\ ~ exists chal rest, 1 <= zlen chal <= 8 /\ c_data c = [OATH_TAG_CHALLENGE; zlen chal] ++ chal ++ rest.
Lemma wp_calc_all c rs (A : list bytes -> Prop) (Q : out Z -> oath -> env -> Prop) s F L X R T O :
  oath_ok F rs -> all_bytes (c_data c) -> st_ok s -> o_idx s <= zlen rs -> A rs ->
  (forall chal pre r t r', all_bytes chal -> cstep chal r = Some r' -> A (pre ++ r :: t) -> A (pre ++ r' :: t)) ->
  (forall w s' X', nxt X X' -> w <> SW_NO_ERROR -> call_bad s c -> st_ok s' -> page_only s s' -> o_idx s' = o_idx s -> o_rem s' = o_rem s ->
     Q (Exc w) s' (mkE F L X' R T O)) ->
  (X <> [] -> forall s' rs' X' F' L', st_ok s' -> page_only s s' -> o_idx s' <= zlen rs -> zlen rs' = zlen rs ->
     oath_ok F' rs' -> A rs' -> same_attrs F F' -> logs (ximg F A) L L' -> Q Fail s' (mkE F' L' X' R T O)) ->
  (forall chal tr o dn dn' rest s' X' F' L', nxt X X' ->
     calc_seg s c chal tr -> all_bytes chal ->
     cpage (c_le c) tr chal (skipn (Z.to_nat (o_idx s)) rs) [] = (o, dn, rest) ->
     zlen dn' = zlen dn -> (X = [] -> dn' = dn) ->
     st_ok s' -> page_only s s' -> o_idx s' = zlen rs - zlen rest -> slice 0 (o_clen s') (o_cbuf s') = chal ->
     (rest = [] \/ remaining_eqb (o_rem s') REMAINING_CALC_TRUNC = tr /\
                    (o_idx s = 0 -> o_rem s' = if tr then REMAINING_CALC_TRUNC else REMAINING_CALC_FULL) /\
                    (o_idx s <> 0 -> o_rem s' = o_rem s)) ->
     (rest = [] -> o_rem s' = REMAINING_NONE \/ exists w, o = Exc w) ->
     oath_ok F' (firstn (Z.to_nat (o_idx s)) rs ++ dn' ++ rest) -> A (firstn (Z.to_nat (o_idx s)) rs ++ dn' ++ rest) ->
     same_attrs F F' -> logs (ximg F A) L L' ->
     match o with
     | Ret (sw, acc) => Q (Ret sw) s' (mkE F' L' X' R T acc)
     | Exc w => Q (Exc w) s' (mkE F' L' X' R T O)
     | _ => True
     end) ->
  wp (oath_calculate_all hmac_sha1 hmac_sha256 hmac_sha512 junk c) Q s (mkE F L X R T O).
Proof.
  intros Hok Hb Hst Hidx HA0 HA Hexc Hf H. pose proof Hok as (Hrs & Hoks & H100 & _). unfold oath_calculate_all.
  assert (page_only s s) as Hpo by (repeat split).
  apply wp_bind, wp_guard; intros E1; [|apply Hexc; try assumption; try reflexivity; [apply nxt_refl|discriminate|left; lia]].
  apply wp_bind, wp_get_file_size. intros X1 sz Hx1 Hsz. rewrite (recs_fsize F rs Hrs) in *.
  destruct Hsz as [-> | ->].
  { apply wp_fail. apply (Hf ltac:(intros E; destruct (Hx1 E); discriminate) s rs); try assumption; try reflexivity; [apply same_attrs_refl|apply logs_nil]. }
  assert (nxt X X1) as Hx1' by (intros E; apply Hx1, E). clear Hx1. rewrite recs_n. cbv zeta.
  apply wp_bind, wp_get. destruct Hst as (Hi0 & Hcb & Hcbb & Hcl).
  (* the loop *)
  assert (forall s1 chal tr X2, nxt X X2 -> calc_seg s c chal tr -> all_bytes chal -> st_ok s1 -> page_only s s1 -> o_idx s1 = o_idx s ->
     slice 0 (o_clen s1) (o_cbuf s1) = chal -> remaining_eqb (o_rem s1) REMAINING_CALC_TRUNC = tr ->
     (o_idx s = 0 -> o_rem s1 = if tr then REMAINING_CALC_TRUNC else REMAINING_CALC_FULL) ->
     (o_idx s <> 0 -> o_rem s1 = o_rem s) ->
     wp (x <- calc_loop hmac_sha1 hmac_sha256 hmac_sha512 (Z.to_nat (zlen rs - o_idx s)) junk [] (c_le c) ;;
         let '(sw, acc) := x in
         s <- get ;;
         (if zlen rs <=? o_idx s then modify (oset_rem REMAINING_NONE) else ret tt) ;;;
         set_out acc ;;; ret sw) Q s1 (mkE F L X2 R T O)) as Hloop.
  { intros s1 chal tr X2 Hx2 Hseg Hbch Hst1 Hpo1 Hi1 Hch Htr Hrem0 Hrem1.
    set (pre := firstn (Z.to_nat (o_idx s)) rs) in *. set (suf := skipn (Z.to_nat (o_idx s)) rs) in *.
    assert (pre ++ suf = rs) as Eps by apply firstn_skipn.
    assert (zlen pre = o_idx s) as Hzp by (unfold pre, zlen in *; rewrite firstn_length; lia).
    replace (Z.to_nat (zlen rs - o_idx s)) with (length suf) by (unfold suf, zlen; rewrite skipn_length; lia).
    apply wp_bind. apply (wp_calc_loop (c_le c) tr chal A Hbch) with (pre := pre).
    - intros pre' r t r'. apply HA, Hbch.
    - rewrite Eps. assumption.
    - rewrite Eps. assumption.
    - lia.
    - assumption.
    - assumption.
    - assumption.
    - intros o dn dn' rest X' F' L' Hx' Ecp Hnf Hnu Hzd Hdn Hok' HA' Ha' Hl'.
      pose proof (cpage_len _ _ _ _ _ _ _ _ Ecp) as Hlen.
      assert (zlen rs = zlen pre + zlen suf) as Hzz by (rewrite <- Eps; apply zlen_app).
      pose proof (zlen_nonneg rest) as Hr0. pose proof (zlen_nonneg dn) as Hd0.
      assert (st_ok (oset_idx (zlen pre + zlen dn) s1)) as Hst2.
      { destruct Hst1 as (_ & ? & ? & ?). split; [cbn [o_idx oset_idx]; lia|]. split; [assumption|split; assumption]. }
      assert (nxt X X') as Hxx by (eapply nxt_trans; eassumption).
      destruct o as [[sw acc]|w| |]; [| |congruence|congruence].
      + apply wp_bind, wp_get. cbn [o_idx oset_idx]. apply wp_bind.
        destruct (Z.leb_spec (zlen rs) (zlen pre + zlen dn)) as [Hle|Hle].
        * apply wp_modify. apply wp_bind, wp_set_out. apply wp_ret.
          assert (rest = []) as Er by (destruct rest; [reflexivity|rewrite zlen_cons in *; pose proof (zlen_nonneg rest); lia]).
          apply (H chal tr (Ret (sw, acc)) dn dn' rest); try assumption.
          -- intros E. apply Hdn, Hx2, E.
          -- cbn [o_idx oset_idx oset_rem]. lia.
          -- left; assumption.
          -- intros _. left; reflexivity.
        * apply wp_ret. apply wp_bind, wp_set_out. apply wp_ret.
          apply (H chal tr (Ret (sw, acc)) dn dn' rest); try assumption.
          -- intros E. apply Hdn, Hx2, E.
          -- cbn [o_idx oset_idx oset_rem]. lia.
          -- right. repeat split; assumption.
          -- intros ->. change (zlen (@nil bytes)) with 0 in *. lia.
      + apply (H chal tr (Exc w) dn dn' rest); try assumption.
        * intros E. apply Hdn, Hx2, E.
        * cbn [o_idx oset_idx oset_rem]. lia.
        * right. repeat split; assumption.
        * intros _. right. exists w; reflexivity.
    - rewrite Eps. intros Hx i rs' X' F' L' Hi' Hz' Hok' HA' Ha' Hl'.
      apply (Hf ltac:(eapply nxt_ne; eassumption) _ rs'); try assumption.
      + destruct Hst1 as (_ & ? & ? & ?). split; [cbn [o_idx oset_idx]; lia|]. split; [assumption|split; assumption].
      + cbn [o_idx oset_idx]. lia. }
  apply wp_bind. unfold calc_seg in Hloop. destruct (Z.eqb_spec (o_idx s) 0) as [E0|E0].
  - assert (Hexc' : forall w n b X', nxt X X' -> w <> SW_NO_ERROR -> call_bad s c -> 0 <= n <= 8 -> zlen b = 8 -> all_bytes b ->
      Q (Exc w) (oset_call n b s) (mkE F L X' R T O)).
    { intros w n b X' Hx Hw Hcb' Hn Hb1 Hb2. apply Hexc; try assumption; try reflexivity. split; [exact Hi0|]. split; [assumption|split; assumption]. }
    assert (Hexc0 : forall w X', nxt X X' -> w <> SW_NO_ERROR -> call_bad s c -> Q (Exc w) s (mkE F L X' R T O)).
    { intros w X' Hx Hw Hcb'. apply Hexc; try assumption; try reflexivity. split; [exact Hi0|]. split; [assumption|split; assumption]. }
    apply wp_bind, wp_guard; intros E2; [|apply Hexc0; [assumption|discriminate|right; split; [assumption|]; intros (ch1 & rs1 & Hz1 & Hd1); rewrite Hd1, !zlen_app in E2; change (zlen [OATH_TAG_CHALLENGE; zlen ch1]) with 2 in E2; pose proof (zlen_nonneg rs1); lia]].
    destruct (rd (c_data c) 0) as [t|] eqn:Er0; [|exfalso; revert Er0; rewrite rd_nth by lia; discriminate].
    apply wp_bind, wp_ret. apply wp_bind, wp_guard; intros E3; [|apply Hexc0; [assumption|discriminate|right; split; [assumption|]; intros (ch1 & rs1 & Hz1 & Hd1); rewrite Hd1 in Er0; injection Er0 as <-; discriminate E3]].
    destruct (rd (c_data c) 1) as [cl|] eqn:Er1; [|exfalso; revert Er1; rewrite rd_nth by lia; discriminate].
    assert (is_byte cl) as Hcl' by exact (rd_byte _ _ _ Hb Er1). unfold is_byte in Hcl'.
    assert (Hcl1 : forall ch1 rs1, c_data c = [OATH_TAG_CHALLENGE; zlen ch1] ++ ch1 ++ rs1 -> cl = zlen ch1).
    { intros ch1 rs1 Hd1. rewrite Hd1 in Er1. injection Er1 as <-. reflexivity. }
    apply wp_bind, wp_ret. apply wp_bind, wp_modify. apply wp_bind.
    destruct ((MAX_CHALLENGE_LEN <? cl) || (cl =? 0)) eqn:Ec.
    + apply wp_bind, wp_modify. apply wp_except. apply (Hexc' _ 0 (o_cbuf s)); try assumption; try discriminate; [|lia]. right; split; [assumption|]. intros (ch1 & rs1 & Hz1 & Hd1). rewrite (Hcl1 _ _ Hd1) in Ec. unfold MAX_CHALLENGE_LEN in Ec. lia.
    + apply wp_ret. unfold MAX_CHALLENGE_LEN in Ec. apply wp_bind, wp_guard; intros E4.
      2:{ apply (Hexc' _ cl (o_cbuf s)); try assumption; try discriminate; [|lia]. right; split; [assumption|]. intros (ch1 & rs1 & Hz1 & Hd1). rewrite (Hcl1 _ _ Hd1), Hd1, !zlen_app in E4. change (zlen [OATH_TAG_CHALLENGE; zlen ch1]) with 2 in E4. pose proof (zlen_nonneg rs1). lia. }
      destruct (sub (c_data c) 2 cl) as [chal|] eqn:Es; [|exfalso; revert Es; rewrite sub_ok by lia; discriminate].
      destruct (sub_drop _ _ _ _ Es) as [Ed Hzc]. assert (all_bytes chal) as Hbch by exact (sub_bytes _ _ _ _ Hb Es).
      apply wp_bind, wp_ret. apply wp_bind, wp_modify. apply wp_modify.
      assert (zlen (splice (o_cbuf s) 0 chal) = 8) as Hzs by (rewrite zlen_splice; lia).
      apply (Hloop _ chal (c_p2 c =? 1)); try assumption.
      * split; [lia|]. split; [|reflexivity]. exists (drop (2 + cl) (c_data c)).
        rewrite <- (drop_0 (c_data c)) at 1. rewrite (rd_drop _ _ _ Er0). change (0 + 1) with 1. rewrite (rd_drop _ _ _ Er1).
        change (1 + 1) with 2. rewrite Ed, Hzc. replace t with OATH_TAG_CHALLENGE by lia. reflexivity.
      * repeat split; cbn [o_idx o_cbuf o_clen oset_rem oset_call]; try assumption; try lia. apply all_bytes_splice; assumption.
      * repeat split.
      * cbn [o_clen o_cbuf oset_rem oset_call]. rewrite <- Hzc. apply slice_splice_same; lia.
      * cbn [o_rem oset_rem]. destruct (c_p2 c =? 1); reflexivity.
      * intros _. reflexivity.
      * intros; contradiction.
  - apply wp_ret. apply (Hloop s (slice 0 (o_clen s) (o_cbuf s)) (remaining_eqb (o_rem s) REMAINING_CALC_TRUNC)); try assumption; try reflexivity.
    + split; reflexivity.
    + apply all_bytes_slice, Hcbb.
    + split; [exact Hi0|]. split; [assumption|split; assumption].
    + intros; contradiction.
Qed.

(** *** Codes for the keyboard *)
Lemma wp_by_offset off rs (Q : out (Z + bytes * Z) -> oath -> env -> Prop) s F L X R T O :
  oath_ok F rs -> 0 <= off ->
  (forall n X', nxt X X' -> Q (Ret (inl n)) s (mkE F L X' R T O)) ->
  (forall j code X' F' L', nxt X X' -> off = j * REC -> 0 <= j < zlen rs ->
     let r := nth (Z.to_nat j) rs [] in
     islive r = true -> r_type r = OATH_TYPE_HOTP -> be (r_chal r) + 1 < 2 ^ 64 ->
     let ch := to_be 8 (be (r_chal r) + 1) in let rec' := splice r 133 ch in
     (exists h, oath_hmac rec' ch = Some h /\ oath_trunc h = Some code) ->
     (F' = F /\ L' = L /\ X <> [] \/ L' = F' :: L /\ oath_ok F' (upd (Z.to_nat j) rec' rs) /\ same_attrs F F') ->
     Q (Ret (inr (code, r_digits r))) s (mkE F' L' X' R T O)) ->
  wp (oath_calculate_by_offset hmac_sha1 hmac_sha256 hmac_sha512 junk off) Q s (mkE F L X R T O).
Proof.
  intros Hok Hoff Hno H. pose proof Hok as (Hrs & Hoks & H100 & _). unfold oath_calculate_by_offset.
  destruct (Z.eqb_spec (off mod REC) 0) as [Em|Em]; cbn [negb]; [|apply wp_ret, Hno, nxt_refl].
  apply wp_bind, wp_get_file_size. intros X1 sz Hx1 Hsz. rewrite (recs_fsize F rs Hrs) in *.
  assert (nxt X X1) as Hx1' by (intros E; apply Hx1, E).
  destruct Hsz as [-> | ->]; [apply wp_ret, Hno; assumption|].
  destruct (Z.leb_spec (REC * zlen rs) off) as [Hle|Hlt]; [apply wp_ret, Hno; assumption|].
  assert (exists j, off = j * REC /\ 0 <= j < zlen rs) as (j & Ej & Hj).
  { exists (off / REC). unfold REC in *. pose proof (Z.div_mod off 141 ltac:(lia)). split; lia. }
  apply wp_bind, wp_read_file. intros X2 r Hx2 Hr. rewrite Ej in *. rewrite (recs_fread F rs j Hrs Hj) in *.
  assert (nxt X X2) as Hx2' by (intros E; apply Hx2, Hx1', E).
  destruct Hr as [-> | ->]; [apply wp_ret, Hno; assumption|].
  specialize (H j). cbv zeta in H. set (r := nth (Z.to_nat j) rs []) in *.
  assert (rec_ok r) as Hr by (apply oks_nth; assumption).
  rewrite overlay_full by (try apply Hr; assumption).
  unfold islive in H.
  destruct (r_name_len r =? 0) eqn:E0; [apply wp_ret, Hno; assumption|].
  destruct (Z.eqb_spec (r_type r) OATH_TYPE_TOTP) as [Et|Et]; [apply wp_ret, Hno; assumption|].
  destruct (Z.eqb_spec (r_type r) OATH_TYPE_HOTP) as [Eh|Eh]; cbn [negb]; [|apply wp_ret, Hno; assumption].
  rewrite increase_spec by assumption. destruct (Z.eqb_spec (be (r_chal r)) (2 ^ 64 - 1)) as [Ex|Ex]; [apply wp_ret, Hno; assumption|].
  set (ch := to_be 8 (be (r_chal r) + 1)) in *.
  assert (zlen ch = 8) as Hzch by (unfold ch; rewrite zlen_to_be; reflexivity).
  assert (all_bytes ch) as Hbch by apply to_be_bytes.
  destruct (rechal_fields r ch Hr Hzch) as (_ & _ & _ & _ & _ & _ & Ec & _ & Ed & _).
  assert (rec_ok (splice r 133 ch)) as Hr' by (apply rechal_ok; assumption).
  destruct (hmac_ok (splice r 133 ch) ch Hr') as (h & Eh' & Hhb & Hhz).
  destruct (trunc_ok h Hhb ltac:(lia)) as (b & Eb & _).
  assert (all_bytes (r_chal r)) as Hbc by (apply all_bytes_slice, Hr).
  assert (zlen (r_chal r) = 8) as Hzc by (apply r_chal_len, Hr).
  assert (0 <= be (r_chal r) < 2 ^ 64) as H64.
  { pose proof (be_nonneg _ Hbc) as Hx. rewrite Hzc in Hx. exact Hx. }
  apply wp_bind. apply (wp_rechal rs j ch); try assumption; [reflexivity| |].
  - intros X3 F3 Hx3 Hok3 Ha3. rewrite Ec. rewrite Eh'. apply wp_bind, wp_ret. rewrite Eb. apply wp_bind, wp_ret. rewrite Ed.
    apply wp_ret. apply H; try assumption; try reflexivity; try lia.
    + eapply nxt_trans; eassumption.
    + exists h; split; reflexivity || assumption.
    + right. split; [reflexivity|]. split; assumption.
  - intros Hx3 X3. rewrite Ec. rewrite Eh'. apply wp_bind, wp_ret. rewrite Eb. apply wp_bind, wp_ret. rewrite Ed.
    apply wp_ret. apply H; try assumption; try reflexivity; try lia.
    + intros E. exfalso. apply Hx3. auto.
    + exists h; split; reflexivity || assumption.
    + left. repeat split. intros E. apply Hx3. auto.
Qed.
End Cmds.
