(** Proofs about histories of the OATH device. *)
From Coq Require Import Permutation.
From Verif Require Import Sys Apdu Applet Pass Oath OathProofs OathCmds OathEff OathSpec.
Open Scope string_scope. Open Scope list_scope. Open Scope Z_scope.

(** ** The touch slots stay well formed *)
Definition slot_ok (a : slot) : Prop :=
  zlen (sl_u a) = 69 /\ (sl_type a = PASS_SLOT_STATIC -> 0 <= sl_password_len a <= 32) /\
  (sl_type a = PASS_SLOT_OATH -> 0 <= sl_oath_offset a /\ 0 <= sl_name_len a <= 64).
Definition slots_ok (sl : slots) : Prop := slot_ok (fst sl) /\ slot_ok (snd sl).
Definition pfile_ok (F : fs) : Prop :=
  forall c, fdata F PASS_FILE = Some c -> zlen c = SLOTS_SIZE -> slots_ok (slots_of c).
Definition pgood (s : oath) (e : env) : Prop := slots_ok (o_slots s) /\ pfile_ok (e_fs e) /\ Forall pfile_ok (e_log e).
Definition pres {A} (m : Mo A) : Prop := forall s e, pgood s e -> wp m (fun _ s' e' => pgood s' e') s e.

Lemma pres_bind {A B} (m : Mo A) (k : A -> Mo B) : pres m -> (forall a, pres (k a)) -> pres (bind m k).
Proof.
  intros Hm Hk s e H. apply wp_bind. eapply wp_mono; [apply Hm, H|]. intros [a|w| |] s' e' H'; try exact H'. apply Hk, H'.
Qed.
Lemma pres_ret {A} (a : A) : pres (ret a). Proof. intros s e H; exact H. Qed.
Lemma pres_lift {A} (a : out A) : pres (lift a). Proof. intros s e H; exact H. Qed.
Lemma pres_get : pres get. Proof. intros s e H; exact H. Qed.
Lemma pres_fail {A} : pres (@fail oath A). Proof. intros s e H; exact H. Qed.
Lemma pres_ub {A} : pres (@ub oath A). Proof. intros s e H; exact H. Qed.
Lemma pres_except {A} w : pres (@except oath A w). Proof. intros s e H; exact H. Qed.
Lemma pres_guard b w : pres (guard b w). Proof. destruct b; intros s e H; exact H. Qed.
Lemma pres_need {A} (o : option A) : pres (need o). Proof. destruct o; intros s e H; exact H. Qed.
Lemma pres_set_out d : pres (set_out d). Proof. intros s e H; exact H. Qed.
Lemma pres_modify f : (forall s, o_slots (f s) = o_slots s) -> pres (modify f).
Proof. intros Hf s e (H & H'). unfold wp, modify, pgood. rewrite Hf. split; assumption. Qed.
Lemma pres_pop e : forall s, pgood s e -> pgood s (snd (pop_fault e)).
Proof. intros s H. unfold pop_fault. destruct (e_flt e); exact H. Qed.
Lemma pres_wait : pres wait_touch.
Proof. intros s e H. unfold wp, wait_touch. destruct (e_tch e); exact H. Qed.
Lemma pres_random n : pres (random_buffer n). Proof. intros s e H. exact H. Qed.
Lemma pres_read_file p o n : pres (read_file p o n).
Proof.
  intros s e H. apply pres_pop in H. unfold wp, read_file. destruct (pop_fault e) as [x e']. cbn [snd] in H.
  destruct x; try exact H. destruct (e_fs e' p); exact H.
Qed.
Lemma pres_size p : pres (get_file_size p).
Proof.
  intros s e H. apply pres_pop in H. unfold wp, get_file_size. destruct (pop_fault e) as [x e']. cbn [snd] in H.
  destruct x; try exact H. destruct (e_fs e' p); exact H.
Qed.
Lemma pres_read_attr p a : pres (read_attr p a).
Proof.
  intros s e H. apply pres_pop in H. unfold wp, read_attr. destruct (pop_fault e) as [x e']. cbn [snd] in H.
  destruct x; try exact H. destruct (e_fs e' p); exact H.
Qed.
Lemma pfile_other F p x : p <> PASS_FILE -> pfile_ok F -> pfile_ok (fset F p x).
Proof. intros Hp H. unfold pfile_ok, fdata. rewrite fset_other by congruence. exact H. Qed.
Lemma pgood_commit s e G : pgood s e -> pfile_ok G -> pgood s (commit G e).
Proof. intros (H1 & H2 & H3) H. split; [assumption|]. split; [assumption|]. constructor; assumption. Qed.
Lemma pres_write_file p d o t : p <> PASS_FILE -> pres (write_file p d o t).
Proof.
  intros Hp s e H. apply pres_pop in H. unfold wp, write_file. destruct (pop_fault e) as [x e']. cbn [snd] in H.
  destruct x; try exact H.
  - destruct (e_fs e' p) eqn:E.
    + rewrite E. apply pgood_commit; [assumption|]. apply pfile_other; [assumption|apply H].
    + cbn [e_fs commit]. rewrite fset_same.
      assert (pgood s (commit (fset (e_fs e') p (Some (mkF [] no_attr))) e')) as H1.
      { apply pgood_commit; [assumption|]. apply pfile_other; [assumption|apply H]. }
      apply pgood_commit; [exact H1|]. apply pfile_other; [assumption|apply H1].
  - destruct (e_fs e' p); [exact H|]. apply pgood_commit; [assumption|]. apply pfile_other; [assumption|apply H].
Qed.
Lemma pres_write_attr p a v : p <> PASS_FILE -> pres (write_attr p a v).
Proof.
  intros Hp s e H. apply pres_pop in H. unfold wp, write_attr. destruct (pop_fault e) as [x e']. cbn [snd] in H.
  destruct x; try exact H. destruct (e_fs e' p); try exact H. apply pgood_commit; [assumption|].
  apply pfile_other; [assumption|apply H].
Qed.

(** Writing the slots. *)
Lemma slot_bytes_of a : slot_ok a -> slot_of (slot_bytes a) = a.
Proof.
  intros (Hz & _). destruct a as [t u n]. cbn [sl_u] in Hz. unfold slot_of, slot_bytes. cbn [sl_type sl_u sl_enter].
  f_equal.
  - unfold slice. change (Z.to_nat 1) with 1%nat. cbn [skipn app]. rewrite firstn_app.
    replace (Z.to_nat 69 - length u)%nat with 0%nat by (unfold zlen in Hz; lia). cbn [firstn]. rewrite app_nil_r.
    apply firstn_all2. unfold zlen in Hz; lia.
  - change 70%nat with (S 69). cbn [nth app]. rewrite app_nth2 by (unfold zlen in Hz; lia).
    replace (69 - length u)%nat with 0%nat by (unfold zlen in Hz; lia). reflexivity.
Qed.
Lemma slot_bytes_len a : slot_ok a -> zlen (slot_bytes a) = 71.
Proof. intros (Hz & _). unfold slot_bytes. rewrite !zlen_app. change (zlen [sl_type a]) with 1. change (zlen [sl_enter a]) with 1. lia. Qed.
Lemma slots_bytes_of sl : slots_ok sl -> slots_of (slots_bytes sl) = sl.
Proof.
  intros [Ha Hb]. destruct sl as [a b]. cbn [fst snd] in *. unfold slots_of, slots_bytes. cbn [fst snd].
  pose proof (slot_bytes_len a Ha) as La. pose proof (slot_bytes_len b Hb) as Lb.
  f_equal.
  - rewrite <- (slot_bytes_of a Ha) at 2. f_equal. unfold slice. change (Z.to_nat 0) with 0%nat. cbn [skipn].
    rewrite firstn_app. replace (Z.to_nat 71 - length (slot_bytes a))%nat with 0%nat by (unfold zlen in La; lia).
    cbn [firstn]. rewrite app_nil_r. apply firstn_all2. unfold zlen in La; lia.
  - rewrite <- (slot_bytes_of b Hb) at 2. f_equal. unfold slice.
    rewrite skipn_app, skipn_all2 by (unfold zlen in La; lia).
    replace (Z.to_nat 71 - length (slot_bytes a))%nat with 0%nat by (unfold zlen in La; lia). cbn [skipn app].
    apply firstn_all2. unfold zlen in Lb; lia.
Qed.
Lemma pfile_save F sl o t : slots_ok sl -> pfile_ok (fset F PASS_FILE (Some (mkF (slots_bytes sl ++ o) t))) \/ o <> [].
Proof.
  intros H. destruct o; [left|right; discriminate]. intros c. unfold fdata. rewrite fset_same. cbn [f_data].
  rewrite app_nil_r. intros [= <-] _. rewrite slots_bytes_of; assumption.
Qed.
Lemma slots_bytes_len sl : slots_ok sl -> zlen (slots_bytes sl) = SLOTS_SIZE.
Proof. intros [Ha Hb]. unfold slots_bytes. rewrite zlen_app, !slot_bytes_len by assumption. reflexivity. Qed.
Lemma pfile_slots F sl t : slots_ok sl -> pfile_ok (fset F PASS_FILE (Some (mkF (slots_bytes sl) t))).
Proof. intros H c. unfold fdata. rewrite fset_same. cbn [f_data]. intros [= <-] _. rewrite slots_bytes_of; assumption. Qed.
Lemma pfile_empty F t : pfile_ok (fset F PASS_FILE (Some (mkF [] t))).
Proof. intros c. unfold fdata. rewrite fset_same. cbn [f_data]. intros [= <-] H. discriminate H. Qed.

Lemma pres_save : pres (save_slots o_slots).
Proof.
  intros s e H. unfold save_slots. apply wp_bind, wp_get. pose proof (pres_pop e s H) as Hp.
  assert (slots_ok (o_slots s)) as Hs by apply H.
  pose proof (slots_bytes_len _ Hs) as Hl. unfold SLOTS_SIZE in Hl.
  assert ((length (slots_bytes (o_slots s)) =? 0)%nat = false) as El by (apply Nat.eqb_neq; unfold zlen in Hl; lia).
  unfold wp, write_file. destruct (pop_fault e) as [x e']. cbn [snd] in Hp. cbv zeta. rewrite El, write_at_nil.
  destruct x; try exact Hp.
  - destruct (e_fs e' PASS_FILE) eqn:E.
    + rewrite E. apply pgood_commit; [assumption|]. apply pfile_slots; assumption.
    + cbn [e_fs commit]. rewrite fset_same. apply pgood_commit; [|apply pfile_slots; assumption].
      apply pgood_commit; [assumption|apply pfile_empty].
  - destruct (e_fs e' PASS_FILE); [exact Hp|]. apply pgood_commit; [assumption|apply pfile_empty].
Qed.
Lemma slot_off_ok a : slot_ok a -> slot_ok (mkSlot PASS_SLOT_OFF (sl_u a) (sl_enter a)).
Proof.
  intros (H1 & H2 & H3). split; [assumption|]. split; cbn [sl_type]; discriminate.
Qed.
Lemma pgood_slots s e sl : pgood s e -> slots_ok sl -> pgood (oset_slots sl s) e.
Proof. intros (H1 & H2) H. split; assumption. Qed.
Lemma pres_delete off : pres (pass_delete_oath o_slots oset_slots off).
Proof.
  intros s e H. unfold pass_delete_oath. apply wp_bind, wp_get. destruct (o_slots s) as [a b] eqn:E.
  assert (slots_ok (a, b)) as [Ha Hb] by (rewrite <- E; apply H). cbn [fst snd] in *.
  destruct (_ && _); [|destruct (_ && _)]; [| |exact H].
  - apply wp_bind, wp_modify. apply pres_save. apply pgood_slots; [assumption|]. split; [apply slot_off_ok; assumption|assumption].
  - apply wp_bind, wp_modify. apply pres_save. apply pgood_slots; [assumption|]. split; [assumption|apply slot_off_ok; assumption].
Qed.
Lemma upd_slot_ok i f sl : slots_ok sl -> (forall a, slot_ok a -> slot_ok (f a)) -> slots_ok (upd_slot i f sl).
Proof. intros [Ha Hb] Hf. unfold upd_slot. destruct (i =? 0); split; cbn [fst snd]; auto. Qed.
Lemma splice_head u l : zlen l <= zlen u -> zlen (splice u 0 l) = zlen u /\ forall i, (i < length l)%nat -> nth i (splice u 0 l) 0 = nth i l 0.
Proof.
  intros H. split; [apply zlen_splice; lia|]. intros i Hi. unfold splice.
  change (Z.to_nat 0) with 0%nat. cbn [firstn app]. apply app_nth1. exact Hi.
Qed.
Lemma le4_to_le4 z r : 0 <= le4 (to_le4 z ++ r).
Proof.
  unfold le4, to_le4. cbn [app nth]. pose proof (Z.mod_pos_bound z 256 ltac:(lia)). pose proof (Z.mod_pos_bound (z / 256) 256 ltac:(lia)).
  pose proof (Z.mod_pos_bound (z / 65536) 256 ltac:(lia)). pose proof (Z.mod_pos_bound (z / 16777216) 256 ltac:(lia)). lia.
Qed.
Lemma pres_update i off name en : zlen name <= 64 -> pres (pass_update_oath o_slots oset_slots i off name en).
Proof.
  intros Hn s e H. unfold pass_update_oath. apply wp_bind, wp_modify. apply pres_save. apply pgood_slots; [assumption|].
  pose proof (zlen_nonneg name). apply upd_slot_ok; [apply H|]. intros a (H1 & _).
  set (l := to_le4 off ++ [zlen name] ++ name).
  assert (zlen l = 5 + zlen name) as Hl.
  { unfold l. rewrite !zlen_app. change (zlen (to_le4 off)) with 4. change (zlen [zlen name]) with 1. lia. }
  destruct (splice_head (sl_u a) l ltac:(lia)) as [E1 E2].
  split; [cbn [sl_u]; lia|]. split; [discriminate|]. intros _. split.
  - unfold sl_oath_offset. cbn [sl_u]. unfold splice. change (Z.to_nat 0) with 0%nat. cbn [firstn app].
    unfold l. rewrite <- app_assoc. apply le4_to_le4.
  - unfold sl_name_len. cbn [sl_u]. rewrite E2 by (unfold zlen in Hl; lia). cbn [nth l app to_le4]. lia.
Qed.

(** The whole applet *)
Section Pres.
Variables hmac_sha1 hmac_sha256 hmac_sha512 : bytes -> bytes -> bytes.
Variable junk : bytes.

Ltac pres1 :=
  first
  [ apply pres_delete | apply pres_bind; [|intros ?] | apply pres_ret | apply pres_lift | apply pres_get | apply pres_fail | apply pres_ub
  | apply pres_except | apply pres_guard | apply pres_need | apply pres_set_out | apply pres_wait | apply pres_random
  | apply pres_read_file | apply pres_size | apply pres_read_attr | apply pres_write_file; discriminate
  | apply pres_write_attr; discriminate | apply pres_delete | apply pres_modify; intros ?; reflexivity
  | match goal with
    | |- pres (if ?b then _ else _) => destruct b
    | |- pres (match ?x with _ => _ end) => destruct x
    | |- pres (let _ := _ in _) => cbv zeta
    end ].

Lemma pres_rd_rec o r : pres (rd_rec o r). Proof. unfold rd_rec. repeat pres1. Qed.
Lemma pres_put_loop k : forall i n r u nm, pres (put_loop k i n r u nm).
Proof. induction k; intros; cbn [put_loop]; repeat (first [apply pres_rd_rec|apply IHk|pres1]). Qed.
Lemma pres_find_loop k : forall i r nm, pres (find_loop k i r nm).
Proof. induction k; intros; cbn [find_loop]; repeat (first [apply pres_rd_rec|apply IHk|pres1]). Qed.
Lemma pres_rename_loop k : forall i n r x o m, pres (rename_loop k i n r x o m).
Proof. induction k; intros; cbn [rename_loop]; repeat (first [apply pres_rd_rec|apply IHk|pres1]). Qed.
Lemma pres_list_loop k : forall r a l, pres (list_loop k r a l).
Proof. induction k; intros; cbn [list_loop]; repeat (first [apply pres_rd_rec|apply IHk|pres1]). Qed.
Lemma pres_enforce r o c : pres (oath_enforce_increasing r o c).
Proof. unfold oath_enforce_increasing, oath_update_challenge_field. repeat pres1. Qed.
Lemma pres_calc_loop k : forall r a l, pres (calc_loop hmac_sha1 hmac_sha256 hmac_sha512 k r a l).
Proof. induction k; intros; cbn [calc_loop]; repeat (first [apply pres_rd_rec|apply pres_enforce|apply IHk|pres1]). Qed.
Lemma pres_n : pres n_records. Proof. unfold n_records. repeat pres1. Qed.
Ltac pres2 := first [apply pres_rd_rec|apply pres_n|apply pres_enforce|apply pres_calc_loop|apply pres_list_loop|apply pres_put_loop
  |apply pres_find_loop|apply pres_rename_loop|pres1].
Lemma pres_list c : pres (oath_list junk c). Proof. unfold oath_list. repeat pres2. Qed.
Lemma pres_all c : pres (oath_calculate_all hmac_sha1 hmac_sha256 hmac_sha512 junk c).
Proof. unfold oath_calculate_all. repeat pres2. Qed.
Lemma pres_set_default c : pres (oath_set_default junk c).
Proof.
  unfold oath_set_default. do 5 (apply pres_bind; [repeat pres2|intros ?]). destruct a3 as [i rec].
  do 2 (apply pres_bind; [repeat pres2|intros ?]).
  destruct (r_name rec) as [nm|] eqn:E; [|intros s e H; exact H].
  assert (zlen nm <= 64) as Hn.
  { unfold r_name, sub in E. destruct ((0 <? 0) || _ || _); [discriminate|]. injection E as <-.
    unfold r_name_buf, slice, zlen. repeat (rewrite firstn_length || rewrite skipn_length). lia. }
  intros s e H. unfold need. apply wp_bind, wp_ret. revert s e H. change (pres (ok <- pass_update_oath o_slots oset_slots (c_p1 c - 1) (i * REC) nm (c_p2 c) ;;
    (if ok then ret SW_NO_ERROR else fail))). apply pres_bind; [apply pres_update; assumption|intros ?; repeat pres2].
Qed.
Lemma pres_body nfc c : pres (oath_body hmac_sha1 hmac_sha256 hmac_sha512 junk nfc c).
Proof.
  unfold oath_body, oath_send_remaining, oath_put, oath_delete, oath_rename, oath_set_code, oath_validate, oath_select, oath_calculate,
    oath_update_challenge_field.
  repeat (first [apply pres_set_default|apply pres_list|apply pres_all|pres2]).
Qed.
Lemma pres_touch kind : pres (pass_handle_touch hmac_sha1 hmac_sha256 hmac_sha512 junk kind).
Proof.
  unfold pass_handle_touch, oath_calculate_by_offset, oath_update_challenge_field. repeat pres2.
Qed.
End Pres.

Lemma upd_slot_upd i f g sl : upd_slot i g (upd_slot i f sl) = upd_slot i (fun a => g (f a)) sl.
Proof. unfold upd_slot. destruct (i =? 0); reflexivity. Qed.
Lemma pres_config c : pres (pass_write_config o_slots oset_slots c).
Proof.
  unfold pass_write_config. apply pres_bind; [apply pres_guard|intros _]. apply pres_bind; [apply pres_guard|intros _].
  apply pres_bind; [apply pres_need|intros t]. intros s e H. apply wp_bind.
  destruct (t =? PASS_SLOT_OFF) eqn:Et.
  - apply wp_guard; intros _; [|exact H]. apply wp_bind, wp_modify.
    match goal with |- wp ?m _ ?s' _ => assert (pgood s' e) as H' end.
    { apply pgood_slots; [assumption|]. apply upd_slot_ok; [apply H|]. intros a (H1 & H2 & H3). apply Z.eqb_eq in Et. subst t.
      split; [assumption|]. split; cbn [sl_type]; discriminate. }
    apply wp_bind. eapply wp_mono; [apply pres_save, H'|]. intros [[]|w| |] s' e' Hp; exact Hp.
  - destruct (t =? PASS_SLOT_STATIC) eqn:Et2; [|exact H].
    apply wp_bind, wp_guard; intros _; [|exact H]. apply wp_bind. destruct (rd (c_data c) 1) as [n|]; [|exact H]. apply wp_ret.
    apply wp_bind, wp_guard; intros E1; [|exact H]. apply wp_bind, wp_guard; intros _; [|exact H].
    apply wp_bind. destruct (sub (c_data c) 2 n) as [pw|] eqn:Es; [|exact H]. apply wp_ret.
    apply wp_bind. destruct (rd (c_data c) (2 + n)) as [en|]; [|exact H]. apply wp_ret.
    apply wp_modify. apply wp_bind, wp_modify.
    assert (0 <= n /\ zlen pw = n) as [Hn Hz].
    { split; [apply sub_some in Es; lia|apply sub_drop in Es; apply Es]. }
    apply Z.eqb_eq in Et2. subst t. unfold PASS_MAX_PASSWORD_LENGTH in E1.
    match goal with |- wp ?m _ ?s' _ => assert (pgood s' e) as H' end.
    { cbn [o_slots oset_slots]. destruct H as (Hs & Hr). split; [|exact Hr]. cbn [o_slots oset_slots]. rewrite upd_slot_upd.
      apply upd_slot_ok; [exact Hs|]. intros a (H1 & _).
      destruct (splice_head (sl_u a) (n :: pw) ltac:(rewrite zlen_cons; lia)) as [E3 E4].
      split; [cbn [sl_u]; lia|]. cbn [sl_type sl_u]. split; [|discriminate].
      intros _. unfold sl_password_len. cbn [sl_u]. rewrite E4 by (cbn [length]; lia). cbn [nth]. lia. }
    apply wp_bind. eapply wp_mono; [apply pres_save, H'|]. intros [[]|w| |] s' e' Hp; exact Hp.
Qed.
Lemma slots_zero_ok : slots_ok (slot_zero, slot_zero).
Proof. split; (split; [reflexivity|split; discriminate]). Qed.
