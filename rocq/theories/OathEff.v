(** The effect of one OATH command, for every command and every fault pattern: one case per outcome. *)
From Verif Require Import Sys Apdu Applet Pass Oath OathProofs OathCmds.
Open Scope string_scope. Open Scope list_scope. Open Scope Z_scope.

Lemma splice_splice l off a b : 0 <= off -> off + zlen a <= zlen l -> zlen b = zlen a ->
  splice (splice l off a) off b = splice l off b.
Proof.
  intros Ho Ha Hb. apply nth_ext' with (x := 0).
  - rewrite !zlen_splice; rewrite ?zlen_splice; lia.
  - intros i Hi. pose proof (zlen_nonneg a).
    rewrite nth_splice by (rewrite ?zlen_splice; lia). rewrite !nth_splice by lia.
    destruct (Nat.ltb_spec i (Z.to_nat off)); [reflexivity|].
    destruct (Nat.ltb_spec i (Z.to_nat off + length b)); [reflexivity|].
    destruct (Nat.ltb_spec i (Z.to_nat off + length a)); [unfold zlen in *; lia|reflexivity].
Qed.

(** A record whose stored challenge was raised (CALCULATE ALL on an increasing-only credential). *)
Definition incd (r r1 : bytes) : Prop :=
  r1 = r \/
  (islive r = true /\ r_type r = OATH_TYPE_TOTP /\ r_inc r = true /\
   exists ch, zlen ch = 8 /\ all_bytes ch /\ be (r_chal r) <= be ch /\ r1 = splice r 133 ch).

Lemma cstep_incd chal r r' : all_bytes chal -> cstep chal r = Some r' -> incd r r'.
Proof.
  intros Hb. unfold cstep, incd. destruct (islive r); cbn [andb]; [|intros [= <-]; auto].
  destruct (Z.eqb_spec (r_type r) OATH_TYPE_TOTP) as [Et|Et]; cbn [andb]; [|intros [= <-]; auto].
  destruct (r_touch r); cbn [negb andb]; [intros [= <-]; auto|].
  destruct (r_inc r); [|intros [= <-]; auto].
  destruct (Z.eqb_spec (zlen chal) 8); cbn [andb]; [|discriminate].
  destruct (Z.leb_spec (be (r_chal r)) (be chal)); [|discriminate].
  intros [= <-]. right. repeat split; try assumption. exists chal. repeat split; try assumption.
Qed.
Lemma incd_trans r a b : rec_ok r -> incd r a -> incd a b -> incd r b.
Proof.
  intros Hr [->|(H1 & H2 & H3 & ch & Hc & Hbc & Hle & ->)] H; [assumption|].
  assert (rec_ok (splice r 133 ch)) as Hr' by (apply rechal_ok; assumption).
  destruct (rechal_fields r ch Hr Hc) as (_ & En & _ & _ & _ & Ep & Ec & Ea & _).
  right. repeat split; try assumption.
  destruct H as [->|(_ & _ & _ & ch2 & Hc2 & Hb2 & Hle2 & ->)].
  - exists ch. repeat split; assumption.
  - exists ch2. rewrite Ec in Hle2. repeat split; try assumption; [lia|]. apply splice_splice; try lia.
    destruct Hr as (Hz & _). unfold REC in Hz. lia.
Qed.
Lemma incs_step rs0 pre r t r' : Forall rec_ok rs0 -> Forall2 incd rs0 (pre ++ r :: t) -> incd r r' ->
  Forall2 incd rs0 (pre ++ r' :: t).
Proof.
  intros Hok H Hr. apply Forall2_app_inv_r in H as (l1 & l2 & H1 & H2 & ->).
  inversion H2 as [|x y l l' Hx Hl]; subst. apply Forall2_app; [assumption|]. constructor; [|assumption].
  eapply incd_trans; [|eassumption|assumption].
  apply Forall_app in Hok as [_ Hok]. inversion Hok; assumption.
Qed.
Lemma incs_refl rs : Forall2 incd rs rs.
Proof. induction rs; constructor; [left; reflexivity|assumption]. Qed.

Definition inv (s : oath) (rs : list bytes) : Prop :=
  st_ok s /\ (o_rem s = REMAINING_NONE \/ o_idx s <= zlen rs).
(** State of a LIST in progress: a fresh LIST starts at record 0. *)
Definition at_start (c : capdu) (s : oath) : oath := if c_ins c =? OATH_INS_SEND_REMAINING then s else oset_idx 0 s.

Lemma inv_idx0 s rs : inv s rs -> inv (oset_idx 0 s) rs.
Proof.
  intros [(H1 & H2 & H3 & H4) H]. pose proof (zlen_nonneg rs). split.
  - split; [cbn [o_idx oset_idx]; lia|]. split; [assumption|split; assumption].
  - right. cbn [o_idx oset_idx]. lia.
Qed.
Lemma inv_ext s s' rs : inv s rs -> o_rem s' = o_rem s -> o_idx s' = o_idx s -> o_clen s' = o_clen s -> o_cbuf s' = o_cbuf s -> inv s' rs.
Proof. unfold inv, st_ok. intros H -> -> -> ->. exact H. Qed.

Lemma ximg_self F rs (A : list bytes -> Prop) : oath_ok F rs -> A rs -> forall G, oath_same F G -> ximg F A G.
Proof. intros. eapply ximg_same; eassumption. Qed.

Section Eff.
Variables hmac_sha1 hmac_sha256 hmac_sha512 : bytes -> bytes -> bytes.
Hypothesis Hsha1 : forall k m, zlen (hmac_sha1 k m) = 20 /\ all_bytes (hmac_sha1 k m).
Hypothesis Hsha256 : forall k m, zlen (hmac_sha256 k m) = 32 /\ all_bytes (hmac_sha256 k m).
Hypothesis Hsha512 : forall k m, zlen (hmac_sha512 k m) = 64 /\ all_bytes (hmac_sha512 k m).
Variable junk : bytes.
Hypothesis Hjunk : zlen junk = REC.
Hypothesis Hjunkb : all_bytes junk.

Notation answer := (answer hmac_sha1 hmac_sha256 hmac_sha512).
Notation oath_hmac := (oath_hmac hmac_sha1 hmac_sha256 hmac_sha512).
Notation cpage := (cpage hmac_sha1 hmac_sha256 hmac_sha512).

Section One.
Variables (nfc : bool) (c : capdu) (rs : list bytes) (k h : bytes) (s : oath) (F : fs) (L : list fs) (X : list fault) (T : list Z).

Inductive eff : out Z -> oath -> fs -> list fs -> list Z -> bytes -> list bytes -> bytes -> Prop :=
| E_gate : o_valid s = false -> c_ins c <> OATH_INS_SELECT -> c_ins c <> OATH_INS_VALIDATE ->
    eff (Exc SW_SECURITY_STATUS_NOT_SATISFIED) s F L T [] rs k
| E_put_bad w : c_ins c = OATH_INS_PUT -> w <> SW_NO_ERROR ->
    (c_p1 c <> 0 \/ c_p2 c <> 0 \/ parse_put (c_data c) = Exc w) -> eff (Exc w) s F L T [] rs k
| E_put_dup name key prop chal : c_ins c = OATH_INS_PUT -> parse_put (c_data c) = Ret (name, key, prop, chal) ->
    In name (names rs) -> eff (Exc SW_CONDITIONS_NOT_SATISFIED) s F L T [] rs k
| E_put_full name key prop chal : c_ins c = OATH_INS_PUT -> parse_put (c_data c) = Ret (name, key, prop, chal) ->
    ~ In name (names rs) -> zlen (live rs) = MAX_RECORDS -> eff (Exc SW_NOT_ENOUGH_SPACE) s F L T [] rs k
| E_put name key prop chal i r F' : c_ins c = OATH_INS_PUT -> o_valid s = true -> c_p1 c = 0 -> c_p2 c = 0 ->
    parse_put (c_data c) = Ret (name, key, prop, chal) -> ~ In name (names rs) ->
    0 <= i <= zlen rs -> (i = zlen rs -> i < MAX_RECORDS) ->
    (i < zlen rs -> islive (nth (Z.to_nat i) rs []) = false) -> (i = zlen rs -> live rs = rs) ->
    rec_ok r -> rname r = name -> rkey r = key -> r_prop r = prop -> r_chal r = chal ->
    oath_ok F' (upd (Z.to_nat i) r rs) -> same_attrs F F' ->
    eff (Ret SW_NO_ERROR) s F' (F' :: L) T [] (upd (Z.to_nat i) r rs) k
| E_del_bad w : c_ins c = OATH_INS_DELETE -> w <> SW_NO_ERROR ->
    (c_p1 c <> 0 \/ c_p2 c <> 0 \/ parse_name 2 (c_data c) = Exc w) -> eff (Exc w) s F L T [] rs k
| E_del_none name : c_ins c = OATH_INS_DELETE -> parse_name 2 (c_data c) = Ret name -> ~ In name (names rs) ->
    eff (Exc SW_DATA_INVALID) s F L T [] rs k
| E_del name j F' L' rs' : c_ins c = OATH_INS_DELETE -> o_valid s = true -> c_p1 c = 0 -> c_p2 c = 0 ->
    parse_name 2 (c_data c) = Ret name -> 1 <= zlen name <= 64 -> at_name rs name j ->
    rs' = upd (Z.to_nat j) (dead (nth (Z.to_nat j) rs [])) rs ->
    oath_ok F' rs' -> same_attrs F F' -> logs (ximg F (fun x => x = rs \/ x = rs')) L L' ->
    eff (Ret SW_NO_ERROR) (oset_slots (del_slots (j * REC) (o_slots s)) s) F' L' T [] rs' k
| E_ren_bad w : c_ins c = OATH_INS_RENAME -> w <> SW_NO_ERROR ->
    (c_p1 c <> 0 \/ c_p2 c <> 0 \/ parse_rename (c_data c) = Exc w) -> eff (Exc w) s F L T [] rs k
| E_ren_dup old new : c_ins c = OATH_INS_RENAME -> parse_rename (c_data c) = Ret (old, new) -> In new (names rs) ->
    eff (Exc SW_CONDITIONS_NOT_SATISFIED) s F L T [] rs k
| E_ren_none old new : c_ins c = OATH_INS_RENAME -> parse_rename (c_data c) = Ret (old, new) ->
    ~ In new (names rs) -> ~ In old (names rs) -> eff (Exc SW_DATA_INVALID) s F L T [] rs k
| E_ren old new j F' rs' : c_ins c = OATH_INS_RENAME -> o_valid s = true -> c_p1 c = 0 -> c_p2 c = 0 ->
    parse_rename (c_data c) = Ret (old, new) -> 1 <= zlen old <= 64 -> 1 <= zlen new <= 64 -> all_bytes new ->
    ~ In new (names rs) -> at_name rs old j -> rs' = upd (Z.to_nat j) (renamed (nth (Z.to_nat j) rs []) new) rs ->
    oath_ok F' rs' -> same_attrs F F' -> eff (Ret SW_NO_ERROR) s F' (F' :: L) T [] rs' k
| E_list_bad w : (c_ins c = OATH_INS_LIST \/ c_ins c = OATH_INS_SEND_REMAINING /\ o_rem s = REMAINING_LIST) ->
    w <> SW_NO_ERROR -> (c_p1 c <> 0 \/ c_p2 c <> 0) -> eff (Exc w) (at_start c s) F L T [] rs k
| E_list sw acc rest s' : (c_ins c = OATH_INS_LIST \/ c_ins c = OATH_INS_SEND_REMAINING /\ o_rem s = REMAINING_LIST) ->
    o_valid s = true -> c_p1 c = 0 -> c_p2 c = 0 ->
    lpage (c_le c) (skipn (Z.to_nat (o_idx (at_start c s))) rs) [] = (sw, acc, rest) ->
    s' = oset_rem (if zlen rest =? 0 then REMAINING_NONE else REMAINING_LIST) (oset_idx (zlen rs - zlen rest) s) ->
    eff (Ret sw) s' F L T acc rs k
| E_calc_refused w T' : c_ins c = OATH_INS_CALCULATE -> w <> SW_NO_ERROR ->
    (c_p1 c <> 0 \/ ~ (c_p2 c = 0 \/ c_p2 c = 1) \/ calc_refused nfc rs T (c_data c) w) ->
    eff (Exc w) s F L T' [] rs k
| E_calc name j rec' chal a T' F' L' rs' : c_ins c = OATH_INS_CALCULATE -> o_valid s = true ->
    c_p1 c = 0 -> (c_p2 c = 0 \/ c_p2 c = 1) ->
    parse_name 3 (c_data c) = Ret name -> 1 <= zlen name <= 64 -> at_name rs name j ->
    (r_touch (nth (Z.to_nat j) rs []) && negb nfc = true -> touch_bad T = false) ->
    T' = (if r_touch (nth (Z.to_nat j) rs []) && negb nfc then tl T else T) ->
    calc_ok (nth (Z.to_nat j) rs []) (c_data c) (2 + zlen name) rec' chal ->
    answer (c_p2 c =? 1) rec' chal = Some a ->
    (F' = F /\ L' = L /\ rs' = rs /\ (X <> [] \/ rec' = nth (Z.to_nat j) rs []) \/
     L' = F' :: L /\ rs' = upd (Z.to_nat j) rec' rs /\ oath_ok F' rs' /\ same_attrs F F') ->
    eff (Ret SW_NO_ERROR) s F' L' T' a rs' k
| E_all_bad w s' : (c_ins c = OATH_INS_SELECT /\ c_p1 c = 0 \/
      c_ins c = OATH_INS_SEND_REMAINING /\ (o_rem s = REMAINING_CALC_FULL \/ o_rem s = REMAINING_CALC_TRUNC)) ->
    w <> SW_NO_ERROR -> call_bad (at_start c s) c -> inv s' rs -> page_only s s' -> eff (Exc w) s' F L T [] rs k
| E_all chal tr o dn dn' rest s' F' L' rs' sw acc :
    (c_ins c = OATH_INS_SELECT /\ c_p1 c = 0 \/
      c_ins c = OATH_INS_SEND_REMAINING /\ (o_rem s = REMAINING_CALC_FULL \/ o_rem s = REMAINING_CALC_TRUNC)) ->
    o_valid s = true -> calc_seg (at_start c s) c chal tr -> all_bytes chal ->
    cpage (c_le c) tr chal (skipn (Z.to_nat (o_idx (at_start c s))) rs) [] = (o, dn, rest) ->
    o = Ret (sw, acc) -> zlen dn' = zlen dn -> (X = [] -> dn' = dn) -> inv s' rs -> page_only s s' ->
    o_idx s' = zlen rs - zlen rest -> slice 0 (o_clen s') (o_cbuf s') = chal ->
    (rest = [] -> o_rem s' = REMAINING_NONE) ->
    (rest <> [] -> remaining_eqb (o_rem s') REMAINING_CALC_TRUNC = tr /\
       (o_rem s' = REMAINING_CALC_FULL \/ o_rem s' = REMAINING_CALC_TRUNC)) ->
    rs' = firstn (Z.to_nat (o_idx (at_start c s))) rs ++ dn' ++ rest -> oath_ok F' rs' -> Forall2 incd rs rs' -> same_attrs F F' ->
    logs (ximg F (Forall2 incd rs)) L L' ->
    eff (Ret sw) s' F' L' T acc rs' k
| E_all_refused chal tr dn dn' rest s' F' L' rs' w :
    (c_ins c = OATH_INS_SELECT /\ c_p1 c = 0 \/
      c_ins c = OATH_INS_SEND_REMAINING /\ (o_rem s = REMAINING_CALC_FULL \/ o_rem s = REMAINING_CALC_TRUNC)) ->
    o_valid s = true -> calc_seg (at_start c s) c chal tr -> all_bytes chal ->
    cpage (c_le c) tr chal (skipn (Z.to_nat (o_idx (at_start c s))) rs) [] = (Exc w, dn, rest) ->
    zlen dn' = zlen dn -> (X = [] -> dn' = dn) -> inv s' rs -> page_only s s' ->
    rs' = firstn (Z.to_nat (o_idx (at_start c s))) rs ++ dn' ++ rest -> oath_ok F' rs' -> Forall2 incd rs rs' -> same_attrs F F' ->
    logs (ximg F (Forall2 incd rs)) L L' ->
    eff (Exc w) s' F' L' T [] rs' k
| E_code_bad w : c_ins c = OATH_INS_SET_CODE -> w <> SW_NO_ERROR -> eff (Exc w) s F L T [] rs k
| E_code_clear F' : c_ins c = OATH_INS_SET_CODE -> o_valid s = true -> c_p1 c = 0 -> c_p2 c = 0 ->
    parse_set_code (c_data c) = Ret None -> oath_ok F' rs -> attrs_ok F' [] h ->
    eff (Ret SW_NO_ERROR) (oset_valid true s) F' (F' :: L) T [] rs []
| E_code_set key chal F' : c_ins c = OATH_INS_SET_CODE -> o_valid s = true -> c_p1 c = 0 -> c_p2 c = 0 ->
    parse_set_code (c_data c) = Ret (Some (key, chal, hmac_sha1 key chal)) -> zlen key = 16 ->
    oath_ok F' rs -> attrs_ok F' key h ->
    eff (Ret SW_NO_ERROR) (oset_valid false s) F' (F' :: L) T [] rs key
| E_val_bad w s' : c_ins c = OATH_INS_VALIDATE -> w <> SW_NO_ERROR -> ~ val_ok hmac_sha1 c k s -> (s' = s \/ s' = oset_valid false s) ->
    eff (Exc w) s' F L T [] rs k
| E_val resp chal : c_ins c = OATH_INS_VALIDATE -> c_p1 c = 0 -> c_p2 c = 0 ->
    parse_validate (c_data c) = Ret (resp, chal) -> k <> [] -> resp = hmac_sha1 k (o_chal s) ->
    eff (Ret SW_NO_ERROR) (oset_valid true s) F L T ([OATH_TAG_FULL_RESPONSE; 20] ++ hmac_sha1 k chal) rs k
| E_sel_bad w : c_ins c = OATH_INS_SELECT -> w <> SW_NO_ERROR -> (c_p1 c <> 0 \/ o_valid s = false) -> (c_p1 c = 4 -> c_p2 c <> 0) -> eff (Exc w) s F L T [] rs k
| E_sel_open : c_ins c = OATH_INS_SELECT -> c_p1 c = 4 -> k = [] ->
    eff (Ret SW_NO_ERROR) (oset_valid true s) F L T ([0x79; 3; 6; 0; 0; 0x71; 8] ++ h) rs k
| E_sel_code ch : c_ins c = OATH_INS_SELECT -> c_p1 c = 4 -> k <> [] -> zlen ch = 8 ->
    eff (Ret SW_NO_ERROR) (oset_chal ch s) F L T ([0x79; 3; 6; 0; 0; 0x71; 8] ++ h ++ [0x74; 8] ++ ch ++ [0x7B; 1; 1]) rs k
| E_def_bad w : c_ins c = OATH_INS_SET_DEFAULT -> w <> SW_NO_ERROR -> eff (Exc w) s F L T [] rs k
| E_def name j F' L' sl : c_ins c = OATH_INS_SET_DEFAULT -> o_valid s = true ->
    (c_p1 c = 1 \/ c_p1 c = 2) -> (c_p2 c = 0 \/ c_p2 c = 1) ->
    parse_name 2 (c_data c) = Ret name -> 1 <= zlen name <= 64 -> at_name rs name j ->
    r_type (nth (Z.to_nat j) rs []) = OATH_TYPE_HOTP -> oath_same F F' -> logs (oath_same F) L L' ->
    sl = upd_slot (c_p1 c - 1) (fun sl =>
       mkSlot PASS_SLOT_OATH (splice (sl_u sl) 0 (to_le4 (j * REC) ++ [zlen name] ++ name)) (c_p2 c)) (o_slots s) ->
    fdata F' PASS_FILE = Some (slots_bytes sl) ->
    eff (Ret SW_NO_ERROR) (oset_slots sl s) F' L' T [] rs k
| E_more_none : c_ins c = OATH_INS_SEND_REMAINING -> o_rem s = REMAINING_NONE ->
    eff (Exc SW_CONDITIONS_NOT_SATISFIED) s F L T [] rs k
| E_unknown : ~ In (c_ins c) [0x01; 0x02; 0x03; 0x05; 0xA1; 0xA2; 0xA3; 0xA4; 0xA5; 0x55] ->
    eff (Exc SW_INS_NOT_SUPPORTED) s F L T [] rs k
(** storage errors *)
| E_fail s' F' L' T' o' rs' : X <> [] -> (o_valid s = true \/ c_ins c = OATH_INS_SELECT \/ c_ins c = OATH_INS_VALIDATE) ->
    inv s' rs -> o_chal s' = o_chal s -> (o_valid s' = o_valid s \/ c_ins c = OATH_INS_SET_CODE) ->
    (o_slots s' = o_slots s \/ c_ins c = OATH_INS_DELETE \/ c_ins c = OATH_INS_SET_DEFAULT) ->
    oath_ok F' rs' -> Forall2 incd rs rs' -> same_attrs F F' -> logs (ximg F (Forall2 incd rs)) L L' ->
    (o' = [] \/ c_ins c = OATH_INS_SELECT) ->
    eff Fail s' F' L' T' o' rs' k.
End One.

Lemma all_eff nfc c rs k h s0 s F L X R T :
  oath_ok F rs -> attrs_ok F k h -> all_bytes (c_data c) -> inv s0 rs -> o_valid s0 = true ->
  s = at_start c s0 -> o_idx s <= zlen rs ->
  (c_ins c = OATH_INS_SELECT /\ c_p1 c = 0 \/
      c_ins c = OATH_INS_SEND_REMAINING /\ (o_rem s0 = REMAINING_CALC_FULL \/ o_rem s0 = REMAINING_CALC_TRUNC)) ->
  wp (oath_calculate_all hmac_sha1 hmac_sha256 hmac_sha512 junk c)
     (fun o s' e' => exists rs' k', eff nfc c rs k h s0 F L X T o s' (e_fs e') (e_log e') (e_tch e') (e_out e') rs' k')
     s (mkE F L X R T []).
Proof.
  intros Hok Hat Hb Hinv0 Hv Es Hidx Hins.
  assert (inv s rs) as Hinv by (rewrite Es; unfold at_start; destruct (_ =? _); [assumption|apply inv_idx0; assumption]).
  pose proof Hinv as [Hst _].
  assert (forall s', page_only s s' -> page_only s0 s') as Hpo.
  { intros s' (H1 & H2 & H3). unfold page_only. rewrite H1, H2, H3, Es. unfold at_start. destruct (_ =? _); repeat split. }
  assert (Hrem0 : o_rem s = o_rem s0) by (rewrite Es; unfold at_start; destruct (_ =? _); reflexivity).
  pose proof Hok as (_ & Hoks & _).
  apply (wp_calc_all hmac_sha1 hmac_sha256 hmac_sha512 Hsha1 Hsha256 Hsha512 junk Hjunk c rs (Forall2 incd rs)); try assumption.
  - apply incs_refl.
  - intros chal pre r t r' Hbc Hc H. eapply incs_step; [assumption|eassumption|]. eapply cstep_incd; eassumption.
  - intros w s' X' Hx Hw Hcb Hst' Hpo' Hi' Hr'. rewrite Es in Hcb. exists rs, k. cbn [e_fs e_log e_tch e_out]. apply E_all_bad; try assumption; [|auto].
    split; [assumption|right; lia].
  - intros Hx s' rs' X' F' L' Hst' Hpo' Hi' Hz' Hok' HA' Ha' Hl'. exists rs', k. cbn [e_fs e_log e_tch e_out].
    apply Hpo in Hpo' as (Hp1 & Hp2 & Hp3).
    apply E_fail; try assumption; try (left; assumption); try (left; reflexivity).
    split; [assumption|right; lia].
  - intros chal tr o dn dn' rest s' X' F' L' Hx Hseg Hbc Ecp Hzd Hdn Hst' Hpo' Hi' Hch Hrest Hrest0 Hok' HA' Ha' Hl'.
    rewrite Es in Hseg, Ecp, Hok', HA'. pose proof (zlen_nonneg rest) as Hr0.
    assert (inv s' rs) as Hinv' by (split; [assumption|right; lia]).
    destruct o as [[sw acc]|w| |]; [| |exact I|exact I].
    + exists (firstn (Z.to_nat (o_idx (at_start c s0))) rs ++ dn' ++ rest), k. cbn [e_fs e_log e_tch e_out].
      eapply E_all; try eassumption; try reflexivity; [apply Hpo; assumption| |].
      * intros E. destruct (Hrest0 E) as [?|[w Hw]]; [assumption|discriminate].
      * intros Hne. destruct Hrest as [?|(H1 & H2 & H3)]; [contradiction|]. split; [assumption|].
        destruct (Z.eq_dec (o_idx s) 0) as [E|E].
        -- rewrite (H2 E). destruct tr; auto.
        -- rewrite (H3 E), Hrem0. destruct Hins as [[Hin _]|[_ ?]]; [|assumption].
           exfalso. apply E. rewrite Es. unfold at_start. rewrite Hin. reflexivity.
    + exists (firstn (Z.to_nat (o_idx (at_start c s0))) rs ++ dn' ++ rest), k. cbn [e_fs e_log e_tch e_out].
      eapply E_all_refused; try eassumption; try reflexivity. apply Hpo; assumption.
Qed.

Lemma list_eff nfc c rs k h s0 s F L X R T :
  oath_ok F rs -> attrs_ok F k h -> inv s0 rs -> o_valid s0 = true ->
  s = at_start c s0 -> 0 <= o_idx s <= zlen rs ->
  (c_ins c = OATH_INS_LIST \/ c_ins c = OATH_INS_SEND_REMAINING /\ o_rem s0 = REMAINING_LIST) ->
  wp (oath_list junk c)
     (fun o s' e' => exists rs' k', eff nfc c rs k h s0 F L X T o s' (e_fs e') (e_log e') (e_tch e') (e_out e') rs' k')
     s (mkE F L X R T []).
Proof.
  intros Hok Hat Hinv0 Hv Es Hidx Hins.
  apply (wp_list hmac_sha1 hmac_sha256 hmac_sha512 Hsha1 Hsha256 Hsha512 junk Hjunk c rs); try assumption.
  - intros w Hp Hw. exists rs, k. cbn [e_fs e_log e_tch e_out]. rewrite Es. apply E_list_bad; assumption.
  - intros Hx i X' Hi. exists rs, k. cbn [e_fs e_log e_tch e_out].
    destruct Hinv0 as [(H1 & H2 & H3 & H4) Hr]. rewrite Es.
    assert (forall x, x = oset_idx i (oset_rem REMAINING_LIST (at_start c s0)) ->
      o_idx x = i /\ o_rem x = REMAINING_LIST /\ o_cbuf x = o_cbuf s0 /\ o_clen x = o_clen s0 /\
      o_valid x = o_valid s0 /\ o_chal x = o_chal s0 /\ o_slots x = o_slots s0) as Hx'.
    { intros x ->. unfold at_start. destruct (_ =? _); repeat split. }
    destruct (Hx' _ eq_refl) as (E1 & E2 & E3 & E4 & E5 & E6 & E7).
    apply E_fail; try assumption; try (left; assumption); try (left; reflexivity).
    + split; [|right; lia]. unfold st_ok. rewrite E1, E3, E4. repeat split; try assumption; lia.
    + apply incs_refl.
    + apply same_attrs_refl.
    + apply logs_nil.
  - intros X' sw acc rest Hx Hp1 Hp2 Ep. exists rs, k. cbn [e_fs e_log e_tch e_out].
    eapply E_list; try eassumption.
    + rewrite <- Es. exact Ep.
    + rewrite Es. unfold at_start. destruct (c_ins c =? OATH_INS_SEND_REMAINING); reflexivity.
Qed.

Theorem wp_oath_body nfc c rs k h s F L X R T :
  oath_ok F rs -> attrs_ok F k h -> all_bytes (c_data c) -> inv s rs ->
  wp (oath_body hmac_sha1 hmac_sha256 hmac_sha512 junk nfc c)
     (fun o s' e' => exists rs' k', eff nfc c rs k h s F L X T o s' (e_fs e') (e_log e') (e_tch e') (e_out e') rs' k')
     s (mkE F L X R T []).
Proof.
  intros Hok Hat Hb Hinv. pose proof (zlen_nonneg rs) as Hrs0. unfold oath_body. apply wp_bind, wp_get. cbv zeta.
  apply wp_bind, wp_guard; intros Eg.
  2:{ exists rs, k. cbn [e_fs e_log e_tch e_out]. apply E_gate; [destruct (o_valid s); [discriminate|reflexivity]| |];
      intros E; rewrite E in Eg; revert Eg; destruct (o_valid s); discriminate. }
  assert (Hv : o_valid s = true \/ c_ins c = OATH_INS_SELECT \/ c_ins c = OATH_INS_VALIDATE).
  { destruct (o_valid s); [left; reflexivity|]. right. cbn [orb] in Eg. lia. }
  assert (Hfail : X <> [] -> forall s' F' L' T', inv s' rs -> o_chal s' = o_chal s -> o_valid s' = o_valid s ->
            (o_slots s' = o_slots s \/ c_ins c = OATH_INS_DELETE \/ c_ins c = OATH_INS_SET_DEFAULT) -> oath_same F F' ->
            logs (oath_same F) L L' ->
            exists rs' k', eff nfc c rs k h s F L X T Fail s' F' L' T' [] rs' k').
  { intros Hx s' F' L' T' Hi Hc Hv' Hs Hf Hl. exists rs, k.
    apply E_fail; try assumption; try (left; assumption); try (left; reflexivity).
    - eapply ok_other; [exact Hf|exact Hok].
    - apply incs_refl.
    - apply attrs_other, Hf.
    - eapply logs_mono; [|exact Hl]. apply (ximg_self F rs); [assumption|apply incs_refl]. }
  assert (Hfail0 : X <> [] -> forall X' T', exists rs' k',
     eff nfc c rs k h s F L X T Fail s (e_fs (mkE F L X' R T' [])) (e_log (mkE F L X' R T' [])) (e_tch (mkE F L X' R T' [])) (e_out (mkE F L X' R T' [])) rs' k').
  { intros Hx X' T'. cbn [e_fs e_log e_tch e_out].
    apply Hfail; try assumption; try reflexivity; [left; reflexivity|apply logs_nil]. }
  assert (Hfail1 : X <> [] -> (c_ins c = OATH_INS_DELETE \/ c_ins c = OATH_INS_SET_DEFAULT) ->
     forall s' X' F' L', s' = oset_slots (o_slots s') s -> oath_same F F' -> logs (oath_same F) L L' -> exists rs' k',
     eff nfc c rs k h s F L X T Fail s' (e_fs (mkE F' L' X' R T [])) (e_log (mkE F' L' X' R T [])) (e_tch (mkE F' L' X' R T [])) (e_out (mkE F' L' X' R T [])) rs' k').
  { intros Hx Hin s' X' F' L' Es Hf Hl. cbn [e_fs e_log e_tch e_out].
    apply Hfail; try assumption; [| | |right; assumption].
    - rewrite Es. eapply inv_ext; [exact Hinv|reflexivity..].
    - rewrite Es. reflexivity.
    - rewrite Es. reflexivity. }
  destruct (Z.eqb_spec (c_ins c) OATH_INS_PUT) as [Ei|N1].
  { assert (o_valid s = true) as Hv1 by (destruct Hv as [?|[E|E]]; [assumption|rewrite Ei in E; discriminate..]).
    apply (wp_put hmac_sha1 hmac_sha256 hmac_sha512 Hsha1 Hsha256 Hsha512 junk Hjunk Hjunkb c rs); try assumption.
    - intros w Hw Hp. exists rs, k. cbn [e_fs e_log e_tch e_out]. apply E_put_bad; assumption.
    - intros Hx X'. apply Hfail0, Hx.
    - intros name key prop chal X' Hx Hp Hin. exists rs, k. cbn [e_fs e_log e_tch e_out]. eapply E_put_dup; eassumption.
    - intros name key prop chal X' Hx Hp Hin Hz. exists rs, k. cbn [e_fs e_log e_tch e_out]. eapply E_put_full; eassumption.
    - intros name key prop chal X' i r F' Hx Hp1 Hp2 Hp Hin Hi Him Hil Hia Hr Hn Hk' Hpr Hch Hok' Ha'.
      exists (upd (Z.to_nat i) r rs), k. cbn [e_fs e_log e_tch e_out]. eapply E_put; eassumption. }
  destruct (Z.eqb_spec (c_ins c) OATH_INS_DELETE) as [Ei|N2].
  { assert (o_valid s = true) as Hv1 by (destruct Hv as [?|[E|E]]; [assumption|rewrite Ei in E; discriminate..]).
    apply (wp_delete hmac_sha1 hmac_sha256 hmac_sha512 Hsha1 Hsha256 Hsha512 junk Hjunk c rs); try assumption.
    - intros w Hw Hp. exists rs, k. cbn [e_fs e_log e_tch e_out]. apply E_del_bad; assumption.
    - intros name X' Hx Hp Hin. exists rs, k. cbn [e_fs e_log e_tch e_out]. eapply E_del_none; eassumption.
    - intros Hx. apply Hfail1; [assumption|left; assumption].
    - intros name j X' F' L' Hx Hp1 Hp2 Hp Hn Hj rs' Hok' Ha' Hl'. exists rs', k. cbn [e_fs e_log e_tch e_out].
      eapply E_del; try eassumption. reflexivity. }
  destruct (Z.eqb_spec (c_ins c) OATH_INS_SET_CODE) as [Ei|N3].
  { assert (o_valid s = true) as Hv1 by (destruct Hv as [?|[E|E]]; [assumption|rewrite Ei in E; discriminate..]).
    apply (wp_set_code hmac_sha1 hmac_sha256 hmac_sha512 Hsha1 Hsha256 Hsha512 junk c rs k h); try assumption.
    - intros w Hw. exists rs, k. cbn [e_fs e_log e_tch e_out]. apply E_code_bad; assumption.
    - intros Hx b X'. exists rs, k. cbn [e_fs e_log e_tch e_out]. apply E_fail; try assumption; try reflexivity.
      + right; assumption.
      + left; reflexivity.
      + apply incs_refl.
      + apply same_attrs_refl.
      + apply logs_nil.
      + left; reflexivity.
    - intros X' F' Hx Hp1 Hp2 Hp Hok' Ha'. exists rs, []. cbn [e_fs e_log e_tch e_out]. apply E_code_clear; assumption.
    - intros key chal X' F' Hx Hp1 Hp2 Hp Hz Hok' Ha'. exists rs, key. cbn [e_fs e_log e_tch e_out]. eapply E_code_set; eassumption. }
  destruct (Z.eqb_spec (c_ins c) OATH_INS_RENAME) as [Ei|N4].
  { assert (o_valid s = true) as Hv1 by (destruct Hv as [?|[E|E]]; [assumption|rewrite Ei in E; discriminate..]).
    apply (wp_rename hmac_sha1 hmac_sha256 hmac_sha512 Hsha1 Hsha256 Hsha512 junk Hjunk c rs); try assumption.
    - intros w Hw Hp. exists rs, k. cbn [e_fs e_log e_tch e_out]. apply E_ren_bad; assumption.
    - intros Hx X'. apply Hfail0, Hx.
    - intros old new X' Hx Hp Hin. exists rs, k. cbn [e_fs e_log e_tch e_out]. eapply E_ren_dup; eassumption.
    - intros old new X' Hx Hp Hin Hin2. exists rs, k. cbn [e_fs e_log e_tch e_out]. eapply E_ren_none; eassumption.
    - intros old new j X' F' Hx Hp1 Hp2 Hp Ho Hn Hbn Hin Hj Hok' Ha'.
      exists (upd (Z.to_nat j) (renamed (nth (Z.to_nat j) rs []) new) rs), k. cbn [e_fs e_log e_tch e_out].
      eapply E_ren; try eassumption. reflexivity. }
  destruct (Z.eqb_spec (c_ins c) OATH_INS_LIST) as [Ei|N5].
  { assert (o_valid s = true) as Hv1 by (destruct Hv as [?|[E|E]]; [assumption|rewrite Ei in E; discriminate..]).
    apply wp_bind, wp_modify. apply list_eff; try assumption.
    - unfold at_start. rewrite Ei. reflexivity.
    - cbn [o_idx oset_idx]. lia.
    - left; assumption. }
  destruct (Z.eqb_spec (c_ins c) OATH_INS_CALCULATE) as [Ei|N6].
  { assert (o_valid s = true) as Hv1 by (destruct Hv as [?|[E|E]]; [assumption|rewrite Ei in E; discriminate..]).
    apply (wp_calculate hmac_sha1 hmac_sha256 hmac_sha512 Hsha1 Hsha256 Hsha512 junk Hjunk nfc c rs); try assumption.
    - intros w Hp ->. exists rs, k. cbn [e_fs e_log e_tch e_out]. apply E_calc_refused; [assumption|discriminate|].
      destruct Hp; [left|right; left]; assumption.
    - intros w X' T' Hx Hw Hp. exists rs, k. cbn [e_fs e_log e_tch e_out]. apply E_calc_refused; [assumption|assumption|].
      right; right; assumption.
    - intros name j rec' chal a X' T' F' L' Hx Hp1 Hp2 Hp Hn Hj r Ht HT Hc Ha Hst.
      destruct Hst as [(-> & -> & Hst)|(-> & Hok' & Ha')].
      + exists rs, k. cbn [e_fs e_log e_tch e_out]. eapply E_calc; try eassumption. left. repeat split; assumption.
      + exists (upd (Z.to_nat j) rec' rs), k. cbn [e_fs e_log e_tch e_out]. eapply E_calc; try eassumption.
        right. split; [reflexivity|]. split; [reflexivity|]. split; assumption. }
  destruct (Z.eqb_spec (c_ins c) OATH_INS_VALIDATE) as [Ei|N7].
  { apply (wp_validate hmac_sha1 hmac_sha256 hmac_sha512 Hsha1 Hsha256 Hsha512 junk c k h); try assumption.
    - intros w X' Hx Hw Hnv. exists rs, k. cbn [e_fs e_log e_tch e_out]. apply E_val_bad; [assumption|assumption|assumption|left; reflexivity].
    - intros w X' Hx Hw Hnv. exists rs, k. cbn [e_fs e_log e_tch e_out]. apply E_val_bad; [assumption|assumption|assumption|right; reflexivity].
    - intros Hx X'. apply Hfail0, Hx.
    - intros resp chal X' Hx Hp1 Hp2 Hp Hk Hr. exists rs, k. cbn [e_fs e_log e_tch e_out]. eapply E_val; eassumption. }
  destruct (Z.eqb_spec (c_ins c) OATH_INS_SELECT) as [Ei|N8].
  { destruct (Z.eqb_spec (c_p1 c) 4) as [Ep|Np].
    - apply (wp_select hmac_sha1 hmac_sha256 hmac_sha512 Hsha1 Hsha256 Hsha512 junk c k h); try assumption.
      + intros w Hw Hp2. exists rs, k. cbn [e_fs e_log e_tch e_out]. apply E_sel_bad; [assumption|assumption|left; lia|intros _; assumption].
      + intros Hx X' O'. exists rs, k. cbn [e_fs e_log e_tch e_out]. apply E_fail; try assumption; try reflexivity; try (left; reflexivity).
        * apply incs_refl.
        * apply same_attrs_refl.
        * apply logs_nil.
        * right; assumption.
      + intros X' Hx Hk. exists rs, k. cbn [e_fs e_log e_tch e_out]. apply E_sel_open; assumption.
      + intros X' ch R' Hx Hk Hz. exists rs, k. cbn [e_fs e_log e_tch e_out]. apply E_sel_code; assumption.
    - destruct (Z.eqb_spec (c_p1 c) 0) as [Ep0|Np0].
      + apply wp_bind, wp_guard; intros Ev.
        2:{ exists rs, k. cbn [e_fs e_log e_tch e_out]. apply E_sel_bad; [assumption|discriminate|right; assumption|intros; lia]. }
        apply wp_bind, wp_modify. apply all_eff; try assumption.
        * unfold at_start. rewrite Ei. reflexivity.
        * left. split; assumption.
      + apply wp_except. exists rs, k. cbn [e_fs e_log e_tch e_out]. apply E_sel_bad; [assumption|discriminate|left; assumption|intros; contradiction]. }
  destruct (Z.eqb_spec (c_ins c) OATH_INS_SEND_REMAINING) as [Ei|N9].
  { assert (o_valid s = true) as Hv1 by (destruct Hv as [?|[E|E]]; [assumption|rewrite Ei in E; discriminate..]).
    unfold oath_send_remaining. apply wp_bind, wp_get. pose proof Hinv as [(Hi0 & _) Hrem].
    assert (at_start c s = s) as Eas by (unfold at_start; rewrite Ei; reflexivity).
    destruct (o_rem s) eqn:Er.
    - apply wp_except. exists rs, k. cbn [e_fs e_log e_tch e_out]. apply E_more_none; assumption.
    - destruct Hrem as [?|Hrem]; [discriminate|]. apply all_eff; try assumption; [symmetry; assumption|].
      right. split; [assumption|]. left; assumption.
    - destruct Hrem as [?|Hrem]; [discriminate|]. apply all_eff; try assumption; [symmetry; assumption|].
      right. split; [assumption|]. right; assumption.
    - destruct Hrem as [?|Hrem]; [discriminate|]. apply list_eff; try assumption; [symmetry; assumption|lia|].
      right. split; assumption. }
  destruct (Z.eqb_spec (c_ins c) OATH_INS_SET_DEFAULT) as [Ei|N10].
  { assert (o_valid s = true) as Hv1 by (destruct Hv as [?|[E|E]]; [assumption|rewrite Ei in E; discriminate..]).
    apply (wp_set_default hmac_sha1 hmac_sha256 hmac_sha512 Hsha1 Hsha256 Hsha512 junk Hjunk c rs); try assumption.
    - intros w X' Hx Hw. exists rs, k. cbn [e_fs e_log e_tch e_out]. apply E_def_bad; assumption.
    - intros Hx. apply Hfail1; [assumption|right; assumption].
    - intros name j X' F' L' Hx Hp1 Hp2 Hp Hn Hj Ht Hf Hl sl Hd. exists rs, k. cbn [e_fs e_log e_tch e_out].
      eapply E_def; try eassumption. reflexivity. }
  apply wp_except. exists rs, k. cbn [e_fs e_log e_tch e_out]. apply E_unknown. cbn [In].
  unfold OATH_INS_PUT, OATH_INS_DELETE, OATH_INS_SET_CODE, OATH_INS_RENAME, OATH_INS_LIST, OATH_INS_CALCULATE,
    OATH_INS_VALIDATE, OATH_INS_SELECT, OATH_INS_SEND_REMAINING, OATH_INS_SET_DEFAULT in *.
  intros H. repeat (destruct H as [H|H]; [congruence|]). exact H.
Qed.
End Eff.
