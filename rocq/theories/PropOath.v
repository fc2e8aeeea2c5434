(** Property theorems of the OATH applet: the credential store (C13), HOTP counters (C14), the access code
    (C15), increasing challenges (C16), listing (C17), codes (C18), and no undefined behaviour (C65).
    The vocabulary is in OathSpec.v: devices, events, histories, credentials. *)
From Coq Require Import Permutation.
From Verif Require Import Sys Apdu Applet Pass Oath OathProofs OathCmds OathEff OathSpec OathPres OathHist OathStep OathFacts OathEx.
Open Scope string_scope. Open Scope list_scope. Open Scope Z_scope.

(** Command data of PUT: tag 71, name; tag 73, key; optionally tag 78, property; optionally tag 7A, 4-byte
    initial counter (HOTP only).  The key is: type and algorithm, number of digits, secret. *)
Definition put_data (name key : bytes) (prop : option Z) (imf : option bytes) : bytes :=
  [0x71; zlen name] ++ name ++ [0x73; zlen key] ++ key ++
  match prop with Some p => [0x78; p] | None => [] end ++
  match imf with Some c => [0x7A; 4] ++ c | None => [] end.
Definition put_wf (name key : bytes) (prop : option Z) (imf : option bytes) : Prop :=
  1 <= zlen name <= 64 /\ 3 <= zlen key <= 66 /\
  (Z.land (nth 0 key 0) 0xF0 = 0x10 \/ Z.land (nth 0 key 0) 0xF0 = 0x20) /\
  (Z.land (nth 0 key 0) 0x0F = 1 \/ Z.land (nth 0 key 0) 0x0F = 2 \/ Z.land (nth 0 key 0) 0x0F = 3) /\
  4 <= nth 1 key 0 <= 8 /\
  match prop with Some p => 0 <= p <= 3 | None => True end /\
  match imf with Some c => zlen c = 4 /\ Z.land (nth 0 key 0) 0xF0 = 0x10 | None => True end.
Definition name_data (name : bytes) : bytes := [0x71; zlen name] ++ name.

(** The host is authorised: no access code, or it was proved (see C15). *)
Definition authorised (d : dev) : Prop := o_valid (d_ram d) = true.
(** The access code stored in the device ([]: none) *)
Definition access_code (d : dev) (k : bytes) : Prop := fattr (d_fs d) "oath" 2 = Some k.

(** Decimal text *)
Definition decimal (t : bytes) : Z := fold_left (fun a x => 10 * a + (x - 48)) t 0.
Definition is_decimal (t : bytes) : Prop := Forall (fun x => 48 <= x <= 57) t.

Section Oath.
Variables hmac_sha1 hmac_sha256 hmac_sha512 : bytes -> bytes -> bytes.
Hypothesis Hsha1 : digest_ok 20 hmac_sha1.
Hypothesis Hsha256 : digest_ok 32 hmac_sha256.
Hypothesis Hsha512 : digest_ok 64 hmac_sha512.
Variable junk : bytes.
Hypothesis Hjunk : zlen junk = 141.
Hypothesis Hjunkb : all_bytes junk.
Notation step := (step hmac_sha1 hmac_sha256 hmac_sha512 junk).
Notation hist := (hist hmac_sha1 hmac_sha256 hmac_sha512 junk).
Notation code_resp := (code_resp hmac_sha1 hmac_sha256 hmac_sha512).
Notation mac := (mac hmac_sha1 hmac_sha256 hmac_sha512).

(** The device [d] is reached from a factory-fresh one by the history [tr]: any commands, touches,
    configuration, storage errors and power cuts. *)
Definition reach (tr : list (event * obs)) (d : dev) : Prop :=
  tr_ok tr /\ exists rnd, hist (oboot fs_empty rnd) tr d.

Lemma reach_good tr d : reach tr d -> exists rs k h, good d rs k h.
Proof.
  intros (Ht & rnd & H). destruct (boot_empty [] rnd) as [h Hg].
  destruct (hist_good _ _ _ Hsha1 Hsha256 Hsha512 junk Hjunk Hjunkb _ _ _ _ _ _ Hg H Ht) as (rs & k & G). eauto.
Qed.

(** C65.  No command, touch or configuration, after any history, runs into undefined behaviour. *)
Theorem C65_oath_no_undefined_behaviour : forall tr d ev, reach tr d -> ev_ok ev -> step d ev <> None.
Proof.
  intros tr d ev Hr He. destruct (reach_good tr d Hr) as (rs & k & h & Hg).
  destruct (step_good _ _ _ Hsha1 Hsha256 Hsha512 junk Hjunk Hjunkb d ev rs k h Hg He) as (o & d' & _ & _ & -> & _). discriminate.
Qed.

(** C13.  After any history the store is the one expected from the PUT, DELETE and RENAME commands answered
    9000 (a command cut by a power loss counts as done or not done); names are unique; at most 100. *)
Theorem C13_store_is_the_expected_map : forall rnd tr d, tr_ok tr -> hist (oboot fs_empty rnd) tr d ->
  exists A A', expected [] tr A /\ Permutation A A' /\ holds d A' /\ NoDup (map cr_name A') /\ zlen A' <= 100.
Proof.
  intros rnd tr d Ht H. destruct (boot_empty [] rnd) as [h Hg].
  destruct (hist_creds _ _ _ Hsha1 Hsha256 Hsha512 junk Hjunk Hjunkb _ _ _ _ _ _ Hg H Ht) as (rs & k & A & Hg' & HA & HP).
  exists A, (creds rs). split; [exact HA|]. split; [assumption|]. destruct Hg' as (Hok & _). split; [|split].
  - exists rs. split; [apply ok_records; assumption|reflexivity].
  - rewrite <- names_creds. apply Hok.
  - destruct Hok as (_ & _ & Hz & _). unfold creds, zlen in *. rewrite map_length. unfold MAX_RECORDS in Hz.
    assert (length (filter used rs) <= length rs)%nat by (clear; induction rs; cbn [filter]; [lia|]; destruct (used a); cbn [length]; lia). lia.
Qed.

(** Tools for the theorems about one command *)
Lemma one_good d nfc c rnd tch rs k h : good d rs k h -> all_bytes (c_data c) ->
  exists r d' oc rs' k', step d (Cmd nfc c [] rnd tch) = Some (Resp r, d') /\ good d' rs' k' h /\
  (exists F' L' T', eff hmac_sha1 hmac_sha256 hmac_sha512 nfc c rs k h (d_ram d) (d_fs d) [d_fs d] [] tch oc (d_ram d') F' L' T' (r_data r) rs' k' /\ F' = d_fs d') /\
  r_sw r = match oc with Ret sw => sw | Exc w => w | _ => 0x6900 end.
Proof.
  intros Hg Hb.
  pose proof (cmd_spec _ _ _ Hsha1 Hsha256 Hsha512 junk Hjunk Hjunkb nfc c [] rnd tch d rs k h Hg Hb) as H.
  cbn [OathSpec.step]. destruct (cmd_run _ _ _ _ _ _ _ _ _ d) as [[[r|] s'] e']; [|contradiction].
  destruct H as (oc & rs' & k' & He & Hsw & Hg' & _).
  exists r, (mkDev s' (e_fs e')), oc, rs', k'. split; [reflexivity|]. split; [assumption|]. split; [|assumption].
  eexists _, _, _. split; [exact He|reflexivity].
Qed.
Lemma one_cmd tr d nfc c rnd tch : reach tr d -> all_bytes (c_data c) -> all_bytes rnd ->
  exists r d' rs k h oc rs' k', step d (Cmd nfc c [] rnd tch) = Some (Resp r, d') /\ good d rs k h /\ good d' rs' k' h /\
  (exists F' L' T', eff hmac_sha1 hmac_sha256 hmac_sha512 nfc c rs k h (d_ram d) (d_fs d) [d_fs d] [] tch oc (d_ram d') F' L' T' (r_data r) rs' k' /\ F' = d_fs d') /\
  r_sw r = match oc with Ret sw => sw | Exc w => w | _ => 0x6900 end.
Proof.
  intros Hr Hb Hbr. destruct (reach_good tr d Hr) as (rs & k & h & Hg).
  destruct (one_good d nfc c rnd tch rs k h Hg Hb) as (r & d' & oc & rs' & k' & H1 & H2 & H3). exists r, d', rs, k, h, oc, rs', k'. tauto.
Qed.
Lemma holds_creds d rs k h A : good d rs k h -> holds d A -> A = creds rs.
Proof. intros (Hok & _) (rs1 & Hr & ->). rewrite (recs_uniq _ _ _ Hok Hr). reflexivity. Qed.

(** C13, acceptance (no storage error, host authorised). *)
Theorem C13_put_status : forall tr d A nfc c rnd tch name key prop imf,
  reach tr d -> authorised d -> holds d A ->
  c_ins c = 0x01 -> c_p1 c = 0 -> c_p2 c = 0 -> c_data c = put_data name key prop imf -> put_wf name key prop imf ->
  all_bytes (c_data c) -> all_bytes rnd ->
  exists r d', step d (Cmd nfc c [] rnd tch) = Some (Resp r, d') /\
    r_sw r = (if in_dec (list_eq_dec Z.eq_dec) name (map cr_name A) then 0x6985
              else if zlen A =? 100 then 0x6A84 else 0x9000).
Proof.
  intros tr d A nfc c rnd tch name key prop imf Hr Ha HA Hins Hp1 Hp2 Hd Hwf Hb Hbr.
  destruct (one_cmd tr d nfc c rnd tch Hr Hb Hbr) as (r & d' & rs & k & h & oc & rs' & k' & Hs & Hg & Hg' & (F' & L' & T' & He & _) & Hsw).
  exists r, d'. split; [assumption|]. rewrite (holds_creds d rs k h A Hg HA), <- names_creds.
  assert (parse_put (c_data c) = Ret (name, key, match prop with Some p => p | None => 0 end, match imf with Some c => zeros 4 ++ c | None => zeros 8 end)) as Hp.
  { rewrite Hd in *. apply (parse_put_complete name key prop imf Hb Hwf). }
  assert (zlen (creds rs) = zlen (live rs)) as Hz by (unfold creds, zlen; rewrite map_length; reflexivity). rewrite Hz.
  unfold authorised in Ha. destruct Hg as ((_ & _ & H100 & _) & _). rewrite Hsw.
  inversion He; subst; try (kill_ins Hins).
  - exfalso. match goal with H : _ \/ _ \/ parse_put _ = Exc _ |- _ => destruct H as [?|[?|?]]; congruence end.
  - match goal with H : parse_put _ = Ret _ |- _ => rewrite Hp in H; injection H; intros; subst end. destruct (in_dec _ _ _); [reflexivity|contradiction].
  - match goal with H : parse_put _ = Ret _ |- _ => rewrite Hp in H; injection H; intros; subst end. destruct (in_dec _ _ _); [contradiction|].
    match goal with H : zlen (live _) = _ |- _ => rewrite H end. reflexivity.
  - match goal with H : parse_put _ = Ret _ |- _ => rewrite Hp in H; injection H; intros; subst end.
    destruct (in_dec _ _ _); [contradiction|]. destruct (Z.eqb_spec (zlen (live rs)) 100) as [E|]; [|reflexivity]. exfalso.
    destruct (Z.eq_dec i (zlen rs)) as [Ei|Ei].
    + match goal with Hl : i = zlen rs -> i < _ |- _ => specialize (Hl Ei) end. match goal with Hl : i = zlen rs -> live rs = rs |- _ => rewrite (Hl Ei) in E end. unfold MAX_RECORDS in *. lia.
    + match goal with Hl : i < zlen rs -> islive _ = false |- _ => specialize (Hl ltac:(lia)) as Hdead end.
      assert ((Z.to_nat i < length rs)%nat) as Hi by (unfold zlen in *; lia).
      pose proof (live_split (Z.to_nat i) rs Hi) as Hsp. unfold live in Hsp at 3. cbn [filter] in Hsp. rewrite Hdead in Hsp.
      apply (f_equal zlen) in Hsp. rewrite !zlen_app in Hsp. change (zlen (@nil bytes)) with 0 in Hsp.
      assert (forall l : list bytes, zlen (live l) <= zlen l) as Hle.
      { unfold zlen, live. induction l; cbn [filter]; [lia|]. destruct (islive a); cbn [length]; lia. }
      pose proof (Hle (firstn (Z.to_nat i) rs)) as L1. pose proof (Hle (skipn (S (Z.to_nat i)) rs)) as L2.
      unfold zlen in L1 at 2, L2 at 2. rewrite firstn_length in L1. rewrite skipn_length in L2. unfold MAX_RECORDS in *.
      assert (zlen rs = Z.of_nat (length rs)) as Hzl by reflexivity. lia.
Qed.

Theorem C13_delete_status : forall tr d A nfc c rnd tch name,
  reach tr d -> authorised d -> holds d A ->
  c_ins c = 0x02 -> c_p1 c = 0 -> c_p2 c = 0 -> c_data c = name_data name -> 1 <= zlen name <= 64 ->
  all_bytes (c_data c) -> all_bytes rnd ->
  exists r d', step d (Cmd nfc c [] rnd tch) = Some (Resp r, d') /\
    r_sw r = (if in_dec (list_eq_dec Z.eq_dec) name (map cr_name A) then 0x9000 else 0x6984).
Proof.
  intros tr d A nfc c rnd tch name Hr Ha HA Hins Hp1 Hp2 Hd Hn Hb Hbr.
  destruct (one_cmd tr d nfc c rnd tch Hr Hb Hbr) as (r & d' & rs & k & h & oc & rs' & k' & Hs & Hg & Hg' & (F' & L' & T' & He & _) & Hsw).
  exists r, d'. split; [assumption|]. rewrite (holds_creds d rs k h A Hg HA), <- names_creds.
  assert (parse_name 2 (c_data c) = Ret name) as Hp.
  { rewrite Hd. pose proof (parse_name_complete 2 name [] Hn ltac:(change (zlen (@nil Z)) with 0; lia)) as E. rewrite app_nil_r in E. exact E. }
  unfold authorised in Ha. destruct Hg as ((_ & Hoks & _) & _). rewrite Hsw.
  inversion He; subst; try (kill_ins Hins).
  - exfalso. match goal with H : _ \/ _ \/ parse_name 2 _ = Exc _ |- _ => destruct H as [?|[?|?]]; congruence end.
  - match goal with H : parse_name 2 _ = Ret _ |- _ => rewrite Hp in H; injection H; intros; subst end. destruct (in_dec _ _ _); [contradiction|reflexivity].
  - match goal with H : parse_name 2 _ = Ret _ |- _ => rewrite Hp in H; injection H; intros; subst end. destruct (in_dec _ _ _) as [_|N]; [reflexivity|].
    exfalso. apply N. eapply at_name_in; try eassumption. intros E. subst. change (zlen (@nil Z)) with 0 in Hn. lia.
Qed.

Theorem C13_rename_status : forall tr d A nfc c rnd tch old new,
  reach tr d -> authorised d -> holds d A ->
  c_ins c = 0x05 -> c_p1 c = 0 -> c_p2 c = 0 -> c_data c = name_data old ++ name_data new ->
  1 <= zlen old <= 64 -> 1 <= zlen new <= 64 -> all_bytes (c_data c) -> all_bytes rnd ->
  exists r d', step d (Cmd nfc c [] rnd tch) = Some (Resp r, d') /\
    r_sw r = (if in_dec (list_eq_dec Z.eq_dec) new (map cr_name A) then 0x6985
              else if in_dec (list_eq_dec Z.eq_dec) old (map cr_name A) then 0x9000 else 0x6984).
Proof.
  intros tr d A nfc c rnd tch old new Hr Ha HA Hins Hp1 Hp2 Hd Ho Hn Hb Hbr.
  destruct (one_cmd tr d nfc c rnd tch Hr Hb Hbr) as (r & d' & rs & k & h & oc & rs' & k' & Hs & Hg & Hg' & (F' & L' & T' & He & _) & Hsw).
  exists r, d'. split; [assumption|]. rewrite (holds_creds d rs k h A Hg HA), <- names_creds.
  assert (parse_rename (c_data c) = Ret (old, new)) as Hp.
  { rewrite Hd. pose proof (parse_rename_complete old new [] Ho Hn) as E. rewrite app_nil_r in E. exact E. }
  unfold authorised in Ha. destruct Hg as ((_ & Hoks & _) & _). rewrite Hsw.
  inversion He; subst; try (kill_ins Hins).
  - exfalso. match goal with H : _ \/ _ \/ parse_rename _ = Exc _ |- _ => destruct H as [?|[?|?]]; congruence end.
  - match goal with H : parse_rename _ = Ret _ |- _ => rewrite Hp in H; injection H; intros; subst end. destruct (in_dec _ _ _); [reflexivity|contradiction].
  - match goal with H : parse_rename _ = Ret _ |- _ => rewrite Hp in H; injection H; intros; subst end. destruct (in_dec _ _ _); [contradiction|].
    destruct (in_dec _ _ _); [contradiction|reflexivity].
  - match goal with H : parse_rename _ = Ret _ |- _ => rewrite Hp in H; injection H; intros; subst end. destruct (in_dec _ _ _); [contradiction|].
    destruct (in_dec _ _ _) as [_|N]; [reflexivity|].
    exfalso. apply N. eapply at_name_in; try eassumption. intros E. subst. change (zlen (@nil Z)) with 0 in Ho. lia.
Qed.

(** ** Calculation *)
Lemma calc_facts d nfc c rnd tch r d' rs k h : good d rs k h -> all_bytes (c_data c) -> all_bytes rnd ->
  c_ins c = 0xA2 -> step d (Cmd nfc c [] rnd tch) = Some (Resp r, d') -> r_sw r = 0x9000 ->
  exists q q' m, In q (filter used rs) /\ rname q = arg1 c /\ rec_ok q /\ rec_ok q' /\ cred_of q' = cred_of q /\
    calc_ok q (c_data c) (2 + zlen (arg1 c)) q' m /\ r_data r = code_resp (c_p2 c =? 1) (cred_of q) m /\
    exists rs' , oath_ok (d_fs d') rs' /\ In q' (filter used rs').
Proof.
  intros Hg Hb Hbr Hins Hs Hsw.
  pose proof (cmd_spec _ _ _ Hsha1 Hsha256 Hsha512 junk Hjunk Hjunkb nfc c [] rnd tch d rs k h Hg Hb) as H.
  cbn [OathSpec.step] in Hs. destruct (cmd_run _ _ _ _ _ _ _ _ _ d) as [[[r1|] s'] e']; [|contradiction]. injection Hs as -> <-.
  destruct H as (oc & rs' & k' & He & Hsw' & Hg' & _). rewrite Hsw in Hsw'.
  destruct Hg as (Hok & _). pose proof Hok as (Hrs & Hoks & _).
  destruct Hg' as (Hok' & _). cbn [d_fs] in *.
  destruct oc as [z|w| |]; [|exfalso; destruct (eff_exc _ _ _ _ _ _ _ _ _ _ _ _ _ _ _ _ _ _ _ _ _ He) as [Hne _]; congruence|discriminate Hsw'|inversion He].
  inversion He; try (kill_ins Hins); subst.
  assert (arg1 c = name) as Ea.
  { match goal with H : parse_name 3 _ = Ret _ |- _ => pose proof (parse_name_sound 3 (c_data c) ltac:(lia) Hb) as Hp; rewrite H in Hp end.
    eapply arg1_name, Hp. }
  match goal with H : at_name rs name j |- _ => destruct (at_live rs name j Hoks ltac:(lia) H) as [Hl Hq]; destruct H as [Hj En] end.
  set (q := nth (Z.to_nat j) rs []) in *.
  match goal with H : calc_ok q _ _ _ _ |- _ => rename H into Hcalc end.
  assert (rec_ok rec' /\ cred_of rec' = cred_of q /\ used rec' = used q) as (Hq' & Ec & Eu).
  { destruct Hcalc as [(_ & Hpc & [[_ ->]|(_ & Hz & _ & ->)])|(_ & _ & Ech & ->)].
    - split; [assumption|split; reflexivity].
    - pose proof (parse_challenge_sound (c_data c) (2 + zlen name) ltac:(lia) Hb) as Hcs. rewrite Hpc in Hcs.
      split; [apply rechal_ok; [assumption|assumption|apply Hcs]|]. split; apply (rechal_cred q chal Hq Hz).
    - assert (zlen chal = 8) as Hz by (rewrite Ech; apply zlen_to_be).
      split; [apply rechal_ok; [assumption|assumption|rewrite Ech; apply to_be_bytes]|]. split; apply (rechal_cred q chal Hq Hz). }
  exists q, rec', chal. split; [apply used_nth; assumption|]. rewrite Ea. split; [assumption|]. split; [assumption|]. split; [assumption|].
  split; [assumption|]. split; [exact Hcalc|]. split.
  { match goal with H : answer _ _ _ _ rec' chal = Some _ |- _ => rewrite (answer_code _ _ _ Hsha1 Hsha256 Hsha512 junk _ rec' chal Hq') in H; injection H; intros <- end. rewrite Ec. reflexivity. }
  exists rs'. split; [assumption|].
  match goal with H : _ \/ _ |- _ => destruct H as [(_ & _ & -> & [Hx|Hx])|(_ & -> & _ & _)] end.
  - exfalso; apply Hx; reflexivity.
  - rewrite Hx. apply used_nth; assumption.
  - apply filter_In. split; [apply in_upd_same; unfold zlen in Hj; lia|]. rewrite Eu. exact Hl.
Qed.
Lemma q_uniq d rs k h q x v : good d rs k h -> In q (filter used rs) -> holds_ctr d x v -> rname q = cr_name x -> cred_of q = x /\ ctr_of q = v.
Proof.
  intros (Hok & _) Hq (rs1 & q1 & Hr1 & Hq1 & <- & <-) En. rewrite (recs_uniq _ _ _ Hok Hr1) in Hq1.
  destruct Hok as (_ & _ & _ & Hnd). rewrite (nodup_used rs q1 q Hnd Hq1 Hq) by (symmetry; exact En). split; reflexivity.
Qed.
Lemma q_type q : rec_ok q -> r_type q = Z.land (nth 0 (cr_key (cred_of q)) 0) 0xF0.
Proof.
  intros (_ & _ & _ & Hk & _). unfold r_type, r_algbyte. change (cr_key (cred_of q)) with (slice 66 (r_key_len q) q).
  rewrite nth_slice by lia. destruct (Nat.ltb_spec 0 (Z.to_nat (r_key_len q))); [reflexivity|lia].
Qed.

(** C14.  A successful CALCULATE of a HOTP credential whose stored counter is [v] answers the code for [v + 1],
    and the stored counter becomes [v + 1] (no storage error).  [v + 1] always fits in 8 bytes. *)
Theorem C14_calculate_uses_next_counter : forall tr d x v nfc c rnd tch r d',
  reach tr d -> holds_ctr d x v -> is_hotp x -> c_ins c = 0xA2 -> arg1 c = cr_name x ->
  all_bytes (c_data c) -> all_bytes rnd ->
  step d (Cmd nfc c [] rnd tch) = Some (Resp r, d') -> r_sw r = 0x9000 ->
  r_data r = code_resp (c_p2 c =? 1) x (to_be 8 (v + 1)) /\ v + 1 < 2 ^ 64 /\ holds_ctr d' x (v + 1).
Proof.
  intros tr d x v nfc c rnd tch r d' Hr Hx Ht Hins Ha Hb Hbr Hs Hsw.
  destruct (reach_good tr d Hr) as (rs & k & h & Hg).
  destruct (calc_facts d nfc c rnd tch r d' rs k h Hg Hb Hbr Hins Hs Hsw) as (q & q' & m & Hq & Hn & Hok & Hok' & Ec & Hc & Hd & rs' & Hrs' & Hq').
  destruct (q_uniq d rs k h q x v Hg Hq Hx ltac:(congruence)) as [Ex Ev].
  pose proof (q_type q Hok) as Hty. rewrite Ex in Hty. unfold is_hotp in Ht.
  destruct Hc as [(Htt & _)|(_ & Hlt & Em & Eq')]; [exfalso; rewrite Hty, Ht in Htt; discriminate|].
  change (be (r_chal q)) with (ctr_of q) in Hlt, Em. rewrite Ev in Hlt, Em. rewrite Hd, Em, Ex. split; [reflexivity|]. split; [assumption|].
  exists rs', q'. split; [apply ok_records; assumption|]. split; [assumption|]. split; [congruence|].
  rewrite Eq'. destruct (rechal_cred q m Hok ltac:(rewrite Em; apply zlen_to_be)) as (_ & _ & ->). rewrite Em, be_to_be. apply Z.mod_small.
  split; [|exact Hlt]. rewrite <- Ev. assert (all_bytes (slice 133 8 q)) as Hcb by (apply all_bytes_slice, Hok). pose proof (be_nonneg _ Hcb) as Hp. change (be (slice 133 8 q)) with (ctr_of q) in Hp. lia.
Qed.

(** C14.  The counter (for TOTP: the last accepted challenge) of a credential never goes back, whatever
    happens: commands, touches, storage errors, power cuts, renaming. *)
Theorem C14_counter_never_decreases : forall tr0 d tr d' x v t',
  reach tr0 d -> hist d tr d' -> tr_ok tr -> holds_ctr d x v -> follow (cr_name x) tr = Some t' ->
  exists v', v <= v' /\ holds_ctr d' (mkCred t' (cr_key x) (cr_prop x)) v'.
Proof.
  intros tr0 d tr d' x v t' Hr H Ht (rs1 & q & Hrec & Hq & <- & <-) Hf.
  destruct (reach_good tr0 d Hr) as (rs & k & h & Hg). assert (rs1 = rs) as -> by (eapply recs_uniq; [apply Hg|exact Hrec]).
  destruct (follow_ctr _ _ _ Hsha1 Hsha256 Hsha512 junk Hjunk Hjunkb d tr d' rs k h q t' Hg H Ht Hq Hf) as (rs' & k' & q' & Hg' & Hq' & Ec & Hle).
  exists (ctr_of q'). split; [assumption|]. exists rs', q'. split; [apply ok_records, Hg'|]. split; [assumption|]. split; [exact Ec|reflexivity].
Qed.

(** C14.  Hence two successful calculations of the same HOTP credential, however far apart and with
    whatever in between, answer codes for strictly increasing counters. *)
Theorem C14_counter_never_reused : forall tr0 d x nfc1 c1 rnd1 tch1 r1 d1 tr d2 t' nfc2 c2 rnd2 tch2 r2 d3 v,
  reach tr0 d -> holds_ctr d x v -> is_hotp x ->
  c_ins c1 = 0xA2 -> arg1 c1 = cr_name x -> ev_ok (Cmd nfc1 c1 [] rnd1 tch1) ->
  step d (Cmd nfc1 c1 [] rnd1 tch1) = Some (Resp r1, d1) -> r_sw r1 = 0x9000 ->
  hist d1 tr d2 -> tr_ok tr -> follow (cr_name x) tr = Some t' ->
  c_ins c2 = 0xA2 -> arg1 c2 = t' -> ev_ok (Cmd nfc2 c2 [] rnd2 tch2) ->
  step d2 (Cmd nfc2 c2 [] rnd2 tch2) = Some (Resp r2, d3) -> r_sw r2 = 0x9000 ->
  exists n1 n2, n1 < n2 < 2 ^ 64 /\ r_data r1 = code_resp (c_p2 c1 =? 1) x (to_be 8 n1) /\
    r_data r2 = code_resp (c_p2 c2 =? 1) (mkCred t' (cr_key x) (cr_prop x)) (to_be 8 n2).
Proof.
  intros tr0 d x nfc1 c1 rnd1 tch1 r1 d1 tr d2 t' nfc2 c2 rnd2 tch2 r2 d3 v Hr Hx Ht Hi1 Ha1 [Hb1 Hbr1] Hs1 Hw1 Hh Htr Hf Hi2 Ha2 [Hb2 Hbr2] Hs2 Hw2.
  destruct (C14_calculate_uses_next_counter tr0 d x v nfc1 c1 rnd1 tch1 r1 d1 Hr Hx Ht Hi1 Ha1 Hb1 Hbr1 Hs1 Hw1) as (E1 & L1 & Hx1).
  assert (reach (tr0 ++ [(Cmd nfc1 c1 [] rnd1 tch1, Resp r1)]) d1) as Hr1.
  { destruct Hr as (Hto & rnd & Hho). split; [apply Forall_app; split; [assumption|constructor; [split; assumption|constructor]]|].
    exists rnd. eapply hist_app; [eassumption|]. econstructor; [eassumption|constructor]. }
  destruct (C14_counter_never_decreases _ d1 tr d2 x (v + 1) t' Hr1 Hh Htr Hx1 Hf) as (v' & Hle & Hx2).
  assert (reach ((tr0 ++ [(Cmd nfc1 c1 [] rnd1 tch1, Resp r1)]) ++ tr) d2) as Hr2.
  { destruct Hr1 as (Hto & rnd & Hho). split; [apply Forall_app; split; assumption|]. exists rnd. eapply hist_app; eassumption. }
  destruct (C14_calculate_uses_next_counter _ d2 _ v' nfc2 c2 rnd2 tch2 r2 d3 Hr2 Hx2 Ht Hi2 Ha2 Hb2 Hbr2 Hs2 Hw2) as (E2 & L2 & _).
  exists (v + 1), (v' + 1). split; [lia|]. split; assumption.
Qed.

(** C14.  An exhausted counter is refused. *)
Theorem C14_exhausted_counter_refused : forall tr d x nfc c rnd tch r d',
  reach tr d -> holds_ctr d x (2 ^ 64 - 1) -> is_hotp x -> c_ins c = 0xA2 -> arg1 c = cr_name x ->
  all_bytes (c_data c) -> all_bytes rnd ->
  step d (Cmd nfc c [] rnd tch) = Some (Resp r, d') -> r_sw r <> 0x9000.
Proof.
  intros tr d x nfc c rnd tch r d' Hr Hx Ht Hins Ha Hb Hbr Hs Hsw.
  destruct (C14_calculate_uses_next_counter tr d x _ nfc c rnd tch r d' Hr Hx Ht Hins Ha Hb Hbr Hs Hsw) as (_ & H & _). lia.
Qed.

(** C14, C18.  A touch that types a HOTP code types the decimal code of the next counter, which is stored. *)
Lemma digits_spec n z : length (digits_of n z) = n /\ is_decimal (digits_of n z) /\ (0 <= z -> decimal (digits_of n z) = z mod 10 ^ Z.of_nat n).
Proof.
  revert z; induction n as [|n IH]; intros z.
  - cbn. split; [reflexivity|]. split; [constructor|]. intros. rewrite Z.mod_1_r. reflexivity.
  - cbn [digits_of]. destruct (IH (z / 10)) as (H1 & H2 & H3). split; [rewrite app_length; cbn [length]; lia|].
    pose proof (Z.mod_pos_bound z 10 ltac:(lia)). split.
    + apply Forall_app. split; [assumption|]. constructor; [lia|constructor].
    + intros Hz. unfold decimal in *. rewrite fold_left_app. cbn [fold_left]. rewrite H3 by (apply Z.div_pos; lia).
      replace (Z.of_nat (S n)) with (Z.of_nat n + 1) by lia. rewrite Z.pow_add_r by lia. change (10 ^ 1) with 10.
      assert (0 < 10 ^ Z.of_nat n) by (apply Z.pow_pos_nonneg; lia).
      rewrite (Z.mul_comm (10 ^ Z.of_nat n) 10). rewrite Z.rem_mul_r by lia. lia.
Qed.
Theorem C14_touch_uses_next_counter : forall tr d kind t d',
  reach tr d -> step d (Touch kind []) = Some (Typed (Some t), d') ->
  sl_type (the_slot kind (d_ram d)) = 1 ->
  exists x v code, holds_ctr d x v /\ is_hotp x /\ v + 1 < 2 ^ 64 /\ holds_ctr d' x (v + 1) /\
    t = code ++ (if negb (sl_enter (the_slot kind (d_ram d)) =? 0) then [13] else []) /\
    zlen code = ndigits x /\ is_decimal code /\ decimal code = dt (mac x (to_be 8 (v + 1))) mod 10 ^ ndigits x.
Proof.
  intros tr d kind t d' Hr Hs Hty. destruct (reach_good tr d Hr) as (rs & k & h & Hg).
  pose proof (touch_spec _ _ _ Hsha1 Hsha256 Hsha512 junk Hjunk kind [] d rs k h Hg) as H.
  cbn [OathSpec.step] in Hs. destruct (touch_run _ _ _ _ _ _ d) as [[[tt| | |] s'] e']; try contradiction. injection Hs as -> <-.
  destruct H as (-> & rs' & Hty' & _ & Hg' & _). cbn [d_fs].
  inversion Hty' as [| | |j hh code F' L' rs1 Hto r Hoff Hj Hl Hht Hlt ch Hhm Htr Hst]; subst; try (exfalso; match goal with H : sl_type _ = PASS_SLOT_OFF |- _ => rewrite Hty in H; discriminate H | H : sl_type _ = PASS_SLOT_STATIC |- _ => rewrite Hty in H; discriminate H end).
  assert (rec_ok r) as Hok by (apply oks_nth; [apply Hg|assumption]).
  destruct Hst as [(_ & _ & _ & Hne)|(HL & Hrs' & Hok' & _)]; [contradiction|].
  assert (zlen ch = 8) as Hz by apply zlen_to_be.
  destruct (rechal_cred r ch Hok Hz) as (E1 & E2 & E3).
  assert (rec_ok (splice r 133 ch)) as Hok2 by (apply rechal_ok; [assumption|assumption|apply to_be_bytes]).
  rewrite (hmac_mac hmac_sha1 hmac_sha256 hmac_sha512 (splice r 133 ch) ch Hok2), E1 in Hhm. injection Hhm as <-.
  destruct (mac_ok hmac_sha1 hmac_sha256 hmac_sha512 Hsha1 Hsha256 Hsha512 r ch Hok) as [Hbm Hzm].
  destruct (trunc_dt hmac_sha1 hmac_sha256 hmac_sha512 Hsha1 Hsha256 Hsha512 junk (mac (cred_of r) ch) Hbm ltac:(lia)) as [Hd Hdr].
  rewrite Hd in Htr. injection Htr as <-.
  destruct (digits_spec (Z.to_nat (r_digits r)) (dt (mac (cred_of r) ch))) as (D1 & D2 & D3).
  assert (be (to_be 4 (dt (mac (cred_of r) ch))) = dt (mac (cred_of r) ch)) as Ebe.
  { rewrite be_to_be. apply Z.mod_small. change (256 ^ Z.of_nat 4) with (2 ^ 32). lia. }
  rewrite Ebe.
  assert (ndigits (cred_of r) = r_digits r) as En.
  { unfold ndigits, r_digits. change (cr_key (cred_of r)) with (slice 66 (r_key_len r) r). rewrite nth_slice by lia.
    destruct Hok as (_ & _ & _ & Hk & _). destruct (Nat.ltb_spec 1 (Z.to_nat (r_key_len r))); [reflexivity|lia]. }
  assert (4 <= r_digits r <= 8) as Hdig by apply Hok.
  exists (cred_of r), (ctr_of r), (digits_of (Z.to_nat (r_digits r)) (dt (mac (cred_of r) ch))).
  split; [exists rs, r; split; [apply ok_records, Hg|]; split; [apply used_nth; assumption|split; reflexivity]|].
  split; [unfold is_hotp; rewrite <- (q_type r Hok); exact Hht|]. split; [assumption|].
  split.
  { exists rs', (splice r 133 ch). split; [apply ok_records; assumption|]. split; [|split; [assumption|]].
    - rewrite Hrs'. apply filter_In. split; [apply in_upd_same; unfold zlen in Hj; lia|]. rewrite E2. exact Hl.
    - rewrite E3. unfold ch. rewrite be_to_be. apply Z.mod_small. split; [|exact Hlt].
      assert (all_bytes (slice 133 8 r)) as Hcb by (apply all_bytes_slice, Hok). pose proof (be_nonneg _ Hcb) as Hp. change (be (slice 133 8 r)) with (ctr_of r) in Hp. lia. }
  split; [reflexivity|]. rewrite En. split; [unfold zlen; lia|]. split; [assumption|]. rewrite D3 by lia. rewrite Z2Nat.id by lia. reflexivity.
Qed.
End Oath.

(** ** Examples: a device with two credentials meets the hypotheses above. *)
Lemma run_reach evs : runs boot0 evs = true -> reach h1 h2 h5 junk0 (tr_of boot0 evs) (dev_of boot0 evs).
Proof. intros H. destruct (runs_ok evs boot0 H) as [H1 H2]. split; [exact H1|]. eexists. exact H2. Qed.
Example dev0_reached : reach h1 h2 h5 junk0 tr0 dev0 /\ authorised dev0.
Proof. split; [apply (run_reach setup); vm_compute; reflexivity|vm_compute; reflexivity]. Qed.
Example dev0_holds : holds dev0 [mkCred nA kH 0; mkCred nB kT 1].
Proof. exists (the_records dev0). split; [apply recsb_ok; vm_compute; reflexivity|vm_compute; reflexivity]. Qed.
Example dev0_ctr : holds_ctr dev0 (mkCred nA kH 0) 5 /\ is_hotp (mkCred nA kH 0).
Proof.
  split; [|reflexivity]. exists (the_records dev0), (nth 0 (the_records dev0) []). split; [apply recsb_ok; vm_compute; reflexivity|].
  split; [left; vm_compute; reflexivity|]. split; vm_compute; reflexivity.
Qed.
(** C13: PUT of a new, of a used name; DELETE of a missing, of a present name; RENAME; PUT again *)
Example C13_ex : put_wf nC kT (Some 2) None /\ c_data (c_put nC kT [0x78; 2]) = put_data nC kT (Some 2) None /\
  sws (tr_of dev0 [cmd (c_put nC kT [0x78; 2]); cmd (c_put nA kT []); cmd (c_del [1]); cmd (c_del nA); cmd (c_ren nB nC); cmd (c_ren nB nA);
                   cmd (c_put nB kH [])]) = [0x9000; 0x6985; 0x6984; 0x9000; 0x6985; 0x9000; 0x9000].
Proof. split; [|split; vm_compute; reflexivity]. unfold put_wf. vm_compute. intuition (try discriminate; auto). Qed.
(** C14: two codes, with a failed command, a rename and a power cut in between *)
Example C14_ex : map snd (tr_of dev0 [cmd (c_calc nA [])]) = [Resp (mkR [0x76; 5; 6; 6; 0; 0; 0] 0x9000)] /\
  let evs := [cmd (c_del [1]); cmd (c_ren nA nC); CutCmd false (c_put nA kT []) [] [] [] 0; cmd c_select] in
  follow nA (tr_of dev0 evs) = Some nC /\
  map snd (tr_of (dev_of dev0 (cmd (c_calc nA []) :: evs)) [cmd (c_calc nC [])]) = [Resp (mkR [0x76; 5; 6; 7; 0; 0; 0] 0x9000)].
Proof. vm_compute. repeat split. Qed.
Example C14_touch_ex : sl_type (the_slot 1 (d_ram (dev_of dev0 [cmd (c_def 1 nA)]))) = 1 /\
  map snd (tr_of dev0 [cmd (c_def 1 nA); Touch 1 []]) = [Resp (mkR [] 0x9000); Typed (Some [54; 54; 51; 50; 57; 54; 13])].
Proof. vm_compute. repeat split. Qed.
(** A counter just below the limit would take 2^64 commands to reach; the device starts any 32-bit value. *)
Example C14_start_ex : map snd (tr_of (dev_of boot0 [cmd c_select; cmd (c_put nA kH [0x7A; 4; 255; 255; 255; 255])]) [cmd (c_calc nA [])]) =
  [Resp (mkR [0x76; 5; 6; 0; 0; 0; 0] 0x9000)].
Proof. vm_compute. reflexivity. Qed.
(** Without the hypothesis that no storage error happens, the same code can be given twice: the result of
    storing the counter is ignored (oath.c:397-398 and 496-497). *)
Theorem C14_code_reused_after_write_error_refuted : exists tr d r d1 d2, reach h1 h2 h5 junk0 tr d /\
  step h1 h2 h5 junk0 d (Cmd false (c_calc nA []) [FNone; FNone; FEarly] [] []) = Some (Resp r, d1) /\ r_sw r = 0x9000 /\
  step h1 h2 h5 junk0 d1 (cmd (c_calc nA [])) = Some (Resp r, d2).
Proof.
  exists tr0, dev0. pose (d1 := dev_of dev0 [Cmd false (c_calc nA []) [FNone; FNone; FEarly] [] []]).
  exists (mkR [0x76; 5; 6; 6; 0; 0; 0] 0x9000), d1, (dev_of d1 [cmd (c_calc nA [])]).
  split; [apply dev0_reached|]. split; [|split; [reflexivity|]]; apply step_of; vm_compute; reflexivity.
Qed.

Print Assumptions C65_oath_no_undefined_behaviour.
Print Assumptions C13_store_is_the_expected_map.
Print Assumptions C13_put_status.
Print Assumptions C13_delete_status.
Print Assumptions C13_rename_status.
Print Assumptions C14_calculate_uses_next_counter.
Print Assumptions C14_counter_never_decreases.
Print Assumptions C14_counter_never_reused.
Print Assumptions C14_exhausted_counter_refused.
Print Assumptions C14_touch_uses_next_counter.
