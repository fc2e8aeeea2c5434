(** Property theorems of the OATH applet: LIST and CALCULATE ALL return every credential exactly once over their
    segments (C17, C69); credentials that only accept increasing challenges (C16). *)
From Verif Require Import Sys Apdu Applet Pass Oath OathProofs OathCmds OathEff OathSpec OathPres OathHist OathStep OathFacts OathEx PropOath.
Open Scope string_scope. Open Scope list_scope. Open Scope Z_scope.

(** One segment of LIST *)
Lemma zlen_rname r : zlen r = REC /\ all_bytes r /\ r_name_len r <= 64 -> zlen (slice 1 (r_name_len r) r) = r_name_len r.
Proof. intros (Hz & Hb & Hn). rewrite zlen_slice by (pose proof (rec_name_len r Hb); lia). unfold REC in Hz. pose proof (rec_name_len r Hb). lia. Qed.
Lemma lent_entry r : rec_ok r -> lent r = list_entry (cred_of r).
Proof.
  intros (Hz & Hb & Hn & Hk & _). unfold lent, list_entry. change (cr_name (cred_of r)) with (slice 1 (r_name_len r) r).
  change (cr_key (cred_of r)) with (slice 66 (r_key_len r) r). rewrite nth_slice by lia.
  destruct (Nat.ltb_spec 0 (Z.to_nat (r_key_len r))); [|lia]. rewrite (zlen_rname r) by (split; [assumption|split; assumption]). reflexivity.
Qed.
Lemma zlen_entry r : rec_ok r -> zlen (list_entry (cred_of r)) = 3 + r_name_len r.
Proof.
  intros Hr. rewrite <- lent_entry by assumption. destruct Hr as (Hz & Hb & Hn & _). unfold lent, rname. rewrite zlen_app.
  rewrite (zlen_rname r) by (split; [assumption|split; assumption]). reflexivity.
Qed.
Lemma lpage_spec le rs : 67 <= le -> Forall rec_ok rs -> forall acc sw a rest, zlen acc <= le ->
  lpage le rs acc = (sw, a, rest) ->
  exists dn, rs = dn ++ rest /\ a = acc ++ concat (map list_entry (creds dn)) /\ zlen a <= le /\
    (rest = [] /\ sw = 0x9000 \/ rest <> [] /\ sw = 0x61FF /\ (acc = [] -> dn <> [])).
Proof.
  intros Hle. induction rs as [|r t IH]; intros Hok acc sw a rest Hacc; cbn [lpage].
  - intros [= <- <- <-]. exists []. cbn [creds filter map concat]. split; [reflexivity|]. split; [symmetry; apply app_nil_r|]. split; [assumption|]. left; split; reflexivity.
  - apply Forall_cons_iff in Hok as [Hr Hok]. destruct (Z.ltb_spec le (zlen acc + 3 + r_name_len r)) as [Hlt|Hge].
    + intros [= <- <- <-]. exists []. cbn [creds filter map concat]. split; [reflexivity|]. split; [symmetry; apply app_nil_r|]. split; [assumption|].
      right. split; [discriminate|]. split; [reflexivity|]. intros ->. change (zlen (@nil Z)) with 0 in Hlt. destruct Hr as (_ & _ & Hn & _). lia.
    + intros E. pose proof (zlen_entry r Hr) as Hz. destruct (islive r) eqn:El.
      * destruct (IH Hok (acc ++ lent r) sw a rest) as (dn & -> & -> & Hza & Hc); [rewrite lent_entry, zlen_app by assumption; lia|assumption|].
        exists (r :: dn). split; [reflexivity|]. rewrite creds_cons, (creds_live r El). cbn [app map concat]. rewrite <- app_assoc, <- lent_entry by assumption.
        split; [reflexivity|]. split; [rewrite <- app_assoc in Hza; exact Hza|]. destruct Hc as [Hc|(H1 & H2 & _)]; [left; assumption|right]. split; [assumption|]. split; [assumption|discriminate].
      * destruct (IH Hok acc sw a rest Hacc E) as (dn & -> & -> & Hza & Hc).
        exists (r :: dn). split; [reflexivity|]. rewrite creds_cons, (creds_dead r El). cbn [app].
        split; [reflexivity|]. split; [exact Hza|]. destruct Hc as [Hc|(H1 & H2 & _)]; [left; assumption|right]. split; [assumption|]. split; [assumption|discriminate].
Qed.

Section Oath.
Variables hmac_sha1 hmac_sha256 hmac_sha512 : bytes -> bytes -> bytes.
Hypothesis Hsha1 : digest_ok 20 hmac_sha1.
Hypothesis Hsha256 : digest_ok 32 hmac_sha256.
Hypothesis Hsha512 : digest_ok 64 hmac_sha512.
Variable junk : bytes.
Hypothesis Hjunk : zlen junk = 141.
Hypothesis Hjunkb : all_bytes junk.
Notation step := (step hmac_sha1 hmac_sha256 hmac_sha512 junk).
Notation hist := (hist hmac_sha1 hmac_sha256 hmac_sha512 junk).
Notation code_resp := (code_resp hmac_sha1 hmac_sha256 hmac_sha512).
Notation reach := (reach hmac_sha1 hmac_sha256 hmac_sha512 junk).

(** A host that sends [c], and then SEND REMAINING (A5) as long as the status is 61FF: the segments received
    and the final status. *)
Definition more (c : capdu) : capdu := mkC (c_cla c) 0xA5 0 (c_p2 c) [] (c_le c).
Inductive paging (nfc : bool) : dev -> capdu -> list bytes -> Z -> dev -> Prop :=
| pg_last d c rnd tch r d' : step d (Cmd nfc c [] rnd tch) = Some (Resp r, d') -> r_sw r <> 0x61FF ->
    paging nfc d c [r_data r] (r_sw r) d'
| pg_more d c rnd tch r d1 pages sw d' : step d (Cmd nfc c [] rnd tch) = Some (Resp r, d1) -> r_sw r = 0x61FF ->
    paging nfc d1 (more c) pages sw d' -> paging nfc d c (r_data r :: pages) sw d'.

Lemma list_step nfc d c rs k h rnd tch r d' : good d rs k h -> authorised d -> 67 <= c_le c -> all_bytes (c_data c) ->
  c_p1 c = 0 -> c_p2 c = 0 -> (c_ins c = 0xA1 \/ c_ins c = 0xA5 /\ o_rem (d_ram d) = REMAINING_LIST) ->
  step d (Cmd nfc c [] rnd tch) = Some (Resp r, d') ->
  let i := if c_ins c =? 0xA5 then Z.to_nat (o_idx (d_ram d)) else O in
  exists dn rest, skipn i rs = dn ++ rest /\ good d' rs k h /\ authorised d' /\ d_fs d' = d_fs d /\
    r_data r = concat (map list_entry (creds dn)) /\ zlen (r_data r) <= c_le c /\
    (rest = [] /\ r_sw r = 0x9000 \/
     rest <> [] /\ r_sw r = 0x61FF /\ dn <> [] /\ o_rem (d_ram d') = REMAINING_LIST /\ skipn (Z.to_nat (o_idx (d_ram d'))) rs = rest).
Proof.
  intros Hg Ha Hle Hb Hp1 Hp2 Hins Hs i.
  destruct (one_good _ _ _ Hsha1 Hsha256 Hsha512 junk Hjunk Hjunkb d nfc c rnd tch rs k h Hg Hb) as (r1 & d1 & oc & rs' & k' & Hs1 & Hg' & (F' & L' & T' & He & HF) & Hsw).
  rewrite Hs in Hs1. injection Hs1 as <- <-. unfold authorised in Ha.
  assert (c_ins c = 0xA1 \/ c_ins c = 0xA5) as Hi2 by tauto.
  assert (Hi : i = Z.to_nat (o_idx (at_start c (d_ram d)))).
  { unfold i, at_start. change OATH_INS_SEND_REMAINING with 0xA5. destruct Hi2 as [-> | ->]; reflexivity. }
  pose proof Hg as ((_ & Hoks & _) & _ & Hinv & _).
  assert (o_idx (at_start c (d_ram d)) <= zlen rs) as Hidx.
  { unfold at_start. change OATH_INS_SEND_REMAINING with 0xA5. destruct Hins as [-> | [-> Hrem]]; cbn [Z.eqb Pos.eqb o_idx oset_idx]; [apply zlen_nonneg|].
    destruct Hinv as [_ [E|E]]; [congruence|exact E]. }
  inversion He; subst;
    try (exfalso; first [discriminate | congruence | match goal with H : [] <> [] |- _ => apply H; reflexivity end
      | match goal with H : c_ins c = _ |- _ => rewrite H in Hi2; destruct Hi2; discriminate end
      | match goal with H : c_ins c = _ /\ _ \/ c_ins c = _ /\ _ |- _ => destruct H as [[H _]|[H Hr]]; [rewrite H in Hi2; destruct Hi2; discriminate|]; destruct Hins as [Hx|[_ Hx]]; [rewrite H in Hx; discriminate|rewrite Hx in Hr; destruct Hr; discriminate] end
      | match goal with H : c_p1 c <> 0 \/ c_p2 c <> 0 |- _ => destruct H; congruence end
      | match goal with H : ~ In (c_ins c) _ |- _ => apply H; destruct Hi2 as [-> | ->]; cbn; tauto end
      | match goal with H : c_ins c = OATH_INS_SEND_REMAINING |- _ => destruct Hins as [Hx|[_ Hx]]; [rewrite H in Hx; discriminate Hx|congruence] end ]).
  match goal with H : lpage _ _ _ = _ |- _ => rename H into Hp end.
  assert (Forall rec_ok (skipn (Z.to_nat (o_idx (at_start c (d_ram d)))) rs')) as Hoks2.
  { apply Forall_forall. intros x Hx. eapply Forall_forall; [exact Hoks|]. rewrite <- (firstn_skipn (Z.to_nat (o_idx (at_start c (d_ram d)))) rs'). apply in_or_app; right; exact Hx. }
  destruct (lpage_spec (c_le c) _ Hle Hoks2 [] sw _ rest ltac:(change (zlen (@nil Z)) with 0; lia) Hp) as (dn & E1 & E2 & E3 & Hc).
  exists dn, rest. rewrite Hi. split; [assumption|]. split; [assumption|].
  match goal with H : d_ram d' = _ |- _ => rename H into Hram end.
  assert (zlen rest <= zlen rs') as Hrl.
  { pose proof (f_equal zlen E1) as Hz. rewrite zlen_app in Hz. unfold zlen in Hz at 1. rewrite skipn_length in Hz. pose proof (zlen_nonneg dn). unfold zlen in *. lia. }
  split; [unfold authorised; rewrite Hram; exact Ha|]. split; [symmetry; assumption|]. split; [exact E2|]. split; [exact E3|].
  destruct Hc as [[-> ->]|(Hne & -> & Hdn)]; [left; split; [reflexivity|assumption]|right].
  split; [assumption|]. split; [assumption|]. split; [apply Hdn; reflexivity|]. rewrite Hram. cbn [o_rem oset_rem o_idx oset_idx].
  destruct (Z.eqb_spec (zlen rest) 0) as [E0|_]; [destruct rest; [contradiction|rewrite zlen_cons in E0; pose proof (zlen_nonneg rest); lia]|].
  split; [reflexivity|].
  set (pre := firstn (Z.to_nat (o_idx (at_start c (d_ram d)))) rs' ++ dn).
  assert (Z.to_nat (zlen (pre ++ rest) - zlen rest) = length pre) as Ei.
  { rewrite zlen_app. unfold zlen. lia. }
  assert (rs' = pre ++ rest) as Ers by (unfold pre; rewrite <- app_assoc, <- E1, firstn_skipn; reflexivity).
  rewrite Ers at 1. rewrite Ei. rewrite Ers. rewrite skipn_app, Nat.sub_diag, skipn_all. reflexivity.
Qed.

Lemma list_rest nfc rs k h : forall n d c, good d rs k h -> authorised d -> 67 <= c_le c -> all_bytes (c_data c) -> c_p1 c = 0 -> c_p2 c = 0 ->
  (c_ins c = 0xA1 \/ c_ins c = 0xA5 /\ o_rem (d_ram d) = REMAINING_LIST) ->
  let rest := skipn (if c_ins c =? 0xA5 then Z.to_nat (o_idx (d_ram d)) else O) rs in (length rest <= n)%nat ->
  exists pages d', paging nfc d c pages 0x9000 d' /\ concat pages = concat (map list_entry (creds rest)) /\
    Forall (fun p => zlen p <= c_le c) pages /\ d_fs d' = d_fs d.
Proof.
  induction n as [|n IH]; intros d c Hg Ha Hle Hb Hp1 Hp2 Hins rest Hn.
  all: destruct (one_good _ _ _ Hsha1 Hsha256 Hsha512 junk Hjunk Hjunkb d nfc c [] [] rs k h Hg Hb) as (r & d1 & _ & _ & _ & Hs & _).
  all: destruct (list_step nfc d c rs k h [] [] r d1 Hg Ha Hle Hb Hp1 Hp2 Hins Hs) as (dn & rst & E & Hg1 & Ha1 & HF & Hd & Hz & Hc).
  all: fold rest in E; destruct Hc as [[-> Hsw]|(Hne & Hsw & Hdn & Hrem & Hsk)].
  1,3: (exists [r_data r], d1; rewrite <- Hsw; split; [eapply pg_last; [eassumption|rewrite Hsw; discriminate]|];
    rewrite app_nil_r in E; cbn [concat]; rewrite app_nil_r, E; split; [exact Hd|]; split; [constructor; [assumption|constructor]|assumption]).
  - exfalso. rewrite E in Hn. destruct dn; [contradiction|cbn [app length] in Hn; lia].
  - assert (length rst <= n)%nat as Hn1. { rewrite E in Hn. destruct dn; [contradiction|cbn [app length] in Hn; rewrite app_length in Hn; lia]. }
    destruct (IH d1 (more c) Hg1 Ha1 Hle) as (pages & d' & Hp & Hcat & Hall & HF').
    + constructor.
    + reflexivity.
    + exact Hp2.
    + right; split; [reflexivity|assumption].
    + cbn [more c_ins Z.eqb Pos.eqb]. rewrite Hsk. exact Hn1.
    + cbn [more c_ins Z.eqb Pos.eqb] in Hcat. rewrite Hsk in Hcat. exists (r_data r :: pages), d'.
      split; [eapply pg_more; eassumption|]. split; [|split; [constructor; assumption|congruence]].
      cbn [concat]. rewrite Hcat, Hd, E, creds_app, map_app, concat_app. reflexivity.
Qed.

(** C17.  LIST, followed by SEND REMAINING until the final status, returns one entry for each stored credential,
    in slot order and nothing else, in segments of at most Le bytes (Le at least 67, the longest entry), and
    changes nothing in the storage. *)
Theorem C17_list_returns_every_credential_once : forall tr d A nfc c, reach tr d -> authorised d -> holds d A ->
  c_ins c = 0xA1 -> c_p1 c = 0 -> c_p2 c = 0 -> all_bytes (c_data c) -> 67 <= c_le c ->
  exists pages d', paging nfc d c pages 0x9000 d' /\ concat pages = concat (map list_entry A) /\
    Forall (fun p => zlen p <= c_le c) pages /\ d_fs d' = d_fs d.
Proof.
  intros tr d A nfc c Hr Ha HA Hins Hp1 Hp2 Hb Hle. destruct (reach_good _ _ _ Hsha1 Hsha256 Hsha512 junk Hjunk Hjunkb tr d Hr) as (rs & k & h & Hg).
  rewrite (holds_creds d rs k h A Hg HA).
  destruct (list_rest nfc rs k h (length rs) d c Hg Ha Hle Hb Hp1 Hp2 (or_introl Hins)) as (pages & d' & H).
  - rewrite Hins. cbn [Z.eqb Pos.eqb skipn]. lia.
  - rewrite Hins in H. cbn [Z.eqb Pos.eqb skipn] in H. exists pages, d'. exact H.
Qed.

(** ** CALCULATE ALL *)
(** The entry of credential [x] in the answer to CALCULATE ALL with challenge [m]: name, then the code; or
    only the number of digits for a HOTP credential (tag 77) and for one that needs a touch (tag 7C). *)
Definition all_entry (trunc : bool) (m : bytes) (x : cred) : bytes :=
  [0x71; zlen (cr_name x)] ++ cr_name x ++
  (if Z.land (nth 0 (cr_key x) 0) 0xF0 =? 0x10 then [0x77; 1; ndigits x]
   else if negb (Z.land (cr_prop x) 2 =? 0) then [0x7C; 1; ndigits x]
   else code_resp trunc x m).
(** Credentials whose challenge must increase, among those CALCULATE ALL computes *)
Definition increasing (x : cred) : Prop := is_totp x /\ Z.land (cr_prop x) 1 <> 0.
Definition needs_touch (x : cred) : Prop := Z.land (cr_prop x) 2 <> 0.

Lemma q_digits r : rec_ok r -> ndigits (cred_of r) = r_digits r.
Proof.
  intros Hok. unfold ndigits, r_digits. change (cr_key (cred_of r)) with (slice 66 (r_key_len r) r). rewrite nth_slice by lia.
  destruct Hok as (_ & _ & _ & Hk & _). destruct (Nat.ltb_spec 1 (Z.to_nat (r_key_len r))); [reflexivity|lia].
Qed.
Lemma cent_entry tr m r : rec_ok r -> islive r = true -> cent hmac_sha1 hmac_sha256 hmac_sha512 tr m r = all_entry tr m (cred_of r).
Proof.
  intros Hr Hl. unfold cent, all_entry. rewrite Hl. change (cr_name (cred_of r)) with (slice 1 (r_name_len r) r).
  assert (zlen (slice 1 (r_name_len r) r) = r_name_len r) as -> by (apply zlen_rname; destruct Hr as (? & ? & ? & _); tauto).
  rewrite <- (q_type r Hr), (q_digits r Hr). change (cr_prop (cred_of r)) with (r_prop r). fold (r_touch r).
  rewrite (answer_code _ _ _ Hsha1 Hsha256 Hsha512 junk tr r m Hr). reflexivity.
Qed.
Lemma zlen_all_entry tr m r : rec_ok r -> zlen (all_entry tr m (cred_of r)) <= 2 + r_name_len r + 2 + 1 + (if tr then 4 else 64).
Proof.
  intros Hr. unfold all_entry. change (cr_name (cred_of r)) with (slice 1 (r_name_len r) r). rewrite !zlen_app.
  assert (zlen (slice 1 (r_name_len r) r) = r_name_len r) as -> by (apply zlen_rname; destruct Hr as (? & ? & ? & _); tauto).
  change (zlen [0x71; r_name_len r]) with 2.
  assert (0 <= (if tr then 4 else 64)) by (destruct tr; lia).
  destruct (_ =? 0x10). { change (zlen [0x77; 1; ndigits (cred_of r)]) with 3. lia. }
  destruct (negb _). { change (zlen [0x7C; 1; ndigits (cred_of r)]) with 3. lia. }
  destruct (mac_ok hmac_sha1 hmac_sha256 hmac_sha512 Hsha1 Hsha256 Hsha512 r m Hr) as [_ Hm].
  unfold OathSpec.code_resp. destruct tr; rewrite zlen_app.
  - rewrite zlen_to_be. change (zlen [0x76; 5; ndigits (cred_of r)]) with 3. lia.
  - match goal with |- context [zlen (?a :: ?b :: ?c :: nil)] => change (zlen [a; b; c]) with 3 end. lia.
Qed.
Lemma cpage_spec le tr m rs : 133 <= le -> Forall rec_ok rs -> forall acc o dn rest, zlen acc <= le ->
  cpage hmac_sha1 hmac_sha256 hmac_sha512 le tr m rs acc = (o, dn, rest) ->
  match o with
  | Ret (sw, a) => exists dn0, rs = dn0 ++ rest /\ Forall2 (fun r r' => cstep m r = Some r') dn0 dn /\
      a = acc ++ concat (map (all_entry tr m) (creds dn0)) /\ zlen a <= le /\
      (rest = [] /\ sw = 0x9000 \/ rest <> [] /\ sw = 0x61FF /\ (acc = [] -> dn0 <> []))
  | Exc w => w = 0x6982 /\ Exists (fun r => cstep m r = None) rs
  | _ => False
  end.
Proof.
  intros Hle. induction rs as [|r t IH]; intros Hok acc o dn rest Hacc; cbn [cpage].
  - intros [= <- <- <-]. exists []. cbn [creds filter map concat]. split; [reflexivity|]. split; [constructor|]. split; [symmetry; apply app_nil_r|]. split; [assumption|]. left; split; reflexivity.
  - apply Forall_cons_iff in Hok as [Hr Hok]. destruct (Z.ltb_spec le (2 + r_name_len r + 2 + 1 + (if tr then 4 else 64) + zlen acc)) as [Hlt|Hge].
    + intros [= <- <- <-]. exists []. cbn [creds filter map concat]. split; [reflexivity|]. split; [constructor|]. split; [symmetry; apply app_nil_r|]. split; [assumption|].
      right. split; [discriminate|]. split; [reflexivity|]. intros ->. change (zlen (@nil Z)) with 0 in Hlt. destruct Hr as (_ & _ & Hn & _). destruct tr; lia.
    + destruct (cstep m r) as [r'|] eqn:Ec.
      2:{ intros [= <- <- <-]. split; [reflexivity|]. left. exact Ec. }
      destruct (cpage _ _ _ le tr m t _) as [[o1 dn1] rest1] eqn:E. intros [= <- <- <-].
      pose proof (zlen_all_entry tr m r Hr) as Hz.
      assert (Hacc2 : zlen (acc ++ cent hmac_sha1 hmac_sha256 hmac_sha512 tr m r) <= le).
      { rewrite zlen_app. destruct (islive r) eqn:El; [rewrite cent_entry by assumption; lia|]. unfold cent; rewrite El. change (zlen (@nil Z)) with 0. lia. }
      specialize (IH Hok _ _ _ _ Hacc2 E). destruct o1 as [[sw a]|w| |]; try contradiction.
      * destruct IH as (dn0 & -> & HF & -> & Hza & Hc). exists (r :: dn0). split; [reflexivity|]. split; [constructor; assumption|].
        split; [|split; [exact Hza|]].
        -- rewrite <- app_assoc. f_equal. rewrite creds_cons. destruct (islive r) eqn:El.
           ++ rewrite (creds_live r El), cent_entry by assumption. reflexivity.
           ++ rewrite (creds_dead r El). unfold cent; rewrite El. reflexivity.
        -- destruct Hc as [Hc|(H1 & H2 & _)]; [left; assumption|right]. split; [assumption|]. split; [assumption|discriminate].
      * destruct IH as [-> HE]. split; [reflexivity|]. right. exact HE.
Qed.

(** The command that starts or continues a CALCULATE ALL with challenge [m] at the records [suf] *)
Definition at_all (d : dev) (c : capdu) (tr : bool) (m : bytes) (pre : list bytes) : Prop :=
  c_ins c = 0xA4 /\ c_p1 c = 0 /\ pre = [] /\ tr = (c_p2 c =? 1) /\ 1 <= zlen m <= 8 /\ (exists rest, c_data c = [0x74; zlen m] ++ m ++ rest) \/
  c_ins c = 0xA5 /\ pre <> [] /\ o_idx (d_ram d) = zlen pre /\ slice 0 (o_clen (d_ram d)) (o_cbuf (d_ram d)) = m /\
    remaining_eqb (o_rem (d_ram d)) REMAINING_CALC_TRUNC = tr /\ (o_rem (d_ram d) = REMAINING_CALC_FULL \/ o_rem (d_ram d) = REMAINING_CALC_TRUNC).

Lemma seg_inj (a b x y : bytes) : [OATH_TAG_CHALLENGE; zlen a] ++ a ++ x = [0x74; zlen b] ++ b ++ y -> a = b.
Proof.
  intros H. injection H as Hz H. assert (length a = length b) as Hl by (unfold zlen in Hz; lia).
  pose proof (f_equal (firstn (length a)) H) as Hf. rewrite firstn_app, firstn_all, Nat.sub_diag in Hf.
  rewrite Hl in Hf. rewrite firstn_app, firstn_all, Nat.sub_diag in Hf. cbn [firstn] in Hf. rewrite !app_nil_r in Hf. exact Hf.
Qed.

Lemma all_step nfc d c pre suf k h tr m rnd tch r d' : good d (pre ++ suf) k h -> authorised d -> 133 <= c_le c -> all_bytes (c_data c) ->
  (c_p2 c = 0 \/ c_p2 c = 1) -> at_all d c tr m pre ->
  step d (Cmd nfc c [] rnd tch) = Some (Resp r, d') ->
  r_sw r = 0x6982 /\ r_data r = [] /\ Exists (fun r => cstep m r = None) suf \/
  exists dn0 dn rest, suf = dn0 ++ rest /\ good d' (pre ++ dn ++ rest) k h /\ authorised d' /\ Forall2 (fun r r' => cstep m r = Some r') dn0 dn /\
    r_data r = concat (map (all_entry tr m) (creds dn0)) /\ zlen (r_data r) <= c_le c /\
    (rest = [] /\ r_sw r = 0x9000 \/
     rest <> [] /\ r_sw r = 0x61FF /\ dn0 <> [] /\ at_all d' (more c) tr m (pre ++ dn)).
Proof.
  intros Hg Ha Hle Hb Hp2 Hat Hs.
  destruct (one_good _ _ _ Hsha1 Hsha256 Hsha512 junk Hjunk Hjunkb d nfc c rnd tch _ k h Hg Hb) as (r1 & d1 & oc & rs' & k' & Hs1 & Hg' & (F' & L' & T' & He & HF) & Hsw).
  rewrite Hs in Hs1. injection Hs1 as <- <-. unfold authorised in Ha.
  assert (Hi2 : c_ins c = 0xA4 /\ c_p1 c = 0 \/ c_ins c = 0xA5 /\ (o_rem (d_ram d) = REMAINING_CALC_FULL \/ o_rem (d_ram d) = REMAINING_CALC_TRUNC)) by (destruct Hat as [Hat|Hat]; tauto).
  assert (Hi3 : c_ins c = 0xA4 \/ c_ins c = 0xA5) by tauto.
  assert (Hix : o_idx (at_start c (d_ram d)) = zlen pre).
  { unfold at_start. change OATH_INS_SEND_REMAINING with 0xA5. destruct Hat as [(-> & _ & -> & _)|(-> & _ & E & _)]; [reflexivity|exact E]. }
  assert (Hpre : zlen pre = 0 <-> pre = []) by (split; [destruct pre; [reflexivity|rewrite zlen_cons; pose proof (zlen_nonneg pre); lia]|intros ->; reflexivity]).
  assert (Hseg : forall chal t, calc_seg (at_start c (d_ram d)) c chal t -> chal = m /\ t = tr).
  { intros chal t. unfold calc_seg. rewrite Hix. unfold at_start. change OATH_INS_SEND_REMAINING with 0xA5.
    destruct Hat as [(-> & _ & -> & -> & Hm & rest & Hd)|(-> & Hne & _ & Hch & <- & _)].
    - change (zlen (@nil bytes) =? 0) with true. cbv iota. intros (_ & (rest1 & Hd1) & ->). split; [|reflexivity]. rewrite Hd in Hd1. eapply seg_inj. symmetry. exact Hd1.
    - destruct (Z.eqb_spec (zlen pre) 0) as [E|E]; [apply Hpre in E; contradiction|]. cbn [Z.eqb Pos.eqb]. intros [-> ->]. split; [assumption|reflexivity]. }
  assert (Hok : ~ call_bad (at_start c (d_ram d)) c).
  { intros [Hx|[Hx Hy]]; [contradiction|]. rewrite Hix in Hx. apply Hpre in Hx.
    destruct Hat as [(_ & _ & _ & _ & Hm & rest & Hd)|(_ & Hne & _)]; [|contradiction]. apply Hy. exists m, rest. split; assumption. }
  pose proof Hg as ((_ & Hoks & _) & _ & Hinv & _).
  apply Forall_app in Hoks as [Hoks1 Hoks2].
  assert (Hsk : skipn (Z.to_nat (zlen pre)) (pre ++ suf) = suf) by (unfold zlen; rewrite Nat2Z.id, skipn_app, skipn_all, Nat.sub_diag; reflexivity).
  assert (Hfi : firstn (Z.to_nat (zlen pre)) (pre ++ suf) = pre) by (unfold zlen; rewrite Nat2Z.id, firstn_app, firstn_all, Nat.sub_diag; cbn [firstn]; apply app_nil_r).
  inversion He; subst;
    try (exfalso; first [discriminate | congruence | match goal with H : [] <> [] |- _ => apply H; reflexivity end | contradiction
      | match goal with H : c_ins c = _ |- _ => rewrite H in Hi3; destruct Hi3; discriminate end
      | match goal with H : c_ins c = OATH_INS_LIST \/ _ |- _ => destruct H as [H|[H Hr]]; [rewrite H in Hi3; destruct Hi3; discriminate|]; destruct Hi2 as [[Hx _]|[_ Hx]]; [rewrite H in Hx; discriminate|rewrite Hr in Hx; destruct Hx; discriminate] end
      | match goal with H : ~ In (c_ins c) _ |- _ => apply H; destruct Hi3 as [-> | ->]; cbn; tauto end
      | match goal with H : c_ins c = OATH_INS_SEND_REMAINING, Hr : o_rem _ = REMAINING_NONE |- _ => destruct Hi2 as [[Hx _]|[_ Hx]]; [rewrite H in Hx; discriminate Hx|rewrite Hr in Hx; destruct Hx; discriminate] end
      | match goal with H : c_ins c = OATH_INS_SELECT |- _ => destruct Hi2 as [[_ Hx]|[Hx _]]; [|rewrite H in Hx; discriminate Hx]; first [ match goal with H2 : c_p1 c = 4 |- _ => rewrite H2 in Hx; discriminate Hx end | match goal with H2 : c_p1 c <> 0 \/ _ |- _ => destruct H2; congruence end ] end ]).
  - (* a segment *)
    right. match goal with H : calc_seg _ _ _ _ |- _ => destruct (Hseg _ _ H) as [Em ->] end.
    match goal with H : cpage _ _ _ _ _ _ _ _ = _ |- _ => rename H into Hcp end.
    rewrite Em in Hcp. rewrite Hix, Hsk in Hcp. pose proof (cpage_spec (c_le c) tr m suf Hle Hoks2 [] _ dn rest ltac:(change (zlen (@nil Z)) with 0; lia) Hcp) as Hc. cbv beta iota in Hc.
    destruct Hc as (dn0 & -> & HF2 & Ed & Hz & Hc). cbn [app] in Ed.
    match goal with H : [] = [] -> dn' = dn |- _ => specialize (H eq_refl); subst dn' end.
    exists dn0, dn, rest. split; [reflexivity|]. rewrite Hix, Hfi in Hg'. split; [assumption|].
    match goal with H : page_only _ _ |- _ => destruct H as (Hpv & Hps & Hpc) end.
    split; [unfold authorised; rewrite Hpv; exact Ha|]. split; [assumption|]. split; [assumption|]. split; [assumption|].
    destruct Hc as [[-> ->]|(Hne & -> & Hdn)]; [left; split; [reflexivity|assumption]|right]. split; [assumption|]. split; [assumption|]. split; [apply Hdn; reflexivity|].
    right. split; [reflexivity|].
    pose proof (F2_length _ _ _ HF2) as Hlen.
    split; [intros E; apply app_eq_nil in E as [_ ->]; destruct dn0; [apply Hdn; reflexivity|discriminate Hlen]|].
    match goal with H : o_idx (d_ram d') = _ |- _ => rewrite H end.
    split; [rewrite !zlen_app; unfold zlen; lia|]. split; [assumption|].
    match goal with H : rest <> [] -> _ |- _ => exact (H Hne) end.
  - (* refused *)
    left. match goal with H : calc_seg _ _ _ _ |- _ => destruct (Hseg _ _ H) as [-> ->] end.
    match goal with H : cpage _ _ _ _ _ _ _ _ = _ |- _ => rename H into Hcp end.
    rewrite Hix, Hsk in Hcp. pose proof (cpage_spec (c_le c) tr m suf Hle Hoks2 [] _ dn rest ltac:(change (zlen (@nil Z)) with 0; lia) Hcp) as Hc. cbv beta iota in Hc.
    destruct Hc as [-> HE]. split; [assumption|]. split; [congruence|assumption].
Qed.

Lemma all_rest nfc tr m : forall n d c pre suf k h, good d (pre ++ suf) k h -> authorised d -> 133 <= c_le c -> all_bytes (c_data c) ->
  (c_p2 c = 0 \/ c_p2 c = 1) -> at_all d c tr m pre -> (length suf <= n)%nat ->
  exists pages sw d', paging nfc d c pages sw d' /\ Forall (fun p => zlen p <= c_le c) pages /\
   (sw = 0x6982 /\ Exists (fun r => cstep m r = None) suf \/
    sw = 0x9000 /\ concat pages = concat (map (all_entry tr m) (creds suf)) /\
      exists suf', Forall2 (fun r r' => cstep m r = Some r') suf suf' /\ good d' (pre ++ suf') k h).
Proof.
  induction n as [|n IH]; intros d c pre suf k h Hg Ha Hle Hb Hp2 Hat Hn.
  all: destruct (one_good _ _ _ Hsha1 Hsha256 Hsha512 junk Hjunk Hjunkb d nfc c [] [] _ k h Hg Hb) as (r & d1 & _ & _ & _ & Hs & _).
  all: destruct (all_step nfc d c pre suf k h tr m [] [] r d1 Hg Ha Hle Hb Hp2 Hat Hs) as [(Hsw & Hd & HE)|(dn0 & dn & rest & E & Hg1 & Ha1 & HF2 & Hd & Hz & Hc)].
  1,3: (exists [r_data r], (r_sw r), d1; split; [eapply pg_last; [eassumption|rewrite Hsw; discriminate]|];
    split; [constructor; [rewrite Hd; change (zlen (@nil Z)) with 0; lia|constructor]|]; left; split; assumption).
  all: destruct Hc as [[-> Hsw]|(Hne & Hsw & Hdn & Hat1)].
  1,3: (exists [r_data r], (r_sw r), d1; split; [eapply pg_last; [eassumption|rewrite Hsw; discriminate]|];
    split; [constructor; [assumption|constructor]|]; right; split; [assumption|]; rewrite app_nil_r in E, Hg1; subst suf;
    split; [cbn [concat]; rewrite app_nil_r; exact Hd|]; exists dn; split; assumption).
  - exfalso. rewrite E in Hn. destruct dn0; [contradiction|cbn [app length] in Hn; lia].
  - assert (length rest <= n)%nat as Hn1. { rewrite E in Hn. destruct dn0; [contradiction|cbn [app length] in Hn; rewrite app_length in Hn; lia]. }
    rewrite app_assoc in Hg1.
    destruct (IH d1 (more c) (pre ++ dn) rest k h Hg1 Ha1 Hle ltac:(constructor) Hp2 Hat1 Hn1) as (pages & sw & d' & Hp & Hall & Hc).
    exists (r_data r :: pages), sw, d'. split; [eapply pg_more; eassumption|]. split; [constructor; assumption|].
    destruct Hc as [[-> HE]|(-> & Hcat & suf' & HF3 & Hg2)].
    + left. split; [reflexivity|]. rewrite E. apply Exists_app. right; exact HE.
    + right. split; [reflexivity|]. split.
      * cbn [concat]. rewrite Hcat, Hd, E, creds_app, map_app, concat_app. reflexivity.
      * exists (dn ++ suf'). split; [rewrite E; apply Forall2_app; assumption|]. rewrite app_assoc. exact Hg2.
Qed.

Lemma cstep_none m r : rec_ok r -> cstep m r = None ->
  used r = true /\ increasing (cred_of r) /\ ~ needs_touch (cred_of r) /\ ~ (zlen m = 8 /\ ctr_of r <= be m).
Proof.
  intros Hok. unfold cstep. destruct (islive r && _ && _ && _) eqn:E; [|discriminate].
  apply andb_prop in E as [E Ei]. apply andb_prop in E as [E Et]. apply andb_prop in E as [El Ety].
  destruct (_ && _) eqn:Ec; [discriminate|]. intros _. split; [exact El|].
  unfold increasing, needs_touch, is_totp. rewrite <- (q_type r Hok). change (cr_prop (cred_of r)) with (r_prop r).
  unfold r_inc, r_touch in Ei, Et. split; [split; [apply Z.eqb_eq; exact Ety|lia]|]. split; [lia|]. change (ctr_of r) with (be (r_chal r)). lia.
Qed.
Lemma cstep_some m r r' : rec_ok r -> all_bytes m -> cstep m r = Some r' -> used r = true -> increasing (cred_of r) -> ~ needs_touch (cred_of r) ->
  zlen m = 8 /\ ctr_of r <= be m /\ used r' = true /\ cred_of r' = cred_of r /\ ctr_of r' = be m.
Proof.
  intros Hok Hb Hc Hu [Hty Hi] Ht. unfold is_totp in Hty. rewrite <- (q_type r Hok) in Hty. unfold needs_touch in Ht.
  change (cr_prop (cred_of r)) with (r_prop r) in Hi, Ht. unfold cstep in Hc.
  assert (islive r = true) as Hl by exact Hu.
  assert (r_inc r = true) as Hi1 by (unfold r_inc; lia). assert (r_touch r = false) as Ht1 by (unfold r_touch; lia).
  rewrite Hl, Hty, Hi1, Ht1 in Hc. cbn [Z.eqb Pos.eqb andb negb] in Hc. change (32 =? OATH_TYPE_TOTP) with true in Hc. cbn [andb] in Hc.
  destruct ((zlen m =? 8) && (be (r_chal r) <=? be m)) eqn:E; [|discriminate]. injection Hc as <-.
  assert (zlen m = 8) as Hz by lia. destruct (rechal_cred r m Hok Hz) as (E1 & E2 & E3). split; [assumption|]. split; [change (ctr_of r) with (be (r_chal r)); lia|].
  split; [congruence|]. split; assumption.
Qed.

(** C69.  CALCULATE ALL, followed by SEND REMAINING until the final status, returns one entry for each stored
    credential, in slot order, each with the code for the given challenge (or the mark that it is HOTP or
    needs a touch), in segments of at most Le bytes (Le at least 133) -- unless some credential that only
    accepts increasing challenges has already answered a later one: then the final status is 6982. *)
Theorem C69_calculate_all_returns_every_code_once : forall tr d A nfc c m rest, reach tr d -> authorised d -> holds d A ->
  c_ins c = 0xA4 -> c_p1 c = 0 -> (c_p2 c = 0 \/ c_p2 c = 1) -> c_data c = [0x74; zlen m] ++ m ++ rest -> 1 <= zlen m <= 8 ->
  all_bytes (c_data c) -> 133 <= c_le c ->
  exists pages sw d', paging nfc d c pages sw d' /\ Forall (fun p => zlen p <= c_le c) pages /\
   ((forall x v, holds_ctr d x v -> increasing x -> ~ needs_touch x -> zlen m = 8 /\ v <= be m) /\
    sw = 0x9000 /\ concat pages = concat (map (all_entry (c_p2 c =? 1) m) A) /\ holds d' A \/
    (exists x v, holds_ctr d x v /\ increasing x /\ ~ needs_touch x /\ ~ (zlen m = 8 /\ v <= be m)) /\ sw = 0x6982).
Proof.
  intros tr d A nfc c m rest Hr Ha HA Hins Hp1 Hp2 Hd Hm Hb Hle. destruct (reach_good _ _ _ Hsha1 Hsha256 Hsha512 junk Hjunk Hjunkb tr d Hr) as (rs & k & h & Hg).
  rewrite (holds_creds d rs k h A Hg HA). pose proof Hg as (Hok & _).
  destruct (all_rest nfc (c_p2 c =? 1) m (length rs) d c [] rs k h Hg Ha Hle Hb Hp2) as (pages & sw & d' & Hp & Hall & Hc).
  - left. split; [assumption|]. split; [assumption|]. split; [reflexivity|]. split; [reflexivity|]. split; [assumption|]. exists rest; exact Hd.
  - lia.
  - assert (all_bytes m) as Hbm.
    { rewrite Hd in Hb. apply all_bytes_app in Hb as [_ Hb]. apply all_bytes_app in Hb as [Hb _]. exact Hb. }
    exists pages, sw, d'. split; [assumption|]. split; [assumption|].
    pose proof Hok as (_ & Hoks & _).
    destruct Hc as [[-> HE]|(-> & Hcat & suf' & HF & Hg')].
    + right. split; [|reflexivity]. apply Exists_exists in HE as (q & Hq & Hc). assert (rec_ok q) as Hqo by (eapply Forall_forall; eassumption).
      destruct (cstep_none m q Hqo Hc) as (Hu & Hi & Ht & Hn). exists (cred_of q), (ctr_of q). split; [|tauto].
      exists rs, q. split; [apply ok_records; assumption|]. split; [apply filter_In; split; assumption|]. split; reflexivity.
    + left. split; [|split; [reflexivity|split; [exact Hcat|]]].
      * intros x v (rs1 & q & Hrec & Hq & <- & <-) Hi Ht. rewrite (recs_uniq _ _ _ Hok Hrec) in Hq. apply filter_In in Hq as [Hq Hu].
        destruct (in_split _ _ Hq) as (a & b & ->). apply Forall2_app_inv_l in HF as (a' & b' & _ & HF & _). inversion HF; subst.
        match goal with H : cstep m q = Some _ |- _ => destruct (cstep_some m q _ ltac:(eapply Forall_forall; eassumption) Hbm H Hu Hi Ht) as (? & ? & _) end. split; assumption.
      * exists suf'. split; [apply ok_records, Hg'|]. symmetry. apply incs_creds; [assumption|].
        clear - HF Hbm. induction HF; constructor; [eapply cstep_incd; eassumption|assumption].
Qed.

(** C16.  CALCULATE on a credential created with the "only increasing" property answers only a challenge of
    8 bytes that is not smaller than the last one answered, which it then becomes.  (That the last one never
    goes back is C14_counter_never_decreases.) *)
Theorem C16_calculate_needs_newer_challenge : forall tr d x v nfc c rnd tch r d',
  reach tr d -> holds_ctr d x v -> increasing x -> c_ins c = 0xA2 -> arg1 c = cr_name x ->
  all_bytes (c_data c) -> all_bytes rnd ->
  step d (Cmd nfc c [] rnd tch) = Some (Resp r, d') -> r_sw r = 0x9000 ->
  exists m rest, c_data c = name_data (cr_name x) ++ [0x74; 8] ++ m ++ rest /\ zlen m = 8 /\ v <= be m /\
    r_data r = code_resp (c_p2 c =? 1) x m /\ holds_ctr d' x (be m).
Proof.
  intros tr d x v nfc c rnd tch r d' Hr Hx [Hty Hi] Hins Ha Hb Hbr Hs Hsw.
  destruct (reach_good _ _ _ Hsha1 Hsha256 Hsha512 junk Hjunk Hjunkb tr d Hr) as (rs & k & h & Hg).
  destruct (calc_facts _ _ _ Hsha1 Hsha256 Hsha512 junk Hjunk Hjunkb d nfc c rnd tch r d' rs k h Hg Hb Hbr Hins Hs Hsw) as (q & q' & m & Hq & Hn & Hok & Hok' & Ec & Hc & Hd & rs' & Hrs' & Hq').
  destruct (q_uniq d rs k h q x v Hg Hq Hx ltac:(congruence)) as [Ex Ev].
  unfold is_totp in Hty. rewrite <- Ex, <- (q_type q Hok) in Hty. rewrite <- Ex in Hi. change (cr_prop (cred_of q)) with (r_prop q) in Hi.
  destruct Hc as [(_ & Hpc & [[Hx1 _]|(_ & Hz & Hle & Eq)])|(Hht & _)]; [unfold r_inc in Hx1; lia| |rewrite Hty in Hht; discriminate].
  pose proof (parse_challenge_sound (c_data c) (2 + zlen (arg1 c)) ltac:(pose proof (zlen_nonneg (arg1 c)); lia) Hb) as Hcs. rewrite Hpc in Hcs.
  destruct Hcs as (_ & _ & rest & Hdrop).
  exists m, rest. split; [|split; [assumption|split; [rewrite <- Ev; exact Hle|split; [rewrite Hd, Ex; reflexivity|]]]].
  - rewrite Hz in Hdrop. change OATH_TAG_CHALLENGE with 0x74 in Hdrop. rewrite <- Hdrop. rewrite <- Ha.
    clear - Hs Hsw Hb Hins Hg Hsha1 Hsha256 Hsha512 Hjunk Hjunkb.
    pose proof (cmd_spec _ _ _ Hsha1 Hsha256 Hsha512 junk Hjunk Hjunkb nfc c [] rnd tch d rs k h Hg Hb) as H.
    cbn [OathSpec.step] in Hs. destruct (cmd_run _ _ _ _ _ _ _ _ _ d) as [[[r1|] s'] e']; [|contradiction]. injection Hs as -> <-.
    destruct H as (oc & rs' & k' & He & Hsw' & _). rewrite Hsw in Hsw'.
    destruct oc as [z|w| |]; [|exfalso; destruct (eff_exc _ _ _ _ _ _ _ _ _ _ _ _ _ _ _ _ _ _ _ _ _ He) as [Hne _]; congruence|discriminate Hsw'|inversion He].
    inversion He; try (kill_ins Hins); subst.
    match goal with H : parse_name 3 _ = Ret _ |- _ => pose proof (parse_name_sound 3 (c_data c) ltac:(lia) Hb) as Hp; rewrite H in Hp end.
    destruct Hp as (_ & _ & rest & Hd). rewrite (arg1_name _ _ _ Hd). rewrite Hd at 1. unfold name_data, enc_name.
    rewrite Hd. unfold enc_name, drop. rewrite <- app_assoc. change OATH_TAG_NAME with 0x71.
    replace (Z.to_nat (2 + zlen name)) with (length ([0x71; zlen name] ++ name)) by (rewrite app_length; cbn [length]; unfold zlen; lia).
    rewrite app_assoc, skipn_app, skipn_all, Nat.sub_diag. reflexivity.
  - exists rs', q'. split; [apply ok_records; assumption|]. split; [assumption|]. split; [congruence|].
    rewrite Eq. apply (rechal_cred q m Hok Hz).
Qed.

(** C16.  Hence a challenge is never answered after a larger one was, whatever happened in between (commands,
    storage errors, renaming, power cuts). *)
Theorem C16_never_answers_older_challenge : forall tr0 d x nfc1 c1 rnd1 tch1 r1 d1 tr d2 t' nfc2 c2 rnd2 tch2 r2 d3 v,
  reach tr0 d -> holds_ctr d x v -> increasing x ->
  c_ins c1 = 0xA2 -> arg1 c1 = cr_name x -> ev_ok (Cmd nfc1 c1 [] rnd1 tch1) ->
  step d (Cmd nfc1 c1 [] rnd1 tch1) = Some (Resp r1, d1) -> r_sw r1 = 0x9000 ->
  hist d1 tr d2 -> tr_ok tr -> follow (cr_name x) tr = Some t' ->
  c_ins c2 = 0xA2 -> arg1 c2 = t' -> ev_ok (Cmd nfc2 c2 [] rnd2 tch2) ->
  step d2 (Cmd nfc2 c2 [] rnd2 tch2) = Some (Resp r2, d3) -> r_sw r2 = 0x9000 ->
  exists m1 rest1 m2 rest2, zlen m1 = 8 /\ zlen m2 = 8 /\ c_data c1 = name_data (cr_name x) ++ [0x74; 8] ++ m1 ++ rest1 /\
    c_data c2 = name_data t' ++ [0x74; 8] ++ m2 ++ rest2 /\ be m1 <= be m2.
Proof.
  intros tr0 d x nfc1 c1 rnd1 tch1 r1 d1 tr d2 t' nfc2 c2 rnd2 tch2 r2 d3 v Hr Hx Ht Hi1 Ha1 [Hb1 Hbr1] Hs1 Hw1 Hh Htr Hf Hi2 Ha2 [Hb2 Hbr2] Hs2 Hw2.
  destruct (C16_calculate_needs_newer_challenge tr0 d x v nfc1 c1 rnd1 tch1 r1 d1 Hr Hx Ht Hi1 Ha1 Hb1 Hbr1 Hs1 Hw1) as (m1 & rest1 & E1 & Z1 & _ & _ & Hx1).
  assert (reach (tr0 ++ [(Cmd nfc1 c1 [] rnd1 tch1, Resp r1)]) d1) as Hr1.
  { destruct Hr as (Hto & rnd & Hho). split; [apply Forall_app; split; [assumption|constructor; [split; assumption|constructor]]|].
    exists rnd. eapply hist_app; [eassumption|]. econstructor; [eassumption|constructor]. }
  destruct (C14_counter_never_decreases _ _ _ Hsha1 Hsha256 Hsha512 junk Hjunk Hjunkb _ d1 tr d2 x (be m1) t' Hr1 Hh Htr Hx1 Hf) as (v' & Hle & Hx2).
  assert (reach ((tr0 ++ [(Cmd nfc1 c1 [] rnd1 tch1, Resp r1)]) ++ tr) d2) as Hr2.
  { destruct Hr1 as (Hto & rnd & Hho). split; [apply Forall_app; split; assumption|]. exists rnd. eapply hist_app; eassumption. }
  destruct (C16_calculate_needs_newer_challenge _ d2 _ v' nfc2 c2 rnd2 tch2 r2 d3 Hr2 Hx2 Ht Hi2 Ha2 Hb2 Hbr2 Hs2 Hw2) as (m2 & rest2 & E2 & Z2 & L2 & _).
  exists m1, rest1, m2, rest2. repeat (split; [assumption|]). lia.
Qed.

(** C18.  The four code bytes are the RFC 4226 truncation; no digest makes the computation read outside it. *)
Theorem C18_truncation_is_rfc4226 : forall h, all_bytes h -> 20 <= zlen h ->
  oath_trunc h = Some (to_be 4 (dt h)) /\ 0 <= dt h < 2 ^ 31.
Proof. intros h. apply (trunc_dt _ _ _ Hsha1 Hsha256 Hsha512 junk). Qed.

(** C18.  A CALCULATE answered 9000 answers the digest, or its truncation, of the challenge sent (TOTP) under the
    credential's key and algorithm. *)
Theorem C18_calculate_totp_code : forall tr d x v nfc c rnd tch r d',
  reach tr d -> holds_ctr d x v -> is_totp x -> c_ins c = 0xA2 -> arg1 c = cr_name x ->
  all_bytes (c_data c) -> all_bytes rnd ->
  step d (Cmd nfc c [] rnd tch) = Some (Resp r, d') -> r_sw r = 0x9000 ->
  exists m rest, skipn (length (name_data (cr_name x))) (c_data c) = [0x74; zlen m] ++ m ++ rest /\ 1 <= zlen m <= 8 /\
    r_data r = code_resp (c_p2 c =? 1) x m.
Proof.
  intros tr d x v nfc c rnd tch r d' Hr Hx Hty Hins Ha Hb Hbr Hs Hsw.
  destruct (reach_good _ _ _ Hsha1 Hsha256 Hsha512 junk Hjunk Hjunkb tr d Hr) as (rs & k & h & Hg).
  destruct (calc_facts _ _ _ Hsha1 Hsha256 Hsha512 junk Hjunk Hjunkb d nfc c rnd tch r d' rs k h Hg Hb Hbr Hins Hs Hsw) as (q & q' & m & Hq & Hn & Hok & Hok' & Ec & Hc & Hd & rs' & Hrs' & Hq').
  destruct (q_uniq d rs k h q x v Hg Hq Hx ltac:(congruence)) as [Ex Ev].
  unfold is_totp in Hty. rewrite <- Ex, <- (q_type q Hok) in Hty.
  destruct Hc as [(_ & Hpc & _)|(Hht & _)]; [|rewrite Hty in Hht; discriminate].
  pose proof (parse_challenge_sound (c_data c) (2 + zlen (arg1 c)) ltac:(pose proof (zlen_nonneg (arg1 c)); lia) Hb) as Hcs. rewrite Hpc in Hcs.
  destruct Hcs as (Hz & _ & rest & Hdrop). exists m, rest. split; [|split; [exact Hz|rewrite Hd, Ex; reflexivity]].
  unfold drop in Hdrop. rewrite Ha in Hdrop.
  replace (length (name_data (cr_name x))) with (Z.to_nat (2 + zlen (cr_name x))); [exact Hdrop|].
  unfold name_data. rewrite app_length. cbn [length]. unfold zlen. lia.
Qed.
End Oath.

(** ** Examples: the device of OathEx.v (PropOath.v shows that it is reached, authorised, and what it holds) *)
Example C17_ex : map snd (tr_of dev0 [cmd c_list]) = [Resp (mkR (list_entry (mkCred nA kH 0) ++ list_entry (mkCred nB kT 1)) 0x9000)].
Proof. vm_compute. reflexivity. Qed.
(** Two pages *)
Example C17_pages_ex : let nm := repeat 65 64 in
  let d := dev_of dev0 [cmd (c_put nm kT [])] in
  let c := mkC 0 0xA1 0 0 [] 70 in
  map snd (tr_of d [cmd c; cmd (mkC 0 0xA5 0 0 [] 70)]) =
  [Resp (mkR (list_entry (mkCred nA kH 0) ++ list_entry (mkCred nB kT 1)) 0x61FF); Resp (mkR (list_entry (mkCred nm kT 0)) 0x9000)].
Proof. vm_compute. reflexivity. Qed.
Example C16_ex : increasing (mkCred nB kT 1) /\ ~ needs_touch (mkCred nB kT 1) /\
  sws (tr_of dev0 [cmd (c_calc nB [0; 0; 0; 0; 0; 0; 1; 0]); cmd (c_calc nB [0; 0; 0; 0; 0; 0; 0; 9]); cmd (c_calc nB [0; 0; 0; 0; 0; 0; 1; 0])]) =
  [0x9000; 0x6982; 0x9000].
Proof. split; [vm_compute; repeat split; discriminate|]. split; [vm_compute; intros H; apply H; reflexivity|vm_compute; reflexivity]. Qed.
Example C18_ex : map snd (tr_of dev0 [cmd (c_calc nB [0; 0; 0; 0; 7; 0; 1; 4])]) = [Resp (mkR [0x76; 5; 8; 4; 1; 0; 7] 0x9000)] /\
  code_resp h1 h2 h5 true (mkCred nB kT 1) [0; 0; 0; 0; 7; 0; 1; 4] = [0x76; 5; 8; 4; 1; 0; 7].
Proof. vm_compute. split; reflexivity. Qed.
Example C69_ex : sws (tr_of dev0 [cmd (c_all [0; 0; 0; 0; 0; 0; 1; 0]); cmd (c_all [0; 0; 0; 0; 0; 0; 0; 9])]) = [0x9000; 0x6982].
Proof. vm_compute. reflexivity. Qed.
Print Assumptions C17_list_returns_every_credential_once.
Print Assumptions C69_calculate_all_returns_every_code_once.
Print Assumptions C16_calculate_needs_newer_challenge.
Print Assumptions C16_never_answers_older_challenge.
Print Assumptions C18_truncation_is_rfc4226.
Print Assumptions C18_calculate_totp_code.
