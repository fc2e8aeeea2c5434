(** C55: only credential ids issued by this device are accepted.  C56: credProtect.  C81: deleted credentials. *)
From Verif Require Import CtapSpec CtapFrame CtapRel CtapCred CtapToy PropCtapPin PropCtapToken.
From Coq Require Import Sorted.
Open Scope string_scope. Open Scope list_scope. Open Scope Z_scope.

Section S.
Variable K : fcrypto.
Definition fin {A} (R : A -> ctap -> env -> Prop) (o : out A) (s : ctap) (e : env) : Prop := match o with Ret a => R a s e | _ => True end.
Definition sel (q : gareq) := (ga_rphash q, ga_cdh q, ga_allow q).
Definition GS (l : list Z) (n c : Z) (b : bool) (q : gareq) (s : ctap) : Prop :=
  g_list (c_ga s) = l /\ g_n (c_ga s) = n /\ g_ctr (c_ga s) = c /\ g_uv (c_ga s) = b /\ sel (g_req (c_ga s)) = sel q.
Definition PS (F0 F : fs) : Prop := F "ctap_dc" = F0 "ctap_dc" /\ fattr F "ctap_cert" 4 = fattr F0 "ctap_cert" 4.
Definition gk (I : ctap -> Prop) (F0 : fs) {A} (m : Mc A) : Prop := keep I (PS F0) (fun _ => True) m.
Lemma gk_bind I F0 {A B} (m : Mc A) (k : A -> Mc B) R s e : gk I F0 m -> I s -> PS F0 (e_fs e) -> (forall a s' e', I s' -> PS F0 (e_fs e') -> wp (k a) (fin R) s' e') -> wp (bind m k) (fin R) s e.
Proof. intros Hm Hi Hp Hk. apply wp_bind. eapply wp_mono; [apply Hm; split; [exact Hi|split; [exact Hp|apply Forall_forall; auto]]|]. intros [a|?| |] s' e' H; try exact Logic.I. destruct H as (H1 & H2 & _). apply Hk; assumption. Qed.
Lemma gk_count I F0 : gk I F0 increase_counter.
Proof.
  unfold gk, increase_counter. apply kp_bind; [apply kp_got, kp_read_attr|intros v]. cbv zeta. apply kp_bind; [|intros _; apply kp_ret]. apply kp_must. apply kp_write_attr_at; [auto|]. intros F f (H1 & H2) Hf. split.
  - rewrite fset_other by discriminate. exact H1.
  - rewrite <- H2. unfold fattr. change CTAP_CERT_FILE with "ctap_cert" in *. rewrite fset_same, Hf. cbn [f_attr]. rewrite aset_other by discriminate. reflexivity.
Qed.

Ltac skip := apply wp_skip; [exact (fun _ _ _ => Logic.I)|exact (fun _ _ => Logic.I)|exact (fun _ _ => Logic.I)|].
Lemma wp_and {A} (m : Mc A) (Q1 Q2 : out A -> ctap -> env -> Prop) s e : wp m Q1 s e -> wp m Q2 s e -> wp m (fun o s e => Q1 o s e /\ Q2 o s e) s e.
Proof. unfold wp. destruct (m s e) as [[o s'] e']. auto. Qed.
(** The key type of an algorithm: ES256, EdDSA, or else that of SM2 *)
Definition kind_of (alg : Z) : ktype := if alg =? -7 then KP256 else if alg =? -8 then KEd25519 else KSm2.
(** The signed part of an assertion.  [lst]: there is an allow list. *)
Definition assertion (q : gareq) (uv : bool) (d pri : bytes) (v : cbor) : Prop :=
  exists ad sig rest kt, v = CMap ((CInt 1, CMap [(txt "id", CBytes (dc_id d)); (txt "type", txt "public-key")]) :: (CInt 2, CBytes ad) :: (CInt 3, CBytes sig) :: rest) /\
    (kt = kind_of (id_alg (dc_id d)) /\ f_sign K kt pri (ad ++ ga_cdh q) = Some sig) /\ firstn 32 ad = ga_rphash q /\ says_uv v = uv /\ may_use (id_cp (dc_id d)) (match ga_allow q with [] => false | _ => true end) uv.
Lemma kind_found (b : bool) alg kt : (if alg =? ALG_ES256 then Some KP256 else if alg =? ALG_EDDSA then Some KEd25519 else if b then Some KSm2 else None) = Some kt -> kt = kind_of alg.
Proof. unfold kind_of. change ALG_ES256 with (-7). change ALG_EDDSA with (-8). destruct (alg =? -7); [congruence|]. destruct (alg =? -8); [congruence|]. destruct b; congruence. Qed.
Definition counted_as (v : cbor) (n : Z) : Prop := match v with CMap l => In (CInt 5, CInt n) l | _ => False end.
Definition bare (v : cbor) : Prop := match v with CMap l => forall x, ~ In (CInt 5, x) l | _ => True end.
Lemma auth_data_head rp fl ext s e : zlen rp = 32 -> wp (make_auth_data K rp fl ext None) (on_ret (fun r => nth 32 (fst r) 0 = fl /\ firstn 32 (fst r) = rp)) s e.
Proof.
  intros H. unfold make_auth_data. skip. intros c s1 e1. cbv zeta. apply wp_ret. cbn [on_ret fst]. assert (length rp = 32%nat) by (unfold zlen in H; lia). split.
  - rewrite <- !app_assoc. rewrite app_nth2 by lia. replace (32 - length rp)%nat with O by lia. reflexivity.
  - rewrite <- !app_assoc. rewrite firstn_app. replace (32 - length rp)%nat with O by lia. rewrite firstn_O, app_nil_r. apply firstn_all2. lia.
Qed.
Ltac uk := repeat lazymatch goal with
  | |- keep _ _ _ (bind _ _) => apply kp_bind; [|intros ?]
  | |- keep _ _ _ (ret _) => apply kp_ret
  | |- keep _ _ _ (got _) => apply kp_got
  | |- keep _ _ _ (gets _) => apply kp_gets
  | |- keep _ _ _ get => apply kp_get
  | |- keep _ _ _ ub => apply kp_ub
  | |- keep _ _ _ (except _) => apply kp_except
  | |- keep _ _ _ (guard _ _) => apply kp_guard
  | |- keep _ _ _ (random_buffer _) => apply kp_random
  | |- keep _ _ _ (read_file _ _ _) => apply kp_read_file
  | |- keep _ _ _ (read_attr _ _) => apply kp_read_attr
  | |- keep _ _ _ (ask_presence _ _) => apply kp_ask
  | |- keep _ _ _ (modify (set_ga (gs_up _))) => apply kp_modify; intros ? H; exact H
  | |- keep _ _ _ (modify (set_tok _)) => apply kp_modify; intros ? H; exact H
  | |- keep _ _ _ (match ?x with _ => _ end) => destruct x
  end.
Lemma PS_eq F : PS F F. Proof. split; reflexivity. Qed.
Lemma rest_spec nfc t2 s e : let q := g_req (c_ga s) in zlen (ga_rphash q) = 32 ->
  wp (ga_rest K nfc t2) (fin (fun v s' e' => exists d pri g1, chosen K (e_fs e) q (c_ga s) g1 d pri /\ assertion q (g_uv (c_ga s)) d pri v /\
     GS (g_list g1) (g_n g1) (u8 (g_ctr (c_ga s) + 1)) (g_uv (c_ga s)) q s' /\ g_timer (c_ga s') = t2 /\ PS (e_fs e) (e_fs e') /\
     (ga_allow q = [] -> g_ctr (c_ga s) = 0 -> if 1 <? g_n g1 then counted_as v (g_n g1) else bare v))) s e.
Proof.
  intros q Hh. unfold ga_rest. apply wp_bind. unfold gets at 1. apply wp_bind, wp_get, wp_ret. fold q. apply wp_bind. eapply wp_mono; [apply select_spec|]. intros [[d pri]|?| |] s1 e1 H1; try exact Logic.I.
  cbn [fst snd] in H1. destruct H1 as (f & Es & Hch & He1). pose proof Hch as (C1 & C2 & C3 & C4 & C5 & C6).
  set (g1 := c_ga s1) in *. set (b := g_uv (c_ga s)) in *. set (c := g_ctr (c_ga s)) in *. set (F := e_fs e) in *.
  assert (G1 : GS (g_list g1) (g_n g1) c b q s1) by (unfold GS; fold g1; rewrite C1; auto). assert (P1 : PS F (e_fs e1)) by (rewrite He1; apply PS_eq).
  apply wp_bind. unfold gets at 1. apply wp_bind, wp_get, wp_ret. fold g1. rewrite C2, C3. fold b.
  eapply gk_bind with (I := GS (g_list g1) (g_n g1) c b q) (F0 := F); [unfold gk, cp_clear_flags; uk|exact G1|exact P1|]. intros _ s2 e2 G2 P2.
  apply wp_bind. apply wp_guard; [intros Hpr|exact (fun _ => Logic.I)]. apply protect_may in Hpr.
  eapply gk_bind with (I := GS (g_list g1) (g_n g1) c b q) (F0 := F); [apply (kp_ga_ext K) with (okq := fun q' => sel q' = sel q); [| |reflexivity]|exact G2|exact P2|].
  { intros q' s' Hq' (K1 & K2 & K3 & K4 & K5). unfold GS. cbn [set_ga c_ga gs_req g_list g_n g_ctr g_uv g_req]. auto. }
  { intros q' h Hq'. exact Hq'. }
  intros ext s3 e3 G3 P3. apply wp_bind. unfold gets at 1. apply wp_bind, wp_get, wp_ret. cbv zeta. pose proof G3 as (K1 & K2 & K3 & K4 & K5).
  apply wp_bind. eapply wp_mono; [apply wp_and; [apply auth_data_head; exact Hh|apply (kp_auth_data K (GS (g_list g1) (g_n g1) c b q) (PS F) (fun _ => True) (gk_count _ _)); split; [exact G3|split; [exact P3|apply Forall_forall; auto]]]|].
  intros [r|?| |] s4 e4 H4; try exact Logic.I. cbn [on_ret] in H4. destruct H4 as ((Hfl & Hrp) & G4 & P4 & _).
  unfold sign_with_private_key, cose_alg_to_key_type, gets at 1. apply wp_bind, wp_bind, wp_bind, wp_get, wp_ret, wp_ret.
  destruct (if id_alg (dc_id d) =? ALG_ES256 then _ else _) as [kt|] eqn:Ekt; [|exact Logic.I]. apply kind_found in Ekt. destruct (f_sign K kt pri (fst r ++ ga_cdh q)) as [sig|] eqn:Esig; [|exact Logic.I].
  apply wp_bind. eapply wp_mono; [apply wp_and with (Q1 := on_ret (fun l => forall x, ~ In (CInt 5, x) l))|].
  { destruct (dc_lbk d =? 0); [apply wp_ret; intros x []|]. skip. intros k s' e'. apply wp_ret. intros x [E|[]]. discriminate. }
  { match goal with |- wp ?m _ _ _ => assert (Km : gk (GS (g_list g1) (g_n g1) c b q) F m) by (unfold gk, make_large_blob_key, read_key32; uk) end. apply Km. split; [exact G4|split; [exact P4|apply Forall_forall; auto]]. }
  intros [lbk|?| |] s5 e5 H5; try exact Logic.I. cbn [on_ret] in H5. destruct H5 as (Hlbk & G5 & P5 & _). apply wp_bind, wp_modify, wp_ret.
  exists d, pri, g1. split; [exact Hch|]. split.
  { exists (fst r), sig. eexists. exists kt. split; [cbn [app]; reflexivity|]. split; [split; [exact Ekt|exact Esig]|]. split; [exact Hrp|]. split; [|exact Hpr].
    transitivity (Z.testbit ((match ext : bytes with [] => 0 | _ => FLAGS_ED end) + (if g_uv (c_ga s3) then FLAGS_UV else 0) + (if g_up (c_ga s3) then FLAGS_UP else 0)) 2); [exact (f_equal (fun z => Z.testbit z 2) Hfl)|]. rewrite ga_flag_uv. exact K4. }
  destruct G5 as (J1 & J2 & J3 & J4 & J5). split; [|split; [reflexivity|]; split; [exact P5|]].
  - unfold GS. cbn [set_ga c_ga gs_timer gs_ctr g_list g_n g_ctr g_uv g_req]. rewrite J3. auto.
  - intros Hal Hc0. rewrite Hal, K3, K2. fold c in Hc0. rewrite Hc0. cbn [Z.eqb andb]. destruct (1 <? g_n g1).
    + cbn [counted_as]. cbn [app In]. right. right. right. apply in_or_app. right. left. reflexivity.
    + cbn [bare app In]. intros x [E|[E|[E|E]]]; try discriminate. apply in_app_or in E. destruct E as [E|E]; [|exact (Hlbk x E)]. destruct (id_dc (dc_id d) =? 0); [destruct E|]. destruct E as [E|[]]. discriminate.
Qed.

Lemma exec_fin d x q (R : option cbor -> ctap -> env -> Prop) v s e : x_op x = OCbor q -> exec K d x = (Some (ACbor 0 (Some v)), s, e) ->
  wp (cbor_cmd K (x_nfc x) (x_t1 x) (x_t2 x) (x_junk x) q) (fin (fun v s e => R v (set_last (cmd_of q) s) e)) (d_ram d) (start (d_fs d) (x_flt x) (x_rnd x) (x_tch x)) -> R (Some v) s e.
Proof.
  intros Hx E W. unfold exec in E. rewrite Hx in E. unfold cbor_body, process_cbor, wp in *. destruct (cbor_cmd _ _ _ _ _ _ _ _) as [[[w|c| |] s1] e1]; try discriminate.
  destruct (_ <=? _); [|discriminate]. assert (Some v = w) as -> by congruence. assert (s = set_last (cmd_of q) s1) as -> by congruence. assert (e = e1) as -> by congruence. exact W.
Qed.
(** What was chosen in one storage is chosen in another with the same credentials and key. *)
Lemma PS_sym F F' : PS F F' -> PS F' F. Proof. intros (A & B). split; symmetry; assumption. Qed.
Lemma genuine_PS F F' id pri : PS F F' -> genuine K F id pri -> genuine K F' id pri.
Proof. intros (_ & B) (kh & H & H'). exists kh. rewrite B. auto. Qed.
Lemma fread_PS F F' o n : PS F F' -> fread F' "ctap_dc" o n = fread F "ctap_dc" o n. Proof. intros (A & _). unfold fread. rewrite A. reflexivity. Qed.
Lemma live_PS F F' j d : PS F F' -> live F j d -> live F' j d.
Proof. intros HP (H & H'). split; [rewrite (fread_PS F F') by exact HP; exact H|exact H']. Qed.
Lemma slots_PS F F' : PS F F' -> slots_of F' = slots_of F. Proof. intros (A & _). unfold slots_of, fsize. rewrite A. reflexivity. Qed.
Lemma fits_PS F F' rp uv j : PS F F' -> fits F rp uv j -> fits F' rp uv j.
Proof. intros HP (d & H & H'). exists d. split; [eapply live_PS; eauto|exact H']. Qed.
Lemma eligible_PS F F' rp uv n l : PS F F' -> eligible F rp uv n l -> eligible F' rp uv n l.
Proof. intros HP (H & H'). split; [exact H|]. intros j. rewrite H'. split; intros (A & B); (split; [exact A|]); eapply fits_PS; eauto using PS_sym. Qed.
Lemma listed_PS F F' rp uv l d pri : PS F F' -> listed_choice K F rp uv l d pri -> listed_choice K F' rp uv l d pri.
Proof.
  intros HP (id & H1 & H2 & H3 & H4 & H5 & H6 & H7 & H8 & H9). exists id. split; [exact H1|]. split; [eapply genuine_PS; eauto|]. split; [exact H3|]. split; [exact H4|]. split; [exact H5|]. split; [exact H6|]. split; [exact H7|]. split; [exact H8|].
  intros H. destruct (H9 H) as (j & Hj & Hl). exists j. split; [exact Hj|eapply live_PS; eauto].
Qed.
Lemma chosen_PS F F' q g g' d pri : PS F F' -> chosen K F q g g' d pri -> chosen K F' q g g' d pri.
Proof.
  intros HP (H1 & H2 & H3 & H4 & H5 & H6). unfold chosen. do 5 (split; [assumption|]). destruct (ga_allow q).
  - destruct H6 as (A & B & C & D). split; [eapply genuine_PS; eauto|]. split; [rewrite (fread_PS F F') by exact HP; exact B|]. split; [exact C|]. destruct (g_ctr g =? 0); [|exact D]. destruct D as (D1 & D2). split; [rewrite (slots_PS F F' HP); eapply eligible_PS; eauto|exact D2].
  - destruct H6 as (A & B). split; [eapply listed_PS; eauto|exact B].
Qed.
(** The answer of getAssertion *)
Lemma ga_answer d x q v s e : x_op x = OCbor (RGet (inr q)) -> ga_ok q -> exec K d x = (Some (ACbor 0 (Some v)), s, e) ->
  exists dc pri g0 g1, g_ctr g0 = 0 /\ g_uv g0 = says_uv v /\ chosen K (e_fs e) q g0 g1 dc pri /\ assertion q (says_uv v) dc pri v /\
    GS (g_list g1) (g_n g1) 1 (says_uv v) q s /\ g_timer (c_ga s) = x_t2 x /\ c_last s = 2 /\ (ga_allow q = [] -> if 1 <? g_n g1 then counted_as v (g_n g1) else bare v).
Proof.
  intros Hx (_ & (Hh & _)) E. set (RR := fun (v : option cbor) s e => match v with Some v => exists dc pri g0 g1, g_ctr g0 = 0 /\ g_uv g0 = says_uv v /\ chosen K (e_fs e) q g0 g1 dc pri /\ assertion q (says_uv v) dc pri v /\
    GS (g_list g1) (g_n g1) 1 (says_uv v) q s /\ g_timer (c_ga s) = x_t2 x /\ c_last s = 2 /\ (ga_allow q = [] -> if 1 <? g_n g1 then counted_as v (g_n g1) else bare v) | None => True end).
  apply (exec_fin d x _ RR v s e Hx E). unfold cbor_cmd. skip. intros _ s1 e1. apply wp_bind. unfold ctap_get_assertion. apply wp_bind, wp_modify. apply wp_bind. eapply wp_mono; [apply (rl_consistency RE); [apply RE_refl|apply RE_trans]|].
  intros [u|?| |] s2 e2 H2; try exact Logic.I. unfold RE in H2. subst s2. apply wp_bind. eapply wp_mono; [apply begin_ctr|]. intros [u'|?| |] s3 e3 H3; try exact Logic.I. destruct H3 as (Hc & Hr). cbn [set_ga c_ga gs_ctr g_ctr] in Hc.
  eapply wp_mono; [apply rest_spec; rewrite Hr; exact Hh|]. intros [w|?| |] s4 e4 H4; try exact Logic.I. destruct H4 as (dc & pri & g1 & H4 & H5 & H6 & H7 & H8 & H9). rewrite Hr in *. rewrite Hc in *. apply wp_ret.
  pose proof H5 as (ad & sig & rest & kt & A1 & A2 & A3 & A4 & A5). cbn [fin]. unfold RR. exists dc, pri, (c_ga s3), g1. split; [exact Hc|]. split; [symmetry; exact A4|]. split; [eapply chosen_PS; [exact H8|exact H4]|]. rewrite A4. split; [exact H5|]. split; [exact H6|]. split; [exact H7|]. split; [reflexivity|]. intros Hal. apply H9; auto.
Qed.
(** The answer of getNextAssertion *)
Lemma gna_answer d x v s e : x_op x = OCbor RNext -> zlen (ga_rphash (g_req (c_ga (d_ram d)))) = 32 -> exec K d x = (Some (ACbor 0 (Some v)), s, e) ->
  let g := c_ga (d_ram d) in let q := g_req g in
  (c_last (d_ram d) = 2 \/ c_last (d_ram d) = 8) /\ g_ctr g < g_n g /\ u32 (x_t1 x - g_timer g) <= 30000 /\
  exists dc pri g1, says_uv v = g_uv g /\ chosen K (d_fs d) q g g1 dc pri /\ assertion q (says_uv v) dc pri v /\
    GS (g_list g1) (g_n g1) (u8 (g_ctr g + 1)) (says_uv v) q s /\ g_timer (c_ga s) = x_t2 x /\ c_last s = 8 /\ PS (d_fs d) (e_fs e).
Proof.
  intros Hx Hh E g q. set (RR := fun (v : option cbor) s e => match v with Some v => (c_last (d_ram d) = 2 \/ c_last (d_ram d) = 8) /\ g_ctr g < g_n g /\ u32 (x_t1 x - g_timer g) <= 30000 /\
    exists dc pri g1, says_uv v = g_uv g /\ chosen K (d_fs d) q g g1 dc pri /\ assertion q (says_uv v) dc pri v /\
    GS (g_list g1) (g_n g1) (u8 (g_ctr g + 1)) (says_uv v) q s /\ g_timer (c_ga s) = x_t2 x /\ c_last s = 8 /\ PS (d_fs d) (e_fs e) | None => True end).
  apply (exec_fin d x _ RR v s e Hx E). unfold cbor_cmd, cp_observer. apply wp_bind, wp_modify. apply wp_bind. unfold ctap_get_next_assertion. apply wp_bind, wp_get. set (s1 := set_tok _ _). assert (Eg : c_ga s1 = g) by reflexivity. assert (El : c_last s1 = c_last (d_ram d)) by reflexivity. clearbody s1.
  apply wp_bind. apply wp_guard; [intros C1|exact (fun _ => Logic.I)]. apply wp_bind. apply wp_guard; [intros C2|exact (fun _ => Logic.I)]. apply wp_bind. apply wp_guard; [intros C3|exact (fun _ => Logic.I)].
  rewrite Eg in C2, C3. rewrite El in C1. eapply wp_mono; [apply rest_spec; rewrite Eg; exact Hh|]. intros [w|?| |] s4 e4 H4; try exact Logic.I. destruct H4 as (dc & pri & g1 & H4 & H5 & H6 & H7 & H8 & H9). rewrite Eg in *. apply wp_ret.
  pose proof H5 as (ad & sig & rest & kt & A1 & A2 & A3 & A4 & A5). cbn [fin]. unfold RR. split; [unfold CTAP_GET_ASSERTION, CTAP_GET_NEXT_ASSERTION in C1; lia|]. split; [lia|]. split; [lia|]. exists dc, pri, g1. rewrite A4. split; [reflexivity|]. split; [exact H4|]. split; [exact H5|]. split; [exact H6|]. split; [exact H7|]. split; [reflexivity|exact H8].
Qed.
Lemma StronglySorted_nth0 l : l <> [] -> In (nth (Z.to_nat 0) l 0) l. Proof. destruct l; [congruence|left; reflexivity]. Qed.

(** ** C55 *)
(** An assertion is made with a credential whose id carries the right tag for the RP of the request.  Without a list it is a live discoverable credential.  With a list, the id is one of
    the list; the answer names it, or the discoverable credential with the same key. *)
Theorem C55_get_assertion d x q v s e : x_op x = OCbor (RGet (inr q)) -> ga_ok q -> exec K d x = (Some (ACbor 0 (Some v)), s, e) ->
  exists dc pri, assertion q (says_uv v) dc pri v /\ id_rp (dc_id dc) = ga_rphash q /\
    match ga_allow q with
    | [] => genuine K (e_fs e) (dc_id dc) pri /\ exists j, 0 <= j /\ live (e_fs e) j dc
    | l => listed_choice K (e_fs e) (ga_rphash q) (says_uv v) l dc pri /\ (Forall (fun i => zlen i = 70) l -> exists id, In id l /\ genuine K (e_fs e) id pri /\ id_rp id = ga_rphash q /\ id_nonce id = id_nonce (dc_id dc))
    end.
Proof.
  intros Hx Hq E. destruct (ga_answer d x q v s e Hx Hq E) as (dc & pri & g0 & g1 & H1 & H2 & H3 & H4 & _). exists dc, pri. split; [exact H4|]. destruct H3 as (_ & _ & _ & _ & _ & H3). rewrite H1, H2 in H3.
  destruct (ga_allow q) as [|i l].
  - cbn [Z.eqb] in H3. destruct H3 as (A & B & C & (D1 & D2) & D3 & D4). assert (Hn : g_list g1 <> []) by (intros En; rewrite En in D3; elim D4; rewrite D3; reflexivity).
    pose proof (StronglySorted_nth0 _ Hn) as Hi. apply D2 in Hi. destruct Hi as (Hj & (d' & Hl & Hr & _)). assert (d' = dc) as -> by (destruct Hl as (Hl & _); congruence). split; [exact Hr|]. split; [exact A|]. exists (nth (Z.to_nat 0) (g_list g1) 0). split; [lia|exact Hl].
  - destruct H3 as (H3 & _). pose proof H3 as (id & L1 & L2 & L3 & L4 & L5 & L6 & L7 & L8). split; [exact L7|]. split; [exact H3|]. intros Hw. exists id. split; [apply shown_whole; assumption|]. split; [exact L2|]. split; [exact L3|]. symmetry. exact L6.
Qed.
(** The same for U2F: the id is the one of the request, and its RP is the application parameter. *)
Theorem C55_u2f_authenticate d x p1 data r s e : x_op x = OAuth p1 data -> exec K d x = (Some (AApdu r), s, e) -> r_sw r = 0x9000 ->
  zlen data = 135 /\ exists pri c sig, genuine K (d_fs d) (slice 65 70 data) pri /\ id_rp (slice 65 70 data) = slice 32 32 data /\
    r_data r = [1] ++ to_be 4 c ++ sig /\ f_sign K KP256 pri (slice 32 32 data ++ [1] ++ to_be 4 c ++ slice 0 32 data) = Some sig.
Proof.
  intros Hx E Hsw. set (G := fun out => zlen data = 135 /\ exists pri c sig, genuine K (d_fs d) (slice 65 70 data) pri /\ id_rp (slice 65 70 data) = slice 32 32 data /\
    out = [1] ++ to_be 4 c ++ sig /\ f_sign K KP256 pri (slice 32 32 data ++ [1] ++ to_be 4 c ++ slice 0 32 data) = Some sig). change (G (r_data r)). revert Hsw.
  pose proof (exec_wp K d x (fun o _ _ => match o with Some (AApdu r) => r_sw r = 0x9000 -> G (r_data r) | _ => True end)) as W. rewrite E, Hx in W. apply W. clear W E. unfold body. rewrite Hx. unfold start.
  apply wp_bind. unfold u2f_authenticate. apply wp_bind. apply wp_guard; [intros L1|intros _; cbn [r_sw]; discriminate]. apply wp_bind. apply wp_guard; [intros L2|intros _; cbn [r_sw]; discriminate]. cbv zeta.
  apply wp_bind. apply wp_guard; [intros L3|intros _; cbn [r_sw]; discriminate]. apply beqb_eq in L3. unfold verify_key_handle, read_key32. apply wp_bind, wp_bind, wp_bind. apply wp_read_attr. intros X' k _ Hk. apply wp_ret, wp_ret.
  change CTAP_CERT_FILE with "ctap_cert" in Hk. change KH_KEY_ATTR with 4 in Hk. destruct k as [kh|]; cbn [option_map]; [|cbn [r_sw]; discriminate]. destruct (beqb _ _) eqn:Eb; [|cbn [r_sw]; discriminate]. apply beqb_eq in Eb. set (pri := f_hmac K (attr_buf 32 kh) _) in *.
  assert (Hg : genuine K (d_fs d) (slice 65 70 data) pri) by (exists kh; split; [destruct Hk; congruence|]; split; [reflexivity|symmetry; exact Eb]).
  apply wp_bind. apply wp_guard; [intros _|intros _; cbn [r_sw]; discriminate]. apply wp_bind. unfold u2f_touch.
  match goal with |- wp _ ?Q _ _ => assert (W : forall s2 e2, Q (Ret tt) s2 e2) end.
  { intros s2 e2. cbn. apply wp_bind. unfold wp at 1. destruct (increase_counter s2 e2) as [[[c|w| |] s3] e3]; try (cbn [r_sw]; discriminate); try exact Logic.I.
    destruct e3 as [Fa La Xa Ra Ta Oa]. destruct (f_sign K KP256 pri _) as [sig|] eqn:Es; [|exact Logic.I]. apply wp_set_out. intros _. cbn [r_data set_out e_out]. unfold G. split; [lia|]. exists pri, c, sig. split; [exact Hg|]. split; [symmetry; exact L3|]. split; [reflexivity|exact Es]. }
  destruct (x_nfc x); [apply wp_ret; apply W|]. apply wp_bind. apply wp_wait_touch. intros. apply wp_guard; [intros _; apply W|intros _; cbn [r_sw]; discriminate].
Qed.
Definition nx {A} (o : out A) : Prop := match o with Exc _ => False | _ => True end.
Lemma nx_derive n kt kh rp alg dc cp s e : wp (derive K n kt kh rp alg dc cp) (fun o _ _ => nx o) s e.
Proof. revert e. induction n as [|n IH]; intros e; cbn [derive]; [exact Logic.I|]. cbv zeta. apply wp_bind. unfold wp at 1, random_buffer. destruct (f_pub K kt _); [exact Logic.I|apply IH]. Qed.
Lemma nz_generate rp alg dc cp s e : wp (generate_key_handle K rp alg dc cp) (fun o _ _ => nx o) s e.
Proof.
  unfold generate_key_handle, cose_alg_to_key_type, gets. apply wp_bind, wp_bind, wp_get, wp_ret. destruct (if alg =? ALG_ES256 then _ else _) as [kt|]; [|exact Logic.I]. unfold read_key32. apply wp_bind, wp_bind. destruct e as [F L X R T O]. apply wp_read_attr. intros X' k _ _. apply wp_ret.
  destruct k as [kh|]; cbn [option_map]; [|exact Logic.I]. apply wp_bind. eapply wp_mono; [apply nx_derive|]. intros [a|w| |] s1 e1 H1; try exact Logic.I. destruct H1.
Qed.
(** Every id that is issued is accepted later: it carries the right tag for the RP, and the properties asked for. *)
Definition issued_id (F : fs) (id rp : bytes) (alg dc cp : Z) : Prop :=
  exists pri, genuine K F id pri /\ id_rp id = rp /\ zlen id = 70 /\ id_alg id = alg /\ id_dc id = dc /\ id_cp id = cp.
Definition hmac_sized : Prop := forall k m, zlen (f_hmac K k m) = 32.
Lemma mid (a b c : bytes) o n : zlen a = o -> zlen b = n -> slice o n (a ++ b ++ c) = b.
Proof. intros <- <-. unfold slice, zlen. rewrite !Nat2Z.id. rewrite skipn_app, Nat.sub_diag, skipn_all. cbn [app skipn]. rewrite firstn_app, Nat.sub_diag, firstn_all, firstn_O, app_nil_r. reflexivity. Qed.
Lemma id_parts tag nonce dc cp rp alg : zlen tag = 16 -> zlen nonce = 16 -> zlen rp = 32 -> -2147483648 <= alg < 2147483648 ->
  let id := tag ++ (nonce ++ [dc; cp]) ++ rp ++ to_le 4 alg in
  id_tag id = tag /\ id_nonce id = nonce ++ [dc; cp] /\ id_rp id = rp /\ zlen id = 70 /\ id_alg id = alg /\ id_dc id = dc /\ id_cp id = cp.
Proof.
  intros H1 H2 H3 Ha id. assert (L4 : zlen (to_le 4 alg) = 4) by reflexivity.
  assert (N : zlen (nonce ++ [dc; cp]) = 18) by (rewrite zlen_app, H2; reflexivity).
  pose proof mid as S1.
  unfold id. split; [exact (S1 [] tag _ 0 16 eq_refl H1)|]. split; [apply S1; assumption|]. split; [unfold id_rp; rewrite app_assoc; apply S1; [rewrite zlen_app, H1, N; reflexivity|exact H3]|].
  split; [rewrite !zlen_app, H1, H3, L4, H2; reflexivity|]. split.
  { unfold id_alg. rewrite !app_assoc. assert (E : slice 66 4 ((((tag ++ nonce ++ [dc; cp]) ++ rp) ++ to_le 4 alg) ++ []) = to_le 4 alg).
    { rewrite <- app_assoc. apply S1; [rewrite !zlen_app, H1, H2, H3; reflexivity|exact L4]. }
    rewrite app_nil_r in E. rewrite <- !app_assoc in *. rewrite E. unfold le, to_le. rewrite rev_involutive, be_to_be. unfold s32. change (256 ^ Z.of_nat 4) with (2 ^ 32).
    change (2 ^ 32) with 4294967296. destruct (Z_lt_dec alg 0).
    - replace (alg mod 4294967296) with (alg + 4294967296) by (apply Z.mod_unique with (-1); lia). destruct (_ <? _) eqn:El; lia.
    - rewrite Z.mod_small by lia. destruct (_ <? _) eqn:El; lia. }
  assert (L32 : length (tag ++ nonce) = 32%nat) by (rewrite app_length; unfold zlen in *; lia).
  assert (Ei : forall r : bytes, tag ++ (nonce ++ [dc; cp]) ++ r = (tag ++ nonce) ++ dc :: cp :: r) by (intros r; rewrite <- !app_assoc; reflexivity).
  unfold id_dc, id_cp. rewrite Ei. split; rewrite app_nth2 by lia; rewrite L32; reflexivity.
Qed.
Lemma derive_genuine n kt F kh rp alg dc cp s e : hmac_sized -> fattr F "ctap_cert" 4 = Some kh -> zlen rp = 32 -> -2147483648 <= alg < 2147483648 ->
  wp (derive K n kt (attr_buf 32 kh) rp alg dc cp) (on_ret (fun r => issued_id F (fst r) rp alg dc cp)) s e.
Proof.
  intros Hs Hk Hr Ha. revert e. induction n as [|n IH]; intros e; cbn [derive]; [exact Logic.I|]. apply wp_bind. unfold wp at 1, random_buffer. cbv zeta. set (r := firstn (Z.to_nat 16) (e_rnd e ++ zeros 16)). set (e' := mkE _ _ _ _ _ _).
  assert (Hz : zlen r = 16) by (unfold r, zlen; rewrite firstn_length, app_length; unfold zeros; rewrite repeat_length; lia). clearbody r e'.
  destruct (f_pub K kt _); [|apply IH]. apply wp_ret. cbn [on_ret fst]. set (pri := f_hmac K (attr_buf 32 kh) (r ++ [dc; cp])).
  assert (Ht : zlen (firstn 16 (f_hmac K pri rp)) = 16) by (unfold zlen; rewrite firstn_length; specialize (Hs pri rp); unfold zlen in Hs; lia).
  destruct (id_parts _ r dc cp rp alg Ht Hz Hr Ha) as (A1 & A2 & A3 & A4 & A5 & A6 & A7). exists pri. split; [|auto]. exists kh. split; [exact Hk|]. rewrite A2. split; [reflexivity|]. rewrite A1, A3. reflexivity.
Qed.
Lemma generate_genuine F rp alg dc cp s e : hmac_sized -> fattr (e_fs e) "ctap_cert" 4 = fattr F "ctap_cert" 4 -> zlen rp = 32 -> -2147483648 <= alg < 2147483648 ->
  wp (generate_key_handle K rp alg dc cp) (on_ret (fun r => forall i p, r = Some (i, p) -> issued_id F i rp alg dc cp)) s e.
Proof.
  intros Hs HF Hr Ha. unfold generate_key_handle, cose_alg_to_key_type, gets. apply wp_bind, wp_bind, wp_get, wp_ret. destruct (if alg =? ALG_ES256 then _ else _) as [kt|]; [|apply wp_ret; discriminate].
  unfold read_key32. apply wp_bind, wp_bind. destruct e as [F0 L X R T O]. cbn [e_fs] in HF. apply wp_read_attr. intros X' k _ Hk. apply wp_ret. change CTAP_CERT_FILE with "ctap_cert" in Hk. change KH_KEY_ATTR with 4 in Hk. destruct k as [kh|]; cbn [option_map]; [|apply wp_ret; discriminate].
  apply wp_bind. eapply wp_mono; [apply (derive_genuine 64 kt F kh); [exact Hs|destruct Hk; congruence|exact Hr|exact Ha]|]. intros [[i p]|?| |] s1 e1 H1; try exact Logic.I. apply wp_ret. intros i' p' E. injection E as <- <-. exact H1.
Qed.
Definition P4 (F0 F : fs) : Prop := fattr F "ctap_cert" 4 = fattr F0 "ctap_cert" 4.
Definition k4 (F0 : fs) {A} (m : Mc A) : Prop := keep (fun _ => True) (P4 F0) (fun _ => True) m.
Lemma k4_bind F0 {A B} (m : Mc A) (k : A -> Mc B) (R : B -> Prop) s e : k4 F0 m -> P4 F0 (e_fs e) -> (forall a s' e', P4 F0 (e_fs e') -> wp (k a) (on_ret R) s' e') -> wp (bind m k) (on_ret R) s e.
Proof. intros Hm Hp Hk. apply wp_bind. eapply wp_mono; [apply Hm; split; [exact Logic.I|split; [exact Hp|apply Forall_forall; auto]]|]. intros [a|?| |] s' e' H; try exact Logic.I. destruct H as (_ & H & _). apply Hk; assumption. Qed.
Lemma P4_indep F0 f : f <> CTAP_CERT_FILE -> indep (P4 F0) f.
Proof. intros H F x HF. unfold P4, fattr in *. rewrite fset_other by (intros E; apply H; symmetry; exact E). exact HF. Qed.
Lemma k4_count F0 : k4 F0 increase_counter.
Proof.
  unfold k4, increase_counter. apply kp_bind; [apply kp_got, kp_read_attr|intros v]. cbv zeta. apply kp_bind; [|intros _; apply kp_ret]. apply kp_must. apply kp_write_attr_at; [auto|]. intros F f H2 Hf. unfold P4.
  rewrite <- H2. unfold fattr. change CTAP_CERT_FILE with "ctap_cert" in *. rewrite fset_same, Hf. cbn [f_attr]. rewrite aset_other by discriminate. reflexivity.
Qed.
(** The id in the authenticator data (WebAuthn, 6.5.1: after 55 bytes) *)
Definition new_id (v : cbor) : bytes := match v with CMap (_ :: (_, CBytes ad) :: _) => slice 55 70 ad | _ => [] end.
Theorem C55_make_credential d x q v s e : hmac_sized -> x_op x = OCbor (RMake (inr q)) -> mc_ok q -> exec K d x = (Some (ACbor 0 (Some v)), s, e) ->
  issued_id (d_fs d) (new_id v) (mc_rphash q) (mc_alg q) (if mc_rk q =? 1 then 1 else 0) (if mc_cp q =? 0 then 1 else mc_cp q).
Proof.
  intros Hsz Hx Hq E. destruct Hq as (_ & (Hh & _) & _ & _ & _ & _ & _ & Ha & _). pattern v. match goal with |- ?P v => set (G := P); apply (exec_some K d x (RMake (inr q)) (fun v => match v with Some v => G v | None => False end) v s e Hx E) end.
  unfold cbor_cmd, cp_observer. apply wp_bind, wp_modify. apply wp_bind. eapply wp_mono with (Q := on_ret G); [|intros [a|?| |] s2 e2 H2; try exact Logic.I; apply wp_ret; exact H2].
  set (F0 := d_fs d) in *. set (s1 := set_tok _ _). set (e1 := start _ _ _ _). assert (H1 : P4 F0 (e_fs e1)) by reflexivity. clearbody s1 e1.
  assert (K1 : k4 F0 consistency_check) by (apply kp_consistency; [auto|apply P4_indep; discriminate|apply P4_indep; discriminate]).
  unfold ctap_make_credential. eapply k4_bind; [exact K1|exact H1|]. clear H1. intros _ s2 e2 H1. eapply k4_bind; [apply kp_touch_probe|exact H1|]. clear H1. intros _ s3 e3 H1. eapply k4_bind; [apply kp_mc_auth; auto|exact H1|]. clear H1. intros uv s4 e4 H1.
  eapply k4_bind; [apply kp_exclude|exact H1|]. clear H1. intros _ s5 e5 H1. eapply k4_bind; [apply kp_ask|exact H1|]. clear H1. intros _ s6 e6 H1. unfold cp_clear_flags. eapply k4_bind; [apply kp_modify; auto|exact H1|]. clear H1. intros _ s7 e7 H1.
  eapply k4_bind; [apply kp_guard|exact H1|]. clear H1. intros _ s8 e8 H1. cbv zeta.
  apply wp_bind. eapply wp_mono with (Q := on_ret (fun r : bytes * bytes => issued_id F0 (snd r) (mc_rphash q) (mc_alg q) (if mc_rk q =? 1 then 1 else 0) (if mc_cp q =? 0 then 1 else mc_cp q) /\ slice 55 70 (fst r) = snd r)).
  { unfold make_auth_data. eapply k4_bind; [apply k4_count|exact H1|]. clear H1. intros c s9 e9 H1. cbv zeta. apply wp_bind. eapply wp_mono; [apply (generate_genuine F0); [exact Hsz|exact H1|exact Hh|exact Ha]|]. intros [[[i p]|]|?| |] s10 e10 H10; try exact Logic.I. cbn [on_ret] in H10. specialize (H10 i p eq_refl).
    apply wp_bind, wp_get. skip. intros key s11 e11. skip. intros _ s12 e12. apply wp_ret. cbn [on_ret fst snd]. split; [exact H10|].
    destruct H10 as (pri & _ & _ & H70 & _). rewrite !app_assoc. match goal with |- slice _ _ (((?A ++ i) ++ key) ++ mc_ext q) = _ => rewrite <- (app_assoc _ key), <- (app_assoc A); apply mid; [|exact H70] end.
    rewrite !zlen_app, Hh. reflexivity. }
  intros [[ad id]|?| |] s9 e9 H9; try exact Logic.I. cbn [on_ret fst snd] in H9. destruct H9 as (H9 & H9'). skip. intros _ s10 e10. skip. intros att s11 e11. skip. intros lbk s12 e12. apply wp_ret. cbn [on_ret app]. unfold G, new_id. rewrite H9'. exact H9.
Qed.
Theorem C55_u2f_register d x data r s e : hmac_sized -> x_op x = ORegister data -> exec K d x = (Some (AApdu r), s, e) -> r_sw r = 0x9000 ->
  exists id pub rest, r_data r = [5; 4] ++ pub ++ [70] ++ id ++ rest /\ issued_id (d_fs d) id (slice 32 32 data) (-7) 0 1.
Proof.
  intros Hsz Hx E Hsw. set (G := fun out => exists id pub rest, out = [5; 4] ++ pub ++ [70] ++ id ++ rest /\ issued_id (d_fs d) id (slice 32 32 data) (-7) 0 1). change (G (r_data r)). revert Hsw.
  pose proof (exec_wp K d x (fun o _ _ => match o with Some (AApdu r) => r_sw r = 0x9000 -> G (r_data r) | _ => True end)) as W. rewrite E, Hx in W. apply W. clear W E. unfold body. rewrite Hx.
  apply wp_bind. unfold u2f_register. apply wp_bind. apply wp_guard; [intros L1|intros _; cbn [r_sw]; discriminate]. apply wp_bind. cbv zeta.
  assert (Z32 : zlen (slice 32 32 data) = 32) by (rewrite zlen_slice; lia).
  match goal with |- wp _ ?Q _ _ => assert (W : forall s2 e2, e_fs e2 = d_fs d -> Q (Ret tt) s2 e2) end.
  { intros s2 e2 He. cbn. apply wp_bind. eapply wp_mono; [apply wp_and; [apply (generate_genuine (d_fs d) (slice 32 32 data) ALG_ES256 0 1); [exact Hsz|rewrite He; reflexivity|exact Z32|unfold ALG_ES256; lia]|apply (nz_generate (slice 32 32 data) ALG_ES256 0 1)]|].
    intros [[[i p]|]|w| |] s3 e3 (H3 & H3'); cbn [nx] in H3'; try contradiction; try exact Logic.I; try (cbn [r_sw]; discriminate). cbn [on_ret] in H3. specialize (H3 i p eq_refl).
    apply wp_bind. destruct e3 as [F3 L3 X3 R3 T3 O3]. apply wp_read_file. intros X' c _ _. destruct c as [cert|]; [|cbn [r_sw]; discriminate]. unfold sign_with_device_key, read_key32. apply wp_bind, wp_bind, wp_bind. apply wp_read_attr. intros X'' k _ _. apply wp_ret, wp_ret.
    destruct (zlen _ <=? x_cap x); [|exact Logic.I]. apply wp_set_out. intros _. cbn [r_data]. exists i, p. eexists. split; [cbn [app e_out]; rewrite <- ?app_assoc; reflexivity|exact H3]. }
  unfold u2f_touch. destruct (x_nfc x); [apply wp_ret; apply W; reflexivity|]. apply wp_bind. unfold start. apply wp_wait_touch. apply wp_guard; [intros _; apply W; reflexivity|intros _; cbn [r_sw]; discriminate].
Qed.
(** Two genuine ids with the same random part and RP differ at most in the algorithm: whoever changes one of the other bytes has to find a tag. *)
Theorem C55_tag_determined F id id' pri pri' : zlen id = 70 -> zlen id' = 70 -> genuine K F id pri -> genuine K F id' pri' -> id_nonce id = id_nonce id' -> id_rp id = id_rp id' -> firstn 66 id = firstn 66 id' /\ pri = pri'.
Proof.
  intros L L' (kh & H1 & H2 & H3) (kh' & H1' & H2' & H3') Hn Hr. assert (kh' = kh) as -> by congruence. assert (pri' = pri) as -> by congruence. split; [|reflexivity].
  assert (P : forall i, zlen i = 70 -> firstn 66 i = id_tag i ++ id_nonce i ++ id_rp i).
  { intros i Hi. unfold id_tag, id_nonce, id_rp. change (firstn 66 i) with (slice 0 66 i). change 66 with (16 + (18 + 32)). rewrite (slice_split 0 16 (18 + 32)), (slice_split (0 + 16) 18 32) by lia. reflexivity. }
  rewrite (P id L), (P id' L'). rewrite H3, H3', Hn, Hr. auto.
Qed.

(** ** C56 *)
Theorem C56_get_assertion d x q v s e : x_op x = OCbor (RGet (inr q)) -> ga_ok q -> exec K d x = (Some (ACbor 0 (Some v)), s, e) ->
  exists id rest, v = CMap ((CInt 1, CMap [(txt "id", CBytes id); (txt "type", txt "public-key")]) :: rest) /\
    (id_cp id = 3 -> says_uv v = true) /\ (id_cp id = 2 -> says_uv v = true \/ ga_allow q <> []).
Proof.
  intros Hx Hq E. destruct (ga_answer d x q v s e Hx Hq E) as (dc & pri & g0 & g1 & _ & _ & _ & (ad & sig & rest & kt & Hv & _ & _ & _ & (M1 & M2)) & _). eexists _, _. split; [exact Hv|]. split; [exact M2|].
  intros H. destruct (M1 H) as [H'|H']; [left; exact H'|right]. intros Hn. rewrite Hn in H'. discriminate H'.
Qed.
Theorem C56_get_next d x v s e : x_op x = OCbor RNext -> zlen (ga_rphash (g_req (c_ga (d_ram d)))) = 32 -> exec K d x = (Some (ACbor 0 (Some v)), s, e) ->
  exists id rest, v = CMap ((CInt 1, CMap [(txt "id", CBytes id); (txt "type", txt "public-key")]) :: rest) /\
    (id_cp id = 3 -> says_uv v = true) /\ (id_cp id = 2 -> says_uv v = true \/ ga_allow (g_req (c_ga (d_ram d))) <> []).
Proof.
  intros Hx Hq E. destruct (gna_answer d x v s e Hx Hq E) as (_ & _ & _ & dc & pri & g1 & _ & _ & (ad & sig & rest & kt & Hv & _ & _ & _ & (M1 & M2)) & _). eexists _, _. split; [exact Hv|]. split; [exact M2|].
  intros H. destruct (M1 H) as [H'|H']; [left; exact H'|right]. intros Hn. rewrite Hn in H'. discriminate H'.
Qed.
(** ** C81 *)
Theorem C81_get_assertion d x q v s e : x_op x = OCbor (RGet (inr q)) -> ga_ok q -> exec K d x = (Some (ACbor 0 (Some v)), s, e) ->
  exists id rest, v = CMap ((CInt 1, CMap [(txt "id", CBytes id); (txt "type", txt "public-key")]) :: rest) /\
    (id_dc id <> 0 -> exists j dc, 0 <= j /\ live (e_fs e) j dc /\ dc_id dc = id).
Proof.
  intros Hx Hq E. destruct (C55_get_assertion d x q v s e Hx Hq E) as (dc & pri & (ad & sig & rest & kt & Hv & _) & _ & H). eexists _, _. split; [exact Hv|]. intros Hd. destruct (ga_allow q) as [|i l].
  - destruct H as (_ & j & Hj & Hl). exists j, dc. auto.
  - destruct H as ((id & _ & _ & _ & _ & _ & _ & _ & H0 & H1) & _). destruct (Z.eq_dec (id_dc id) 0) as [Hz|Hz]; [elim Hd; rewrite (H0 Hz); exact Hz|]. destruct (H1 Hz) as (j & Hj & Hl). exists j, dc. auto.
Qed.
End S.

(** ** Examples and refutations *)
Definition made (e : entry) : list bytes := match snd e with Some (ACbor 0 (Some v)) => match v with CMap (_ :: (_, CBytes ad) :: _) => if 125 <=? zlen ad then [new_id v] else [] | _ => [] end | Some (AApdu r) => if zlen (r_data r) <? 137 then [] else [slice 67 70 (r_data r)] | _ => [] end.
Definition ids_of (r : option (list entry * dev)) : list bytes := match r with Some (tr, _) => flat_map made tr | None => [] end.
Definition auth_at (t rp : Z) (id : bytes) : ev := do_at t (OAuth 3 (repeat 4 32 ++ repeat rp 32 ++ [70] ++ id)).
Definition last_apdu (tr : list entry) : Z := match rev tr with (_, _, Some (AApdu r)) :: _ => r_sw r | _ => -1 end.
Fixpoint same_ids (a b : list bytes) : bool := match a, b with [], [] => true | x :: a, y :: b => beqb x y && same_ids a b | _, _ => false end.
Lemma same_ids_eq a b : same_ids a b = true -> a = b.
Proof. revert b. induction a as [|x a IH]; intros [|y b] H; try discriminate; [reflexivity|]. cbn [same_ids] in H. apply andb_true_iff in H. destruct H as (H1 & H2). apply beqb_eq in H1. subst. f_equal. apply IH, H2. Qed.
(** U2F: an id from a registration is accepted.  The hypotheses of C55 are met. *)
Definition reg55 : list ev := [do_at 20000 (OKey (repeat 6 32)); do_at 20001 (ORegister (repeat 4 32 ++ repeat 7 32)); do_at 20002 (OCbor (RMake (inr (mc_of 7 1 0 None))))].
Definition ids55 : list bytes := Eval vm_compute in ids_of (play toyf fresh_dev reg55).
Definition id55 : bytes := nth 0 ids55 []. Definition id55' : bytes := nth 1 ids55 [].
Definition case55 : list ev := reg55 ++ [do_at 20003 (OCbor (RGet (inr (ga_of 7 [id55] None)))); do_at 20004 (OCbor (RGet (inr (ga_of 7 [id55'] None)))); auth_at 20005 7 id55].
Example C55_case : hmac_sized toyf /\ zlen id55 = 70 /\ zlen id55' = 70 /\ exists tr d, hist toyf fresh_dev tr d /\ map (fun e => snd (fst e)) tr = case55 /\ forallb oks tr = true.
Proof.
  split; [intros k m; apply toy_sha_length|]. split; [reflexivity|]. split; [reflexivity|].
  destruct (play_case toyf fresh_dev case55 (fun tr d => forallb oks tr)) as (tr & d & H1 & H2 & H3); [vm_compute; reflexivity|]. exists tr, d. tauto.
Qed.
(** The last four bytes are not protected: an id with other ones, which the device has not issued, is accepted by U2F and, with the number of EdDSA, by getAssertion, which then signs with the secret of the ECDSA key. *)
Definition forged : bytes := firstn 66 id55' ++ to_le 4 (-8).
Definition case_forged : list ev := reg55 ++ [auth_at 20003 7 forged; do_at 20004 (OCbor (RGet (inr (ga_of 7 [forged] None))))].
Theorem C55_altered_refuted : ~ In forged ids55 /\ exists tr d, hist toyf fresh_dev tr d /\ map (fun e => snd (fst e)) tr = case_forged /\ flat_map made tr = ids55 /\ forallb oks tr = true.
Proof.
  split; [vm_compute; intros H; repeat (destruct H as [H|H]; [discriminate H|]); exact H|].
  destruct (play_case toyf fresh_dev case_forged (fun tr d => forallb oks tr && same_ids (flat_map made tr) ids55)) as (tr & d & H1 & H2 & H3); [vm_compute; reflexivity|].
  apply andb_true_iff in H2. destruct H2 as (H2 & H4). exists tr, d. split; [exact H1|]. split; [exact H3|]. split; [apply same_ids_eq; exact H4|exact H2].
Qed.
(** Level 3 is enforced by getAssertion: with user verification it succeeds, without it does not. *)
Definition protected (t : Z) (cp rk : Z) : mcreq := let q := mc_tag t 7 1 rk in mkMc (mc_cdh q) (mc_rphash q) (mc_rp q) (mc_user q) (mc_alg q) [] rk 2 2 (mc_param q) (mc_proto q) false false cp None.
Definition make56 (cp rk : Z) : list ev := start50 ++ [pin_at 20002 (token_req fresh_dev pin_a); do_at 20003 (OCbor (RMake (inr (protected 20002 cp rk))))].
Definition id56 : bytes := Eval vm_compute in nth 0 (ids_of (play toyf fresh_dev (make56 3 0))) [].
Definition case56 : list ev := make56 3 0 ++ [do_at 20004 (OCbor (RGet (inr (ga_of 7 [id56] None)))); pin_at 20005 (token_req fresh_dev pin_a);
  do_at 20006 (OCbor (RGet (inr (ga_of 7 [id56] (Some (tag_at 20005 (repeat 4 32)))))))].
Example C56_case : id_cp id56 = 3 /\ exists tr d, hist toyf fresh_dev tr d /\ map code_of tr = [-1; 0; 0; 0; 46; 0; 0] /\ last_uv tr = true.
Proof.
  split; [reflexivity|]. destruct (play_case toyf fresh_dev case56 (fun tr d => beqb (map code_of tr) [-1; 0; 0; 0; 46; 0; 0] && last_uv tr)) as (tr & d & H1 & H2 & H3); [vm_compute; reflexivity|].
  apply andb_true_iff in H2. destruct H2 as (H2 & H4). apply beqb_eq in H2. exists tr, d. auto.
Qed.
(** U2F: the same credential is used without the PIN. *)
Definition case56u : list ev := make56 3 0 ++ [auth_at 20004 7 id56].
Theorem C56_u2f_refuted : id_cp id56 = 3 /\ exists tr d, hist toyf fresh_dev tr d /\ map (fun e => snd (fst e)) tr = case56u /\ flat_map made tr = [id56] /\ last_apdu tr = 0x9000.
Proof.
  split; [reflexivity|]. destruct (play_case toyf fresh_dev case56u (fun tr d => same_ids (flat_map made tr) [id56] && (last_apdu tr =? 0x9000))) as (tr & d & H1 & H2 & H3); [vm_compute; reflexivity|].
  apply andb_true_iff in H2. destruct H2 as (H2 & H4). exists tr, d. split; [exact H1|]. split; [exact H3|]. split; [apply same_ids_eq; exact H2|lia].
Qed.
(** A deleted credential *)
Definition make81 : list ev := start50 ++ [pin_at 20002 (token_req fresh_dev pin_a); do_at 20003 (OCbor (RMake (inr (mc_tag 20002 7 1 1))))].
Definition id81 : bytes := Eval vm_compute in nth 0 (ids_of (play toyf fresh_dev make81)) [].
Definition del81 : list ev := make81 ++ [pin_at 20004 (ask_perm pin_a 4 None); do_at 20005 (OCbor (RCm (inr (mkCm 6 [1; 2; 3] (repeat 0 32) id81 (repeat 0 195) 1 (tag_at 20004 [6; 1; 2; 3])))))].
Definition case81 : list ev := make81 ++ [do_at 20004 (OCbor (RGet (inr (ga_of 7 [id81] None)))); do_at 20005 (OCbor (RGet (inr (ga_of 7 [] None))))].
Definition case81d : list ev := del81 ++ [do_at 20006 (OCbor (RGet (inr (ga_of 7 [id81] None)))); do_at 20007 (OCbor (RGet (inr (ga_of 7 [] None))))].
Example C81_case : id_dc id81 = 1 /\ (exists tr d, hist toyf fresh_dev tr d /\ map code_of tr = [-1; 0; 0; 0; 0; 0]) /\ (exists tr d, hist toyf fresh_dev tr d /\ map code_of tr = [-1; 0; 0; 0; 0; 0; 46; 46]).
Proof.
  split; [reflexivity|]. split.
  - destruct (play_case toyf fresh_dev case81 (fun tr d => beqb (map code_of tr) [-1; 0; 0; 0; 0; 0])) as (tr & d & H1 & H2 & H3); [vm_compute; reflexivity|]. apply beqb_eq in H2. exists tr, d. auto.
  - destruct (play_case toyf fresh_dev case81d (fun tr d => beqb (map code_of tr) [-1; 0; 0; 0; 0; 0; 46; 46])) as (tr & d & H1 & H2 & H3); [vm_compute; reflexivity|]. apply beqb_eq in H2. exists tr, d. auto.
Qed.
(** U2F goes on accepting it. *)
Definition case81u : list ev := del81 ++ [auth_at 20006 7 id81].
Theorem C81_u2f_refuted : exists tr d, hist toyf fresh_dev tr d /\ map (fun e => snd (fst e)) tr = case81u /\ flat_map made tr = [id81] /\ forallb oks tr = true /\ last_apdu tr = 0x9000.
Proof.
  destruct (play_case toyf fresh_dev case81u (fun tr d => same_ids (flat_map made tr) [id81] && forallb oks tr && (last_apdu tr =? 0x9000))) as (tr & d & H1 & H2 & H3); [vm_compute; reflexivity|].
  apply andb_true_iff in H2. destruct H2 as (H2 & H4). apply andb_true_iff in H2. destruct H2 as (H2 & H5). exists tr, d. split; [exact H1|]. split; [exact H3|]. split; [apply same_ids_eq; exact H2|]. split; [exact H5|lia].
Qed.
Print Assumptions C55_get_assertion. Print Assumptions C55_u2f_authenticate. Print Assumptions C55_make_credential. Print Assumptions C55_u2f_register. Print Assumptions C55_tag_determined. Print Assumptions C55_altered_refuted.
Print Assumptions C56_get_assertion. Print Assumptions C56_get_next. Print Assumptions C56_u2f_refuted. Print Assumptions C81_get_assertion. Print Assumptions C81_u2f_refuted.
