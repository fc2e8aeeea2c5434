(** C42, C43, C44, C75: the FIDO HID transport. *)
From Verif Require Import Hid.
Open Scope list_scope. Open Scope Z_scope.

(** ** Specification: messages as frames (CTAPHID section of the FIDO specification) *)
Fixpoint conts (n : nat) (cid seq : Z) (p : bytes) : list frm :=
  match n, p with
  | S n, _ :: _ => mkF cid seq (pad 59 (firstn 59 p)) :: conts n cid (seq + 1) (skipn 59 p)
  | _, _ => []
  end.
(** The frames that carry a message *)
Definition frames_of (cid cmd : Z) (p : bytes) : list frm :=
  mkF cid cmd (zlen p / 256 :: zlen p mod 256 :: pad 57 (firstn 57 p)) :: conts (length p) cid 0 (skipn 57 p).
(** And what a receiver makes of a sequence of frames *)
Fixpoint join (cid seq : Z) (fs : list frm) : option bytes :=
  match fs with
  | [] => Some []
  | f :: fs => if (f_cid f =? cid) && (f_type f =? seq) then match join cid (seq + 1) fs with Some b => Some (f_pay f ++ b) | None => None end else None
  end.
Definition reassemble (fs : list frm) : option (Z * Z * bytes) :=
  match fs with
  | f :: fs =>
    if is_init f then
      match join (f_cid f) 0 fs with
      | Some b => let all := init_data f ++ b in
        if (msg_len f <=? zlen all) && ((zlen all <? msg_len f + 59) || (zlen fs =? 0)) then Some (f_cid f, f_type f, firstn (Z.to_nat (msg_len f)) all) else None
      | None => None
      end
    else None
  | [] => None
  end.
(** An error report *)
Definition error_frame (cid code : Z) : frm := mkF cid 0xbf (0 :: 1 :: pad 57 [code]).

(** The frames of channel [cid] still to come, interleaved with frames of other channels, idle runs of the loop and time;
    nothing arrives while the device works. *)
Inductive weave (cid : Z) : list frm -> list ev -> Prop :=
| wv_nil : weave cid [] []
| wv_own f fs rnd evs : weave cid fs evs -> weave cid (f :: fs) (Rx f :: Loop [] rnd :: evs)
| wv_other f fs g rnd evs : f_cid g <> cid -> weave cid (f :: fs) evs -> weave cid (f :: fs) (Rx g :: Loop [] rnd :: evs)
| wv_idle f fs rnd evs : weave cid (f :: fs) evs -> weave cid (f :: fs) (Loop [] rnd :: evs)
| wv_tick f fs ms evs : 0 <= ms -> weave cid (f :: fs) evs -> weave cid (f :: fs) (Tick ms :: evs).
Inductive session (cid : Z) : list frm -> list ev -> Prop :=
| sess f fs rnd evs : weave cid fs evs -> session cid (f :: fs) (Rx f :: Loop [] rnd :: evs).
Definition lasts (evs : list ev) : Z := fold_right (fun e s => match e with Tick ms => ms + s | _ => s end) 0 evs.
(** The errors other channels get *)
Definition errors (cid : Z) (evs : list ev) : list frm :=
  flat_map (fun e => match e with
    | Rx g => if f_cid g =? cid then []
      else [error_frame (f_cid g) (if (f_cid g =? 0) || ((f_cid g =? CID_BROADCAST) && negb (f_type g =? 0x86)) then 0xb else 6)]
    | _ => [] end) evs.
(** No transaction in progress, nothing pending *)
Definition idle (h : hid) : Prop := h_busy h = false /\ h_has h = false /\ zlen (h_data h) = 1300.
(** What a command does if nothing arrives meanwhile: its keep-alives and its response *)
Fixpoint result (p : prog) : bytes := match p with Done r => r | Poll k => result (k 0) | Keep _ p => result p end.
Fixpoint keeps (cid : Z) (p : prog) : list frm :=
  match p with Done _ => [] | Poll k => keeps cid (k 0) | Keep s p => mkF cid 0xbb (0 :: 1 :: pad 57 [s]) :: keeps cid p end.

(** ** Proofs: lists *)
Lemma zlen_pad n l : zlen l <= n -> zlen (pad n l) = n.
Proof. intros. unfold pad. rewrite zlen_app, zlen_zeros; lia. Qed.
Lemma firstn_pad n (l : bytes) m : (n <= length l)%nat -> firstn n (pad m l) = firstn n l.
Proof. intros. unfold pad. rewrite firstn_app. replace (n - length l)%nat with 0%nat by lia. rewrite firstn_O, app_nil_r. reflexivity. Qed.
Lemma conts_S n cid seq p : p <> [] -> conts (S n) cid seq p = mkF cid seq (pad 59 (firstn 59 p)) :: conts n cid (seq + 1) (skipn 59 p).
Proof. destruct p; [congruence|reflexivity]. Qed.
Lemma conts_nil n cid seq : conts n cid seq [] = []. Proof. destruct n; reflexivity. Qed.
(** The fuel does not matter *)
Lemma conts_fuel n m cid seq p : (length p <= n)%nat -> (length p <= m)%nat -> conts n cid seq p = conts m cid seq p.
Proof.
  revert m seq p. induction n as [|n IH]; intros m seq p Hn Hm.
  - destruct p; [rewrite !conts_nil; reflexivity|cbn in Hn; lia].
  - destruct p as [|x p]; [rewrite !conts_nil; reflexivity|]. destruct m as [|m]; [cbn in Hm; lia|]. rewrite !conts_S by discriminate. f_equal.
    apply IH; rewrite skipn_length; cbn [length] in *; lia.
Qed.
Lemma join_conts n cid : forall seq p, (length p <= n)%nat ->
  exists b, join cid seq (conts n cid seq p) = Some b /\ firstn (length p) b = p /\ zlen p <= zlen b /\ (p = [] -> b = []) /\ zlen b < zlen p + 59.
Proof.
  induction n as [|n IH]; intros seq p Hn.
  - destruct p; [|cbn in Hn; lia]. exists []. cbn. repeat split; lia.
  - destruct p as [|x p]; [exists []; cbn; repeat split; lia|]. rewrite conts_S by discriminate. cbn [join f_cid f_type f_pay]. rewrite !Z.eqb_refl. cbn [andb].
    remember (x :: p) as q eqn:Eq. assert (Hq : (1 <= length q)%nat) by (subst q; cbn; lia). destruct (IH (seq + 1) (skipn 59 q)) as (b & E & Hb & Hz & He & Hlt); [rewrite skipn_length; lia|].
    rewrite E. eexists. split; [reflexivity|]. rewrite zlen_app, zlen_pad by (rewrite zlen_firstn; lia). rewrite zlen_skipn in Hz, Hlt.
    split; [|split; [lia|split; [subst q; discriminate|]]].
    + destruct (Nat.le_gt_cases (length q) 59) as [Hs|Hs].
      * rewrite firstn_app. rewrite firstn_pad by (rewrite firstn_length; lia). rewrite firstn_all2 with (n := 59%nat) by lia. rewrite firstn_all.
        assert (length (pad 59 q) = 59)%nat as -> by (apply Nat2Z.inj; fold (zlen (pad 59 q)); rewrite zlen_pad; [reflexivity|unfold zlen; lia]).
        replace (length q - 59)%nat with 0%nat by lia. rewrite firstn_O, app_nil_r. reflexivity.
      * rewrite firstn_app. assert (length (pad 59 (firstn 59 q)) = 59)%nat as Hl by (apply Nat2Z.inj; fold (zlen (pad 59 (firstn 59 q))); rewrite zlen_pad; [reflexivity|rewrite zlen_firstn; lia]).
        rewrite Hl. rewrite skipn_length in Hb. rewrite Hb. rewrite (firstn_all2 (n := length q)) by lia. unfold pad. rewrite zlen_firstn. replace (59 - Z.min (Z.of_nat 59) (zlen q)) with 0 by (unfold zlen; lia).
        change (zeros 0) with (@nil Z). rewrite app_nil_r. apply firstn_skipn.
    + destruct (Nat.le_gt_cases (length q) 59) as [Hs|Hs]; [|unfold zlen in *; lia]. rewrite He; [unfold zlen in *; cbn; lia|]. apply skipn_all2. exact Hs.
Qed.
(** Sender and receiver agree: the frames of a message reassemble to it. *)
Lemma reassemble_frames cid cmd p : 128 <= cmd < 256 -> zlen p < 65536 -> reassemble (frames_of cid cmd p) = Some (cid, cmd, p).
Proof.
  intros Hc Hz. unfold frames_of, reassemble. cbn [is_init f_type f_cid]. unfold is_init. cbn [f_type]. destruct (Z.leb_spec 128 cmd); [|lia].
  destruct (join_conts (length p) cid 0 (skipn 57 p)) as (b & E & Hb & Hzb & He & Hlt); [rewrite skipn_length; lia|]. rewrite E.
  assert (Hm : msg_len (mkF cid cmd (zlen p / 256 :: zlen p mod 256 :: pad 57 (firstn 57 p))) = zlen p).
  { unfold msg_len, byte_at. cbn [f_pay nth]. pose proof (Z.div_mod (zlen p) 256). lia. }
  unfold init_data. cbn [f_pay]. change (skipn 2 (zlen p / 256 :: zlen p mod 256 :: pad 57 (firstn 57 p))) with (pad 57 (firstn 57 p)). cbv zeta. rewrite !Hm. rewrite zlen_app, zlen_pad by (rewrite zlen_firstn; lia). rewrite zlen_skipn in Hzb, Hlt. pose proof (zlen_nonneg p) as Hp.
  assert (Hc2 : (zlen p <=? 57 + zlen b) && ((57 + zlen b <? zlen p + 59) || (zlen (conts (length p) cid 0 (skipn 57 p)) =? 0)) = true).
  { destruct (Z.le_gt_cases (zlen p) 57) as [Hs|Hs].
    - rewrite (skipn_all2 (n := 57)) in * by (unfold zlen in *; lia). rewrite (He eq_refl) in *. rewrite conts_nil. change (zlen (@nil Z)) with 0 in *. change (zlen (@nil frm) =? 0) with true. rewrite orb_true_r, andb_true_r. lia.
    - apply andb_true_iff. split; [lia|]. apply orb_true_iff. left. lia. }
  rewrite Hc2. do 2 f_equal. unfold zlen. rewrite Nat2Z.id.
  destruct (Nat.le_gt_cases (length p) 57) as [Hs|Hs].
  - rewrite firstn_app, firstn_pad by (rewrite firstn_length; lia). rewrite (firstn_all2 (n := 57)) by lia. rewrite firstn_all.
    assert (length (pad 57 p) = 57)%nat as -> by (apply Nat2Z.inj; fold (zlen (pad 57 p)); rewrite zlen_pad; [reflexivity|unfold zlen; lia]).
    replace (length p - 57)%nat with 0%nat by lia. rewrite firstn_O, app_nil_r. reflexivity.
  - rewrite firstn_app. assert (length (pad 57 (firstn 57 p)) = 57)%nat as Hl by (apply Nat2Z.inj; fold (zlen (pad 57 (firstn 57 p))); rewrite zlen_pad; [reflexivity|rewrite zlen_firstn; lia]).
    rewrite Hl. rewrite skipn_length in Hb. rewrite Hb. rewrite (firstn_all2 (n := length p)) by lia. unfold pad. rewrite zlen_firstn. replace (57 - Z.min (Z.of_nat 57) (zlen p)) with 0 by (unfold zlen; lia).
    change (zeros 0) with (@nil Z). rewrite app_nil_r. apply firstn_skipn.
Qed.

(** ** Proofs: memory safety *)
(** Everything but the frame buffer, the outbox and the environment *)
Definition same (h h' : hid) : Prop :=
  h_cid h' = h_cid h /\ h_total h' = h_total h /\ h_cur h' = h_cur h /\ h_expire h' = h_expire h /\ h_busy h' = h_busy h /\
  h_cmd h' = h_cmd h /\ h_seq h' = h_seq h /\ h_data h' = h_data h /\ h_log h' = h_log h /\ (exists l, h_arr h = l ++ h_arr h').
Lemma same_refl h : same h h. Proof. repeat split; try reflexivity. exists []. reflexivity. Qed.
Lemma same_trans a b c : same a b -> same b c -> same a c.
Proof. intros (?&?&?&?&?&?&?&?&?&l&?) (?&?&?&?&?&?&?&?&?&m&?). repeat split; try congruence. exists (l ++ m). rewrite <- app_assoc. congruence. Qed.
Lemma same_frame f b h : same h (s_frame f b h). Proof. repeat split; try reflexivity. exists []. reflexivity. Qed.
Lemma same_sent f h : same h (s_sent f h). Proof. repeat split; try reflexivity. exists []. reflexivity. Qed.
Lemma same_out f h : same h (out_event f h). Proof. unfold out_event. destruct (h_has h); [apply same_refl|apply same_frame]. Qed.
Lemma same_intr h : same h (intr h).
Proof.
  unfold intr. destruct (h_arr h) as [|[o dt] arr] eqn:E; [apply same_refl|]. assert (same h (s_env (h_now h + dt) arr (h_rnd h) h)) as H by (repeat split; try reflexivity; exists [(o, dt)]; cbn; exact E).
  destruct o; [eapply same_trans; [exact H|apply same_out]|exact H].
Qed.
Lemma same_send h : same h (send_frame h). Proof. unfold send_frame. eapply same_trans; [apply same_intr|apply same_sent]. Qed.
Lemma same_conts n : forall seq off len d h, same h (send_conts n seq off len d h).
Proof.
  induction n as [|n IH]; intros; cbn [send_conts]; [apply same_refl|]. destruct (off <? len); [|apply same_refl]. cbv zeta.
  eapply same_trans; [apply same_frame|]. eapply same_trans; [apply same_send|]. apply IH.
Qed.
Lemma same_response cid cmd d len h : same h (send_response cid cmd d len h).
Proof. unfold send_response. cbv zeta. eapply same_trans; [apply same_frame|]. eapply same_trans; [apply same_send|]. apply same_conts. Qed.
Lemma same_error cid code h : same h (send_error cid code h).
Proof. unfold send_error. eapply same_trans; [apply same_frame|apply same_send]. Qed.
Lemma same_keep s h : same h (send_keepalive s h).
Proof. unfold send_keepalive. eapply same_trans; [apply same_frame|apply same_send]. Qed.

(** Frames that respect the buffer size; in the main loop an oversized frame is harmless unless it is an INIT command *)
Definition fits (f : frm) : Prop := is_init f = true -> 0 <= msg_len f <= 1300.
Definition fits_main (f : frm) : Prop := is_init f = true -> 0 <= msg_len f /\ (f_type f = 0x86 -> msg_len f <= 1300).
Definition okf (wait : bool) := if wait then fits else fits_main.
Lemma fits_okf w f : fits f -> okf w f. Proof. destruct w; [auto|]. intros H Hi. specialize (H Hi). cbn. lia. Qed.
Definition arr_fits (l : list (option frm * Z)) : Prop := Forall (fun x => match fst x with Some f => fits f | None => True end) l.
Definition safe (h : hid) : Prop := zlen (h_data h) = 1300 /\ (h_busy h = true -> 0 <= h_cur h <= h_total h /\ h_total h <= 1300) /\ arr_fits (h_arr h).
Lemma safe_same h h' : same h h' -> safe h -> safe h'.
Proof.
  intros (?&E2&E3&E4&E5&E6&E7&E8&E9&l&E10) (H1 & H2 & H3). unfold safe. rewrite E2, E3, E5, E8. repeat split; try assumption; try (apply H2; assumption).
  unfold arr_fits in *. rewrite E10 in H3. apply Forall_app in H3. apply H3.
Qed.
Definition pending (w : bool) (h : hid) : Prop := h_has h = true -> okf w (h_frame h).
Lemma pending_intr w h : safe h -> pending w h -> pending w (intr h).
Proof.
  intros (_ & _ & H3) Hp. unfold intr. destruct (h_arr h) as [|[o dt] arr] eqn:E; [exact Hp|]. destruct o as [f|]; [|exact Hp].
  unfold out_event. cbn [h_has s_env]. destruct (h_has h) eqn:Eh; [intros _; apply Hp, Eh|]. intros _. cbn. apply fits_okf. apply Forall_cons_iff in H3. apply H3.
Qed.
Lemma small_fits cid cmd code : fits (small_frame cid cmd code). Proof. intros _. cbn. lia. Qed.
Lemma pending_error w cid code h : safe h -> pending w (send_error cid code h).
Proof.
  intros Hs. unfold send_error, send_frame. assert (pending w (intr (s_frame (small_frame cid ERROR code) (h_has h) h))) as H; [|exact H].
  apply pending_intr; [eapply safe_same; [apply same_frame|exact Hs]|]. intros _. apply fits_okf, small_fits.
Qed.
Lemma pending_keep w s h : safe h -> pending w (send_keepalive s h).
Proof.
  intros Hs. unfold send_keepalive, send_frame. assert (pending w (intr (s_frame (small_frame (h_cid h) KEEPALIVE s) (h_has h) h))) as H; [|exact H].
  apply pending_intr; [eapply safe_same; [apply same_frame|exact Hs]|]. intros _. apply fits_okf, small_fits.
Qed.
Lemma zlen_splice l off d : 0 <= off -> off + zlen d <= zlen l -> zlen (splice l off d) = zlen l.
Proof. intros. unfold splice. rewrite !zlen_app, zlen_firstn, zlen_skipn. unfold zlen in *. lia. Qed.
Lemma zlen_slice_le off n l : 0 <= n -> zlen (slice off n l) <= n.
Proof. intros. unfold slice. rewrite zlen_firstn. lia. Qed.

(** A step of the loop leads to a safe state and never leaves the buffer, if the execution of commands does not *)
Definition ok_after (r : option (Z * hid)) : Prop := match r with Some (_, h) => safe h /\ h_has h = false | None => False end.
Lemma consume_ok h : safe h -> ok_after (consume h).
Proof. intros H. split; [eapply safe_same; [apply same_frame|exact H]|reflexivity]. Qed.
Lemma safe_busy_off h : safe h -> safe (s_busy false h).
Proof. intros (H1 & _ & H3). split; [exact H1|]. split; [discriminate|exact H3]. Qed.
Lemma safe_init h : safe h -> safe (execute_init h).
Proof.
  intros Hs. unfold execute_init. destruct (h_cid h =? CID_BROADCAST); (eapply safe_same; [apply same_response|]); destruct Hs as (H1 & H2 & H3); (split; [|split; [exact H2|exact H3]]); cbn [h_data s_data s_env];
  rewrite zlen_splice; [exact H1|lia|rewrite H1; cbn; lia|exact H1|lia|rewrite H1; cbn; lia].
Qed.
Lemma complete_ok exec w h : (w = false -> forall h, safe h -> h_has h = false -> match exec h with Some h => safe h | None => False end) ->
  safe h -> ok_after (complete exec w h).
Proof.
  intros He Hs. unfold complete. cbv zeta. set (h1 := s_frame (h_frame h) false h). assert (Hs1 : safe h1) by (eapply safe_same; [apply same_frame|exact Hs]). assert (Hh : h_has h1 = false) by reflexivity. clearbody h1. clear Hs.
  destruct (negb (h_cur h1 =? h_total h1)); [split; [eapply safe_same; [apply same_frame|exact Hs1]|reflexivity]|].
  set (h2 := s_expire EXPIRE_NEVER h1). assert (Hs2 : safe h2) by exact Hs1. assert (Hh2 : h_has h2 = false) by exact Hh. clearbody h2.
  assert (Hf : forall r h, safe h -> ok_after (Some (r, s_frame (h_frame h) false (s_busy false h)))).
  { intros r h0 H0. split; [|reflexivity]. eapply safe_same; [apply (same_frame (h_frame h0) false)|apply safe_busy_off, H0]. }
  assert (Her : forall cid code, safe (send_error cid code h2)) by (intros; eapply safe_same; [apply same_error|exact Hs2]).
  destruct ((h_cmd h2 =? MSG) || (h_cmd h2 =? CBOR)).
  { destruct w; [apply Hf, Her|]. destruct (if h_cmd h2 =? MSG then h_total h2 <? 4 else h_total h2 =? 0); [apply Hf, Her|]. specialize (He eq_refl h2 Hs2 Hh2). destruct (exec h2) as [h3|]; [apply Hf, He|contradiction]. }
  destruct (h_cmd h2 =? INIT); [destruct w; [apply Hf, Her|apply Hf, safe_init, Hs2]|].
  destruct (h_cmd h2 =? PING); [destruct w; [apply Hf, Her|apply Hf; eapply safe_same; [apply same_response|exact Hs2]]|].
  destruct (h_cmd h2 =? WINK); [apply Hf; eapply safe_same; [apply same_response|exact Hs2]|].
  destruct (h_cmd h2 =? CANCEL); [apply Hf, Hs2|apply Hf, Her].
Qed.
Lemma accept_ok exec w f h : (w = false -> forall h, safe h -> h_has h = false -> match exec h with Some h => safe h | None => False end) ->
  safe h -> okf w f -> ok_after (accept exec w f h).
Proof.
  intros He Hs Hok. unfold accept. destruct (is_init f) eqn:Ei.
  - destruct (negb w && h_busy h && negb (f_type f =? INIT)) eqn:Eb; [apply consume_ok; eapply safe_same; [apply same_error|apply safe_busy_off, Hs]|].
    cbv zeta. cbn [h_total s_total].
    destruct (Z.ltb_spec BUFSIZE (msg_len f)) as [El|El].
    + apply consume_ok. eapply safe_same; [apply same_error|]. destruct Hs as (H1 & H2 & H3). split; [exact H1|]. split; [|exact H3]. cbn [h_busy h_cur h_total s_total]. intros Hb. exfalso. unfold BUFSIZE in El. destruct w; cbn [okf] in Hok.
      * specialize (Hok Ei). lia.
      * rewrite Hb in Eb. cbn [negb andb] in Eb. destruct (Z.eqb_spec (f_type f) INIT) as [E|E]; [|discriminate]. destruct (Hok Ei) as [_ Hx]. specialize (Hx E). lia.
    + apply complete_ok; [exact He|]. assert (0 <= msg_len f) as H0 by (destruct w; specialize (Hok Ei); lia). destruct Hs as (H1 & H2 & H3). unfold BUFSIZE, ISIZE in *. split; [|split; [|exact H3]]; cbn [h_data h_busy h_cur h_total s_start s_total].
      * rewrite zlen_splice; [exact H1|lia|]. pose proof (zlen_slice_le 0 (Z.min (msg_len f) 57) (init_data f)). lia.
      * intros _. lia.
  - destruct (h_busy h) eqn:Eb; cbn [negb]; [|apply consume_ok, Hs]. cbv zeta. cbn [h_seq s_seq h_total h_cur h_data].
    destruct (negb (frame_seq f =? h_seq h)); [apply consume_ok; eapply safe_same; [apply same_error|apply safe_busy_off; exact Hs]|].
    destruct Hs as (H1 & H2 & H3). specialize (H2 Eb). unfold CSIZE, BUFSIZE in *. destruct (Z.ltb_spec 1300 (h_cur h + Z.min (h_total h - h_cur h) 59)) as [El|El]; [lia|].
    apply complete_ok; [exact He|]. split; [|split; [|exact H3]]; cbn [h_data h_busy h_cur h_total s_data s_seq].
    + rewrite zlen_splice; [exact H1|lia|]. pose proof (zlen_slice_le 0 (Z.min (h_total h - h_cur h) 59) (f_pay f)). lia.
    + intros _. lia.
Qed.
Lemma loop_ok exec w h : (w = false -> forall h, safe h -> h_has h = false -> match exec h with Some h => safe h | None => False end) ->
  safe h -> pending w h -> ok_after (loop_with exec w h).
Proof.
  intros He Hs Hp. unfold loop_with. cbv zeta. set (h1 := expire h). assert (safe h1 /\ pending w h1) as [Hs1 Hp1].
  { unfold h1, expire. destruct (h_busy h && _); [|auto]. split; [eapply safe_same; [apply same_error|apply safe_busy_off, Hs]|apply pending_error, safe_busy_off, Hs]. }
  clearbody h1. destruct (h_has h1) eqn:Eh; cbn [negb]; [|split; assumption].
  destruct ((f_cid (h_frame h1) =? 0) || _); [apply consume_ok; eapply safe_same; [apply same_error|exact Hs1]|].
  destruct (h_busy h1 && _); [apply consume_ok; eapply safe_same; [apply same_error|exact Hs1]|].
  apply accept_ok; [exact He|exact Hs1|apply Hp1, Eh].
Qed.
Fixpoint resp_ok (p : prog) : Prop := match p with Done r => zlen r <= 1300 | Poll k => forall r, resp_ok (k r) | Keep _ p => resp_ok p end.
Lemma run_prog_ok p : resp_ok p -> forall h, safe h -> pending true h -> match run_prog p h with Some (r, h') => safe h' /\ zlen r <= 1300 | None => False end.
Proof.
  induction p as [r|k IH|s p IH]; cbn [resp_ok run_prog]; intros Hr h Hs Hp; [auto| |].
  - pose proof (loop_ok (fun h => Some h) true (intr h) ltac:(discriminate) (safe_same _ _ (same_intr h) Hs) (pending_intr true h Hs Hp)) as H. unfold loop_wait. destruct (loop_with _ true (intr h)) as [[r h']|]; [|contradiction]. destruct H as [H1 H2].
    apply IH; [apply Hr|exact H1|]. unfold pending. congruence.
  - assert (safe (intr h)) as Hs1 by (eapply safe_same; [apply same_intr|exact Hs]). apply IH; [exact Hr|eapply safe_same; [apply same_keep|exact Hs1]|apply pending_keep, Hs1].
Qed.

Section Safety.
Variable cbor msg : bytes -> prog.
Hypothesis cbor_ok : forall b, resp_ok (cbor b).
Hypothesis msg_ok : forall b, resp_ok (msg b).
Lemma execute_ok h : safe h -> h_has h = false -> match execute cbor msg h with Some h => safe h | None => False end.
Proof.
  intros Hs Hh. unfold execute. cbv zeta. set (p := if h_cmd h =? CBOR then _ else _). assert (resp_ok p) as Hp by (unfold p; destruct (h_cmd h =? CBOR); auto). clearbody p.
  pose proof (run_prog_ok p Hp (s_log (h_cid h, h_cmd h, h_data h, h_total h) h) Hs) as H. destruct (run_prog p _) as [[r h']|].
  - destruct H as [H Hz]; [intros E; cbn in E; congruence|]. unfold BUFSIZE. destruct (Z.ltb_spec 1300 (zlen r)); [lia|]. eapply safe_same; [apply same_response|]. destruct H as (H1 & H2 & H3). split; [|split; [exact H2|exact H3]].
    cbn [h_data s_data]. rewrite zlen_splice; lia.
  - apply H. intros E. cbn in E. congruence.
Qed.
(** C42, in part: no sequence of frames makes the device write outside its buffer, provided that frames announcing more than 1300 bytes
    are not INIT commands and do not arrive while the device works. *)
Definition ev_fits (e : ev) : Prop := match e with Rx f => fits_main f | Loop arr _ => arr_fits arr | Tick _ => True end.
Theorem C42_no_overflow_partial : forall now evs, Forall ev_fits evs -> exists h, steps cbor msg (hid_init now) evs = Some h.
Proof.
  intros now evs Hf. assert (safe (hid_init now) /\ pending false (hid_init now)) as [Hs Hp].
  { split; [split; [reflexivity|split; [discriminate|constructor]]|discriminate]. }
  revert Hs Hp. generalize (hid_init now). induction evs as [|e evs IH]; intros h Hs Hp; [eexists; reflexivity|]. apply Forall_cons_iff in Hf as [He Hf]. specialize (IH Hf). cbn [steps].
  destruct e as [f|arr rnd|ms]; cbn [step ev_fits] in *.
  - apply IH; [eapply safe_same; [apply same_out|exact Hs]|]. unfold out_event. destruct (h_has h) eqn:E; [exact Hp|]. intros _. exact He.
  - pose proof (loop_ok (execute cbor msg) false (s_env (h_now h) arr rnd h)) as H. unfold loop_main. destruct (loop_with _ false _) as [[r h']|].
    + destruct H as [H1 H2]; [intros _ h0; apply execute_ok|split; [apply Hs|split; [apply Hs|exact He]]|exact Hp|]. apply IH; [split; [apply H1|split; [apply H1|constructor]]|]. unfold pending. cbn [h_has s_env]. congruence.
    + exfalso. apply H; [intros _ h0; apply execute_ok|split; [apply Hs|split; [apply Hs|exact He]]|exact Hp].
  - apply IH; [split; [apply Hs|split; [apply Hs|constructor]]|exact Hp].
Qed.
End Safety.

(** ** Proofs: transactions when nothing arrives while the device works *)
Definition quiet (h h' : hid) (l : list frm) : Prop :=
  same h h' /\ h_sent h' = h_sent h ++ l /\ h_has h' = h_has h /\ h_now h' = h_now h /\ h_arr h' = [] /\ h_rnd h' = h_rnd h.
Lemma quiet_trans a b c l m : quiet a b l -> quiet b c m -> quiet a c (l ++ m).
Proof. intros (S1 & E1 & H1 & N1 & A1 & R1) (S2 & E2 & H2 & N2 & A2 & R2). split; [eapply same_trans; eassumption|]. rewrite app_assoc. repeat split; congruence. Qed.
Lemma quiet_frame f h : h_arr h = [] -> quiet h (send_frame (s_frame f (h_has h) h)) [f].
Proof. intros Ha. unfold send_frame, intr. cbn [h_arr s_frame]. rewrite Ha. split; [eapply same_trans; [apply same_frame|apply same_sent]|]. repeat split; auto. Qed.
Lemma quiet_error cid code h : h_arr h = [] -> quiet h (send_error cid code h) [error_frame cid code].
Proof. intros Ha. apply (quiet_frame (small_frame cid ERROR code) h Ha). Qed.
Lemma slice_firstn off m d n : 0 <= m -> firstn n (slice off m d) = slice off (Z.min m (Z.of_nat n)) d.
Proof. intros. unfold slice. rewrite firstn_firstn. f_equal. lia. Qed.
Lemma slice_skipn off m d n : 0 <= off -> skipn n (slice off m d) = slice (off + Z.of_nat n) (m - Z.of_nat n) d.
Proof. intros. unfold slice. rewrite skipn_firstn_comm, skipn_skipn. f_equal; [lia|]. f_equal. lia. Qed.
Lemma slice_none off n d : n <= 0 -> slice off n d = [].
Proof. intros. unfold slice. replace (Z.to_nat n) with 0%nat by lia. apply firstn_O. Qed.
Lemma conts_quiet n : forall seq off len d h, h_arr h = [] -> 0 <= off -> len <= zlen d -> len - off <= Z.of_nat n -> 0 <= seq -> len <= off \/ 59 * seq + (len - off) <= 15000 ->
  quiet h (send_conts n seq off len d h) (conts n (f_cid (h_frame h)) seq (slice off (len - off) d)).
Proof.
  induction n as [|n IH]; intros seq off len d h Ha H0 Hl Hn Hq Hb; cbn [send_conts].
  - split; [apply same_refl|]. rewrite app_nil_r. auto.
  - destruct (Z.ltb_spec off len) as [E|E].
    2: { rewrite slice_none by lia. rewrite conts_nil. split; [apply same_refl|]. rewrite app_nil_r. auto. }
    cbv zeta. rewrite conts_S.
    2: { intros En. apply (f_equal zlen) in En. rewrite zlen_slice in En by lia. change (zlen (@nil Z)) with 0 in En. lia. }
    set (cp := Z.min (len - off) CSIZE). set (f := mkF (f_cid (h_frame h)) (u8 seq) (pad 59 (slice off cp d))).
    pose proof (quiet_frame f h Ha) as Q1. destruct Q1 as (S1 & E1 & H1 & N1 & A1 & R1).
    assert (Hf : f_cid (h_frame (send_frame (s_frame f (h_has h) h))) = f_cid (h_frame h)) by (unfold send_frame, intr; cbn [h_arr s_frame]; rewrite Ha; reflexivity).
    set (h1 := send_frame (s_frame f (h_has h) h)) in *. unfold CSIZE in cp. specialize (IH (seq + 1) (off + cp) len d h1 A1). rewrite Hf in IH.
    assert (Eq : skipn 59 (slice off (len - off) d) = slice (off + cp) (len - (off + cp)) d).
    { rewrite slice_skipn by lia. destruct (Z.le_gt_cases (len - off) 59); [rewrite !slice_none by lia; reflexivity|]. f_equal; lia. }
    rewrite Eq. assert (Ef : mkF (f_cid (h_frame h)) seq (pad 59 (firstn 59 (slice off (len - off) d))) = f).
    { unfold f. rewrite slice_firstn by lia. f_equal. unfold u8. rewrite Z.mod_small by lia. reflexivity. }
    rewrite Ef. change (f :: ?l) with ([f] ++ l). eapply quiet_trans; [exact (conj S1 (conj E1 (conj H1 (conj N1 (conj A1 R1)))))|]. apply IH; lia.
Qed.
Lemma response_quiet cid cmd d len h : h_arr h = [] -> 0 <= len <= zlen d -> len <= 14000 ->
  quiet h (send_response cid cmd d len h) (frames_of cid (Z.lor 128 cmd) (slice 0 len d)).
Proof.
  intros Ha Hl Hm. unfold send_response, frames_of. cbv zeta. set (f := mkF cid (Z.lor 128 cmd) (u8 (len / 256) :: u8 len :: pad 57 (slice 0 (Z.min len ISIZE) d))). pose proof (quiet_frame f h Ha) as Q1. destruct Q1 as (S1 & E1 & H1 & N1 & A1 & R1).
  assert (Hf : f_cid (h_frame (send_frame (s_frame f (h_has h) h))) = cid) by (unfold send_frame, intr; cbn [h_arr s_frame]; rewrite Ha; reflexivity).
  set (h1 := send_frame (s_frame f (h_has h) h)) in *. rewrite (zlen_slice 0 len d) by lia. replace (Z.max 0 (Z.min len (zlen d - 0))) with len by lia.
  assert (Ef : mkF cid (Z.lor 128 cmd) (len / 256 :: len mod 256 :: pad 57 (firstn 57 (slice 0 len d))) = f).
  { unfold f. rewrite slice_firstn by lia. unfold u8, ISIZE. rewrite (Z.mod_small (len / 256)) by (split; [apply Z.div_pos; lia|apply Z.div_lt_upper_bound; lia]). reflexivity. }
  rewrite Ef. change (f :: ?l) with ([f] ++ l). eapply quiet_trans; [exact (conj S1 (conj E1 (conj H1 (conj N1 (conj A1 R1)))))|].
  pose proof (conts_quiet (Z.to_nat len) 0 (Z.min len ISIZE) len d h1 A1) as Q. rewrite Hf in Q. unfold ISIZE in *.
  assert (Eq : skipn 57 (slice 0 len d) = slice (Z.min len 57) (len - Z.min len 57) d).
  { rewrite slice_skipn by lia. destruct (Z.le_gt_cases len 57); [rewrite !slice_none by lia; reflexivity|]. f_equal; lia. }
  rewrite Eq. rewrite (conts_fuel _ (Z.to_nat len)); [apply Q; lia| |].
  - unfold slice. rewrite !firstn_length, !skipn_length. lia.
  - unfold slice. rewrite !firstn_length. lia.
Qed.
Lemma prog_quiet p : forall h, h_arr h = [] -> h_has h = false -> h_expire h = EXPIRE_NEVER ->
  exists h', run_prog p h = Some (result p, h') /\ quiet h h' (keeps (h_cid h) p).
Proof.
  induction p as [r|k IH|s p IH]; intros h Ha Hh He; cbn [run_prog result keeps].
  - exists h. split; [reflexivity|]. split; [apply same_refl|]. rewrite app_nil_r. auto.
  - assert (Ei : intr h = h) by (unfold intr; rewrite Ha; reflexivity). rewrite Ei. unfold loop_wait, loop_with, expire. rewrite He.
    assert (EXPIRE_NEVER <? u32 (h_now h) = false) as -> by (unfold EXPIRE_NEVER, u32; pose proof (Z.mod_pos_bound (h_now h) 4294967296); lia). rewrite andb_false_r. cbv zeta. rewrite Hh. cbn [negb]. apply IH; assumption.
  - assert (Ei : intr h = h) by (unfold intr; rewrite Ha; reflexivity). rewrite Ei. pose proof (quiet_frame (small_frame (h_cid h) KEEPALIVE s) h Ha) as Q. fold (send_keepalive s h) in Q.
    destruct Q as (S1 & E1 & H1 & N1 & A1 & R1). destruct (IH (send_keepalive s h)) as (h' & Er & Q'); [exact A1|congruence|destruct S1 as (_ & _ & _ & -> & _); exact He|].
    exists h'. split; [exact Er|]. replace (h_cid (send_keepalive s h)) with (h_cid h) in Q' by (symmetry; apply S1).
    change (mkF (h_cid h) 187 (0 :: 1 :: pad 57 [s]) :: keeps (h_cid h) p) with ([small_frame (h_cid h) KEEPALIVE s] ++ keeps (h_cid h) p). eapply quiet_trans; [|exact Q']. exact (conj S1 (conj E1 (conj H1 (conj N1 (conj A1 R1))))).
Qed.

(** All of a message has been received *)
Definition ready (cid cmd : Z) (p : bytes) (sent : list frm) (rnd : list Z) (h : hid) : Prop :=
  h_cid h = cid /\ h_cmd h = cmd /\ h_cur h = zlen p /\ h_total h = zlen p /\ slice 0 (zlen p) (h_data h) = p /\ zlen (h_data h) = 1300 /\
  h_sent h = sent /\ h_arr h = [] /\ h_rnd h = rnd.
(** Part of it has *)
Definition receiving (cid cmd : Z) (pre q : bytes) (seq : Z) (h : hid) : Prop :=
  h_busy h = true /\ h_has h = false /\ h_cid h = cid /\ h_cmd h = cmd /\ h_cur h = zlen pre /\ h_total h = zlen (pre ++ q) /\ h_seq h = seq /\
  slice 0 (zlen pre) (h_data h) = pre /\ zlen (h_data h) = 1300.
Lemma slice_splice off d x : 0 <= off -> off + zlen x <= zlen d -> slice 0 (off + zlen x) (splice d off x) = slice 0 off d ++ x.
Proof.
  intros H0 H1. unfold slice, splice. change (skipn (Z.to_nat 0) ?l) with l. rewrite app_assoc, firstn_app. rewrite app_length, firstn_length. unfold zlen in *.
  replace (Z.to_nat (off + Z.of_nat (length x)) - (Nat.min (Z.to_nat off) (length d) + length x))%nat with 0%nat by lia. rewrite firstn_O, app_nil_r.
  apply firstn_all2. rewrite app_length, firstn_length. lia.
Qed.
Section Transactions.
Variable cbor msg : bytes -> prog.
Definition finished (hx : hid) : option hid := match complete (execute cbor msg) false hx with Some (_, h2) => Some (s_env (h_now h2) [] [] h2) | None => None end.
Lemma fresh_loop h rnd : h_busy h = true -> 0 <= h_now h <= h_expire h -> h_expire h < 4294967296 -> expire (s_env (h_now h) [] rnd h) = s_env (h_now h) [] rnd h.
Proof.
  intros Hb Hn He. unfold expire. cbn [h_busy h_expire h_now s_env]. rewrite Hb. unfold u32. rewrite Z.mod_small by lia. destruct (Z.ltb_spec (h_expire h) (h_now h)); [lia|reflexivity].
Qed.
Lemma other_frame g h rnd : h_busy h = true -> h_has h = false -> f_cid g <> h_cid h -> 0 <= h_now h <= h_expire h -> h_expire h < 4294967296 ->
  exists h', steps cbor msg h [Rx g; Loop [] rnd] = Some h' /\ same (s_env (h_now h) [] [] h) h' /\ h_has h' = false /\ h_now h' = h_now h /\
  h_sent h' = h_sent h ++ [error_frame (f_cid g) (if (f_cid g =? 0) || ((f_cid g =? CID_BROADCAST) && negb (f_type g =? 0x86)) then 0xb else 6)].
Proof.
  intros Hb Hh Hc Hn He. cbn [steps step]. unfold out_event. rewrite Hh. cbn [h_now s_frame]. unfold loop_main, loop_with. set (h1 := s_frame g true h).
  rewrite (fresh_loop h1 rnd Hb Hn He : expire (s_env (h_now h) [] rnd h1) = s_env (h_now h) [] rnd h1). cbv zeta. cbn [h_has h_frame s_env h1 s_frame negb h_busy h_cid]. rewrite Hb. set (h2 := s_env (h_now h) [] rnd (s_frame g true h)).
  destruct (Z.eqb_spec (f_cid g) (h_cid h)); [contradiction|]. cbn [negb andb].
  change INIT with 134. destruct ((f_cid g =? 0) || _) eqn:E.
  - pose proof (quiet_error (f_cid g) ERR_INVALID_CID h2 eq_refl) as (S1 & E1 & H1 & N1 & A1 & R1). eexists. split; [reflexivity|]. split; [|split; [reflexivity|split; [exact N1|exact E1]]].
    destruct S1 as (?&?&?&?&?&?&?&?&?&l&?). repeat split; try assumption. exists []. reflexivity.
  - pose proof (quiet_error (f_cid g) ERR_CHANNEL_BUSY h2 eq_refl) as (S1 & E1 & H1 & N1 & A1 & R1). eexists. split; [reflexivity|]. split; [|split; [reflexivity|split; [exact N1|exact E1]]].
    destruct S1 as (?&?&?&?&?&?&?&?&?&l&?). repeat split; try assumption. exists []. reflexivity.
Qed.
Lemma own_frame cid cmd pre q seq h rnd : receiving cid cmd pre q seq h -> q <> [] -> cid <> 0 -> cid <> CID_BROADCAST \/ cmd = 0x86 -> 0 <= seq < 128 -> zlen (pre ++ q) <= 1300 -> 0 <= h_now h <= h_expire h -> h_expire h < 4294967296 ->
  let f := mkF cid seq (pad 59 (firstn 59 q)) in
  cid <> CID_BROADCAST ->
  exists hx, ready cid cmd (pre ++ firstn 59 q) (h_sent h) rnd (s_total (zlen (pre ++ firstn 59 q)) hx) /\ h_total hx = zlen (pre ++ q) /\ h_busy hx = true /\ h_seq hx = u8 (seq + 1) /\ h_now hx = h_now h /\ h_expire hx = h_expire h /\
    steps cbor msg h [Rx f; Loop [] rnd] = finished hx.
Proof.
  intros (Hb & Hh & Ec & Em & Eu & Et & Es & Ed & Hz) Hq Hc0 _ Hs Hlen Hn He f Hcb. cbn [steps step]. unfold out_event. rewrite Hh. cbn [h_now s_frame]. unfold loop_main, loop_with. set (h1 := s_frame f true h).
  rewrite (fresh_loop h1 rnd Hb Hn He : expire (s_env (h_now h) [] rnd h1) = s_env (h_now h) [] rnd h1). cbv zeta. cbn [h_has h_frame s_env h1 s_frame negb h_busy h_cid f f_cid f_type].
  destruct (Z.eqb_spec cid 0); [contradiction|]. destruct (Z.eqb_spec cid CID_BROADCAST); [contradiction|]. cbn [orb andb]. rewrite Ec, Z.eqb_refl, andb_false_r. fold f. fold h1.
  unfold accept. assert (Ei : is_init f = false) by (unfold is_init; cbn [f f_type]; lia). rewrite Ei. cbn [h_busy s_cid s_env h1 s_frame]. rewrite Hb. cbn [negb]. cbv zeta. cbn [h_seq s_cid s_env s_seq h1 s_frame h_total h_cur h_data]. rewrite Es.
  assert (Eq : frame_seq f = seq) by (unfold frame_seq; cbn [f f_type]; apply Z.mod_small; lia). rewrite Eq, Z.eqb_refl. cbn [negb]. rewrite Et, Eu, (zlen_app pre q).
  assert (Hql : 0 < zlen q) by (destruct q as [|y q]; [congruence|rewrite zlen_cons; pose proof (zlen_nonneg q); lia]). pose proof (zlen_nonneg pre) as Hpl. rewrite zlen_app in Hlen.
  replace (zlen pre + zlen q - zlen pre) with (zlen q) by lia. unfold CSIZE, BUFSIZE. destruct (Z.ltb_spec 1300 (zlen pre + Z.min (zlen q) 59)); [lia|].
  assert (Ex : slice 0 (Z.min (zlen q) 59) (f_pay f) = firstn 59 q).
  { cbn [f f_pay]. unfold slice. cbn [Z.to_nat]. change (skipn 0 ?l) with l. rewrite firstn_pad by (rewrite firstn_length; unfold zlen; lia). rewrite firstn_firstn. unfold zlen.
    destruct (Nat.le_gt_cases (length q) 59); [rewrite !firstn_all2 by lia; reflexivity|f_equal; lia]. }
  rewrite Ex. assert (Ezf : zlen (firstn 59 q) = Z.min (zlen q) 59) by (rewrite zlen_firstn; lia).
  set (hx := s_data _ _ _). exists hx. unfold hx. rewrite <- Ezf.
  split; [|split; [exact (eq_trans Et (zlen_app _ _))|split; [exact Hb|split; [reflexivity|split; [reflexivity|split; [reflexivity|]]]]]].
  2: { unfold finished. destruct (complete _ _ _) as [[r h2]|]; reflexivity. }
  unfold ready. cbn [s_total h_cid h_cmd h_cur h_total h_data h_sent h_arr h_rnd s_data s_seq s_cid s_env s_frame]. rewrite !zlen_app, zlen_splice by lia. rewrite slice_splice by lia. rewrite Ed. repeat split; auto.
Qed.
Lemma weave_run cid cmd fs evs : weave cid fs evs -> cid <> 0 -> cid <> CID_BROADCAST ->
  forall n pre q seq h, fs = conts n cid seq q -> (length q <= n)%nat -> q <> [] -> receiving cid cmd pre q seq h -> 0 <= seq -> seq + zlen q <= 1400 -> 57 + 59 * seq <= zlen pre -> zlen (pre ++ q) <= 1300 -> 0 <= h_now h -> h_now h + lasts evs <= h_expire h -> h_expire h < 4294967296 ->
  exists hx rnd, ready cid cmd (pre ++ q) (h_sent h ++ errors cid evs) rnd hx /\ steps cbor msg h evs = finished hx /\ h_now hx = h_now h + lasts evs.
Proof.
  intros Hw Hc0 Hcb. induction Hw as [|f fs rnd evs Hw IH|f fs g rnd evs Hg Hw IH|f fs rnd evs Hw IH|f fs ms evs Hms Hw IH]; intros n pre q seq h Ef Hn Hq Hr Hs0 Hsq Hpre Hlen Hn0 Hl He.
  - destruct n; [destruct q; [congruence|cbn in Hn; lia]|]. rewrite conts_S in Ef by exact Hq. discriminate.
  - assert (Hla : 0 <= lasts evs). { clear - Hw. induction Hw; cbn [lasts fold_right] in *; unfold lasts in *; lia. }
    destruct n as [|n]; [destruct q; [congruence|cbn in Hn; lia]|]. rewrite conts_S in Ef by exact Hq. pose proof (f_equal (hd f) Ef : f = mkF cid seq (pad 59 (firstn 59 q))) as Ef1. apply (f_equal (@tl frm)) in Ef. change (fs = conts n cid (seq + 1) (skipn 59 q)) in Ef. subst f. cbn [lasts fold_right] in Hl. fold (lasts evs) in Hl.
    rewrite zlen_app in Hlen. assert (Hql : 0 < zlen q) by (destruct q as [|y q]; [congruence|rewrite zlen_cons; pose proof (zlen_nonneg q); lia]).
    destruct (own_frame cid cmd pre q seq h rnd Hr Hq Hc0 (or_introl Hcb) ltac:(lia) ltac:(rewrite zlen_app; lia) ltac:(lia) He Hcb) as (hx & Hready & Htot & Hbx & Hsx & Hnx & Hex & Est).
    assert (Ee : errors cid (Rx (mkF cid seq (pad 59 (firstn 59 q))) :: Loop [] rnd :: evs) = errors cid evs) by (cbn [errors flat_map f_cid]; rewrite Z.eqb_refl; reflexivity). rewrite Ee.
    assert (Esp : steps cbor msg h (Rx (mkF cid seq (pad 59 (firstn 59 q))) :: Loop [] rnd :: evs) = match steps cbor msg h [Rx (mkF cid seq (pad 59 (firstn 59 q))); Loop [] rnd] with Some h => steps cbor msg h evs | None => None end).
    { cbn [steps]. destruct (step cbor msg h _); [|reflexivity]. destruct (step cbor msg h0 _); reflexivity. }
    rewrite Esp, Est. destruct (list_eq_dec Z.eq_dec (skipn 59 q) []) as [En|En].
    + rewrite En, conts_nil in Ef. subst fs. inversion Hw; subst. assert (E9 : firstn 59 q = q) by (rewrite <- (firstn_skipn 59 q) at 2; rewrite En, app_nil_r; reflexivity). rewrite E9 in *.
      exists hx, rnd. split; [|split; [cbn [steps]; destruct (finished hx); reflexivity|cbn [lasts fold_right]; lia]]. cbn [errors flat_map]. rewrite app_nil_r. destruct Hready as (?&?&?&?&?&?&?&?&?). repeat split; assumption.
    + assert (Hgt : 59 < zlen q). { destruct (Z.lt_ge_cases 59 (zlen q)); [assumption|]. exfalso. apply En. apply skipn_all2. unfold zlen in *. lia. }
      assert (Ezf : zlen (firstn 59 q) = 59) by (rewrite zlen_firstn; lia). assert (Ezs : zlen (skipn 59 q) = zlen q - 59) by (rewrite zlen_skipn; lia).
      destruct Hready as (R1 & R2 & R3 & _ & R5 & R6 & R7 & R8 & R9). cbn [s_total h_cid h_cmd h_cur h_data h_sent h_arr h_rnd] in *.
      assert (Ecur : (h_cur hx =? h_total hx) = false) by (rewrite R3, Htot, !zlen_app; lia).
      set (h2 := s_env (h_now hx) [] [] (s_frame (h_frame hx) false (s_frame (h_frame hx) false hx))).
      assert (Efin : finished hx = Some h2). { unfold finished, complete. cbv zeta. cbn [h_cur h_total s_frame]. rewrite Ecur. reflexivity. }
      rewrite Efin. destruct (IH n (pre ++ firstn 59 q) (skipn 59 q) (seq + 1) h2 Ef) as (hy & rnd' & Hy & Esy & Eny); [rewrite skipn_length; lia|exact En| |lia|lia|rewrite zlen_app; lia| |exact (eq_ind_r (fun x => 0 <= x) Hn0 Hnx)| | |].
      * unfold receiving. cbn [h2 s_env s_frame h_busy h_has h_cid h_cmd h_cur h_total h_seq h_data]. rewrite <- app_assoc, firstn_skipn. repeat split; auto. rewrite Hsx. unfold u8. apply Z.mod_small. lia.
      * rewrite <- app_assoc, firstn_skipn, zlen_app. lia.
      * cbn [h2 s_env s_frame h_now h_expire]. lia.
      * cbn [h2 s_env s_frame h_expire]. lia.
      * exists hy, rnd'. rewrite <- app_assoc, firstn_skipn in Hy. cbn [h2 s_env s_frame h_sent] in Hy. rewrite R7 in Hy. split; [exact Hy|split; [exact Esy|]]. cbn [h2 s_env s_frame h_now lasts fold_right] in Eny |- *. unfold lasts in Eny. lia.
  - assert (Hla : 0 <= lasts evs). { clear - Hw. induction Hw; cbn [lasts fold_right] in *; unfold lasts in *; lia. }
    cbn [lasts fold_right] in Hl. fold (lasts evs) in Hl. destruct Hr as (Hb & Hh & Ec & Em & Eu & Et & Es & Ed & Hz).
    destruct (other_frame g h rnd Hb Hh ltac:(congruence) ltac:(lia) He) as (h' & Est & S1 & Hh' & Hn' & Esn).
    assert (Esp : steps cbor msg h (Rx g :: Loop [] rnd :: evs) = match steps cbor msg h [Rx g; Loop [] rnd] with Some h => steps cbor msg h evs | None => None end).
    { cbn [steps]. destruct (step cbor msg h _); [|reflexivity]. destruct (step cbor msg h0 _); reflexivity. }
    rewrite Esp, Est. destruct S1 as (Q1&Q2&Q3&Q4&Q5&Q6&Q7&Q8&Q9&l&_). cbn [s_env h_cid h_total h_cur h_expire h_busy h_cmd h_seq h_data] in *.
    destruct (IH n pre q seq h' Ef Hn Hq) as (hx & rnd' & Hx & Esx & Enx); try assumption; try lia.
    { unfold receiving. rewrite Q1, Q2, Q3, Q5, Q6, Q7, Q8. repeat split; auto. }
    exists hx, rnd'. split; [|split; [exact Esx|cbn [lasts fold_right]; unfold lasts in Enx; lia]]. rewrite Esn, <- app_assoc in Hx. cbn [errors flat_map]. destruct (Z.eqb_spec (f_cid g) cid); [congruence|]. exact Hx.
  - assert (Hla : 0 <= lasts evs). { clear - Hw. induction Hw; cbn [lasts fold_right] in *; unfold lasts in *; lia. }
    cbn [lasts fold_right] in Hl. fold (lasts evs) in Hl. pose proof Hr as (Hb & Hh & _). cbn [steps step]. unfold loop_main, loop_with. rewrite fresh_loop by (assumption || lia). cbv zeta. cbn [h_has s_env]. rewrite Hh. cbn [negb].
    apply (IH n pre q seq (s_env (h_now h) [] [] (s_env (h_now h) [] rnd h)) Ef Hn Hq); assumption.
  - assert (Hla : 0 <= lasts evs). { clear - Hw. induction Hw; cbn [lasts fold_right] in *; unfold lasts in *; lia. }
    cbn [lasts fold_right] in Hl. fold (lasts evs) in Hl. cbn [steps step]. destruct (IH n pre q seq (s_env (h_now h + ms) [] [] h) Ef Hn Hq) as (hx & rnd' & Hx & Esx & Enx); try assumption; try (cbn [s_env h_now h_expire]; lia).
    exists hx, rnd'. split; [exact Hx|split; [exact Esx|]]. cbn [s_env h_now lasts fold_right] in Enx |- *. unfold lasts in Enx. lia.
Qed.
Lemma session_run h cid cmd p evs : idle h -> cid <> 0 -> (cid = CID_BROADCAST -> cmd = 0x86 /\ zlen p <= 57) -> 128 <= cmd < 256 -> zlen p <= 1300 -> 0 <= h_now h -> h_now h + 800 < 4294967296 ->
  session cid (frames_of cid cmd p) evs -> lasts evs <= 800 ->
  exists hx rnd, ready cid cmd p (h_sent h ++ errors cid evs) rnd hx /\ steps cbor msg h evs = finished hx /\ h_now hx = h_now h + lasts evs.
Proof.
  intros (Hb & Hh & Hz) Hc0 Hcb Hcmd Hp Hn0 Hn8 Hs Hl. unfold frames_of in Hs.
  remember (mkF cid cmd (zlen p / 256 :: zlen p mod 256 :: pad 57 (firstn 57 p))) as f0 eqn:Edf. remember (conts (length p) cid 0 (skipn 57 p)) as fs0 eqn:Edfs.
  inversion Hs as [f1 fs1 rnd evs' Hw E1 E2]. clear Hs. subst f1 fs1 evs. subst f0 fs0.
  set (f := mkF cid cmd (zlen p / 256 :: zlen p mod 256 :: pad 57 (firstn 57 p))) in *. pose proof (zlen_nonneg p) as Hp0.
  assert (Em : msg_len f = zlen p) by (unfold msg_len, byte_at; cbn [f f_pay nth]; pose proof (Z.div_mod (zlen p) 256); lia).
  assert (Ee : errors cid (Rx f :: Loop [] rnd :: evs') = errors cid evs') by (cbn [errors flat_map f f_cid]; rewrite Z.eqb_refl; reflexivity). rewrite Ee.
  assert (Esp : steps cbor msg h (Rx f :: Loop [] rnd :: evs') = match steps cbor msg h [Rx f; Loop [] rnd] with Some h => steps cbor msg h evs' | None => None end).
  { cbn [steps]. destruct (step cbor msg h _); [|reflexivity]. destruct (step cbor msg h0 _); reflexivity. }
  rewrite Esp. assert (E57 : zlen (firstn 57 p) = Z.min (zlen p) 57) by (rewrite zlen_firstn; lia).
  assert (exists hx, ready cid cmd (firstn 57 p) (h_sent h) rnd (s_total (Z.min (zlen p) 57) hx) /\ h_total hx = zlen p /\ h_busy hx = true /\ h_seq hx = 0 /\ h_now hx = h_now h /\ h_expire hx = h_now h + 800 /\ steps cbor msg h [Rx f; Loop [] rnd] = finished hx) as (hx & Hready & Htot & Hbx & Hsx & Hnx & Hex & Est).
  { cbn [steps step]. unfold out_event. rewrite Hh. cbn [h_now s_frame]. unfold loop_main, loop_with, expire. cbn [h_busy s_env s_frame]. rewrite Hb. cbn [andb]. cbv zeta. cbn [h_has h_frame s_env s_frame negb h_busy h_cid].
    change (f_cid f) with cid. change (f_type f) with cmd. destruct (Z.eqb_spec cid 0); [contradiction|]. cbn [orb].
    assert ((cid =? CID_BROADCAST) && negb (cmd =? INIT) = false) as -> by (destruct (Z.eqb_spec cid CID_BROADCAST) as [E|E]; [destruct (Hcb E) as [-> _]; reflexivity|reflexivity]).
    unfold accept. assert (Ei : is_init f = true) by (unfold is_init; cbn [f f_type]; lia). rewrite Ei. cbn [h_busy s_cid s_env s_frame]. rewrite Hb. cbn [negb andb]. cbv zeta. cbn [h_total s_total]. rewrite Em. unfold BUFSIZE. destruct (Z.ltb_spec 1300 (zlen p)); [lia|].
    assert (Ex : slice 0 (Z.min (zlen p) ISIZE) (init_data f) = firstn 57 p).
    { unfold init_data. cbn [f f_pay]. change (skipn 2 (zlen p / 256 :: zlen p mod 256 :: pad 57 (firstn 57 p))) with (pad 57 (firstn 57 p)). unfold slice, ISIZE. change (skipn (Z.to_nat 0) ?l) with l.
      rewrite firstn_pad by (rewrite firstn_length; unfold zlen; lia). rewrite firstn_firstn. unfold zlen. destruct (Nat.le_gt_cases (length p) 57); [rewrite !firstn_all2 by lia; reflexivity|f_equal; lia]. }
    rewrite Ex. unfold ISIZE. set (hx := s_start _ _ _ _ _). exists hx.
    split; [|split; [reflexivity|split; [reflexivity|split; [reflexivity|split; [reflexivity|split; [|unfold finished; destruct (complete _ _ _) as [[r h2]|]; reflexivity]]]]]].
    - unfold ready. cbn [hx s_total h_cid h_cmd h_cur h_total h_data h_sent h_arr h_rnd s_start s_cid s_env s_frame]. rewrite zlen_splice by lia. rewrite <- E57. pose proof (slice_splice 0 (h_data h) (firstn 57 p) ltac:(lia) ltac:(lia)) as Ess. rewrite Z.add_0_l in Ess. rewrite Ess, slice_none by lia. repeat split; auto.
    - cbn [hx s_start h_expire s_total s_cid s_env s_frame h_now]. unfold TRANS_TIMEOUT, u32. rewrite !Z.mod_small; [reflexivity|lia|rewrite Z.mod_small; lia]. }
  rewrite Est. destruct (list_eq_dec Z.eq_dec (skipn 57 p) []) as [En|En].
  - rewrite En, conts_nil in Hw. inversion Hw; subst evs'. assert (E9 : firstn 57 p = p) by (rewrite <- (firstn_skipn 57 p) at 2; rewrite En, app_nil_r; reflexivity). rewrite E9 in *.
    exists hx, rnd. split; [|split; [destruct (finished hx); reflexivity|cbn [lasts fold_right]; lia]]. cbn [errors flat_map]. rewrite app_nil_r. destruct Hready as (?&?&?&?&?&?&?&?&?). repeat split; assumption.
  - assert (Hgt : 57 < zlen p). { destruct (Z.lt_ge_cases 57 (zlen p)); [assumption|]. exfalso. apply En. apply skipn_all2. unfold zlen in *. lia. }
    assert (Hcb' : cid <> CID_BROADCAST) by (intros E; destruct (Hcb E); lia).
    assert (Ezs : zlen (skipn 57 p) = zlen p - 57) by (rewrite zlen_skipn; lia). destruct Hready as (R1 & R2 & R3 & _ & R5 & R6 & R7 & R8 & R9). cbn [s_total h_cid h_cmd h_cur h_data h_sent h_arr h_rnd] in *.
    assert (Ecur : (h_cur hx =? h_total hx) = false) by (rewrite R3, Htot; lia).
    set (h2 := s_env (h_now hx) [] [] (s_frame (h_frame hx) false (s_frame (h_frame hx) false hx))).
    assert (Efin : finished hx = Some h2). { unfold finished, complete. cbv zeta. cbn [h_cur h_total s_frame]. rewrite Ecur. reflexivity. }
    rewrite Efin. cbn [lasts fold_right] in Hl. fold (lasts evs') in Hl.
    destruct (weave_run cid cmd _ _ Hw Hc0 Hcb' (length p) (firstn 57 p) (skipn 57 p) 0 h2 eq_refl) as (hy & rnd' & Hy & Esy & Eny); [rewrite skipn_length; lia|exact En| |lia|lia|lia| |cbn [h2 s_env s_frame h_now]; lia| | |].
    + unfold receiving. cbn [h2 s_env s_frame h_busy h_has h_cid h_cmd h_cur h_total h_seq h_data]. rewrite firstn_skipn. repeat split; auto.
    + rewrite firstn_skipn. lia.
    + cbn [h2 s_env s_frame h_now h_expire]. lia.
    + cbn [h2 s_env s_frame h_expire]. lia.
    + rewrite firstn_skipn in Hy. exists hy, rnd'. cbn [h2 s_env s_frame h_sent] in Hy. rewrite R7 in Hy. split; [exact Hy|split; [exact Esy|]]. cbn [h2 s_env s_frame h_now lasts fold_right] in Eny |- *. unfold lasts in Eny. lia.
Qed.
End Transactions.

(** ** C43/C44: every transaction is answered exactly, whatever other channels send *)
(** How the device answers a message on channel [cid] that arrives as [evs]: the error reports other channels get, then the
    frames [out]; then it is ready for the next message *)
Definition answered (cbor msg : bytes -> prog) (h : hid) (evs : list ev) (cid : Z) (out : list frm) : Prop :=
  exists h', steps cbor msg h evs = Some h' /\ idle h' /\ h_now h' = h_now h + lasts evs /\ h_sent h' = h_sent h ++ errors cid evs ++ out.
Section Answers.
Variable cbor msg : bytes -> prog.
(** The circumstances of a transaction: it starts when the device is idle, nothing arrives while the device itself works, all
    frames arrive within 800 ms and before the 32-bit clock wraps *)
Definition transaction (h : hid) (cid cmd : Z) (p : bytes) (evs : list ev) : Prop :=
  idle h /\ cid <> 0 /\ (cid = CID_BROADCAST -> cmd = 0x86 /\ zlen p <= 57) /\ zlen p <= 1300 /\ 0 <= h_now h /\ h_now h + 800 < 4294967296 /\
  session cid (frames_of cid cmd p) evs /\ lasts evs <= 800.
Lemma after_quiet hx h2 sent l e now : h_sent hx = sent ++ e -> zlen (h_data hx) = 1300 -> h_now hx = now -> quiet (s_expire EXPIRE_NEVER (s_frame (h_frame hx) false hx)) h2 l ->
  let h3 := s_env (h_now (s_frame (h_frame h2) false (s_busy false h2))) [] [] (s_frame (h_frame h2) false (s_busy false h2)) in
  idle h3 /\ h_now h3 = now /\ h_sent h3 = sent ++ e ++ l.
Proof.
  intros Es Ez En (S1 & E1 & H1 & N1 & A1 & R1). cbn [s_expire s_frame h_sent h_has h_now] in *. cbv zeta. cbn [s_env s_frame s_busy h_now h_sent]. split; [|split; [congruence|rewrite app_assoc; congruence]].
  unfold idle. cbn [s_env s_frame s_busy h_busy h_has h_data]. destruct S1 as (_&_&_&_&_&_&_&Ed&_). cbn [s_expire s_frame h_data] in Ed. repeat split. congruence.
Qed.
(** PING is echoed exactly. *)
Theorem C43_ping h cid p evs : transaction h cid 0x81 p evs -> answered cbor msg h evs cid (frames_of cid 0x81 p).
Proof.
  intros (Hi & Hc & Hcb & Hp & Hn & Hn8 & Hs & Hl). destruct (session_run cbor msg h cid 0x81 p evs Hi Hc Hcb ltac:(lia) Hp Hn Hn8 Hs Hl) as (hx & rnd & (R1 & R2 & R3 & R4 & R5 & R6 & R7 & R8 & R9) & Est & Enx).
  unfold answered. rewrite Est. unfold finished, complete. cbv zeta. cbn [h_cur h_total s_frame s_expire h_cmd h_cid h_data]. rewrite R3, R4, Z.eqb_refl, R2, R1. cbn [negb orb Z.eqb Pos.eqb MSG CBOR INIT PING].
  eexists. split; [reflexivity|]. pose proof (zlen_nonneg p). apply (after_quiet hx _ _ _ _ _ R7 R6 Enx). rewrite <- R5 at 2. apply (response_quiet cid 0x81); [exact R8|lia|lia].
Qed.
(** A CBOR command gets the message that was sent, and its response is sent to the channel that asked, preceded by the command's
    keep-alives. *)
Theorem C43_cbor h cid p evs : transaction h cid 0x90 p evs -> p <> [] -> zlen (result (cbor p)) <= 1300 ->
  answered cbor msg h evs cid (keeps cid (cbor p) ++ frames_of cid 0x90 (result (cbor p))).
Proof.
  intros (Hi & Hc & Hcb & Hp & Hn & Hn8 & Hs & Hl) Hne Hr. destruct (session_run cbor msg h cid 0x90 p evs Hi Hc Hcb ltac:(lia) Hp Hn Hn8 Hs Hl) as (hx & rnd & (R1 & R2 & R3 & R4 & R5 & R6 & R7 & R8 & R9) & Est & Enx).
  assert (Hp0 : 0 < zlen p) by (destruct p; [congruence|rewrite zlen_cons; pose proof (zlen_nonneg p); lia]).
  unfold answered. rewrite Est. unfold finished, complete. cbv zeta. cbn [h_cur h_total s_frame s_expire h_cmd h_cid h_data]. rewrite R3, R4, Z.eqb_refl, R2. cbn [negb orb Z.eqb Pos.eqb MSG CBOR].
  destruct (Z.eqb_spec (zlen p) 0); [lia|]. unfold execute. cbv zeta. cbn [h_cmd s_expire s_frame h_total h_data s_log h_cid]. rewrite R2, R4, R5, R1. cbn [Z.eqb Pos.eqb CBOR].
  set (hy := s_log _ _). destruct (prog_quiet (cbor p) hy) as (hz & Ez & Q); [exact R8|reflexivity|reflexivity|]. rewrite Ez.
  pose proof (zlen_nonneg (result (cbor p))) as Hrn. unfold BUFSIZE. destruct (Z.ltb_spec 1300 (zlen (result (cbor p)))); [lia|]. eexists. split; [reflexivity|].
  destruct Q as (S1 & E1 & H1 & N1 & A1 & Q1). assert (Ed : h_data hz = h_data hx) by apply S1. assert (Ezz : zlen (h_data hz) = 1300) by congruence. assert (Ec : h_cid hz = cid) by (transitivity (h_cid hy); [apply S1|exact R1]). replace (h_cid hy) with cid in E1 by (symmetry; exact R1).
  cbn [h_cid s_data h_data]. rewrite Ec. set (hw := s_data _ _ hz).
  pose proof (response_quiet cid CBOR (splice (h_data hz) 0 (result (cbor p))) (zlen (result (cbor p))) hw A1) as Q2. rewrite zlen_splice in Q2 by lia. specialize (Q2 ltac:(lia) ltac:(lia)).
  pose proof (slice_splice 0 (h_data hz) (result (cbor p)) ltac:(lia) ltac:(lia)) as Ess. rewrite Z.add_0_l, (slice_none 0 0) in Ess by lia. rewrite Ess in Q2. change ([] ++ ?l) with l in Q2.
  set (h2 := send_response _ _ _ _ _) in *. destruct Q2 as (S2 & E2 & H2 & N2 & A2 & Q2). cbn [s_env s_frame s_busy h_now h_sent].
  split; [|split].
  - unfold idle. cbn [s_env s_frame s_busy h_busy h_has h_data]. destruct S2 as (_&_&_&_&_&_&_&Ed2&_). repeat split. rewrite Ed2. cbn [hw s_data h_data]. rewrite zlen_splice by lia. congruence.
  - rewrite N2. cbn [hw s_data h_now]. rewrite N1. exact Enx.
  - rewrite E2. cbn [hw s_data h_sent]. rewrite E1. cbn [hy s_log h_sent s_expire s_frame]. rewrite R7, !app_assoc. reflexivity.
Qed.
(** A message of the older protocol (MSG) reaches its handler at the beginning of a buffer, and the response is sent to the
    channel that asked.  The rest of the buffer holds older data ([rest]). *)
Theorem C43_msg_partial h cid p evs : transaction h cid 0x83 p evs -> 4 <= zlen p -> (forall b, zlen (result (msg b)) <= 1300) ->
  exists rest, zlen (p ++ rest) = 1300 /\ answered cbor msg h evs cid (keeps cid (msg (p ++ rest)) ++ frames_of cid 0x83 (result (msg (p ++ rest)))).
Proof.
  intros (Hi & Hc & Hcb & Hp & Hn & Hn8 & Hs & Hl) Hne Hr. destruct (session_run cbor msg h cid 0x83 p evs Hi Hc Hcb ltac:(lia) Hp Hn Hn8 Hs Hl) as (hx & rnd & (R1 & R2 & R3 & R4 & R5 & R6 & R7 & R8 & R9) & Est & Enx).
  set (b := h_data hx) in *. assert (Eb : b = p ++ skipn (Z.to_nat (zlen p)) b). { rewrite <- (firstn_skipn (Z.to_nat (zlen p)) b) at 1. f_equal. exact R5. }
  exists (skipn (Z.to_nat (zlen p)) b). rewrite <- Eb. split; [exact R6|]. specialize (Hr b).
  unfold answered. rewrite Est. unfold finished, complete. cbv zeta. cbn [h_cur h_total s_frame s_expire h_cmd h_cid h_data]. rewrite R3, R4, Z.eqb_refl, R2. cbn [negb orb Z.eqb Pos.eqb MSG].
  destruct (Z.ltb_spec (zlen p) 4); [lia|]. unfold execute. cbv zeta. cbn [h_cmd s_expire s_frame h_total h_data s_log h_cid]. rewrite R2, R1. cbn [Z.eqb Pos.eqb CBOR]. fold b.
  set (hy := s_log _ _). destruct (prog_quiet (msg b) hy) as (hz & Ez & Q); [exact R8|reflexivity|reflexivity|]. rewrite Ez.
  pose proof (zlen_nonneg (result (msg b))) as Hrn. unfold BUFSIZE. destruct (Z.ltb_spec 1300 (zlen (result (msg b)))); [lia|]. eexists. split; [reflexivity|].
  destruct Q as (S1 & E1 & H1 & N1 & A1 & Q1). assert (Ed : h_data hz = b) by apply S1. assert (Ec : h_cid hz = cid) by (transitivity (h_cid hy); [apply S1|exact R1]). assert (Em : h_cmd hz = 0x83) by (transitivity (h_cmd hy); [apply S1|exact R2]). replace (h_cid hy) with cid in E1 by (symmetry; exact R1).
  cbn [h_cid s_data h_data h_cmd]. rewrite Ec, Em. set (hw := s_data _ _ hz).
  pose proof (response_quiet cid 0x83 (splice (h_data hz) 0 (result (msg b))) (zlen (result (msg b))) hw A1) as Q2. rewrite zlen_splice in Q2 by (rewrite ?Ed; lia). rewrite Ed in Q2. specialize (Q2 ltac:(lia) ltac:(lia)).
  pose proof (slice_splice 0 b (result (msg b)) ltac:(lia) ltac:(lia)) as Ess. rewrite Z.add_0_l, (slice_none 0 0) in Ess by lia. rewrite Ess in Q2. change ([] ++ ?l) with l in Q2. rewrite Ed.
  set (h2 := send_response _ _ _ _ _) in *. destruct Q2 as (S2 & E2 & H2 & N2 & A2 & Q2). cbn [s_env s_frame s_busy h_now h_sent].
  split; [|split].
  - unfold idle. cbn [s_env s_frame s_busy h_busy h_has h_data]. destruct S2 as (_&_&_&_&_&_&_&Ed2&_). repeat split. rewrite Ed2. cbn [hw s_data h_data]. rewrite Ed, zlen_splice by lia. assumption.
  - rewrite N2. cbn [hw s_data h_now]. rewrite N1. exact Enx.
  - rewrite E2. cbn [hw s_data h_sent]. rewrite E1. cbn [hy s_log h_sent s_expire s_frame]. rewrite R7, !app_assoc. reflexivity.
Qed.
(** A handler that reads the APDU header and as many bytes as its length field says *)
Definition apdu_len (b : bytes) : Z := nth 5 b 0 * 256 + nth 6 b 0.
Definition reads_apdu : Prop := forall b b', apdu_len b = apdu_len b' -> firstn (Z.to_nat (7 + apdu_len b)) b = firstn (Z.to_nat (7 + apdu_len b)) b' -> msg b = msg b'.
(** If the message holds as many bytes as its length field says, the handler gets exactly the message. *)
Theorem C43_msg h cid p evs : transaction h cid 0x83 p evs -> reads_apdu -> 0 <= apdu_len p -> 7 + apdu_len p <= zlen p -> (forall b, zlen (result (msg b)) <= 1300) ->
  answered cbor msg h evs cid (keeps cid (msg p) ++ frames_of cid 0x83 (result (msg p))).
Proof.
  intros Ht Hm H0 Hl Hr. destruct (C43_msg_partial h cid p evs Ht ltac:(lia) Hr) as (rest & _ & Ha).
  replace (msg p) with (msg (p ++ rest)); [exact Ha|]. unfold zlen in *.
  assert (El : apdu_len (p ++ rest) = apdu_len p) by (unfold apdu_len; rewrite !app_nth1 by lia; reflexivity). apply Hm; [exact El|].
  rewrite El, firstn_app. replace (Z.to_nat (7 + apdu_len p) - length p)%nat with 0%nat by lia. rewrite firstn_O, app_nil_r. reflexivity.
Qed.
(** INIT with a nonce of eight bytes echoes it and gives a channel: the channel of the message, or a new one on the broadcast channel. *)
Theorem C43_init_partial h cid p evs : transaction h cid 0x86 p evs -> 8 <= zlen p ->
  exists new, (cid <> CID_BROADCAST -> new = cid) /\ answered cbor msg h evs cid (frames_of cid 0x86 (firstn 8 p ++ le4 new ++ [2; 1; 0; 0; 4])).
Proof.
  intros (Hi & Hc & Hcb & Hp & Hn & Hn8 & Hs & Hl) Hne. destruct (session_run cbor msg h cid 0x86 p evs Hi Hc Hcb ltac:(lia) Hp Hn Hn8 Hs Hl) as (hx & rnd & (R1 & R2 & R3 & R4 & R5 & R6 & R7 & R8 & R9) & Est & Enx).
  exists (if cid =? CID_BROADCAST then hd 0 rnd else cid). split; [intros; destruct (Z.eqb_spec cid CID_BROADCAST); congruence|]. set (new := if cid =? CID_BROADCAST then hd 0 rnd else cid).
  unfold answered. rewrite Est. unfold finished, complete. cbv zeta. cbn [h_cur h_total s_frame s_expire h_cmd h_cid h_data]. rewrite R3, R4, Z.eqb_refl, R2. cbn [negb orb Z.eqb Pos.eqb MSG CBOR INIT].
  eexists. split; [reflexivity|]. unfold execute_init. cbn [h_cid s_expire s_frame h_rnd h_now h_arr]. rewrite R1, R9.
  assert (exists ha, (if cid =? CID_BROADCAST then (hd 0 rnd, s_env (h_now hx) (h_arr hx) (tl rnd) (s_expire EXPIRE_NEVER (s_frame (h_frame hx) false hx))) else (cid, s_expire EXPIRE_NEVER (s_frame (h_frame hx) false hx))) = (new, ha) /\
    h_cid ha = cid /\ h_cmd ha = 0x86 /\ h_data ha = h_data hx /\ h_sent ha = h_sent hx /\ h_arr ha = [] /\ h_has ha = false /\ h_now ha = h_now hx) as (ha & -> & A1 & A2 & A3 & A4 & A5 & A6 & A7).
  { unfold new. destruct (cid =? CID_BROADCAST); eexists; (split; [reflexivity|]); cbn [s_env s_expire s_frame h_cid h_cmd h_data h_sent h_arr h_has h_now]; repeat split; assumption. }
  cbn [s_data h_cid h_cmd h_data]. rewrite A1, A2, A3. set (tail := le4 new ++ [2; 1; 0; 0; 4]).
  assert (Ht : zlen tail = 9). { unfold tail, le4. rewrite zlen_app. unfold zlen at 1. rewrite rev_length. fold (zlen (to_be 4 new)). rewrite zlen_to_be. reflexivity. }
  set (hw := s_data _ _ ha). pose proof (response_quiet cid 0x86 (splice (h_data hx) 8 tail) 17 hw A5) as Q2. rewrite zlen_splice in Q2 by lia. specialize (Q2 ltac:(lia) ltac:(lia)).
  pose proof (slice_splice 8 (h_data hx) tail ltac:(lia) ltac:(lia)) as Ess. rewrite Ht in Ess. change (8 + 9) with 17 in Ess. rewrite Ess in Q2.
  assert (E8 : slice 0 8 (h_data hx) = firstn 8 p). { rewrite <- R5 at 1. unfold slice. cbn [skipn Z.to_nat]. change (skipn 0 ?l) with l. rewrite firstn_firstn. f_equal. unfold zlen in *. lia. }
  rewrite E8 in Q2. set (h2 := send_response _ _ _ _ _) in *. destruct Q2 as (S2 & E2 & H2 & N2 & _ & _). cbn [s_env s_frame s_busy h_now h_sent]. cbn [hw s_data h_sent h_now] in *. split; [|split].
  - unfold idle. cbn [s_env s_frame s_busy h_busy h_has h_data]. destruct S2 as (_&_&_&_&_&_&_&Ed2&_). repeat split. rewrite Ed2. cbn [hw s_data h_data]. rewrite zlen_splice by lia. assumption.
  - congruence.
  - rewrite E2, A4, R7, app_assoc. reflexivity.
Qed.
End Answers.
(** What the host reassembles from the frames of an answer is the response. *)
Theorem C43_frames_reassemble cid cmd p : 128 <= cmd < 256 -> zlen p < 65536 -> reassemble (frames_of cid cmd p) = Some (cid, cmd, p).
Proof. apply reassemble_frames. Qed.
(** C44: the answer a channel gets does not depend on what the other channels send meanwhile, and every frame of another channel
    gets exactly one report, on its own channel: busy, or invalid channel. *)
Definition on_channel (c : Z) (l : list frm) : list frm := filter (fun f => f_cid f =? c) l.
Definition sent_on (c : Z) (evs : list ev) : list frm := flat_map (fun e => match e with Rx g => if f_cid g =? c then [g] else [] | _ => [] end) evs.
Definition isolated (cbor msg : bytes -> prog) (h : hid) (evs : list ev) (cid : Z) (out : list frm) : Prop :=
  exists h', steps cbor msg h evs = Some h' /\ on_channel cid (h_sent h') = on_channel cid (h_sent h) ++ out /\
  forall c, c <> cid -> exists reports, on_channel c (h_sent h') = on_channel c (h_sent h) ++ reports /\
    Forall2 (fun g r => r = error_frame c 6 \/ r = error_frame c 0xb) (sent_on c evs) reports.
Lemma filter_all {A} (f : A -> bool) l : (forall x, In x l -> f x = true) -> filter f l = l.
Proof. induction l as [|x l IH]; intros H; [reflexivity|]. cbn [filter]. rewrite (H x (or_introl eq_refl)). f_equal. apply IH. intros y Hy. apply H. right. exact Hy. Qed.
Lemma filter_none {A} (f : A -> bool) l : (forall x, In x l -> f x = false) -> filter f l = [].
Proof. induction l as [|x l IH]; intros H; [reflexivity|]. cbn [filter]. rewrite (H x (or_introl eq_refl)). apply IH. intros y Hy. apply H. right. exact Hy. Qed.
Lemma conts_cid n cid : forall seq p f, In f (conts n cid seq p) -> f_cid f = cid.
Proof. induction n as [|n IH]; intros seq p f Hf; [destruct Hf|]. destruct p; [destruct Hf|]. destruct Hf as [<- | Hf]; [reflexivity|eapply IH; exact Hf]. Qed.
Lemma frames_cid cid cmd p f : In f (frames_of cid cmd p) -> f_cid f = cid.
Proof. intros [<- | Hf]; [reflexivity|eapply conts_cid; exact Hf]. Qed.
Lemma keeps_cid cid p : forall f, In f (keeps cid p) -> f_cid f = cid.
Proof. induction p as [r|k IH|s p IH]; intros f Hf; cbn [keeps] in Hf; [destruct Hf|apply (IH 0 f Hf)|]. destruct Hf as [<- | Hf]; [reflexivity|apply IH; exact Hf]. Qed.
Lemma answered_isolated cbor msg h evs cid out : answered cbor msg h evs cid out -> (forall f, In f out -> f_cid f = cid) -> isolated cbor msg h evs cid out.
Proof.
  intros (h' & Es & _ & _ & Eo) Ho. exists h'. split; [exact Es|]. rewrite Eo. unfold on_channel.
  assert (He : forall f, In f (errors cid evs) -> f_cid f <> cid).
  { intros f Hf. unfold errors in Hf. apply in_flat_map in Hf. destruct Hf as (e & _ & Hf). destruct e as [g| |]; [|destruct Hf|destruct Hf]. destruct (Z.eqb_spec (f_cid g) cid); [destruct Hf|]. destruct Hf as [<- |[]]. exact n. }
  split.
  - rewrite !filter_app. rewrite (filter_none _ (errors cid evs)) by (intros f Hf; apply Z.eqb_neq, He, Hf). rewrite (filter_all _ out) by (intros f Hf; apply Z.eqb_eq, Ho, Hf). reflexivity.
  - intros c Hc. exists (filter (fun f => f_cid f =? c) (errors cid evs)). split.
    + rewrite !filter_app. rewrite (filter_none _ out); [rewrite app_nil_r; reflexivity|]. intros f Hf. rewrite (Ho f Hf). apply Z.eqb_neq. congruence.
    + clear Eo He Es. induction evs as [|e evs IH]; [constructor|]. unfold errors, sent_on. cbn [flat_map]. fold (errors cid evs). fold (sent_on c evs). rewrite filter_app. apply Forall2_app; [|exact IH].
      destruct e as [g| |]; [|constructor|constructor]. destruct (Z.eqb_spec (f_cid g) cid) as [E|E].
      * destruct (Z.eqb_spec (f_cid g) c); [congruence|]. constructor.
      * cbn [filter]. change (f_cid (error_frame ?a ?b)) with a. destruct (Z.eqb_spec (f_cid g) c) as [->|]; [|constructor]. constructor; [|constructor]. match goal with |- context [if ?b then 11 else 6] => destruct b end; auto.
Qed.
Theorem C44_ping_isolated cbor msg h cid p evs : transaction h cid 0x81 p evs -> isolated cbor msg h evs cid (frames_of cid 0x81 p).
Proof. intros Ht. apply answered_isolated; [apply C43_ping; exact Ht|apply frames_cid]. Qed.
Theorem C44_cbor_isolated cbor msg h cid p evs : transaction h cid 0x90 p evs -> p <> [] -> zlen (result (cbor p)) <= 1300 ->
  isolated cbor msg h evs cid (keeps cid (cbor p) ++ frames_of cid 0x90 (result (cbor p))).
Proof.
  intros Ht Hn Hr. apply answered_isolated; [apply C43_cbor; assumption|]. intros f Hf. apply in_app_or in Hf. destruct Hf as [Hf|Hf]; [eapply keeps_cid; exact Hf|eapply frames_cid; exact Hf].
Qed.

(** ** C75: a CANCEL of the channel that waits ends the wait, if it is seen *)
Theorem C75_cancel_partial k h f dt arr : h_busy h = true -> h_has h = false -> h_expire h = EXPIRE_NEVER -> h_arr h = (Some f, dt) :: arr ->
  f_cid f = h_cid h -> f_cid f <> 0 -> f_cid f <> CID_BROADCAST -> f_type f = 0x91 -> msg_len f = 0 ->
  exists h', run_prog (Poll k) h = run_prog (k LOOP_CANCEL) h' /\ h_sent h' = h_sent h /\ h_cid h' = h_cid h /\ h_arr h' = arr.
Proof.
  intros Hb Hh He Ha Hc Hc0 Hcb Ht Hl. cbn [run_prog]. unfold intr. rewrite Ha. cbv zeta. unfold out_event. cbn [h_has s_env]. rewrite Hh. unfold loop_wait, loop_with, expire. cbn [h_busy h_expire h_now s_frame s_env]. rewrite Hb, He.
  assert (EXPIRE_NEVER <? u32 (h_now h + dt) = false) as -> by (unfold EXPIRE_NEVER, u32; pose proof (Z.mod_pos_bound (h_now h + dt) 4294967296); lia). cbn [andb]. cbv zeta. cbn [h_has h_frame h_busy h_cid s_frame s_env negb].
  destruct (Z.eqb_spec (f_cid f) 0); [contradiction|]. destruct (Z.eqb_spec (f_cid f) CID_BROADCAST); [contradiction|]. cbn [orb andb]. rewrite Hb, Hc, Z.eqb_refl. cbn [negb andb].
  unfold accept, is_init. rewrite Ht. change (128 <=? 0x91) with true. cbn [negb andb]. cbv zeta. cbn [h_total s_total]. rewrite Hl. change (BUFSIZE <? 0) with false. change (Z.min 0 ISIZE) with 0. cbv iota.
  unfold complete. cbv zeta. cbn [h_cur h_total s_frame s_start s_total s_expire h_cmd]. cbn [Z.eqb Pos.eqb negb orb MSG CBOR INIT PING WINK CANCEL]. eexists. split; [reflexivity|]. cbn. auto.
Qed.

(** ** What does not hold *)
Definition A := 7. Definition B := 9.
Definition no_cmd (_ : bytes) : prog := Done [].
Definition oversize : list ev :=
  Rx (mkF A 0x81 (5 :: 20 :: zeros 57)) :: Loop [] [] ::             (* PING of 1300 bytes *)
  Rx (mkF A 0x86 (255 :: 255 :: zeros 57)) :: Loop [] [] ::          (* INIT that claims 65535 bytes: refused, but its length stays *)
  flat_map (fun i => [Rx (mkF A (Z.of_nat i) (zeros 59)); Loop [] []]) (seq 0 22).
(** C42: the buffer is overrun. *)
Theorem C42_overflow_refuted : ~ (forall evs, steps no_cmd no_cmd (hid_init 0) evs <> None).
Proof. intros H. apply (H oversize). vm_compute. reflexivity. Qed.
(** C43: a message of the older protocol shorter than its header is completed with bytes of an earlier message, here another channel's. *)
Definition echo_apdu (b : bytes) : prog := Done (slice 7 (nth 5 b 0 * 256 + nth 6 b 0) b).
Definition secret : bytes := [1; 2; 3; 4; 5; 0; 3; 11; 12; 13].
Theorem C43_short_message_refuted :
  exists evs h, steps no_cmd echo_apdu (hid_init 0) evs = Some h /\
    evs = [Rx (hd (mkF 0 0 []) (frames_of A 0x81 secret)); Loop [] []; Rx (hd (mkF 0 0 []) (frames_of B 0x83 [0; 3; 0; 0])); Loop [] []] /\
    In (mkF B 0x83 (0 :: 3 :: pad 57 [11; 12; 13])) (h_sent h).
Proof. eexists. eexists. split; [|split; [reflexivity|]]; [vm_compute; reflexivity|]. cbn. right. left. reflexivity. Qed.
(** C44: an INIT with a short nonce is answered with bytes of another channel's message. *)
Theorem C44_init_reveals_refuted :
  exists h, steps no_cmd no_cmd (hid_init 0) [Rx (hd (mkF 0 0 []) (frames_of A 0x81 secret)); Loop [] []; Rx (hd (mkF 0 0 []) (frames_of B 0x86 [])); Loop [] []] = Some h /\
    In (mkF B 0x86 (0 :: 17 :: pad 57 (firstn 8 secret ++ [B; 0; 0; 0] ++ [2; 1; 0; 0; 4]))) (h_sent h).
Proof. eexists. split; [vm_compute; reflexivity|]. cbn. right. left. reflexivity. Qed.
(** C44: a frame that arrives while a response is being sent redirects the rest of the response to its own channel. *)
Definition long : bytes := map Z.of_nat (seq 0 200).
Definition ping_long : list ev := flat_map (fun f => [Rx f]) [] ++
  flat_map (fun i => [Rx (nth i (frames_of A 0x81 long) (mkF 0 0 [])); Loop (if (i =? 3)%nat then [(None, 0); (Some (mkF B 0x81 (zeros 59)), 0)] else []) []]) (seq 0 4).
Theorem C44_response_redirected_refuted :
  exists h, steps no_cmd no_cmd (hid_init 0) ping_long = Some h /\ In (mkF B 1 (firstn 59 (skipn 116 long))) (h_sent h).
Proof. eexists. split; [vm_compute; reflexivity|]. cbn. right. right. left. reflexivity. Qed.
(** C44: a message of the waiting channel lets another channel in, and the response goes there. *)
Definition waits (p : bytes) : prog := Poll (fun _ => Poll (fun _ => Done [42])).
Theorem C44_response_misrouted_refuted :
  exists h, steps waits no_cmd (hid_init 0)
    [Rx (hd (mkF 0 0 []) (frames_of A 0x90 [1])); Loop [(Some (hd (mkF 0 0 []) (frames_of A 0x81 [])), 0); (None, 0); (Some (hd (mkF 0 0 []) (frames_of B 0x81 [])), 0)] []] = Some h /\
    In (hd (mkF 0 0 []) (frames_of B 0x90 [42])) (h_sent h).
Proof. eexists. split; [vm_compute; reflexivity|]. cbn. right. right. left. reflexivity. Qed.
(** C75: a CANCEL that arrives before a keep-alive is overwritten by it: the command is not cancelled. *)
Definition cancellable (p : bytes) : prog := Keep 2 (Poll (fun r => Done [r])).
Theorem C75_cancel_lost_refuted :
  exists h, steps cancellable no_cmd (hid_init 0) [Rx (hd (mkF 0 0 []) (frames_of A 0x90 [1])); Loop [(Some (hd (mkF 0 0 []) (frames_of A 0x91 [])), 0)] []] = Some h /\
    h_sent h = [hd (mkF 0 0 []) (frames_of A 0xbb [2]); error_frame A 1; hd (mkF 0 0 []) (frames_of A 0x90 [LOOP_SUCCESS])].
Proof. eexists. split; vm_compute; reflexivity. Qed.
(** C75: a message that is pending when a timeout is reported is lost: no reply but a wrong error. *)
Theorem C75_pending_lost_refuted :
  exists h, steps no_cmd no_cmd (hid_init 0) [Rx (hd (mkF 0 0 []) (frames_of A 0x81 long)); Loop [] []; Tick 900; Rx (hd (mkF 0 0 []) (frames_of A 0x81 [5])); Loop [] []; Loop [] []] = Some h /\
    h_sent h = [error_frame A 5; error_frame A 1].
Proof. eexists. split; vm_compute; reflexivity. Qed.
(** C43: shortly before the 32-bit millisecond clock wraps, every message of several frames times out at once. *)
Theorem C43_clock_wrap_refuted :
  exists h, steps no_cmd no_cmd (hid_init 4294967000) [Rx (hd (mkF 0 0 []) (frames_of A 0x81 long)); Loop [] []; Loop [] []] = Some h /\ h_sent h = [error_frame A 5].
Proof. eexists. split; vm_compute; reflexivity. Qed.

(** ** Examples: the hypotheses can be met *)
Definition four_frames : list frm := frames_of A 0x90 long.
Definition woven : list ev :=
  [Rx (nth 0 four_frames (mkF 0 0 [])); Loop [] []; Tick 100; Rx (mkF B 0x86 (zeros 59)); Loop [] [];
   Rx (nth 1 four_frames (mkF 0 0 [])); Loop [] []; Loop [] []; Rx (mkF 0 0x81 (zeros 59)); Loop [] [];
   Rx (nth 2 four_frames (mkF 0 0 [])); Loop [] []; Tick 300; Rx (nth 3 four_frames (mkF 0 0 [])); Loop [] []].
Example woven_ex : transaction (hid_init 0) A 0x90 long woven.
Proof.
  split; [vm_compute; auto|]. split; [discriminate|]. split; [discriminate|]. split; [vm_compute; discriminate|]. split; [vm_compute; discriminate|]. split; [vm_compute; reflexivity|].
  split; [|vm_compute; discriminate]. change (frames_of A 0x90 long) with [nth 0 four_frames (mkF 0 0 []); nth 1 four_frames (mkF 0 0 []); nth 2 four_frames (mkF 0 0 []); nth 3 four_frames (mkF 0 0 [])].
  unfold woven. apply sess, wv_tick; [lia|]. apply wv_other; [discriminate|]. apply wv_own, wv_idle, wv_other; [discriminate|]. apply wv_own, wv_tick; [lia|]. apply wv_own, wv_nil.
Qed.
Definition reverse_cmd (p : bytes) : prog := Keep 1 (Poll (fun _ => Done (rev p))).
Example woven_answered : exists h, steps reverse_cmd no_cmd (hid_init 0) woven = Some h /\
  h_sent h = [error_frame B 6; error_frame 0 0xb] ++ [hd (mkF 0 0 []) (frames_of A 0xbb [1])] ++ frames_of A 0x90 (rev long).
Proof. eexists. split; vm_compute; reflexivity. Qed.
Example echo_reads_apdu : reads_apdu echo_apdu.
Proof.
  intros b b' E F. unfold echo_apdu, apdu_len in *. f_equal. rewrite <- E. set (n := nth 5 b 0 * 256 + nth 6 b 0) in *. unfold slice.
  destruct (Z.le_gt_cases n 0); [replace (Z.to_nat n) with 0%nat by lia; reflexivity|].
  apply (f_equal (skipn 7)) in F. rewrite !skipn_firstn_comm in F. replace (Z.to_nat (7 + n) - 7)%nat with (Z.to_nat n) in F by lia. exact F.
Qed.
Print Assumptions C42_no_overflow_partial. Print Assumptions C42_overflow_refuted.
Print Assumptions C43_ping. Print Assumptions C43_cbor. Print Assumptions C43_msg. Print Assumptions C43_init_partial. Print Assumptions C43_frames_reassemble. Print Assumptions C43_short_message_refuted. Print Assumptions C43_clock_wrap_refuted.
Print Assumptions C44_ping_isolated. Print Assumptions C44_cbor_isolated. Print Assumptions C44_init_reveals_refuted. Print Assumptions C44_response_redirected_refuted. Print Assumptions C44_response_misrouted_refuted.
Print Assumptions C75_cancel_partial. Print Assumptions C75_cancel_lost_refuted. Print Assumptions C75_pending_lost_refuted.
