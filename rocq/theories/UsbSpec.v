(** The smart-card reader and the WebUSB interface: what a host knows from a history, the specification of a reader's answer, and
    the invariant that ties both to the model. *)
From Verif Require Import Usb.
Open Scope list_scope. Open Scope Z_scope.

(** ** Specification: what the host can know from the history *)
(** The request made of the packets sent so far: complete once the header's length is reached; excess bytes are dropped. *)
Definition payload (ps : list bytes) : bytes := match ps with [] => [] | p :: ps => skipn 10 p ++ concat ps end.
Definition request (ps : list bytes) : option (hdr * bytes) :=
  match ps with
  | [] => None
  | p :: _ => let h := parse_hdr p in if q_len h <=? zlen (payload ps) then Some (h, firstn (Z.to_nat (q_len h)) (payload ps)) else None
  end.
(** [k_pend]: the packets of the request that has not been answered; [k_tx]: its answer is being transmitted; [k_end]: the loop
    has not yet forgotten the request;
    [k_wrx]: a WebUSB command of this length was just accepted, its data comes next; [k_wdata]: the data of the last command;
    [k_wresp]: its execution; [k_wopen]: a command was accepted and its response has not been fetched; [k_web]: WebUSB was used *)
Record know := mkK { k_pend : list bytes; k_tx : bool; k_end : bool; k_wrx : option Z; k_wdata : option bytes; k_wresp : option (bytes * bytes); k_wopen : bool; k_web : bool }.
Definition on_out (k : know) (o : outp) : know :=
  match o with
  | OMsg _ => mkK [] true true (k_wrx k) (k_wdata k) (k_wresp k) (k_wopen k) (k_web k)
  | OExec Web d r => mkK (k_pend k) (k_tx k) (k_end k) (k_wrx k) (k_wdata k) (Some (d, r)) (k_wopen k) (k_web k)
  | OData _ => mkK (k_pend k) (k_tx k) (k_end k) (k_wrx k) None None false (k_web k)
  | _ => k
  end.
Definition on_ev (k : know) (e : ev) (o : list outp) : know :=
  match e with
  | Out p => mkK (match k_pend k with [] => if zlen p <? 10 then [] else [p] | ps => ps ++ [p] end) (k_tx k) (k_end k) (k_wrx k) (k_wdata k) (k_wresp k) (k_wopen k) (k_web k)
  | CEnd => mkK (k_pend k) (k_tx k) false (k_wrx k) (k_wdata k) (k_wresp k) (k_wopen k) (k_web k)
  | InFin => mkK (k_pend k) false (k_end k) (k_wrx k) (k_wdata k) (k_wresp k) (k_wopen k) (k_web k)
  | Config => mkK [] false (k_end k) None None None false (k_web k)
  | Setup (RCmd n) => match o with
      | [OAck] => mkK (k_pend k) (k_tx k) (k_end k) (Some n) None None true true
      | _ => mkK (k_pend k) (k_tx k) (k_end k) None (k_wdata k) (k_wresp k) (k_wopen k) true end
  | Setup _ => mkK (k_pend k) (k_tx k) (k_end k) None (k_wdata k) (k_wresp k) (k_wopen k) true
  | Rx d => match k_wrx k with
      | Some n => if zlen d =? n then mkK (k_pend k) (k_tx k) (k_end k) None (Some d) (k_wresp k) (k_wopen k) (k_web k) else k
      | None => k end
  | Desc _ _ _ => mkK (k_pend k) (k_tx k) (k_end k) None (k_wdata k) (k_wresp k) (k_wopen k) (k_web k)
  | _ => k
  end.
Definition learn (k : know) (x : ev * list outp) : know := fold_left on_out (snd x) (on_ev k (fst x) (snd x)).
Definition knows (t : list (ev * list outp)) : know := fold_left learn t (mkK [] false false None None None false false).
(** A reader driver that sends one request at a time (a packet only when no complete request is unanswered, the last answer has
    been transmitted and the device has finished with it), of bytes, and no request longer than the reader announces; descriptors
    are read only while no request or WebUSB command is open.
    Everything else is unrestricted. *)
Definition polite (k : know) (e : ev) : Prop :=
  match e with
  | Out p => request (k_pend k) = None /\ k_tx k = false /\ k_end k = false /\ Forall (fun b => 0 <= b < 256) p /\ (k_pend k = [] -> q_len (parse_hdr p) <= 1342)
  | Setup (RCmd n) | Setup (RResp n) => 0 <= n
  | Desc d _ _ => k_pend k = [] /\ k_wopen k = false /\ zlen d <= 1342
  | _ => True
  end.
Lemma check_slot dw r2 r3 c : check dw r2 r3 c = None -> q_slot (c_hdr c) <= 0.
Proof. unfold check. destruct (Z.leb_spec 1 (q_slot (c_hdr c))); [discriminate|lia]. Qed.
Section Hist.
Context {X : Type}.
Variable proc : X -> bytes -> X * bytes.
Variable poff : X -> X.
Variable x0 : X.
Inductive hist : list (ev * list outp) -> usb (X := X) -> Prop :=
| h_nil : hist [] (usb_init x0)
| h_snoc t s e o s' : hist t s -> polite (knows t) e -> step proc poff s e = Some (o, s') -> hist (t ++ [(e, o)]) s'.
Definition proc_ok : Prop := forall x d, zlen (snd (proc x d)) <= 1342.

(** What the reader does with a request [h] with data [d]: [x] and [x'] are the states of the applets *)
Definition answers (k : know) (x x' : X) (h : hdr) (d : bytes) (o : list outp) (m : msg) : Prop :=
  m_slot m = q_slot h /\ m_seq m = q_seq h /\
  (q_type h = 0x6F -> q_slot h = 0 -> m_type m = 0x80 /\ m_error m = 0x81 /\
     ((exists r, proc x d = (x', r) /\ o = [OExec Ccid d r; OMsg m] /\ m_data m = r) \/ (k_web k = true /\ o = [OMsg m] /\ x' = x /\ m_data m = [0x64; 0x00]))) /\
  (q_type h = 0x6F -> q_slot h <> 0 -> o = [OMsg m] /\ x' = x) /\
  (q_type h <> 0x6F -> (m_data m = [] \/ (q_type h = 0x62 /\ m_data m = ATR) \/ (q_type h = 0x6C /\ m_data m = PARAMS)) /\
     ((o = [OMsg m] /\ x' = x) \/ ((q_type h = 0x62 \/ q_type h = 0x63) /\ q_slot h = 0 /\ o = [OPowerOff; OMsg m] /\ x' = poff x))).

End Hist.

(** ** Proofs *)
Lemma slice_splice off d x : 0 <= off -> off + zlen x <= zlen d -> slice 0 (off + zlen x) (splice d off x) = slice 0 off d ++ x.
Proof.
  intros H0 H1. unfold slice, splice. change (skipn (Z.to_nat 0) ?l) with l. rewrite app_assoc, firstn_app. rewrite app_length, firstn_length. unfold zlen in *.
  replace (Z.to_nat (off + Z.of_nat (length x)) - (Nat.min (Z.to_nat off) (length d) + length x))%nat with 0%nat by lia. rewrite firstn_O, app_nil_r.
  apply firstn_all2. rewrite app_length, firstn_length. lia.
Qed.
Section Proofs.
Context {X : Type}.
Definition stored (s : usb (X := X)) (d : bytes) : Prop := slice 0 (zlen d) (if is_short (c_hdr (u_c s)) then c_short (u_c s) else u_buf s) = d.
Definition mine (s : usb (X := X)) : Prop := q_type (c_hdr (u_c s)) = XFRBLOCK -> u_own s = OWN_CCID.
Definition rx_ok (k : know) (s : usb (X := X)) : Prop :=
  let c := u_c s in
  match k_pend k with
  | [] => c_state c = RxIdle /\ c_has c = 0
  | p :: _ =>
    let all := payload (k_pend k) in
    10 <= zlen p /\ c_hdr c = parse_hdr p /\ c_slot c = q_slot (c_hdr c) /\ c_seq c = q_seq (c_hdr c) /\ (0 <= q_len (c_hdr c) <= 1342 /\ 0 <= q_slot (c_hdr c)) /\
    match request (k_pend k) with
    | Some (h, d) => c_state c = RxIdle /\ ((c_has c = 1 /\ stored s d /\ mine s /\ (q_type (c_hdr c) = XFRBLOCK \/ is_short (c_hdr c) = true)) \/ (c_has c = 2 /\ (q_type (c_hdr c) = XFRBLOCK -> k_web k = true)))
    | None => c_has c = 0 /\ c_abl c = zlen all /\
        ((c_state c = RxReceive /\ stored s all /\ mine s /\ (q_type (c_hdr c) = XFRBLOCK \/ is_short (c_hdr c) = true)) \/
         (c_state c = RxDiscard /\ (q_type (c_hdr c) = XFRBLOCK -> k_web k = true)))
    end
  end.
Definition web_ok (k : know) (s : usb (X := X)) : Prop :=
  let w := u_w s in
  w_rx w = k_wrx k /\
  (forall n, w_rx w = Some n -> w_state w = WRecving /\ w_size w = n /\ 0 <= n <= 1340) /\
  (w_state w <> WIdle -> u_own s = OWN_WEBUSB) /\ (u_own s = OWN_WEBUSB -> k_web k = true) /\ (u_own s = OWN_NONE \/ u_own s = OWN_CCID \/ u_own s = OWN_WEBUSB) /\
  match w_state w with
  | WRecving => k_wopen k = true
  | WProcess => k_wopen k = true /\ exists d, k_wdata k = Some d /\ w_size w = zlen d /\ zlen d <= 1340 /\ slice 0 (zlen d) (u_buf s) = d
  | WSending => k_wopen k = true /\ exists d r, k_wresp k = Some (d, r) /\ k_wdata k = Some d /\ w_size w = zlen r /\ slice 0 (zlen r) (u_buf s) = r
  | _ => k_wopen k = false
  end.
Definition Inv (k : know) (s : usb (X := X)) : Prop :=
  zlen (u_buf s) = 1342 /\ zlen (c_short (u_c s)) = 8 /\ c_sent (u_c s) = k_end k /\ c_tx (u_c s) = k_tx k /\
  (k_end k = true -> k_pend k = [] /\ c_state (u_c s) = RxIdle) /\ (k_tx k = true -> k_pend k = []) /\
  (k_end k = false -> rx_ok k s) /\ web_ok k s.

Lemma rx_keep k s k' s' : rx_ok k s -> u_c s' = u_c s -> k_pend k' = k_pend k -> (k_web k = true -> k_web k' = true) ->
  (u_own s = OWN_CCID -> u_own s' = OWN_CCID /\ u_buf s' = u_buf s) -> rx_ok k' s'.
Proof.
  unfold rx_ok, stored, mine. intros H Ec Ep Ew Eo. rewrite Ec, Ep. destruct (k_pend k) as [|p ps]; [exact H|]. cbv zeta in *. destruct H as (H1 & H2 & H3 & H4 & H5 & H). repeat (split; [assumption|]).
  assert (Hs : forall d, (q_type (c_hdr (u_c s)) = XFRBLOCK -> u_own s = OWN_CCID) -> q_type (c_hdr (u_c s)) = XFRBLOCK \/ is_short (c_hdr (u_c s)) = true ->
    slice 0 (zlen d) (if is_short (c_hdr (u_c s)) then c_short (u_c s) else u_buf s) = d -> slice 0 (zlen d) (if is_short (c_hdr (u_c s)) then c_short (u_c s) else u_buf s') = d).
  { intros d Hm Ho Hd. destruct (is_short _); [exact Hd|]. destruct Ho as [Ho|Ho]; [|discriminate]. destruct (Eo (Hm Ho)) as [_ ->]. exact Hd. }
  destruct (request (p :: ps)) as [[h d]|].
  - destruct H as (E & [(A & B & C & D)|(A & B)]); (split; [exact E|]); [left|right; auto]. repeat split; auto. intros Ex. destruct (Eo (C Ex)); assumption.
  - destruct H as (E & F & [(A & B & C & D)|(A & B)]); (split; [exact E|]; split; [exact F|]); [left|right; auto]. repeat split; auto. intros Ex. destruct (Eo (C Ex)); assumption.
Qed.
Definition same_web (k k' : know) : Prop := k_wrx k' = k_wrx k /\ k_wdata k' = k_wdata k /\ k_wresp k' = k_wresp k /\ k_wopen k' = k_wopen k /\ k_web k' = k_web k.
Lemma web_keep k s k' s' : web_ok k s -> u_w s' = u_w s -> same_web k k' -> (u_own s = OWN_WEBUSB -> u_own s' = OWN_WEBUSB /\ u_buf s' = u_buf s) ->
  (u_own s' = OWN_WEBUSB -> u_own s = OWN_WEBUSB) -> (u_own s' = OWN_NONE \/ u_own s' = OWN_CCID \/ u_own s' = OWN_WEBUSB) -> web_ok k' s'.
Proof.
  unfold web_ok. intros (H1 & H2 & H3 & H4 & H5 & H6) Ew (K1 & K2 & K3 & K4 & K5) Eo Eo' H. cbv zeta in *. rewrite Ew, K1, K4, K5. split; [exact H1|]. split; [exact H2|]. split; [intros Hn; apply Eo; auto|]. split; [auto|]. split; [exact H|].
  destruct (w_state (u_w s)) eqn:E; auto; rewrite ?K2, ?K3; destruct (Eo (H3 ltac:(discriminate))) as [_ ->]; exact H6.
Qed.
Lemma put_ok pre d s : stored s pre -> zlen (u_buf s) = 1342 -> zlen (c_short (u_c s)) = 8 -> zlen pre + zlen d <= (if is_short (c_hdr (u_c s)) then 8 else 1342) ->
  exists s', put (zlen pre) d s = Some s' /\ stored s' (pre ++ d) /\ zlen (u_buf s') = 1342 /\ zlen (c_short (u_c s')) = 8 /\ u_own s' = u_own s /\ u_w s' = u_w s /\
    u_c s' = c_setshort (c_short (u_c s')) (u_c s) /\ (is_short (c_hdr (u_c s)) = true -> u_buf s' = u_buf s).
Proof.
  unfold stored, put. intros Hs Hb Hc Hl. pose proof (zlen_nonneg pre). pose proof (zlen_nonneg d). destruct (is_short (c_hdr (u_c s))) eqn:Es.
  - destruct (Z.ltb_spec 8 (zlen pre + zlen d)); [lia|]. eexists. split; [reflexivity|]. cbn [set_c u_c c_setshort c_hdr c_short u_buf u_own u_w]. rewrite Es, zlen_splice by lia. rewrite zlen_app, slice_splice, Hs by lia. repeat split; auto.
  - unfold ABDATA_SIZE. destruct (Z.ltb_spec 1342 (zlen pre + zlen d)); [lia|]. eexists. split; [reflexivity|]. cbn [set_buf u_c c_hdr c_short u_buf u_own u_w]. rewrite Es, zlen_splice by lia. rewrite zlen_app, slice_splice, Hs by lia. repeat split; auto; try discriminate. destruct (u_c s); reflexivity.
Qed.
Lemma payload_snoc p ps q : payload ((p :: ps) ++ [q]) = payload (p :: ps) ++ q.
Proof. cbn [payload app]. rewrite concat_app. cbn [concat]. rewrite app_nil_r, app_assoc. reflexivity. Qed.
Lemma nth_nonneg p i : Forall (fun b => 0 <= b < 256) p -> 0 <= nth i p 0.
Proof. intros Hf. destruct (Nat.lt_ge_cases i (length p)); [|rewrite nth_overflow by assumption; lia]. rewrite Forall_forall in Hf. apply (Hf (nth i p 0)). apply nth_In. assumption. Qed.
Lemma parse_len p : Forall (fun b => 0 <= b < 256) p -> 0 <= q_len (parse_hdr p).
Proof.
  intros Hf. unfold parse_hdr. cbn [q_len]. assert (Hn : forall i, 0 <= nth i p 0). { intros i. destruct (Nat.lt_ge_cases i (length p)); [|rewrite nth_overflow by assumption; lia]. rewrite Forall_forall in Hf. apply (Hf (nth i p 0)). apply nth_In. assumption. }
  pose proof (Hn 1%nat). pose proof (Hn 2%nat). pose proof (Hn 3%nat). pose proof (Hn 4%nat). lia.
Qed.
Lemma out_good k s p : Inv k s -> polite k (Out p) -> exists s', out_event p s = Some s' /\ Inv (on_ev k (Out p) []) s'.
Proof.
  intros (I1 & I2 & I3 & I4 & I5 & I6 & I7 & I8) (P1 & P2 & P3 & P4 & P5). specialize (I7 P3). set (k' := on_ev k (Out p) []). pose proof (zlen_nonneg p) as Hp.
  assert (Hkw : same_web k k') by (unfold k', on_ev; repeat split).
  assert (Hmk : forall s', zlen (u_buf s') = 1342 -> zlen (c_short (u_c s')) = 8 -> c_sent (u_c s') = c_sent (u_c s) -> c_tx (u_c s') = c_tx (u_c s) -> rx_ok k' s' -> web_ok k' s' -> Inv k' s').
  { intros s' A1 A2 A3 A4 A5 A6. split; [exact A1|]. split; [exact A2|]. split; [cbn [k' on_ev k_end]; congruence|]. split; [cbn [k' on_ev k_tx]; congruence|]. split; [cbn [k' on_ev k_end]; congruence|]. split; [cbn [k' on_ev k_tx]; congruence|]. auto. }
  unfold rx_ok in I7. destruct (k_pend k) as [|p0 ps] eqn:Ep.
  - destruct I7 as [J1 J2]. unfold out_event. cbv zeta. rewrite J1. destruct (Z.ltb_spec (zlen p) 10) as [E|E].
    + exists s. split; [reflexivity|]. assert (k' = k) as ->. { unfold k', on_ev. rewrite Ep. destruct (Z.ltb_spec (zlen p) 10); [|lia]. destruct k; cbn [k_pend k_tx k_end k_wrx k_wdata k_wresp k_wopen k_web] in *. subst. reflexivity. }
      split; [exact I1|]. split; [exact I2|]. split; [exact I3|]. split; [exact I4|]. split; [rewrite Ep; auto|]. split; [auto|]. split; [intros _; unfold rx_ok; rewrite Ep; auto|exact I8].
    + specialize (P5 eq_refl). pose proof (parse_len p P4) as Hq. assert (Hqs : 0 <= q_slot (parse_hdr p)) by (unfold parse_hdr; cbn [q_slot]; apply nth_nonneg; exact P4). set (h := parse_hdr p) in *. set (abl := Z.min (zlen p - 10) (q_len h)).
      assert (Epk : k_pend k' = [p]). { unfold k', on_ev. cbn [k_pend]. rewrite Ep. destruct (Z.ltb_spec (zlen p) 10); [lia|reflexivity]. }
      assert (Epay : payload [p] = skipn 10 p) by (cbn [payload concat]; apply app_nil_r).
      assert (Hzp : zlen (skipn 10 p) = zlen p - 10) by (rewrite zlen_skipn; lia).
      assert (Esl : slice 10 abl p = firstn (Z.to_nat abl) (skipn 10 p)) by reflexivity.
      set (s1 := set_c _ s). set (c1 := mkC RxIdle h _ _ _ _ _ _ _ _ _) in *.
      (* the buffer *)
      assert (exists take s2, (if q_type h =? XFRBLOCK then acquire OWN_CCID s1 else (is_short h, s1)) = (take, s2) /\ u_c s2 = c1 /\ u_buf s2 = u_buf s /\ u_w s2 = u_w s /\ web_ok k' s2 /\
        (take = true -> (q_type h = XFRBLOCK -> u_own s2 = OWN_CCID) /\ (q_type h = XFRBLOCK \/ is_short h = true)) /\ (take = false -> q_type h = XFRBLOCK -> k_web k' = true)) as (take & s2 & -> & S1 & S2 & S3 & S4 & S5 & S6).
      { pose proof I8 as (_ & _ & W3 & W4 & W5 & _). destruct (Z.eqb_spec (q_type h) XFRBLOCK) as [Ex|Ex].
        - unfold acquire. cbn [s1 set_c u_own]. destruct (Z.eqb_spec (u_own s) OWN_NONE) as [En|En].
          + exists true. eexists. split; [reflexivity|]. cbn [set_own u_own]. repeat (split; [reflexivity|]). split; [|split; [auto|discriminate]].
            eapply web_keep; [exact I8|reflexivity|exact Hkw|rewrite En; discriminate|cbn; discriminate|cbn; auto].
          + change (u_own s1) with (u_own s). destruct (Z.eqb_spec (u_own s) OWN_CCID) as [Ec|Ec].
            * exists true. eexists. split; [reflexivity|]. repeat (split; [reflexivity|]). split; [|split; [auto|discriminate]]. eapply web_keep; [exact I8|reflexivity|exact Hkw|auto|auto|exact W5].
            * exists false. eexists. split; [reflexivity|]. repeat (split; [reflexivity|]). split; [|split; [discriminate|]]. { eapply web_keep; [exact I8|reflexivity|exact Hkw|auto|auto|exact W5]. }
              intros _ _. destruct Hkw as (_ & _ & _ & _ & ->). apply W4. destruct W5 as [?|[?|?]]; congruence.
        - exists (is_short h). exists s1. split; [reflexivity|]. repeat (split; [reflexivity|]). split; [|split; [|]]. { eapply web_keep; [exact I8|reflexivity|exact Hkw|auto|auto|exact W5]. }
          + intros Et. split; [contradiction|auto].
          + intros _ Hx. contradiction. }
      assert (Hreq : request [p] = if q_len h <=? zlen p - 10 then Some (h, firstn (Z.to_nat (q_len h)) (skipn 10 p)) else None). { unfold request. rewrite Epay, Hzp. fold h. reflexivity. }
      assert (Hle : (q_len h <=? abl) = (q_len h <=? zlen p - 10)) by (unfold abl; lia).
      assert (Hz2 : zlen (c_short (u_c s2)) = 8) by (rewrite S1; exact I2). assert (Hb2 : zlen (u_buf s2) = 1342) by congruence.
      assert (Hst : forall s3, u_c s3 = c_setshort (c_short (u_c s3)) c1 -> stored s3 (slice 10 abl p) -> (is_short h = true \/ True) -> True) by auto. clear Hst.
      destruct take.
      * destruct (put_ok [] (slice 10 abl p) s2) as (s3 & E3 & Q1 & Q2 & Q3 & Q4 & Q5 & Q6 & Q7); [unfold stored; unfold slice; reflexivity|exact Hb2|exact Hz2| |].
        { rewrite S1. cbn [c1 c_hdr]. rewrite zlen_slice by lia. change (zlen (@nil Z)) with 0. unfold abl. unfold is_short. destruct (Z.leb_spec (q_len h) 8); lia. }
        change (zlen (@nil Z)) with 0 in E3. rewrite E3. destruct (S5 eq_refl) as [M1 M2]. rewrite S1 in Q6, Q7. cbn [c1 c_hdr] in Q7.
        assert (W3' : web_ok k' s3). { eapply web_keep; [exact S4|exact Q5|repeat split|  |congruence|rewrite Q4; apply S4]. intros Ho. split; [congruence|]. destruct (is_short h) eqn:Esh; [apply Q7; reflexivity|]. destruct M2 as [M2|M2]; [|discriminate]. specialize (M1 M2). rewrite M1 in Ho. discriminate. }
        rewrite Hle. destruct (Z.leb_spec (q_len h) (zlen p - 10)) as [El|El]; eexists; (split; [reflexivity|]); (apply Hmk; [exact Q2|exact Q3|rewrite Q6; reflexivity|rewrite Q6; reflexivity| |]).
        -- unfold rx_ok. rewrite Epk. cbv zeta. rewrite Q6. cbn [set_c u_c c_rx c_setshort c_hdr c_slot c_seq c_state c_has c_abl c1]. rewrite Hreq. destruct (Z.leb_spec (q_len h) (zlen p - 10)); [|lia].
           do 5 (split; [reflexivity || lia|]). split; [reflexivity|]. left. split; [reflexivity|]. split; [|split; [unfold mine; cbn [set_c u_own u_c c_rx c_hdr]; rewrite Q4; exact M1|exact M2]].
           unfold stored in *. cbn [set_c u_c c_rx c_hdr c_short u_buf]. rewrite Q6 in Q1. cbn [c_setshort c_hdr c_short c1] in *. replace (slice 10 abl p) with (firstn (Z.to_nat (q_len h)) (skipn 10 p)) in Q1 by (rewrite Esl; f_equal; unfold abl; lia). exact Q1.
        -- eapply web_keep; [exact W3'|reflexivity|repeat split|auto|auto|apply W3'].
        -- unfold rx_ok. rewrite Epk. cbv zeta. rewrite Q6. cbn [set_c u_c c_rx c_setshort c_hdr c_slot c_seq c_state c_has c_abl c1]. rewrite Hreq. destruct (Z.leb_spec (q_len h) (zlen p - 10)); [lia|].
           do 5 (split; [reflexivity || lia|]). split; [exact J2|]. split; [rewrite Epay, Hzp; unfold abl; lia|]. left. split; [reflexivity|]. split; [|split; [unfold mine; cbn [set_c u_own u_c c_rx c_hdr]; rewrite Q4; exact M1|exact M2]].
           rewrite Epay. unfold stored in *. cbn [set_c u_c c_rx c_hdr c_short u_buf]. rewrite Q6 in Q1. cbn [c_setshort c_hdr c_short c1] in *. replace (slice 10 abl p) with (skipn 10 p) in Q1; [exact Q1|]. rewrite Esl. symmetry. apply firstn_all2. unfold zlen in *. lia.
        -- eapply web_keep; [exact W3'|reflexivity|repeat split|auto|auto|apply W3'].
      * specialize (S6 eq_refl). rewrite S1. cbn [c_has c1]. rewrite Hle. destruct (Z.leb_spec (q_len h) (zlen p - 10)) as [El|El]; eexists; (split; [reflexivity|]); (apply Hmk; [exact Hb2|cbn [set_c u_c c_rx c_short c1]; exact I2|reflexivity|reflexivity| |]).
        -- unfold rx_ok. rewrite Epk. cbv zeta. cbn [set_c u_c c_rx c_setshort c_hdr c_slot c_seq c_state c_has c_abl c1]. rewrite Hreq. destruct (Z.leb_spec (q_len h) (zlen p - 10)); [|lia].
           do 5 (split; [reflexivity || lia|]). split; [reflexivity|]. right. auto.
        -- eapply web_keep; [exact S4|reflexivity|repeat split|auto|auto|apply S4].
        -- unfold rx_ok. rewrite Epk. cbv zeta. cbn [set_c u_c c_rx c_setshort c_hdr c_slot c_seq c_state c_has c_abl c1]. rewrite Hreq. destruct (Z.leb_spec (q_len h) (zlen p - 10)); [lia|].
           do 5 (split; [reflexivity || lia|]). split; [exact J2|]. split; [rewrite Epay, Hzp; unfold abl; lia|]. right. auto.
        -- eapply web_keep; [exact S4|reflexivity|repeat split|auto|auto|apply S4].
  - cbv zeta in I7. destruct I7 as (J1 & J2 & J3 & J4 & J5 & J6). rewrite P1 in J6. destruct J6 as (J6 & J7 & J8). set (all := payload (p0 :: ps)) in *. set (h := c_hdr (u_c s)) in *.
    assert (Epk : k_pend k' = (p0 :: ps) ++ [p]) by (unfold k', on_ev; cbn [k_pend]; rewrite Ep; reflexivity).
    assert (Hpay : payload ((p0 :: ps) ++ [p]) = all ++ p) by apply payload_snoc.
    assert (Hlt : zlen all < q_len h). { unfold request in P1. fold all in P1. rewrite <- J2 in P1. fold h in P1. destruct (Z.leb_spec (q_len h) (zlen all)); [discriminate|lia]. }
    assert (Hreq : request ((p0 :: ps) ++ [p]) = if q_len h <=? zlen all + zlen p then Some (h, firstn (Z.to_nat (q_len h)) (all ++ p)) else None).
    { unfold request. change ((p0 :: ps) ++ [p]) with (p0 :: (ps ++ [p])) at 1. cbv iota. change (payload (p0 :: ps ++ [p])) with (payload ((p0 :: ps) ++ [p])). rewrite Hpay, zlen_app, <- J2. reflexivity. }
    pose proof (zlen_nonneg all) as Hall. unfold out_event. cbv zeta. fold h. destruct J8 as [(K1 & K2 & K3 & K4)|(K1 & K2)]; rewrite K1, J7.
    + set (n := if zlen all + zlen p <? q_len h then zlen p else q_len h - zlen all). assert (Hn : 0 <= n <= zlen p /\ zlen all + n <= q_len h) by (unfold n; destruct (Z.ltb_spec (zlen all + zlen p) (q_len h)); lia).
      destruct (put_ok all (slice 0 n p) s K2 I1 I2) as (s3 & E3 & Q1 & Q2 & Q3 & Q4 & Q5 & Q6 & Q7).
      { rewrite zlen_slice by lia. fold h. unfold is_short. destruct (Z.leb_spec (q_len h) 8); lia. }
      rewrite E3. fold h in Q7.
      assert (W3' : web_ok k' s3). { eapply web_keep; [exact I8|exact Q5|exact Hkw| |congruence|rewrite Q4; apply I8]. intros Ho. split; [congruence|]. destruct (is_short h) eqn:Esh; [apply Q7; reflexivity|]. destruct K4 as [M2|M2]; [|discriminate]. specialize (K3 M2). rewrite K3 in Ho. discriminate. }
      assert (Hh3 : c_hdr (u_c s3) = h) by (rewrite Q6; reflexivity).
      destruct (Z.ltb_spec (zlen all + zlen p) (q_len h)) as [El|El]; eexists; (split; [reflexivity|]); (apply Hmk; [exact Q2|exact Q3|rewrite Q6; reflexivity|rewrite Q6; reflexivity| |eapply web_keep; [exact W3'|reflexivity|repeat split|auto|auto|apply W3']]).
      * unfold rx_ok. rewrite Epk. change ((p0 :: ps) ++ [p]) with (p0 :: (ps ++ [p])) at 1. cbv iota. rewrite Hreq, Hpay. cbv zeta. destruct (Z.leb_spec (q_len h) (zlen all + zlen p)); [lia|]. cbn [set_c u_c c_rx c_hdr c_slot c_seq c_state c_has c_abl]. rewrite Hh3.
        assert (c_slot (u_c s3) = c_slot (u_c s)) as -> by (rewrite Q6; reflexivity). assert (c_seq (u_c s3) = c_seq (u_c s)) as -> by (rewrite Q6; reflexivity). assert (c_has (u_c s3) = c_has (u_c s)) as -> by (rewrite Q6; reflexivity).
        repeat (split; [assumption|]). split; [rewrite zlen_app; unfold u16; apply Z.mod_small; lia|]. left. split; [reflexivity|].
        split; [|split; [unfold mine; cbn [set_c u_own u_c c_rx c_hdr]; rewrite Q4, Hh3; exact K3|exact K4]].
        unfold stored in *. cbn [set_c u_c c_rx c_hdr c_short u_buf]. assert (slice 0 n p = p) as En by (unfold n; apply slice_all). rewrite En in Q1. exact Q1.
      * unfold rx_ok. rewrite Epk. change ((p0 :: ps) ++ [p]) with (p0 :: (ps ++ [p])) at 1. cbv iota. rewrite Hreq. cbv zeta. destruct (Z.leb_spec (q_len h) (zlen all + zlen p)); [|lia]. cbn [set_c u_c c_rx c_hdr c_slot c_seq c_state c_has c_abl]. rewrite Hh3.
        assert (c_slot (u_c s3) = c_slot (u_c s)) as -> by (rewrite Q6; reflexivity). assert (c_seq (u_c s3) = c_seq (u_c s)) as -> by (rewrite Q6; reflexivity).
        repeat (split; [assumption|]). split; [reflexivity|]. left. split; [reflexivity|].
        split; [|split; [unfold mine; cbn [set_c u_own u_c c_rx c_hdr]; rewrite Q4, Hh3; exact K3|exact K4]].
        unfold stored in *. cbn [set_c u_c c_rx c_hdr c_short u_buf]. replace (firstn (Z.to_nat (q_len h)) (all ++ p)) with (all ++ slice 0 n p); [exact Q1|].
        rewrite firstn_app. rewrite (firstn_all2 (n := Z.to_nat (q_len h))) by (unfold zlen in *; lia). f_equal. unfold slice. change (skipn (Z.to_nat 0) p) with p. f_equal. unfold zlen in *. lia.
    + destruct (Z.ltb_spec (zlen all + zlen p) (q_len h)) as [El|El]; eexists; (split; [reflexivity|]); (apply Hmk; [exact I1|exact I2|reflexivity|reflexivity| |eapply web_keep; [exact I8|reflexivity|exact Hkw|auto|auto|apply I8]]).
      * unfold rx_ok. rewrite Epk. change ((p0 :: ps) ++ [p]) with (p0 :: (ps ++ [p])) at 1. cbv iota. rewrite Hreq, Hpay. cbv zeta. destruct (Z.leb_spec (q_len h) (zlen all + zlen p)); [lia|]. cbn [set_c u_c c_rx c_hdr c_slot c_seq c_state c_has c_abl]. fold h.
        repeat (split; [assumption|]). split; [rewrite zlen_app; unfold u16; apply Z.mod_small; lia|]. right. split; [reflexivity|exact K2].
      * unfold rx_ok. rewrite Epk. change ((p0 :: ps) ++ [p]) with (p0 :: (ps ++ [p])) at 1. cbv iota. rewrite Hreq. cbv zeta. destruct (Z.leb_spec (q_len h) (zlen all + zlen p)); [|lia]. cbn [set_c u_c c_rx c_hdr c_slot c_seq c_state c_has c_abl]. fold h.
        repeat (split; [assumption|]). split; [reflexivity|]. right. split; [reflexivity|exact K2].
Qed.

Definition quiet_out (o : list outp) : Prop := Forall (fun y => match y with OPowerOff | OExec Ccid _ _ => True | _ => False end) o.
Lemma quiet_fold o : quiet_out o -> forall k, fold_left on_out o k = k.
Proof. induction o as [|y o IH]; intros Hq k; [reflexivity|]. inversion Hq as [|? ? Hy Ho]; subst. cbn [fold_left]. destruct y as [| [|] ? ?| | | | | |]; try contradiction; cbn [on_out]; apply IH; exact Ho. Qed.
Lemma send_good k s s1 m o : Inv k s -> k_end k = false -> quiet_out o -> c_state (u_c s) = RxIdle ->
  c_state (u_c s1) = RxIdle -> c_short (u_c s1) = c_short (u_c s) -> zlen (u_buf s1) = 1342 -> u_w s1 = u_w s -> u_own s1 = u_own s -> (u_own s = OWN_WEBUSB -> u_buf s1 = u_buf s) ->
  Inv (learn k (CRun, o ++ [OMsg m])) (set_c (c_send true true (c_has (u_c s1)) (u_c s1)) s1).
Proof.
  intros (I1 & I2 & I3 & I4 & I5 & I6 & I7 & I8) He Hq Hst H1 H2 H3 H4 H5 H6. unfold learn. cbn [fst snd on_ev]. rewrite fold_left_app, (quiet_fold o Hq). cbn [fold_left on_out].
  split; [exact H3|]. split; [cbn [set_c u_c c_send c_short]; congruence|]. split; [reflexivity|]. split; [reflexivity|]. cbn [k_end k_pend k_tx].
  split; [intros _; split; [reflexivity|exact H1]|]. split; [reflexivity|]. split; [discriminate|].
  eapply web_keep; [exact I8|exact H4|repeat split| |cbn [set_c u_own]; congruence|cbn [set_c u_own]; rewrite H5; apply I8]. intros Ho. cbn [set_c u_own u_buf]. split; [congruence|auto].
Qed.
End Proofs.
