(** C45, C46, C48, C76: the smart-card reader and the WebUSB interface. *)
From Verif Require Import Usb UsbSpec.
Open Scope list_scope. Open Scope Z_scope.

Section Hist.
Context {X : Type}.
Variable proc : X -> bytes -> X * bytes.
Variable poff : X -> X.
Variable x0 : X.
Lemma run_good k s : proc_ok proc -> Inv k s -> exists o s', ccid_run proc poff s = Some (o, s') /\ Inv (learn k (CRun, o)) s' /\
  ((o = [] /\ s' = s /\ (request (k_pend k) = None \/ k_end k = true)) \/
   (k_end k = false /\ exists h d m, request (k_pend k) = Some (h, d) /\ In (OMsg m) o /\ answers proc poff k (u_x s) (u_x s') h d o m /\ (forall d r, In (OExec Ccid d r) o -> u_own s = OWN_CCID))).
Proof.
  intros Hproc HI. pose proof HI as (I1 & I2 & I3 & I4 & I5 & I6 & I7 & I8). unfold ccid_run. cbv zeta. destruct ((c_has (u_c s) =? 0) || c_sent (u_c s)) eqn:E0.
  - exists [], s. split; [reflexivity|]. split; [exact HI|]. left. split; [reflexivity|]. split; [reflexivity|]. destruct (k_end k) eqn:Ek; [auto|]. left. specialize (I7 eq_refl).
    rewrite I3, orb_false_r in E0. apply Z.eqb_eq in E0. unfold rx_ok in I7. destruct (k_pend k) as [|p ps]; [reflexivity|]. cbv zeta in I7. destruct I7 as (_ & _ & _ & _ & _ & J). destruct (request (p :: ps)) as [[h d]|]; [|reflexivity]. destruct J as (_ & [(J & _)|(J & _)]); congruence.
  - apply orb_false_iff in E0. destruct E0 as [E0 E1]. apply Z.eqb_neq in E0. assert (Ek : k_end k = false) by congruence. specialize (I7 Ek). unfold rx_ok in I7.
    destruct (k_pend k) as [|p ps] eqn:Ep; [destruct I7; congruence|]. cbv zeta in I7. destruct I7 as (J1 & J2 & J3 & J4 & J5 & J6). destruct (request (p :: ps)) as [[h d]|] eqn:Er; [|destruct J6; congruence].
    assert (Eh : h = c_hdr (u_c s)). { unfold request in Er. destruct (_ <=? _); [|discriminate]. injection Er as <- _. symmetry. exact J2. }
    assert (Ed : zlen d = q_len h). { unfold request in Er. destruct (Z.leb_spec (q_len (parse_hdr p)) (zlen (payload (p :: ps)))); [|discriminate]. assert (h = parse_hdr p) as -> by congruence. assert (d = firstn (Z.to_nat (q_len (parse_hdr p))) (payload (p :: ps))) as -> by congruence. rewrite zlen_firstn. rewrite J2 in J5. lia. }
    destruct J6 as (J6 & J7). rewrite <- Eh in *.
    assert (Hsend : forall s1 m o, quiet_out o -> c_state (u_c s1) = RxIdle -> c_short (u_c s1) = c_short (u_c s) -> zlen (u_buf s1) = 1342 -> u_w s1 = u_w s -> u_own s1 = u_own s -> (u_own s = OWN_WEBUSB -> u_buf s1 = u_buf s) ->
      answers proc poff k (u_x s) (u_x s1) h d (o ++ [OMsg m]) m -> (forall d r, In (OExec Ccid d r) o -> u_own s = OWN_CCID) ->
      exists o0 s', Some (o ++ [OMsg m], set_c (c_send true true (c_has (u_c s1)) (u_c s1)) s1) = Some (o0, s') /\ Inv (learn k (CRun, o0)) s' /\
        ((o0 = [] /\ s' = s /\ (Some (h, d) = None \/ k_end k = true)) \/ (k_end k = false /\ exists h0 d0 m0, Some (h, d) = Some (h0, d0) /\ In (OMsg m0) o0 /\ answers proc poff k (u_x s) (u_x s') h0 d0 o0 m0 /\ (forall d r, In (OExec Ccid d r) o0 -> u_own s = OWN_CCID)))).
    { intros s1 m o Q1 Q2 Q3 Q4 Q5 Q6 Q7 Q8 Q9. eexists _, _. split; [reflexivity|]. split; [apply (send_good k s s1 m o HI Ek Q1 J6 Q2 Q3 Q4 Q5 Q6 Q7)|]. right. split; [exact Ek|]. exists h, d, m. split; [reflexivity|]. split; [apply in_or_app; right; left; reflexivity|]. split; [exact Q8|].
      intros d1 r1 Hin. apply in_app_or in Hin. destruct Hin as [Hin|[Hin|[]]]; [eapply Q9; exact Hin|discriminate]. }
    assert (Hother : forall c' type err spec dt o x', q_type h <> 0x6F -> c_state c' = RxIdle -> c_short c' = c_short (u_c s) -> c_slot c' = q_slot h -> c_seq c' = q_seq h ->
      (dt = [] \/ (q_type h = 0x62 /\ dt = ATR) \/ (q_type h = 0x6C /\ dt = PARAMS)) -> (o = [] /\ x' = u_x s) \/ ((q_type h = 0x62 \/ q_type h = 0x63) /\ q_slot h = 0 /\ o = [OPowerOff] /\ x' = poff (u_x s)) ->
      exists o0 s', Some (o ++ [OMsg (short_msg type err spec dt c')], set_c (c_send true true (c_has (u_c (set_x x' (set_c c' s)))) (u_c (set_x x' (set_c c' s)))) (set_x x' (set_c c' s))) = Some (o0, s') /\ Inv (learn k (CRun, o0)) s' /\
        ((o0 = [] /\ s' = s /\ (Some (h, d) = None \/ k_end k = true)) \/ (k_end k = false /\ exists h0 d0 m0, Some (h, d) = Some (h0, d0) /\ In (OMsg m0) o0 /\ answers proc poff k (u_x s) (u_x s') h0 d0 o0 m0 /\ (forall d r, In (OExec Ccid d r) o0 -> u_own s = OWN_CCID)))).
    { intros c' type err spec dt o x' Hx A1 A2 A3 A4 A5 A6. apply Hsend; try reflexivity; try assumption.
      - destruct A6 as [[-> _]|(_ & _ & -> & _)]; repeat constructor.
      - unfold answers. cbn [short_msg m_slot m_seq m_type m_error m_data set_x set_c u_x]. split; [exact A3|]. split; [exact A4|]. split; [contradiction|]. split; [contradiction|]. intros _. split; [exact A5|].
        destruct A6 as [[-> ->]|(B1 & B2 & -> & ->)]; [left|right]; auto.
      - intros d1 r1 Hin. destruct A6 as [[-> _]|(_ & _ & -> & _)]; [destruct Hin|destruct Hin as [Hin|[]]; discriminate]. }
    assert (Esame : forall y : usb (X := X), set_x (u_x y) (set_c (u_c y) y) = y) by (intros y; destruct y; reflexivity).
    assert (Hsl : forall dw r2 r3, check dw r2 r3 (u_c s) = None -> 0 <= q_slot h -> q_slot h = 0) by (intros dw r2 r3 Hc Hn; apply check_slot in Hc; rewrite <- Eh in Hc; lia).
    assert (Hn0 : 0 <= q_slot h) by apply J5. assert (Hq0 : quiet_out []) by apply Forall_nil.
    destruct (Z.eqb_spec (q_type h) 0x62) as [T|T].
    { destruct (check true true false (u_c s)) eqn:Ec; [apply (Hother (c_setstatus (FAILED + card (u_c s)) (u_c s)) _ _ _ _ [] (u_x s)); auto; rewrite T; discriminate|].
      destruct (negb _); [apply (Hother (c_setstatus (FAILED + card (u_c s)) (u_c s)) _ _ _ _ [] (u_x s)); auto; rewrite T; discriminate|].
      apply (Hother (c_setstatus 0 (u_c s)) _ _ _ _ [OPowerOff] (poff (u_x s))); auto; [rewrite T; discriminate|]. right. repeat split; auto. eapply Hsl; eassumption. }
    destruct (Z.eqb_spec (q_type h) 0x63) as [T3|T3].
    { destruct (check true false true (u_c s)) eqn:Ec; [apply (Hother (c_setstatus (FAILED + card (u_c s)) (u_c s)) _ _ _ _ [] (u_x s)); auto; rewrite T3; discriminate|].
      apply (Hother (c_setstatus 1 (u_c s)) _ _ _ _ [OPowerOff] (poff (u_x s))); auto; [rewrite T3; discriminate|]. right. repeat split; auto. eapply Hsl; eassumption. }
    destruct (Z.eqb_spec (q_type h) 0x65) as [T5|T5].
    { destruct (check true false true (u_c s)) eqn:Ec; [apply (Hother (c_setstatus (FAILED + card (u_c s)) (u_c s)) _ _ _ _ [] (u_x s)); auto; rewrite T5; discriminate|].
      apply (Hother (c_setstatus (card (u_c s)) (u_c s)) _ _ _ _ [] (u_x s)); auto. rewrite T5. discriminate. }
    destruct (Z.eqb_spec (q_type h) XFRBLOCK) as [TX|TX].
    + change XFRBLOCK with 0x6F in TX. destruct (Z.eqb_spec (c_has (u_c s)) 2) as [E2|E2].
      * destruct J7 as [(J7 & _)|(_ & J7)]; [congruence|]. apply (Hsend s _ [] Hq0); auto.
        unfold answers. cbn [short_msg m_slot m_seq m_type m_error m_data app]. split; [congruence|]. split; [congruence|]. split; [|split; [|congruence]].
        -- intros _ _. split; [reflexivity|]. split; [reflexivity|]. right. auto.
        -- auto.
        -- intros d1 r1 [].
      * destruct J7 as [(J7 & J8 & J9 & J10)|(J7 & _)]; [|congruence]. unfold xfr_block. cbv zeta. destruct (check false false false (u_c s)) as [e|] eqn:Ec.
        -- assert (Hns : q_slot h <> 0). { unfold check in Ec. rewrite <- Eh in Ec. destruct (Z.leb_spec 1 (q_slot h)); [lia|]. cbn [andb] in Ec. discriminate. }
           apply (Hsend (set_c (c_setstatus (FAILED + card (u_c s)) (u_c s)) s) _ [] Hq0); auto; [|intros d1 r1 []].
           unfold answers. cbn [m_slot m_seq m_type m_error m_data app set_c u_x c_setstatus c_slot c_seq]. split; [congruence|]. split; [congruence|]. split; [contradiction|]. split; [auto|congruence].
        -- pose proof (Hsl _ _ _ Ec Hn0) as Hs0. rewrite <- Eh. unfold stored in J8. rewrite <- Eh, Ed in J8. rewrite J8. destruct (proc (u_x s) d) as [x' r] eqn:Epr.
           specialize (Hproc (u_x s) d). rewrite Epr in Hproc. cbn [snd] in Hproc. unfold ABDATA_SIZE. destruct (Z.ltb_spec 1342 (zlen r)); [lia|]. assert (Hown : u_own s = OWN_CCID) by (apply J9; rewrite <- Eh; exact TX).
           apply (Hsend (set_x x' (set_buf (splice (u_buf s) 0 r) (set_c (c_setlen (zlen r) (c_setstatus 0 (u_c s))) s))) _ [OExec Ccid d r]); auto.
           ++ repeat constructor.
           ++ cbn [set_x set_buf set_c u_buf]. rewrite zlen_splice by lia. exact I1.
           ++ rewrite Hown. discriminate.
           ++ unfold answers. cbn [m_slot m_seq m_type m_error m_data app set_x u_x c_setlen c_setstatus c_slot c_seq]. split; [congruence|]. split; [congruence|]. split; [|split; [contradiction|congruence]].
              intros _ _. split; [reflexivity|]. split; [reflexivity|]. left. exists r. auto.
    + change XFRBLOCK with 0x6F in TX. destruct (Z.eqb_spec (q_type h) 0x6C) as [T6|T6].
      { destruct (check true false true (u_c s)) eqn:Ec; [apply (Hother (c_setstatus (FAILED + card (u_c s)) (u_c s)) _ _ _ _ [] (u_x s)); auto|].
        apply (Hother (c_setstatus (card (u_c s)) (u_c s)) _ _ _ _ [] (u_x s)); auto. }
      assert (Hrest : forall type err spec, exists o0 s', Some ([] ++ [OMsg (short_msg type err spec [] (u_c s))], set_c (c_send true true (c_has (u_c s)) (u_c s)) s) = Some (o0, s') /\ Inv (learn k (CRun, o0)) s' /\
        ((o0 = [] /\ s' = s /\ (Some (h, d) = None \/ k_end k = true)) \/ (k_end k = false /\ exists h0 d0 m0, Some (h, d) = Some (h0, d0) /\ In (OMsg m0) o0 /\ answers proc poff k (u_x s) (u_x s') h0 d0 o0 m0 /\ (forall d r, In (OExec Ccid d r) o0 -> u_own s = OWN_CCID)))).
      { intros type err spec. pose proof (Hother (u_c s) type err spec [] [] (u_x s)) as Ho. rewrite (Esame s) in Ho. apply Ho; auto. }
      destruct ((q_type h =? 0x6D) || (q_type h =? 0x61)); [apply Hrest|]. destruct (q_type h =? 0x6B); [apply Hrest|]. destruct (q_type h =? 0x69); apply Hrest.
Qed.

Lemma setup_good k (s : usb (X := X)) r : Inv k s -> polite k (Setup r) -> Inv (learn k (Setup r, fst (setup r s))) (snd (setup r s)).
Proof.
  intros HI Hp. pose proof HI as (I1 & I2 & I3 & I4 & I5 & I6 & I7 & I8). pose proof I8 as (W1 & W2 & W3 & W4 & W5 & W6).
  assert (Hmk : forall k' (s' : usb (X := X)), u_c s' = u_c s -> u_buf s' = u_buf s -> k_pend k' = k_pend k -> k_tx k' = k_tx k -> k_end k' = k_end k -> (k_web k = true -> k_web k' = true) -> (u_own s = OWN_CCID -> u_own s' = OWN_CCID) -> web_ok k' s' -> Inv k' s').
  { intros k' s' A1 A2 A3 A4 A5 A6 A7 A8. unfold Inv. rewrite A1, A2, A3, A4, A5. do 6 (split; [assumption|]). split; [|exact A8]. intros Ek. eapply rx_keep; [apply I7; exact Ek|exact A1|exact A3|exact A6|]. intros Ho. auto. }
  unfold learn. cbn [fst snd].
  assert (Hsame : forall o, fold_left on_out o (on_ev k (Setup r) o) = mkK (k_pend k) (k_tx k) (k_end k) None (k_wdata k) (k_wresp k) (k_wopen k) true ->
    Inv (fold_left on_out o (on_ev k (Setup r) o)) (set_w (mkW (w_state (u_w s)) (w_size (u_w s)) (u_now s) None) s)).
  { intros o ->. apply Hmk; try reflexivity; auto. unfold web_ok. cbn [set_w u_w w_rx w_state w_size u_own u_buf k_wrx k_web k_wopen k_wdata k_wresp]. split; [reflexivity|]. split; [discriminate|]. split; [exact W3|]. split; [auto|]. split; [exact W5|exact W6]. }
  unfold setup. cbv zeta. destruct r as [n|n| |].
  - assert (Hst : fst ([OStall], set_w (mkW (w_state (u_w s)) (w_size (u_w s)) (u_now s) None) s) = [OStall]) by reflexivity.
    assert (Hmain : (w_state (u_w s) = WIdle \/ w_state (u_w s) = WHold) -> let z := (let '(ok, s0) := acquire OWN_WEBUSB (set_w (mkW (w_state (u_w s)) (w_size (u_w s)) (u_now s) None) s) in
        if negb ok then ([OStall], s0) else if APDU_BUFFER <? n then ([OStall], set_w (mkW WHold (w_size (u_w s)) (u_now s0) None) s0) else ([OAck], set_w (mkW WRecving n (u_now s0) (Some n)) s0)) in
        Inv (fold_left on_out (fst z) (on_ev k (Setup (RCmd n)) (fst z))) (snd z)).
    { intros Hw. unfold acquire. cbn [set_w u_own]. assert (Hop : k_wopen k = false) by (destruct Hw as [Hw|Hw]; rewrite Hw in W6; exact W6).
      assert (Hgo : forall s0 : usb (X := X), u_c s0 = u_c s -> u_buf s0 = u_buf s -> u_own s0 = OWN_WEBUSB -> u_own s <> OWN_CCID -> let z := (if APDU_BUFFER <? n then ([OStall], set_w (mkW WHold (w_size (u_w s)) (u_now s0) None) s0) else ([OAck], set_w (mkW WRecving n (u_now s0) (Some n)) s0)) in
        Inv (fold_left on_out (fst z) (on_ev k (Setup (RCmd n)) (fst z))) (snd z)).
      { intros s0 B1 B2 B3 B4. unfold APDU_BUFFER. destruct (Z.ltb_spec 1340 n); cbv zeta; cbn [fst snd on_ev fold_left on_out]; apply Hmk; try assumption; try reflexivity; auto; try contradiction;
          unfold web_ok; cbn [set_w u_w w_rx w_state w_size u_own u_buf k_wrx k_web k_wopen k_wdata k_wresp]; (split; [reflexivity|]).
        - split; [discriminate|]. split; [auto|]. split; [auto|]. split; [auto|exact Hop].
        - split; [intros n0 En0; injection En0 as <-; cbn [polite] in Hp; split; [reflexivity|]; split; [reflexivity|lia]|]. split; [auto|]. split; [auto|]. split; [auto|reflexivity]. }
      destruct (Z.eqb_spec (u_own s) OWN_NONE) as [En|En].
      - cbn [set_own u_own]. change (OWN_WEBUSB =? OWN_WEBUSB) with true. cbn [negb]. apply Hgo; try reflexivity. rewrite En. discriminate.
      - cbn [set_w u_own]. destruct (Z.eqb_spec (u_own s) OWN_WEBUSB) as [Ew|Ew]; cbn [negb].
        + apply Hgo; try reflexivity; [exact Ew|]. rewrite Ew. discriminate.
        + cbn [fst snd]. apply Hsame. reflexivity. }
    destruct (w_state (u_w s)) eqn:Ew; try (apply Hmain; auto); cbn [fst snd]; apply (Hsame [OStall]); reflexivity.
  - destruct (w_state (u_w s)) eqn:Ew; try (cbn [fst snd]; apply (Hsame [OStall]); reflexivity).
    cbn [fst snd on_ev fold_left on_out]. apply Hmk; try reflexivity; auto. unfold web_ok. cbn [set_w u_w w_rx w_state w_size u_own u_buf k_wrx k_web k_wopen k_wdata k_wresp]. split; [reflexivity|]. split; [discriminate|]. split; [intros _; apply W3; discriminate|]. split; [auto|]. split; [exact W5|reflexivity].
  - cbn [fst snd]. apply (Hsame [OStat _]). reflexivity.
  - cbn [fst snd]. apply (Hsame [OStall]). reflexivity.
Qed.
Lemma step_good k s e : proc_ok proc -> Inv k s -> polite k e -> exists o s', step proc poff s e = Some (o, s') /\ Inv (learn k (e, o)) s'.
Proof.
  intros Hproc HI Hp. pose proof HI as (I1 & I2 & I3 & I4 & I5 & I6 & I7 & I8). pose proof I8 as (W1 & W2 & W3 & W4 & W5 & W6). destruct e as [p| | | |r|d| | |ms| |d pad n]; cbn [step].
  - destruct (out_good k s p HI Hp) as (s' & -> & Hs'). exists [], s'. auto.
  - destruct (run_good k s Hproc HI) as (o & s' & E & Hs' & _). eauto.
  - destruct (c_sent (u_c s)) eqn:Es; eexists _, _; (split; [reflexivity|]); unfold learn; cbn [fst snd on_ev fold_left].
    + symmetry in I3. destruct (I5 I3) as [Hpd Hst]. unfold Inv. cbn [set_c u_buf u_c c_send c_short c_sent c_tx c_state k_end k_tx k_pend]. do 4 (split; [assumption||reflexivity|]). split; [discriminate|]. split; [assumption|]. split.
      * intros _. unfold rx_ok. cbn [k_pend]. rewrite Hpd. cbn [set_c u_c c_send c_state c_has]. auto.
      * eapply web_keep; [exact I8|reflexivity|repeat split|auto|auto|exact W5].
    + unfold Inv. cbn [k_end k_tx k_pend]. do 4 (split; [assumption|]). split; [discriminate|]. split; [assumption|]. split; [|exact I8]. intros _. eapply rx_keep; [apply I7; congruence|reflexivity|reflexivity|auto|auto].
  - destruct (c_tx (u_c s)) eqn:Et; eexists _, _; (split; [reflexivity|]); unfold learn; cbn [fst snd on_ev fold_left].
    + symmetry in I4. pose proof (I6 I4) as Hpd. unfold release. cbn [set_c u_own]. 
      assert (Hgo : forall s' : usb (X := X), u_c s' = c_send (c_sent (u_c s)) false (c_has (u_c s)) (u_c s) -> u_buf s' = u_buf s -> web_ok (mkK (k_pend k) false (k_end k) (k_wrx k) (k_wdata k) (k_wresp k) (k_wopen k) (k_web k)) s' ->
        Inv (mkK (k_pend k) false (k_end k) (k_wrx k) (k_wdata k) (k_wresp k) (k_wopen k) (k_web k)) s').
      { intros s' A1 A2 A3. unfold Inv. rewrite A1, A2. cbn [c_send c_short c_sent c_tx c_state k_end k_tx k_pend]. do 5 (split; [assumption||reflexivity|]). split; [discriminate|]. split; [|exact A3].
        intros Ek. specialize (I7 Ek). unfold rx_ok in *. cbn [k_pend]. rewrite Hpd in *. rewrite A1. exact I7. }
      destruct (Z.eqb_spec (u_own s) OWN_CCID) as [Ec|Ec]; apply Hgo; try reflexivity.
      * eapply web_keep; [exact I8|reflexivity|repeat split| | |]; cbn [set_own u_own]; [rewrite Ec; discriminate|discriminate|auto].
      * eapply web_keep; [exact I8|reflexivity|repeat split|auto|auto|exact W5].
    + unfold Inv. cbn [k_end k_tx k_pend]. do 5 (split; [assumption|]). split; [discriminate|]. split; [|exact I8]. intros Ek. eapply rx_keep; [apply I7; exact Ek|reflexivity|reflexivity|auto|auto].
  - pose proof (setup_good k s r HI Hp) as Hs. destruct (setup r s) as [o s']. exists o, s'. auto.
  - destruct (w_rx (u_w s)) as [n|] eqn:Er.
    + destruct (W2 n eq_refl) as (V1 & V2 & V3). unfold learn. cbn [fst snd on_ev]. rewrite <- W1. destruct (Z.eqb_spec (zlen d) n) as [El|El]; eexists _, _; (split; [reflexivity|]); cbn [fst snd fold_left].
      * destruct (Z.eqb_spec (zlen d) n); [|contradiction]. assert (Hown : u_own s = OWN_WEBUSB) by (apply W3; rewrite V1; discriminate). rewrite V1 in W6.
        unfold Inv. cbn [set_w set_buf u_c u_buf k_end k_tx k_pend]. split; [rewrite zlen_splice by lia; exact I1|]. do 5 (split; [assumption|]). split.
        -- intros Ek. eapply rx_keep; [apply I7; exact Ek|reflexivity|reflexivity|auto|rewrite Hown; discriminate].
        -- unfold web_ok. cbn [set_w set_buf u_w w_rx w_state w_size u_own u_buf k_wrx k_web k_wopen k_wdata k_wresp]. split; [reflexivity|]. split; [discriminate|]. split; [auto|]. split; [auto|]. split; [auto|]. split; [exact W6|]. exists d. split; [reflexivity|]. split; [lia|]. split; [lia|].
           pose proof (slice_splice 0 (u_buf s) d ltac:(lia) ltac:(lia)) as Hs. rewrite Z.add_0_l in Hs. rewrite Hs. reflexivity.
      * destruct (Z.eqb_spec (zlen d) n); [contradiction|]. exact HI.
    + eexists _, _. split; [reflexivity|]. unfold learn. cbn [fst snd on_ev]. rewrite <- W1. cbn [fold_left]. exact HI.
  - unfold learn. destruct (w_state (u_w s)) eqn:Ew; eexists _, _; (split; [reflexivity|]); cbn [fst snd on_ev fold_left]; try exact HI.
    unfold Inv. cbn [set_w u_c u_buf]. do 6 (split; [assumption|]). split; [intros Ek; eapply rx_keep; [apply I7; exact Ek|reflexivity|reflexivity|auto|auto]|].
    unfold web_ok. cbn [set_w u_w w_rx w_state w_size u_own u_buf]. split; [exact W1|]. split; [intros n Hn; destruct (W2 n Hn); discriminate|]. split; [intros _; apply W3; discriminate|]. auto.
  - unfold web_run, learn. destruct (w_state (u_w s)) eqn:Ew; try (eexists _, _; split; [reflexivity|]; exact HI).
    + cbv zeta. destruct (2000 <? _); eexists _, _; (split; [reflexivity|]); cbn [fst snd on_ev fold_left]; [|exact HI].
      assert (Hown : u_own s = OWN_WEBUSB) by (apply W3; discriminate). unfold release. rewrite Hown. change (OWN_WEBUSB =? OWN_WEBUSB) with true. cbv iota.
      unfold Inv. cbn [set_w set_own u_c u_buf]. do 6 (split; [assumption|]). split; [intros Ek; eapply rx_keep; [apply I7; exact Ek|reflexivity|reflexivity|auto|rewrite Hown; discriminate]|].
      unfold web_ok. cbn [set_w set_own u_w w_rx w_state w_size u_own u_buf]. split; [exact W1|]. split; [intros n Hn; destruct (W2 n Hn); discriminate|]. split; [contradiction|]. split; [discriminate|]. auto.
    + cbv zeta. destruct W6 as (V1 & d & V2 & V3 & V4 & V5). rewrite V3, V5. destruct (proc (u_x s) d) as [x r] eqn:Ep. specialize (Hproc (u_x s) d). rewrite Ep in Hproc. cbn [snd] in Hproc. unfold ABDATA_SIZE. destruct (Z.ltb_spec 1342 (zlen r)); [lia|].
      assert (Hown : u_own s = OWN_WEBUSB) by (apply W3; discriminate).
      eexists _, _; (split; [reflexivity|]); cbn [fst snd on_ev fold_left on_out]. unfold Inv. cbn [set_w set_x set_buf u_c u_buf k_end k_tx k_pend]. split; [rewrite zlen_splice by lia; exact I1|]. do 5 (split; [assumption|]). split; [intros Ek; eapply rx_keep; [apply I7; exact Ek|reflexivity|reflexivity|auto|rewrite Hown; discriminate]|].
      unfold web_ok. cbn [set_w set_x set_buf u_w w_rx w_state w_size u_own u_buf k_wrx k_web k_wopen k_wdata k_wresp]. split; [exact W1|]. split; [intros n Hn; destruct (W2 n Hn); discriminate|]. split; [auto|]. split; [auto|]. split; [auto|]. split; [exact V1|]. exists d, r. split; [reflexivity|]. split; [exact V2|]. split; [reflexivity|].
      pose proof (slice_splice 0 (u_buf s) r ltac:(lia) ltac:(lia)) as Hs. rewrite Z.add_0_l in Hs. rewrite Hs. reflexivity.
  - eexists _, _. split; [reflexivity|]. unfold learn. cbn [fst snd on_ev fold_left]. unfold Inv. cbn [u_c u_buf]. do 6 (split; [assumption|]). split; [intros Ek; eapply rx_keep; [apply I7; exact Ek|reflexivity|reflexivity|auto|auto]|].
    eapply web_keep; [exact I8|reflexivity|repeat split|auto|auto|exact W5].
  - eexists _, _. split; [reflexivity|]. unfold learn. cbn [fst snd on_ev fold_left]. unfold Inv. cbn [set_w set_c u_c u_buf c_short c_sent c_tx c_state k_end k_tx k_pend]. do 4 (split; [assumption||reflexivity|]). split; [auto|]. split; [discriminate|]. split; [intros Ek; unfold rx_ok; cbn [k_pend set_w set_c u_c c_state c_has]; auto|].
    unfold web_ok. cbn [set_w set_c u_w w_rx w_state w_size u_own u_buf k_wrx k_web k_wopen k_wdata k_wresp]. split; [reflexivity|]. split; [discriminate|]. split; [contradiction|]. auto.
  - destruct Hp as (Hp1 & Hp2 & Hp3). unfold ABDATA_SIZE. destruct (Z.ltb_spec 1342 (zlen d)); [lia|]. eexists _, _. split; [reflexivity|]. unfold learn. cbn [fst snd on_ev fold_left on_out]. pose proof (zlen_nonneg d).
    unfold Inv. cbn [set_w set_buf u_c u_buf k_end k_tx k_pend]. split; [rewrite zlen_splice by lia; exact I1|]. do 5 (split; [assumption|]). split; [intros Ek; specialize (I7 Ek); unfold rx_ok in *; cbn [k_pend set_w set_buf u_c]; rewrite Hp1 in *; exact I7|].
    unfold web_ok. cbn [set_w set_buf u_w w_rx w_state w_size u_own u_buf k_wrx k_web k_wopen k_wdata k_wresp]. split; [reflexivity|]. split; [discriminate|]. split; [exact W3|]. split; [exact W4|]. split; [exact W5|].
    destruct (w_state (u_w s)); try exact Hp2; [congruence|destruct W6; congruence|destruct W6; congruence].
Qed.
Lemma hist_inv t s : proc_ok proc -> hist proc poff x0 t s -> Inv (knows t) s.
Proof.
  intros Hproc Hh. induction Hh as [|t s e o s' Hh IH Hp Hs].
  - unfold Inv, rx_ok, web_ok, knows. cbn. repeat split; auto; try discriminate; try contradiction.
  - destruct (step_good (knows t) s e Hproc IH Hp) as (o1 & s1 & E & HI). assert (o1 = o /\ s1 = s') as [-> ->] by (split; congruence). unfold knows. rewrite fold_left_app. exact HI.
Qed.

(** ** C45 *)
(** No packet, of any kind at any time, makes the reader write outside its buffers (the model gives [None] for such a write), for
    drivers that send one request at a time and none longer than 1342 bytes.  Partial: both restrictions on the driver. *)
Theorem C45_no_overflow_partial t s e : proc_ok proc -> hist proc poff x0 t s -> polite (knows t) e -> step proc poff s e <> None.
Proof. intros Hproc Hh Hp. destruct (step_good (knows t) s e Hproc (hist_inv t s Hproc Hh) Hp) as (o & s' & -> & _). discriminate. Qed.
Lemma pend_end t s : proc_ok proc -> hist proc poff x0 t s -> request (k_pend (knows t)) <> None -> k_end (knows t) = false.
Proof. intros Hproc Hh Hr. destruct (hist_inv t s Hproc Hh) as (_ & _ & _ & _ & I5 & _). destruct (k_end (knows t)); [|reflexivity]. destruct (I5 eq_refl) as [E _]. rewrite E in Hr. contradiction Hr. reflexivity. Qed.
(** What is executed for the reader is exactly the data of the request made of the packets sent since the last answer. *)
Theorem C45_delivered_partial t s o s' d r : proc_ok proc -> hist proc poff x0 t s -> step proc poff s CRun = Some (o, s') -> In (OExec Ccid d r) o ->
  exists h, request (k_pend (knows t)) = Some (h, d) /\ q_type h = 0x6F /\ q_slot h = 0 /\ proc (u_x s) d = (u_x s', r).
Proof.
  intros Hproc Hh Hs Hin. cbn [step] in Hs. destruct (run_good (knows t) s Hproc (hist_inv t s Hproc Hh)) as (o1 & s1 & E & _ & H). assert (o1 = o /\ s1 = s') as [-> ->] by (split; congruence).
  destruct H as [(-> & _)|(Ek & h & d1 & m & Hr & Hm & (A1 & A2 & A3 & A4 & A5) & _)]; [destruct Hin|]. exists h.
  destruct (Z.eq_dec (q_type h) 0x6F) as [Et|Et].
  - destruct (Z.eq_dec (q_slot h) 0) as [E0|E0].
    + destruct (A3 Et E0) as (_ & _ & [(r1 & B1 & -> & _)|(_ & -> & _)]); destruct Hin as [Hin|[Hin|[]]] || destruct Hin as [Hin|[]]; try discriminate. assert (d1 = d /\ r1 = r) as [-> ->] by (split; congruence). auto.
    + destruct (A4 Et E0) as [-> _]. destruct Hin as [Hin|[]]. discriminate.
  - destruct (A5 Et) as [_ [[-> _]|(_ & _ & -> & _)]]; [destruct Hin as [Hin|[]]|destruct Hin as [Hin|[Hin|[]]]]; discriminate.
Qed.

(** ** C46 *)
(** Every complete request is answered the next time the loop runs, with its slot and sequence number, with what [answers] says:
    the response of the applets to its data, or 6400 if the WebUSB interface was ever used. *)
Theorem C46_answer_partial t s h d : proc_ok proc -> hist proc poff x0 t s -> request (k_pend (knows t)) = Some (h, d) ->
  exists o s' m, step proc poff s CRun = Some (o, s') /\ In (OMsg m) o /\ answers proc poff (knows t) (u_x s) (u_x s') h d o m.
Proof.
  intros Hproc Hh Hr. pose proof (pend_end t s Hproc Hh ltac:(congruence)) as Ek. cbn [step]. destruct (run_good (knows t) s Hproc (hist_inv t s Hproc Hh)) as (o & s' & E & _ & [(_ & _ & [B|B])|(_ & h1 & d1 & m & B1 & B2 & B3 & _)]); [congruence|congruence|].
  exists o, s', m. assert (h1 = h /\ d1 = d) as [-> ->] by (split; congruence). auto.
Qed.
(** And nothing else makes the reader send a message. *)
Theorem C46_only_answers_partial t s e o s' m : proc_ok proc -> hist proc poff x0 t s -> polite (knows t) e -> step proc poff s e = Some (o, s') -> In (OMsg m) o ->
  exists h d, request (k_pend (knows t)) = Some (h, d) /\ m_slot m = q_slot h /\ m_seq m = q_seq h.
Proof.
  intros Hproc Hh Hp Hs Hin. destruct e as [p| | | |r|d| | |ms| |d pad n]; cbn [step] in Hs.
  - destruct (out_event p s); [|discriminate]. assert (o = []) as -> by congruence. destruct Hin.
  - destruct (run_good (knows t) s Hproc (hist_inv t s Hproc Hh)) as (o1 & s1 & E & _ & H). assert (o1 = o) as -> by congruence.
    destruct H as [(-> & _)|(Ek & h & d1 & m1 & Hr & Hm & (A1 & A2 & A3 & A4 & A5) & _)]; [destruct Hin|]. exists h, d1. split; [exact Hr|].
    assert (m = m1) as ->; [|auto]. destruct (Z.eq_dec (q_type h) 0x6F) as [Et|Et]; [destruct (Z.eq_dec (q_slot h) 0) as [E0|E0]|].
    + destruct (A3 Et E0) as (_ & _ & [(r1 & B1 & -> & _)|(_ & -> & _)]); [destruct Hin as [Hin|[Hin|[]]]|destruct Hin as [Hin|[]]]; congruence.
    + destruct (A4 Et E0) as [-> _]. destruct Hin as [Hin|[]]. congruence.
    + destruct (A5 Et) as [_ [[-> _]|(_ & _ & -> & _)]]; [destruct Hin as [Hin|[]]|destruct Hin as [Hin|[Hin|[]]]]; congruence.
  - destruct (c_sent (u_c s)); assert (o = []) as -> by congruence; destruct Hin.
  - destruct (c_tx (u_c s)); assert (o = []) as -> by congruence; destruct Hin.
  - exfalso. assert (o = fst (setup r s)) as -> by (destruct (setup r s); cbn [fst]; congruence). revert Hin. unfold setup, acquire. cbv zeta. destruct r; try destruct (w_state (u_w s)); repeat (match goal with |- context [if ?b then _ else _] => destruct b end); cbn [fst]; intros [Hin|[]]; discriminate.
  - destruct (w_rx (u_w s)); [destruct (_ =? _)|]; assert (o = []) as -> by congruence; destruct Hin.
  - destruct (w_state (u_w s)); assert (o = []) as -> by congruence; destruct Hin.
  - exfalso. unfold web_run in Hs. cbv zeta in Hs. destruct (w_state (u_w s)); try (assert (o = []) as -> by congruence; destruct Hin; fail).
    + destruct (2000 <? _); assert (o = []) as -> by congruence; destruct Hin.
    + destruct (proc _ _) as [x r]. destruct (_ <? _); [discriminate|]. injection Hs as <- _. destruct Hin as [Hin|[]]. discriminate.
  - assert (o = []) as -> by congruence; destruct Hin.
  - assert (o = []) as -> by congruence; destruct Hin.
  - exfalso. destruct (_ <? _); [discriminate|]. injection Hs as <- _. destruct Hin as [Hin|[]]. discriminate.
Qed.

(** ** C48 *)
(** What is executed for WebUSB is exactly the data of its last accepted command; *)
Theorem C48_delivered_partial t s o s' d r : proc_ok proc -> hist proc poff x0 t s -> step proc poff s WRun = Some (o, s') -> In (OExec Web d r) o ->
  k_wdata (knows t) = Some d /\ proc (u_x s) d = (u_x s', r).
Proof.
  intros Hproc Hh Hs Hin. destruct (hist_inv t s Hproc Hh) as (_ & _ & _ & _ & _ & _ & _ & (_ & _ & _ & _ & _ & W)). cbn [step] in Hs. unfold web_run in Hs. cbv zeta in Hs.
  destruct (w_state (u_w s)); try (assert (o = []) as -> by congruence; destruct Hin; fail).
  - destruct (2000 <? _); assert (o = []) as -> by congruence; destruct Hin.
  - destruct W as (_ & d1 & W1 & W2 & W3 & W4). rewrite W2, W4 in Hs. destruct (proc (u_x s) d1) as [x r1] eqn:Ep. destruct (ABDATA_SIZE <? _); [discriminate|]. assert (o = [OExec Web d1 r1]) as -> by (apply (f_equal (fun z => match z with Some (a, _) => a | None => [] end)) in Hs; symmetry; exact Hs). assert (u_x s' = x) as -> by (apply (f_equal (fun z => match z with Some (_, a) => u_x a | None => x end)) in Hs; symmetry; exact Hs).
    destruct Hin as [Hin|[]]. assert (d1 = d /\ r1 = r) as [-> ->] by (split; congruence). auto.
Qed.
(** what it receives is the response of that execution; *)
Theorem C48_response_partial t s n o s' b : proc_ok proc -> hist proc poff x0 t s -> 0 <= n -> step proc poff s (Setup (RResp n)) = Some (o, s') -> In (OData b) o ->
  exists d r, k_wdata (knows t) = Some d /\ k_wresp (knows t) = Some (d, r) /\ b = firstn (Z.to_nat n) r.
Proof.
  intros Hproc Hh Hn Hs Hin. destruct (hist_inv t s Hproc Hh) as (_ & _ & _ & _ & _ & _ & _ & (_ & _ & _ & _ & _ & W)). cbn [step] in Hs. unfold setup in Hs. cbv zeta in Hs.
  destruct (w_state (u_w s)); try (assert (o = [OStall]) as -> by congruence; destruct Hin as [Hin|[]]; discriminate).
  destruct W as (_ & d & r & W1 & W2 & W3 & W4). exists d, r. split; [exact W2|]. split; [exact W1|]. assert (o = [OData (slice 0 (Z.min (w_size (u_w s)) n) (u_buf s))]) as -> by (apply (f_equal (fun z => match z with Some (a, _) => a | None => [] end)) in Hs; symmetry; exact Hs). destruct Hin as [Hin|[]]. assert (b = slice 0 (Z.min (w_size (u_w s)) n) (u_buf s)) as -> by congruence.
  rewrite <- W4 at 1. rewrite W3. unfold slice. change (skipn (Z.to_nat 0) ?l) with l. rewrite firstn_firstn. f_equal. lia.
Qed.
(** from the acceptance of a command until its response is fetched, nothing is executed for the reader, and every card command
    sent to it is answered with 6400. *)
Theorem C48_exclusive_partial t s o s' : proc_ok proc -> hist proc poff x0 t s -> k_wopen (knows t) = true -> step proc poff s CRun = Some (o, s') ->
  (forall d r, ~ In (OExec Ccid d r) o) /\
  (forall h d, request (k_pend (knows t)) = Some (h, d) -> q_type h = 0x6F -> q_slot h = 0 -> exists m, o = [OMsg m] /\ m_data m = [0x64; 0x00]).
Proof.
  intros Hproc Hh Ho Hs. cbn [step] in Hs. pose proof (hist_inv t s Hproc Hh) as HI. destruct (run_good (knows t) s Hproc HI) as (o1 & s1 & E & _ & H). assert (o1 = o /\ s1 = s') as [-> ->] by (split; congruence).
  assert (Hown : u_own s = OWN_WEBUSB). { destruct HI as (_ & _ & _ & _ & _ & _ & _ & (_ & _ & W3 & _ & _ & W)). apply W3. intros Ew. rewrite Ew in W. congruence. }
  destruct H as [(-> & _ & [B|B])|(Ek & h & d1 & m & Hr & Hm & (A1 & A2 & A3 & A4 & A5) & Hx)].
  - split; [intros d r []|]. congruence.
  - split; [intros d r []|]. intros h d Hr. pose proof (pend_end t s Hproc Hh ltac:(congruence)). congruence.
  - assert (Hno : forall d r, ~ In (OExec Ccid d r) o) by (intros d r Hin; specialize (Hx d r Hin); rewrite Hown in Hx; discriminate).
    split; [exact Hno|]. intros h2 d2 Hr2 Et E0. assert (h2 = h) as -> by congruence. destruct (A3 Et E0) as (_ & _ & [(r & _ & -> & _)|(_ & -> & _ & B)]); [|exists m; auto]. exfalso. eapply Hno. left. reflexivity.
Qed.

(** ** C77 *)
(** A descriptor read between transactions is returned as it is (if its length is given correctly), and by C45 and C48 the commands
    that follow are executed exactly. *)
Theorem C77_descriptor_partial t s d n : proc_ok proc -> hist proc poff x0 t s -> polite (knows t) (Desc d 0 n) -> 0 <= n ->
  exists s', step proc poff s (Desc d 0 n) = Some ([ODesc (firstn (Z.to_nat n) d)], s').
Proof.
  intros Hproc Hh (Hp1 & Hp2 & Hp3) Hn. destruct (hist_inv t s Hproc Hh) as (I1 & _). cbn [step]. unfold ABDATA_SIZE. destruct (Z.ltb_spec 1342 (zlen d)); [lia|]. eexists. f_equal. f_equal. f_equal. f_equal. cbn [set_w set_buf u_buf]. pose proof (zlen_nonneg d).
  pose proof (slice_splice 0 (u_buf s) d ltac:(lia) ltac:(lia)) as Hs. rewrite !Z.add_0_l in Hs. change (slice 0 0 (u_buf s)) with (@nil Z) in Hs. cbn [app] in Hs. rewrite Z.add_0_r.
  transitivity (firstn (Z.to_nat n) (slice 0 (zlen d) (splice (u_buf s) 0 d))); [|rewrite Hs; reflexivity]. unfold slice. change (skipn (Z.to_nat 0) ?l) with l. rewrite firstn_firstn. f_equal. lia.
Qed.

(** ** C76 *)
Lemma run_exec (s : usb (X := X)) o s' : c_has (u_c s) = 1 -> c_sent (u_c s) = false -> q_type (c_hdr (u_c s)) = 0x6F -> q_slot (c_hdr (u_c s)) = 0 -> ccid_run proc poff s = Some (o, s') -> exists d r m, o = [OExec Ccid d r; OMsg m].
Proof.
  unfold ccid_run, xfr_block, check. cbv zeta. intros -> -> -> ->. change (1 =? 0) with false. change (0x6F =? 0x62) with false. change (0x6F =? 0x63) with false. change (0x6F =? 0x65) with false. change (0x6F =? XFRBLOCK) with true. change (1 =? 2) with false. change (1 <=? 0) with false. cbn [andb orb].
  destruct (proc _ _) as [x r]. destruct (_ <? _); [discriminate|]. intros H. eexists _, _, _. assert (Ho := f_equal (fun z => match z with Some (a, _) => a | None => [] end) H). cbv beta iota in Ho. symmetry. exact Ho.
Qed.
Lemma out_has (s : usb (X := X)) p s' : c_state (u_c s) = RxIdle -> u_own s <> OWN_WEBUSB -> (u_own s = OWN_NONE \/ u_own s = OWN_CCID \/ u_own s = OWN_WEBUSB) -> 10 <= zlen p -> q_len (parse_hdr p) = zlen p - 10 -> q_type (parse_hdr p) = 0x6F ->
  out_event p s = Some s' -> c_has (u_c s') = 1 /\ c_hdr (u_c s') = parse_hdr p /\ u_x s' = u_x s /\ c_sent (u_c s') = c_sent (u_c s).
Proof.
  unfold out_event. cbv zeta. intros -> Ho Ho' Hl Hq Ht. destruct (Z.ltb_spec (zlen p) 10); [lia|]. rewrite Ht. change (0x6F =? XFRBLOCK) with true. cbv iota.
  set (s1 := set_c _ s). assert (Hac : exists s2, acquire OWN_CCID s1 = (true, s2) /\ u_c s2 = u_c s1 /\ u_x s2 = u_x s).
  { unfold acquire. cbn [s1 set_c u_own]. destruct (Z.eqb_spec (u_own s) OWN_NONE) as [E|E]; [exists (set_own OWN_CCID s1); auto|]. exists s1. destruct Ho' as [Ho'|[Ho'|Ho']]; try contradiction. change (u_own s1) with (u_own s). rewrite Ho'. auto. }
  destruct Hac as (s2 & -> & E2 & E3). destruct (Z.leb_spec (q_len (parse_hdr p)) (Z.min (zlen p - 10) (q_len (parse_hdr p)))); [|lia].
  unfold put. rewrite E2. cbn [s1 set_c u_c c_hdr]. destruct (is_short _); (destruct (_ <? _); [discriminate|]); intros E; injection E as <-; cbn [set_c set_buf u_c c_rx c_setshort c_has c_hdr c_sent u_x]; rewrite ?E2; cbn [s1 set_c u_c c_hdr c_sent]; auto.
Qed.
(** While the WebUSB interface has fetched its response and only holds the buffer (it reports state 1), two seconds without a
    request give the buffer back: the next card command is executed for the reader.  (The clock wraps after 2^32 ms.) *)
Theorem C76_hold_released_partial t s s0 ms p : proc_ok proc -> hist proc poff x0 t s -> step proc poff s (Setup RStat) = Some ([OStat WHold], s0) -> 2000 < u32 (u_now s + ms - w_keep (u_w s)) ->
  polite (knows t) (Out p) -> k_pend (knows t) = [] -> 10 <= zlen p -> q_len (parse_hdr p) = zlen p - 10 -> q_type (parse_hdr p) = 0x6F -> q_slot (parse_hdr p) = 0 ->
  exists s1 s2 s3 s4 r m, step proc poff s (Tick ms) = Some ([], s1) /\ step proc poff s1 WRun = Some ([], s2) /\ step proc poff s2 (Out p) = Some ([], s3) /\
    step proc poff s3 CRun = Some ([OExec Ccid (skipn 10 p) r; OMsg m], s4) /\ proc (u_x s) (skipn 10 p) = (u_x s4, r) /\ m_data m = r.
Proof.
  intros Hproc Hh Hst Hms Hp Hpd Hl Hq Ht Hsl. assert (Hw : w_state (u_w s) = WHold) by (cbn [step setup] in Hst; congruence).
  pose proof (hist_inv t s Hproc Hh) as (I1 & I2 & I3 & I4 & I5 & I6 & I7 & (W1 & W2 & W3 & _)). assert (Hown : u_own s = OWN_WEBUSB) by (apply W3; rewrite Hw; discriminate).
  set (s1 := mkU (u_c s) (u_w s) (u_own s) (u_buf s) (u_x s) (u_now s + ms)). assert (E1 : step proc poff s (Tick ms) = Some ([], s1)) by reflexivity.
  assert (exists s2, step proc poff s1 WRun = Some ([], s2) /\ u_own s2 = OWN_NONE /\ u_c s2 = u_c s /\ u_x s2 = u_x s) as (s2 & E2 & F1 & F2 & F3).
  { cbn [step]. unfold web_run. cbn [s1 u_w u_now]. rewrite Hw. destruct (Z.ltb_spec 2000 (u32 (u_now s + ms - w_keep (u_w s)))); [|lia]. eexists. split; [reflexivity|]. unfold release. replace (u_own s1) with OWN_WEBUSB by (symmetry; exact Hown). auto. }
  assert (H2 : hist proc poff x0 ((t ++ [(Tick ms, [])]) ++ [(WRun, [])]) s2) by (eapply h_snoc; [eapply h_snoc; [exact Hh|exact I|exact E1]|exact I|exact E2]).
  assert (Hk2 : knows ((t ++ [(Tick ms, [])]) ++ [(WRun, [])]) = knows t) by (unfold knows; rewrite !fold_left_app; reflexivity).
  assert (Hp2 : polite (knows ((t ++ [(Tick ms, [])]) ++ [(WRun, [])])) (Out p)) by (rewrite Hk2; exact Hp).
  assert (Hend : k_end (knows t) = false) by apply Hp. specialize (I7 Hend). unfold rx_ok in I7. rewrite Hpd in I7. destruct I7 as [J1 J2].
  destruct (step proc poff s2 (Out p)) as [[o3 s3]|] eqn:E3; [|exfalso; exact (C45_no_overflow_partial _ _ _ Hproc H2 Hp2 E3)].
  assert (Eo : out_event p s2 = Some s3 /\ o3 = []) by (cbn [step] in E3; destruct (out_event p s2); [split; congruence|discriminate]). destruct Eo as [Eo ->].
  destruct (out_has s2 p s3) as (G1 & G2 & G3 & G4); [rewrite F2; exact J1|rewrite F1; discriminate|auto|exact Hl|exact Hq|exact Ht|exact Eo|].
  assert (H3 : hist proc poff x0 (((t ++ [(Tick ms, [])]) ++ [(WRun, [])]) ++ [(Out p, [])]) s3) by (eapply h_snoc; [exact H2|exact Hp2|exact E3]).
  assert (Hr : request (k_pend (knows (((t ++ [(Tick ms, [])]) ++ [(WRun, [])]) ++ [(Out p, [])]))) = Some (parse_hdr p, skipn 10 p)).
  { unfold knows. rewrite fold_left_app. fold (knows ((t ++ [(Tick ms, [])]) ++ [(WRun, [])])). rewrite Hk2. cbn [fold_left learn fst snd on_ev k_pend]. rewrite Hpd. destruct (Z.ltb_spec (zlen p) 10); [lia|].
    unfold request. cbn [payload concat]. rewrite app_nil_r, zlen_skipn by lia. destruct (Z.leb_spec (q_len (parse_hdr p)) (Z.max 0 (zlen p - Z.of_nat 10))) as [El|El]; [|lia]. do 2 f_equal. apply firstn_all2. rewrite skipn_length. unfold zlen in *. lia. }
  destruct (C46_answer_partial _ _ _ _ Hproc H3 Hr) as (o4 & s4 & m & E4 & Hm & (A1 & A2 & A3 & _)).
  destruct (run_exec s3 o4 s4) as (d & r & m1 & ->); [exact G1|rewrite G4, F2; congruence|rewrite G2; exact Ht|rewrite G2; exact Hsl|exact E4|].
  destruct (A3 Ht Hsl) as (_ & _ & [(r1 & B1 & B2 & B3)|(_ & B & _)]); [|discriminate]. assert (d = skipn 10 p /\ r1 = r /\ m1 = m) as (-> & -> & ->) by (repeat split; congruence).
  exists s1, s2, s3, s4, r, m. rewrite G3, F3 in B1. repeat (split; [assumption|]). assumption.
Qed.
(** But between the acceptance of a command and the fetching of its response no time-out exists: if the WebUSB host goes away there,
    then whatever the reader's driver does, however long it waits and even after the device is configured anew, no card command is
    ever executed for the reader again.  (The history [t] exists: see [vanished_ex].) *)
Definition no_web (e : ev) : Prop := match e with Setup _ | Rx _ | Tx => False | _ => True end.
Lemma stuck t s t' s' : proc_ok proc -> hist proc poff x0 t s -> k_wopen (knows t) = true -> hist proc poff x0 (t ++ t') s' -> Forall (fun x => no_web (fst x)) t' ->
  (u_own s' = OWN_WEBUSB /\ w_state (u_w s') <> WHold) /\ Forall (fun x => forall d r, ~ In (OExec Ccid d r) (snd x)) t'.
Proof.
  intros Hproc Hh Ho. revert s'. induction t' as [|[e o] t' IH] using rev_ind; intros s' H' Hf.
  - rewrite app_nil_r in H'. assert (s' = s). { clear -Hh H'. revert s' H'. induction Hh as [|t s e o s1 Hh IH Hp Hs]; intros s' H'; inversion H' as [E|t1 s2 e1 o1 s3 Hh1 Hp1 Hs1 Et]; subst; try (destruct t; discriminate); try reflexivity. destruct t1; discriminate. apply app_inj_tail in Et. destruct Et as [-> Ee]. injection Ee as -> ->. rewrite (IH s2 Hh1) in Hs1. congruence. }
    subst s'. destruct (hist_inv t s Hproc Hh) as (_ & _ & _ & _ & _ & _ & _ & (_ & _ & W3 & _ & _ & W)). split; [|constructor]. split; [apply W3|]; intros Ew; rewrite Ew in W; congruence.
  - rewrite app_assoc in H'. inversion H' as [E|t1 s2 e1 o1 s3 Hh1 Hp1 Hs1 Et]; subst; [destruct ((t ++ t')); discriminate|]. apply app_inj_tail in Et. destruct Et as [-> Ee]. assert (e1 = e /\ o1 = o) as [-> ->] by (split; congruence).
    apply Forall_app in Hf. destruct Hf as [Hf1 Hf2]. inversion Hf2 as [|? ? Hf3 _]; subst. cbn [fst] in Hf3. destruct (IH s2 Hh1 Hf1) as [[J1 J2] J3].
    assert (Hgoal : (u_own s' = OWN_WEBUSB /\ w_state (u_w s') <> WHold) /\ (forall d r, ~ In (OExec Ccid d r) o)); [|destruct Hgoal as [G1 G2]; split; [exact G1|]; apply Forall_app; split; [exact J3|]; constructor; [exact G2|constructor]].
    destruct e as [p| | | |r|d| | |ms| |d pad n]; try contradiction; cbn [step] in Hs1.
    + destruct (out_event p s2) as [z|] eqn:Eo; [|discriminate]. assert (o = [] /\ z = s') as [-> ->] by (split; congruence). split; [|intros d r []].
      assert (u_own s' = u_own s2 /\ u_w s' = u_w s2) as [-> ->]; [|auto].
      revert Eo. unfold out_event, put, acquire. cbv zeta. destruct (c_state (u_c s2)).
      * destruct (_ <? _); [intros E; injection E as <-; auto|]. cbn [set_c u_own]. assert ((u_own s2 =? OWN_NONE) = false) as -> by (rewrite J1; reflexivity). cbn [set_c u_own]. 
        destruct (q_type _ =? XFRBLOCK); cbv iota; [destruct (u_own s2 =? OWN_CCID)|destruct (is_short (parse_hdr p))]; cbn [set_c u_c c_hdr];
          repeat match goal with |- context [if ?b then _ else _] => destruct b end; try discriminate; intros E; injection E as <-; auto.
      * destruct (is_short _); (destruct (_ <? _); try discriminate); destruct (_ <? _); try discriminate; intros E; injection E as <-; auto.
      * destruct (_ <? _); intros E; injection E as <-; auto.
    + destruct (run_good (knows (t ++ t')) s2 Hproc (hist_inv _ _ Hproc Hh1)) as (o1 & s1 & E & _ & H). assert (o1 = o /\ s1 = s') as [-> ->] by (split; congruence).
      assert (Hx : forall d r, ~ In (OExec Ccid d r) o). { intros d r Hin. destruct H as [(-> & _)|(_ & h & d1 & m & _ & _ & _ & Hx)]; [destruct Hin|]. specialize (Hx d r Hin). rewrite J1 in Hx. discriminate. }
      split; [|exact Hx]. assert (u_own s' = u_own s2 /\ u_w s' = u_w s2) as [-> ->]; [|auto]. revert E. unfold ccid_run, xfr_block. cbv zeta. destruct (proc _ _) as [x r].
      repeat match goal with |- context [if ?b then _ else _] => destruct b | |- context [match check ?a ?b ?c ?d with _ => _ end] => destruct (check a b c d) end; try discriminate; intros E; assert (Hs := f_equal (fun z => match z with Some (_, a) => a | None => s2 end) E); cbv beta iota in Hs; rewrite <- Hs; auto.
    + destruct (c_sent _); assert (Hs := f_equal (fun z => match z with Some (a, _) => a | None => [] end) Hs1); cbv beta iota in Hs; rewrite <- Hs; injection Hs1 as _ <-; (split; [auto|intros d r []]).
    + destruct (c_tx _); assert (Hs := f_equal (fun z => match z with Some (a, _) => a | None => [] end) Hs1); cbv beta iota in Hs; rewrite <- Hs; injection Hs1 as _ <-; (split; [|intros d r []]); auto.
      unfold release. cbn [set_c u_own]. rewrite J1. change (OWN_WEBUSB =? OWN_CCID) with false. auto.
    + unfold web_run in Hs1. cbv zeta in Hs1. destruct (w_state (u_w s2)) eqn:Ew; try contradiction; try (assert (o = [] /\ s' = s2) as [-> ->] by (split; congruence); split; [split; [exact J1|rewrite Ew; discriminate]|intros d r []]; fail).
      destruct (proc _ _) as [x r]. destruct (_ <? _); [discriminate|]. injection Hs1 as <- <-. split; [|intros d1 r1 [Hin|[]]; discriminate]. cbn [set_w set_x set_buf u_own u_w w_state]. split; [exact J1|discriminate].
    + injection Hs1 as <- <-. split; [auto|intros d r []].
    + injection Hs1 as <- <-. split; [|intros d r []]. cbn [set_w set_c u_own u_w w_state]. split; [exact J1|discriminate].
    + destruct (_ <? _); [discriminate|]. injection Hs1 as <- <-. split; [|intros d1 r1 [Hin|[]]; discriminate]. cbn [set_w set_buf u_own u_w w_state]. split; [exact J1|exact J2].
Qed.
End Hist.

(** ** Concrete runs *)
Definition echo (x : unit) (d : bytes) : unit * bytes := (tt, firstn 1340 d ++ [0x90; 0x00]).
Definition nop (x : unit) : unit := tt.
Lemma echo_ok : proc_ok echo.
Proof. intros x d. unfold echo. cbn [snd]. rewrite zlen_app. unfold zlen. rewrite firstn_length. change (length [0x90; 0x00]) with 2%nat. lia. Qed.
Fixpoint play (s : usb (X := unit)) (es : list ev) : option (list (ev * list outp) * usb (X := unit)) :=
  match es with
  | [] => Some ([], s)
  | e :: es => match step echo nop s e with Some (o, s) => match play s es with Some (t, s') => Some ((e, o) :: t, s') | None => None end | None => None end
  end.
Definition polite_b (k : know) (e : ev) : bool :=
  match e with
  | Out p => match request (k_pend k) with None => true | _ => false end && negb (k_tx k) && negb (k_end k) && forallb (fun b => (0 <=? b) && (b <? 256)) p && (match k_pend k with [] => q_len (parse_hdr p) <=? 1342 | _ => true end)
  | Setup (RCmd n) | Setup (RResp n) => 0 <=? n
  | Desc d _ _ => match k_pend k with [] => true | _ => false end && negb (k_wopen k) && (zlen d <=? 1342)
  | _ => true
  end.
Lemma polite_bb k e : polite_b k e = true -> polite k e.
Proof.
  destruct e as [p| | | |r| | | | | |d pad n]; try (intros _; exact I).
  - cbn [polite_b polite]. rewrite !andb_true_iff, !negb_true_iff. intros ((((H1 & H2) & H3) & H4) & H5). split; [destruct (request (k_pend k)); [discriminate|reflexivity]|]. split; [exact H2|]. split; [exact H3|]. split.
    + apply Forall_forall. intros b Hb. rewrite forallb_forall in H4. specialize (H4 b Hb). lia.
    + intros E. rewrite E in H5. lia.
  - destruct r; cbn [polite_b polite]; try (intros _; exact I); lia.
  - cbn [polite_b polite]. rewrite !andb_true_iff, negb_true_iff. intros ((H1 & H2) & H3). split; [destruct (k_pend k); [reflexivity|discriminate]|]. split; [exact H2|lia].
Qed.
Fixpoint all_polite (k : know) (t : list (ev * list outp)) : bool := match t with [] => true | x :: t => polite_b k (fst x) && all_polite (learn k x) t end.
Lemma play_hist t0 s es t s' : hist echo nop tt t0 s -> play s es = Some (t, s') -> all_polite (knows t0) t = true -> hist echo nop tt (t0 ++ t) s'.
Proof.
  revert t0 s t. induction es as [|e es IH]; intros t0 s t Hh Hp Hb; cbn [play] in Hp.
  - injection Hp as <- <-. rewrite app_nil_r. exact Hh.
  - destruct (step echo nop s e) as [[o s1]|] eqn:Es; [|discriminate]. destruct (play s1 es) as [[t1 s2]|] eqn:E1; [|discriminate]. injection Hp as <- <-. cbn [all_polite fst] in Hb. apply andb_true_iff in Hb. destruct Hb as [Hb1 Hb2].
    change ((e, o) :: t1) with ([(e, o)] ++ t1). rewrite app_assoc. eapply IH; [|exact E1|unfold knows; rewrite fold_left_app; exact Hb2]. eapply h_snoc; [exact Hh|apply polite_bb; exact Hb1|exact Es].
Qed.
Lemma play_exec t0 s es t s' : exec echo nop (usb_init tt) t0 s -> play s es = Some (t, s') -> exec echo nop (usb_init tt) (t0 ++ t) s'.
Proof.
  revert t0 s t. induction es as [|e es IH]; intros t0 s t Hh Hp; cbn [play] in Hp.
  - injection Hp as <- <-. rewrite app_nil_r. exact Hh.
  - destruct (step echo nop s e) as [[o s1]|] eqn:Es; [|discriminate]. destruct (play s1 es) as [[t1 s2]|] eqn:E1; [|discriminate]. injection Hp as <- <-.
    change ((e, o) :: t1) with ([(e, o)] ++ t1). rewrite app_assoc. eapply IH; [|exact E1]. eapply x_snoc; [exact Hh|exact Es].
Qed.
(** A message of type [t] with data length [n], slot and sequence number *)
Definition head (t n slot seq : Z) : bytes := [t; n mod 256; n / 256; 0; 0; slot; seq; 0; 0; 0].
Definition xfr (slot seq : Z) (d : bytes) : bytes := head 0x6F (zlen d) slot seq ++ d.
Definition apdu1 : bytes := [0x00; 0xA4; 0x04; 0x00; 0x05; 0xA0; 0x00; 0x00; 0x03; 0x08].
Definition run1 (seq : Z) (d : bytes) : list ev := [Out (xfr 0 seq d); CRun; InFin; CEnd].
Definition get (es : list ev) : list (ev * list outp) * usb (X := unit) := match play (usb_init tt) es with Some z => z | None => ([], usb_init tt) end.
Lemma get_hist es : (if play (usb_init tt) es then true else false) = true -> all_polite (knows []) (fst (get es)) = true -> hist echo nop tt (fst (get es)) (snd (get es)).
Proof. unfold get. destruct (play (usb_init tt) es) as [[t s]|] eqn:E; [|discriminate]. intros _ Hb. cbn [fst snd] in *. exact (play_hist [] _ es t s (h_nil _ _ _) E Hb). Qed.
Lemma get_exec es : (if play (usb_init tt) es then true else false) = true -> exec echo nop (usb_init tt) (fst (get es)) (snd (get es)).
Proof. unfold get. destruct (play (usb_init tt) es) as [[t s]|] eqn:E; [|discriminate]. intros _. cbn [fst snd] in *. exact (play_exec [] _ es t s (x_nil _ _ _) E). Qed.

(** A message of 200 bytes in four packets is executed exactly and answered. *)
Definition big : bytes := map (fun i => Z.of_nat i mod 256) (seq 1 200).
Definition four : list ev := [Out (firstn 64 (xfr 0 7 big)); Out (firstn 64 (skipn 64 (xfr 0 7 big))); Out (firstn 64 (skipn 128 (xfr 0 7 big))); Out (skipn 192 (xfr 0 7 big))].
Example four_ex : hist echo nop tt (fst (get four)) (snd (get four)) /\ request (k_pend (knows (fst (get four)))) = Some (parse_hdr (xfr 0 7 big), big) /\
  option_map fst (step echo nop (snd (get four)) CRun) = Some [OExec Ccid big (big ++ [0x90; 0x00]); OMsg (mkMsg 0x80 0 7 0 0x81 0 (big ++ [0x90; 0x00]))].
Proof. split; [apply get_hist; vm_compute; reflexivity|]. vm_compute. split; reflexivity. Qed.

(** A request that announces 2000 bytes makes the reader write past its buffer of 1342 bytes: only the length of the first packet
    is checked. *)
Theorem C45_overflow_refuted : exists ps p, Forall (fun q => zlen q <= 64) (ps ++ [p]) /\ exists t s, map fst t = map Out ps /\ exec echo nop (usb_init tt) t s /\ step echo nop s (Out p) = None.
Proof.
  set (p0 := head 0x6F 2000 0 1 ++ repeat 0xAA 54). set (ps := p0 :: repeat (repeat 0xAA 64) 20). exists ps, (repeat 0xAA 64). split; [repeat constructor; vm_compute; discriminate|].
  exists (fst (get (map Out ps))), (snd (get (map Out ps))). split; [vm_compute; reflexivity|]. split; [apply get_exec; vm_compute; reflexivity|vm_compute; reflexivity].
Qed.
(** A request to a slot that does not exist is answered with the previous response. *)
Theorem C46_stale_response_refuted : exists t s m d, hist echo nop tt t s /\ request (k_pend (knows t)) = Some (parse_hdr (xfr 1 2 [0; 0]), [0; 0]) /\
  option_map fst (step echo nop s CRun) = Some [OMsg m] /\ In (OExec Ccid d (m_data m)) (concat (map snd t)).
Proof.
  set (es := run1 1 apdu1 ++ [Out (xfr 1 2 [0; 0])]). exists (fst (get es)), (snd (get es)), (mkMsg 0x80 1 2 64 5 0 (apdu1 ++ [0x90; 0x00])), apdu1. split; [apply get_hist; vm_compute; reflexivity|]. vm_compute. auto.
Qed.
(** After the WebUSB interface gave the buffer back, such a request is answered with the response WebUSB received: the reader's
    host sees data of the other interface. *)
Theorem C46_reveals_webusb_refuted : exists t s m d r, hist echo nop tt t s /\ option_map fst (step echo nop s CRun) = Some [OMsg m] /\ In (OExec Web d r) (concat (map snd t)) /\ m_data m = firstn 12 r /\ d = big.
Proof.
  set (es := run1 1 apdu1 ++ [Setup (RCmd 200); Rx big; WRun; Setup (RResp 300); Tx; Tick 3000; WRun; Out (xfr 1 2 [0; 0])]).
  exists (fst (get es)), (snd (get es)), (mkMsg 0x80 1 2 64 5 0 (firstn 12 big)), big, (big ++ [0x90; 0x00]). split; [apply get_hist; vm_compute; reflexivity|]. vm_compute. do 3 (split; [auto 20|]). auto.
Qed.
(** A request that arrives when the previous answer has been transmitted, but before the loop has cleared its flag, is never
    answered. *)
Theorem C46_lost_refuted : exists t s, exec echo nop (usb_init tt) t s /\ map fst t = [Out (xfr 0 1 apdu1); CRun; InFin; Out (xfr 0 2 apdu1); CEnd] /\
  forall n, exists s', play s (repeat CRun n) = Some (repeat (CRun, []) n, s').
Proof.
  set (es := [Out (xfr 0 1 apdu1); CRun; InFin; Out (xfr 0 2 apdu1); CEnd]). exists (fst (get es)), (snd (get es)). split; [apply get_exec; vm_compute; reflexivity|]. split; [vm_compute; reflexivity|].
  set (s := snd (get es)). assert (Hs : step echo nop s CRun = Some ([], s)) by (vm_compute; reflexivity). clearbody s. intros n. exists s. induction n as [|n IH]; [reflexivity|]. cbn [repeat play]. rewrite Hs, IH. reflexivity.
Qed.
(** A driver that sends the first packet of a long request before the previous answer has been fetched lets the WebUSB interface
    take the buffer in the middle of the request; the next packet changes the command that is executed for WebUSB. *)
Theorem C48_corrupted_refuted : exists t s d d' r, exec echo nop (usb_init tt) t s /\ k_wdata (knows t) = Some d /\ option_map fst (step echo nop s WRun) = Some [OExec Web d' r] /\ d' <> d.
Proof.
  set (es := [Out (xfr 0 1 apdu1); CRun; CEnd; Out (firstn 64 (xfr 0 2 big)); InFin; Setup (RCmd 100); Rx (firstn 100 big); Out (repeat 0xEE 64)]).
  exists (fst (get es)), (snd (get es)), (firstn 100 big). eexists _, _. split; [apply get_exec; vm_compute; reflexivity|]. split; [vm_compute; reflexivity|]. split; [vm_compute; reflexivity|]. vm_compute. discriminate.
Qed.
Definition web_es : list ev := [Setup (RCmd 200); Rx big; WRun].
(** A WebUSB command is executed and answered exactly; meanwhile the reader answers 6400. *)
Example web_ex : hist echo nop tt (fst (get web_es)) (snd (get web_es)) /\ k_wopen (knows (fst (get web_es))) = true /\ k_wdata (knows (fst (get web_es))) = Some big /\ concat (map snd (fst (get web_es))) = [OAck; OExec Web big (big ++ [0x90; 0x00])] /\
  option_map fst (step echo nop (snd (get web_es)) (Setup (RResp 300))) = Some [OData (big ++ [0x90; 0x00])] /\
  (let z := get (web_es ++ [Out (xfr 0 3 apdu1)]) in hist echo nop tt (fst z) (snd z) /\ option_map fst (step echo nop (snd z) CRun) = Some [OMsg (mkMsg 0x80 0 3 1 0x81 0 [0x64; 0x00])]).
Proof. split; [apply get_hist; vm_compute; reflexivity|]. do 4 (split; [vm_compute; reflexivity|]). cbv zeta. split; [apply get_hist; vm_compute; reflexivity|vm_compute; reflexivity]. Qed.
Example hold_ex : let z := get (web_es ++ [Setup (RResp 300); Tx]) in hist echo nop tt (fst z) (snd z) /\ option_map fst (step echo nop (snd z) (Setup RStat)) = Some [OStat WHold] /\
  2000 < u32 (u_now (snd z) + 2500 - w_keep (u_w (snd z))) /\ polite_b (knows (fst z)) (Out (xfr 0 3 apdu1)) = true.
Proof. cbv zeta. split; [apply get_hist; vm_compute; reflexivity|]. vm_compute. auto. Qed.
(** C76 is violated: between the acceptance of a command and the fetching of its response no time-out exists.  If the WebUSB host
    goes away there, then whatever the reader's driver does, however long it waits and even after the device is configured anew,
    no card command is executed for the reader until a WebUSB host returns. *)
Theorem C76_vanished_host_refuted : exists t s, hist echo nop tt t s /\ map fst t = [Setup (RCmd 200)] /\
  forall t' s', hist echo nop tt (t ++ t') s' -> Forall (fun x => no_web (fst x)) t' -> Forall (fun x => forall d r, ~ In (OExec Ccid d r) (snd x)) t'.
Proof.
  set (es := [Setup (RCmd 200)]). exists (fst (get es)), (snd (get es)). assert (Hh : hist echo nop tt (fst (get es)) (snd (get es))) by (apply get_hist; vm_compute; reflexivity). split; [exact Hh|]. split; [vm_compute; reflexivity|].
  intros t' s' H' Hf. exact (proj2 (stuck echo nop tt _ _ t' s' echo_ok Hh ltac:(vm_compute; reflexivity) H' Hf)).
Qed.
(** The same for every device, applet and history with an accepted command whose response was not fetched. *)
Theorem C76_vanished_host_general_refuted X proc poff x0 t s t' s' : proc_ok (X := X) proc -> hist proc poff x0 t s -> k_wopen (knows t) = true -> hist proc poff x0 (t ++ t') s' -> Forall (fun x => no_web (fst x)) t' ->
  Forall (fun x => forall d r, ~ In (OExec Ccid d r) (snd x)) t'.
Proof. intros Hproc Hh Ho H' Hf. exact (proj2 (stuck proc poff x0 t s t' s' Hproc Hh Ho H' Hf)). Qed.
Example vanished_ex : let z := get [Setup (RCmd 200); Config; Tick 100000; WRun; Out (xfr 0 3 apdu1); CRun] in hist echo nop tt (fst z) (snd z) /\
  concat (map snd (fst z)) = [OAck; OMsg (mkMsg 0x80 0 3 1 0x81 0 [0x64; 0x00])].
Proof. cbv zeta. split; [apply get_hist; vm_compute; reflexivity|vm_compute; reflexivity]. Qed.

(** C77 is violated: reading a descriptor between the packets of a request (any program may, at any time) changes the command that
    is executed. *)
Definition product : bytes := [16; 3; 67; 0; 97; 0; 110; 0; 111; 0; 75; 0; 101; 0; 121; 0].
Theorem C77_corrupts_refuted : exists t s d d' r, exec echo nop (usb_init tt) t s /\ map fst t = [Out (firstn 64 (xfr 0 7 (firstn 100 big))); Desc product 0 255; Out (skipn 64 (xfr 0 7 (firstn 100 big)))] /\
  request (k_pend (knows t)) = Some (parse_hdr (xfr 0 7 (firstn 100 big)), d) /\ option_map (fun z => hd OStall (fst z)) (step echo nop s CRun) = Some (OExec Ccid d' r) /\ d' <> d.
Proof.
  set (es := [Out (firstn 64 (xfr 0 7 (firstn 100 big))); Desc product 0 255; Out (skipn 64 (xfr 0 7 (firstn 100 big)))]).
  exists (fst (get es)), (snd (get es)), (firstn 100 big). eexists _, _. split; [apply get_exec; vm_compute; reflexivity|]. do 3 (split; [vm_compute; reflexivity|]). vm_compute. discriminate.
Qed.
(** And with the keyboard disabled the configuration descriptor (127 bytes) is returned with 32 bytes of the last response. *)
Theorem C77_reveals_refuted : exists t s b d r, hist echo nop tt t s /\ In (OExec Ccid d r) (concat (map snd t)) /\ option_map fst (step echo nop s (Desc (repeat 0 127) 32 255)) = Some [ODesc b] /\ b = repeat 0 127 ++ firstn 32 (skipn 127 r).
Proof.
  set (es := four ++ [CRun; InFin; CEnd]). exists (fst (get es)), (snd (get es)). eexists. exists big, (big ++ [0x90; 0x00]). split; [apply get_hist; vm_compute; reflexivity|]. split; [vm_compute; auto 10|]. split; [vm_compute; reflexivity|vm_compute; reflexivity].
Qed.
Example desc_ex : let z := get (run1 1 apdu1 ++ [Desc product 0 255] ++ run1 2 apdu1) in hist echo nop tt (fst z) (snd z) /\ In (ODesc product) (concat (map snd (fst z))).
Proof. cbv zeta. split; [apply get_hist; vm_compute; reflexivity|vm_compute; auto 10]. Qed.

Print Assumptions C45_no_overflow_partial. Print Assumptions C45_delivered_partial. Print Assumptions C45_overflow_refuted.
Print Assumptions C46_answer_partial. Print Assumptions C46_only_answers_partial. Print Assumptions C46_stale_response_refuted. Print Assumptions C46_reveals_webusb_refuted. Print Assumptions C46_lost_refuted.
Print Assumptions C48_delivered_partial. Print Assumptions C48_response_partial. Print Assumptions C48_exclusive_partial. Print Assumptions C48_corrupted_refuted.
Print Assumptions C76_hold_released_partial. Print Assumptions C76_vanished_host_refuted. Print Assumptions C76_vanished_host_general_refuted.
Print Assumptions C77_descriptor_partial. Print Assumptions C77_corrupts_refuted. Print Assumptions C77_reveals_refuted.
