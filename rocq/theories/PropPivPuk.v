(** C33: how the PIV PIN and PUK change. *)
From Verif Require Import Sys Apdu Applet Frame Pin PinProofs PinWp Tlv Key PropKey Piv PivSpec PropPivGa PivFrame PropPivAuth PropPivPin PivPins.
Open Scope string_scope. Open Scope list_scope. Open Scope Z_scope.

(** ** The PIN commands *)
Lemma stored_pin F F' dp cp dk ck d n : stored F dp cp dk ck -> pin_inv pin 3 d n F' -> (forall q, q <> "piv-pin" -> F' q = F q) -> stored F' d n dk ck.
Proof.
  intros (H1 & H2 & H3) Hi Ho. split; [exact Hi|]. split.
  - unfold pin_inv, fdata, fattr in *. cbn [pin_path puk] in *. rewrite Ho by discriminate. exact H2.
  - rewrite Ho by discriminate. exact H3.
Qed.
Lemma stored_puk F F' dp cp dk ck d n : stored F dp cp dk ck -> pin_inv puk 3 d n F' -> (forall q, q <> "piv-puk" -> F' q = F q) -> stored F' dp cp d n.
Proof.
  intros (H1 & H2 & H3) Hi Ho. split; [|split; [exact Hi|]].
  - unfold pin_inv, fdata, fattr in *. cbn [pin_path pin] in *. rewrite Ho by discriminate. exact H1.
  - rewrite Ho by discriminate. exact H3.
Qed.
Lemma flag_inv p d n F v : pin_inv p 3 d n F -> pin_inv p 3 d n (fsetattr F (pin_path p) TAG_PIN_KEY_DEFAULT v).
Proof.
  intros (Hd & H64 & Hc & Ha & Hb). pose proof (fdata_some _ _ _ Hd) as HF. unfold pin_inv. rewrite fdata_fsetattr, !fattr_fsetattr by assumption. auto.
Qed.

Definition sw_is (o : out Z) (w : Z) : Prop := o = Ret w \/ o = Exc w.
(** A wrong try, or any try when none is left: [k] tries before, [k'] after *)
Definition refused (c : capdu) (d : bytes) (k : Z) (sw : Z) (k' : Z) : Prop :=
  k = 0 /\ k' = 0 /\ sw = 0x6983 \/
  k <> 0 /\ firstn 8 (c_data c) <> d /\ k' = k - 1 /\ sw = (if k =? 1 then 0x6983 else 0x63C0 + (k - 1)).
(** The command is answered by [sw], and PIN and PUK go from the first four to the second four values. *)
Definition answered (c : capdu) (dp : bytes) (cp : Z) (dk : bytes) (ck : Z) (sw : Z) (dp' : bytes) (cp' : Z) (dk' : bytes) (ck' : Z) : Prop :=
  (verify_cmd c -> dk' = dk /\ ck' = ck /\ dp' = dp /\ (gives c dp cp /\ sw = 0x9000 /\ cp' = 3 \/ refused c dp cp sw cp')) /\
  (change_cmd c -> dk' = dk /\ ck' = ck /\ (gives c dp cp /\ sw = 0x9000 /\ dp' = new_value c /\ cp' = 3 \/ dp' = dp /\ refused c dp cp sw cp')) /\
  (change_puk_cmd c -> dp' = dp /\ cp' = cp /\ (gives c dk ck /\ sw = 0x9000 /\ dk' = new_value c /\ ck' = 3 \/ dk' = dk /\ refused c dk ck sw ck')) /\
  (unblock_cmd c -> dk' = dk /\ (gives c dk ck /\ sw = 0x9000 /\ dp' = new_value c /\ cp' = 3 /\ ck' = 3 \/ dp' = dp /\ cp' = cp /\ refused c dk ck sw ck')).

Section PinCmds.
Variable c : capdu.
Variables (dp dk : bytes) (cp ck : Z) (X : list fault).
Hypothesis Hcla : c_cla c = 0.
Definition okimg (G : fs) : Prop := exists dp' cp' dk' ck', stored G dp' cp' dk' ck' /\ may_become c dp cp dk ck dp' cp' dk' ck'.
Definition pq (o : out Z) (s' : piv) (e' : env) : Prop :=
  objpath s' /\ okimg (e_fs e') /\ Forall okimg (e_log e') /\
  (X = [] -> exists sw dp' cp' dk' ck', sw_is o sw /\ stored (e_fs e') dp' cp' dk' ck' /\ answered c dp cp dk ck sw dp' cp' dk' ck').

Lemma same_img F : stored F dp cp dk ck -> okimg F.
Proof. intros H. exists dp, cp, dk, ck. split; [exact H|]. split; [|split; [|split]]; intros W; try (elim W; reflexivity); lia. Qed.

(** a command of another form answers something and changes nothing *)
Lemma other_form o s' F L X' R T O w : ~ (verify_cmd c \/ change_cmd c \/ change_puk_cmd c \/ unblock_cmd c) ->
  stored F dp cp dk ck -> Forall okimg L -> objpath s' -> sw_is o w \/ X <> [] -> pq o s' (mkE F L X' R T O).
Proof.
  intros N Hs HL Ho Hw. split; [exact Ho|]. split; [apply same_img, Hs|]. split; [exact HL|]. intros E. destruct Hw as [Hw|Hw]; [|contradiction].
  exists w, dp, cp, dk, ck. split; [exact Hw|]. split; [exact Hs|]. split; [|split; [|split]]; intros W; elim N; auto.
Qed.
Lemma io_fail o s' F L X' R T O : X <> [] -> stored F dp cp dk ck -> Forall okimg L -> objpath s' -> pq o s' (mkE F L X' R T O).
Proof. intros N Hs HL Ho. split; [exact Ho|]. split; [apply same_img, Hs|]. split; [exact HL|]. intros E; contradiction. Qed.

Lemma sl8 : slice 0 8 (c_data c) = firstn 8 (c_data c).
Proof. reflexivity. Qed.
Ltac form := intros [(Q1 & Q2 & Q3 & Q4 & Q5)|[(Q1 & Q2 & Q3 & Q4 & Q5)|[(Q1 & Q2 & Q3 & Q4 & Q5)|(Q1 & Q2 & Q3 & Q4 & Q5)]]]; lia.
Ltac ans := split; [|split; [|split]]; intros (Q1 & Q2 & Q3 & Q4 & Q5); first [lia | idtac].
Ltac may := split; [|split; [|split]]; intros W; first [elim W; reflexivity | lia | idtac].
Lemma wp_try p setp d n k (Q : out Z -> piv -> env -> Prop) s F L R T :
  p = pin \/ p = puk -> (forall a b s, setp a (setp b s) = setp a s) -> 8 <= c_lc c -> pin_inv p 3 d n F ->
  (X <> [] -> forall X' v, Q Fail (setp v s) (mkE F L X' R T [])) ->
  (forall X' F' L' sw n', (F' = F /\ L' = L \/ F' = fsetattr F (pin_path p) RETRY_ATTR [n'] /\ L' = F' :: L) ->
     pin_inv p 3 d n' F' -> n' <= n -> refused c d n sw n' -> Q (Exc sw) (setp false s) (mkE F' L' X' R T [])) ->
  (forall X' F', (X = [] -> X' = []) -> gives c d n -> F' = fsetattr F (pin_path p) RETRY_ATTR [3] -> pin_inv p 3 d 3 F' ->
     wp k Q (setp true s) (mkE F' (F' :: L) X' R T [])) ->
  wp (r <- pin_verify p setp (c_data c) 8 ;; verified r ;;; k) Q s (mkE F L X R T []).
Proof.
  intros Hp S2 Hlc Hi Q1 Q2 Q3. pose proof Hi as (_ & _ & Hn & _). unfold c_lc in Hlc.
  assert (Hpp : pin_min p = 8 /\ pin_max p = 8) by (destruct Hp; subst; split; reflexivity). destruct Hpp as [P1 P2].
  apply wp_bind. apply (wp_pin_verify p setp) with (N := 3) (d := d) (c := n); [exact S2|lia|lia|lia|lia|exact Hi|lia|]. intros _. rewrite sl8.
  split; [|intros X' N'; split; [|split]].
  - intros N X' r v _. unfold verified. apply wp_bind, wp_fail. apply Q1, N.
  - intros ->. unfold verified. apply wp_bind. change (PIN_AUTH_FAIL =? PIN_IO_FAIL) with false. cbv iota. apply wp_bind. unfold need. apply wp_ret, wp_except.
    apply (Q2 X' F L _ 0); auto; [lia|]. left. auto.
  - intros N0 Nd F' Hi'.
    unfold verified. apply wp_bind. change (PIN_AUTH_FAIL =? PIN_IO_FAIL) with false. cbv iota. apply wp_bind. unfold need. apply wp_ret.
    destruct (Z.eqb_spec (n - 1) 0) as [E1|E1]; apply wp_except; apply (Q2 X' F' (F' :: L) _ (n - 1)); auto; try lia; right; repeat split; auto.
    + replace (n =? 1) with true by lia. reflexivity.
    + replace (n =? 1) with false by lia. reflexivity.
  - intros N0 Nd F' Hi'.
    unfold verified. apply wp_bind. change (0 =? PIN_IO_FAIL) with false. cbv iota. apply wp_bind. unfold need. apply wp_ret.
    destruct (Z.eqb_spec n 0) as [E1|_]; [contradiction|]. change (0 =? PIN_AUTH_FAIL) with false. cbv iota. apply wp_ret. apply Q3; auto. split; assumption.
Qed.
Lemma attr_other F q p a v : q <> p -> fsetattr F p a v q = F q. Proof. intros; apply fsetattr_other; assumption. Qed.
Lemma refused_pq F L F' L' X' R T s' sw n' : objpath s' -> stored F dp cp dk ck -> Forall okimg L -> n' <= cp ->
  (F' = F /\ L' = L \/ F' = fsetattr F (pin_path pin) RETRY_ATTR [n'] /\ L' = F' :: L) -> pin_inv pin 3 dp n' F' ->
  refused c dp cp sw n' -> verify_cmd c \/ change_cmd c -> pq (Exc sw) s' (mkE F' L' X' R T []).
Proof.
  intros Ho Hs HL Hn HF Hi Hr Hc.
  assert (Hs' : stored F' dp n' dk ck).
  { eapply stored_pin; [exact Hs|exact Hi|]. intros q Nq. destruct HF as [[-> _]|[-> _]]; [reflexivity|]. apply fsetattr_other, Nq. }
  assert (Hok : okimg F') by (exists dp, n', dk, ck; split; [exact Hs'|may]).
  split; [exact Ho|]. split; [exact Hok|]. split; [destruct HF as [[_ ->]|[_ ->]]; [exact HL|constructor; [exact Hok|exact HL]]|].
  intros _. exists sw, dp, n', dk, ck. split; [right; reflexivity|]. split; [exact Hs'|].
  split; [|split; [|split]]; intros W; [repeat split; auto|repeat split; auto| |];
    exfalso; destruct W as (W1 & W2 & W3 & W4 & W5); destruct Hc as [(V1 & V2 & V3 & V4 & V5)|(V1 & V2 & V3 & V4 & V5)]; lia.
Qed.
Lemma refused_puk_pq F L F' L' X' R T s' sw n' : objpath s' -> stored F dp cp dk ck -> Forall okimg L -> n' <= ck ->
  (F' = F /\ L' = L \/ F' = fsetattr F (pin_path puk) RETRY_ATTR [n'] /\ L' = F' :: L) -> pin_inv puk 3 dk n' F' ->
  refused c dk ck sw n' -> change_puk_cmd c \/ unblock_cmd c -> pq (Exc sw) s' (mkE F' L' X' R T []).
Proof.
  intros Ho Hs HL Hn HF Hi Hr Hc.
  assert (Hs' : stored F' dp cp dk n').
  { eapply stored_puk; [exact Hs|exact Hi|]. intros q Nq. destruct HF as [[-> _]|[-> _]]; [reflexivity|]. apply fsetattr_other, Nq. }
  assert (Hok : okimg F') by (exists dp, cp, dk, n'; split; [exact Hs'|may]).
  split; [exact Ho|]. split; [exact Hok|]. split; [destruct HF as [[_ ->]|[_ ->]]; [exact HL|constructor; [exact Hok|exact HL]]|].
  intros _. exists sw, dp, cp, dk, n'. split; [right; reflexivity|]. split; [exact Hs'|].
  split; [|split; [|split]]; intros W; [| |repeat split; auto|repeat split; auto];
    exfalso; destruct W as (W1 & W2 & W3 & W4 & W5); destruct Hc as [(V1 & V2 & V3 & V4 & V5)|(V1 & V2 & V3 & V4 & V5)]; lia.
Qed.

Lemma verify_cmd_wp s F L R T : c_ins c = 0x20 -> stored F dp cp dk ck -> Forall okimg L -> objpath s ->
  wp (piv_verify c) pq s (mkE F L X R T []).
Proof.
  intros Hi Hs HL Ho. unfold piv_verify.
  apply wp_bind, wp_guard; intros G1; [|apply other_form with (w := SW_WRONG_P1P2); auto; [form|left; right; reflexivity]].
  apply wp_bind, wp_guard; intros G2; [|apply other_form with (w := SW_REFERENCE_DATA_NOT_FOUND); auto; [form|left; right; reflexivity]].
  wif G3.
  { apply wp_bind, wp_guard; intros G4; [|apply other_form with (w := SW_WRONG_LENGTH); auto; [form|left; right; reflexivity]].
    apply wp_bind, wp_modify, wp_ret. apply other_form with (w := SW_NO_ERROR); auto; [form|left; left; reflexivity]. }
  wif G4.
  { apply wp_bind, wp_get. destruct (v_pin s); [apply wp_ret, other_form with (w := SW_NO_ERROR); auto; [form|left; left; reflexivity]|].
    apply wp_bind. pose proof Hs as (Hp & _ & _). pose proof Hp as (_ & _ & Hcp & _). eapply wp_pin_retries; [exact Hp| | | |].
    - intros X' r -> N. cbv iota. apply io_fail; auto.
    - intros X' r -> N _. replace (cp <? 0) with false by lia. apply wp_except, other_form with (w := SW_PIN_RETRIES + cp); auto; [form|left; right; reflexivity].
    - intros X' N _. cbv iota. apply wp_except, other_form with (w := SW_PIN_RETRIES + 0); auto; [form|left; right; reflexivity].
    - intros N _ X'. replace (cp <? 0) with false by lia. apply wp_except, io_fail; auto. }
  apply wp_bind, wp_guard; intros G5; [|apply other_form with (w := SW_WRONG_LENGTH); auto; [form|left; right; reflexivity]].
  assert (V : verify_cmd c) by (repeat split; try assumption; lia).
  pose proof Hs as (Hp & Hk & Hal).
  apply wp_try with (d := dp) (n := cp); [auto|reflexivity|lia|exact Hp| | |].
  - intros N X' v. apply io_fail; auto.
  - intros X' F' L' sw n' HF Hi' Hn Hr. eapply refused_pq; eauto.
  - intros X' F' HX Gv EF Hi'. assert (Hs' : stored F' dp 3 dk ck) by (eapply stored_pin; [exact Hs|exact Hi'|intros; subst F'; apply fsetattr_other; assumption]).
    assert (Hok : okimg F') by (exists dp, 3, dk, ck; split; [exact Hs'|may; left; auto]).
    apply wp_bind, wp_modify, wp_ret.
    split; [exact Ho|]; split; [exact Hok|]; split; [constructor; [exact Hok|exact HL]|].
    intros E. exists 0x9000, dp, 3, dk, ck. split; [left; reflexivity|]. split; [exact Hs'|]. ans. repeat split; auto; apply Gv.
Qed.

Lemma sl_new : 16 = c_lc c -> slice 0 8 (drop 8 (c_data c)) = new_value c.
Proof. unfold c_lc, zlen. intros H. unfold slice, new_value, drop. change (Z.to_nat 8) with 8%nat. apply firstn_all2. rewrite !skipn_length. lia. Qed.
Lemma change_cmd_wp s F L R T : c_ins c = 0x24 -> stored F dp cp dk ck -> Forall okimg L -> objpath s ->
  wp (piv_change_reference_data c) pq s (mkE F L X R T []).
Proof.
  intros Hi Hs HL Ho. unfold piv_change_reference_data.
  apply wp_bind, wp_guard; intros G1; [|apply other_form with (w := SW_WRONG_P1P2); auto; [form|left; right; reflexivity]].
  apply wp_bind, wp_guard; intros G2; [|apply other_form with (w := SW_REFERENCE_DATA_NOT_FOUND); auto; [form|left; right; reflexivity]].
  cbv zeta. apply wp_bind, wp_guard; intros G3; [|apply other_form with (w := SW_WRONG_LENGTH); auto; [form|left; right; reflexivity]].
  assert (H16 : 16 = c_lc c) by lia. pose proof (sl_new H16) as Hnew.
  assert (Hz : 8 <= zlen (drop 8 (c_data c))) by (unfold drop, c_lc, zlen in *; rewrite skipn_length; lia).
  pose proof Hs as (Hp & Hk & Hal).
  destruct (Z.eqb_spec (c_p2 c) 0x80) as [P2|P2].
  - assert (V : change_cmd c) by (repeat split; try assumption; lia).
    apply wp_try with (d := dp) (n := cp); [auto|reflexivity|lia|exact Hp| | |].
    + intros N X' v. apply io_fail; auto.
    + intros X' F' L' sw n' HF Hi' Hn Hr. eapply refused_pq; eauto.
    + intros X' F' HX Gv EF Hi'. assert (Hs' : stored F' dp 3 dk ck) by (eapply stored_pin; [exact Hs|exact Hi'|intros; subst F'; apply fsetattr_other; assumption]).
      assert (Hok : okimg F') by (exists dp, 3, dk, ck; split; [exact Hs'|may; left; auto]).
      clear EF. apply wp_bind. apply (wp_pin_update pin setpin) with (N := 3) (d := dp) (c := 3); [cbn; lia|cbn; lia|lia|lia|exact Hi'|intros W; elim W; cbn; lia|]. intros _. rewrite Hnew. intros F1 Hi1.
      assert (Hs1 : stored F1 (new_value c) 3 dk ck) by (eapply stored_pin; [exact Hs'|exact Hi1|intros; apply fwrite_other; assumption]).
      assert (Hok1 : okimg F1) by (exists (new_value c), 3, dk, ck; split; [exact Hs1|may; auto]).
      split; [|split].
      * intros N X1. apply wp_fail. split; [exact Ho|]; split; [exact Hok|]; split; [constructor; [exact Hok|exact HL]|]. intros E. elim N. apply HX, E.
      * intros N X1. apply wp_fail. split; [exact Ho|]; split; [exact Hok1|]; split; [constructor; [exact Hok1|constructor; [exact Hok|exact HL]]|]. intros E. elim N. apply HX, E.
      * intros X1 HX1 F2 Hi2.
        assert (Hs2 : stored F2 (new_value c) 3 dk ck) by (eapply stored_pin; [exact Hs1|exact Hi2|intros; apply fsetattr_other; assumption]).
        assert (Hok2 : okimg F2) by (exists (new_value c), 3, dk, ck; split; [exact Hs2|may; auto]).
        change (0 =? PIN_IO_FAIL) with false. change (0 =? PIN_LENGTH_INVALID) with false. cbv iota.
        apply wp_bind. unfold must. apply wp_bind, wp_write_attr.
        -- intros _ X2 HX2. apply wp_ret, wp_ret. set (F3 := fsetattr F2 _ _ _).
           assert (Hs3 : stored F3 (new_value c) 3 dk ck) by (eapply stored_pin; [exact Hs2|apply flag_inv, Hi2|intros; apply fsetattr_other; assumption]).
           assert (Hok3 : okimg F3) by (exists (new_value c), 3, dk, ck; split; [exact Hs3|may; auto]).
           split; [exact Ho|]; split; [exact Hok3|]; split; [repeat (constructor; [assumption|]); exact HL|].
           intros E. exists 0x9000, (new_value c), 3, dk, ck. split; [left; reflexivity|]. split; [exact Hs3|]. ans. split; [reflexivity|]. split; [reflexivity|]. left. auto.
        -- intros N X2 HX2. apply wp_fail. split; [exact Ho|]; split; [exact Hok2|]; split; [repeat (constructor; [assumption|]); exact HL|].
           intros E. destruct N as [N|N]; [elim N; apply HX1, HX, E|]. destruct Hi2 as (Hd & _). elim (fdata_some _ _ _ Hd N).
  - assert (V : change_puk_cmd c) by (repeat split; try assumption; lia).
    apply wp_try with (d := dk) (n := ck); [auto|reflexivity|lia|exact Hk| | |].
    + intros N X' v. apply io_fail; auto.
    + intros X' F' L' sw n' HF Hi' Hn Hr. eapply refused_puk_pq; eauto.
    + intros X' F' HX Gv EF Hi'. assert (Hs' : stored F' dp cp dk 3) by (eapply stored_puk; [exact Hs|exact Hi'|intros; subst F'; apply fsetattr_other; assumption]).
      assert (Hok : okimg F') by (exists dp, cp, dk, 3; split; [exact Hs'|may; auto]).
      clear EF. apply wp_bind. apply (wp_pin_update puk setpuk) with (N := 3) (d := dk) (c := 3); [cbn; lia|cbn; lia|lia|lia|exact Hi'|intros W; elim W; cbn; lia|]. intros _. rewrite Hnew. intros F1 Hi1.
      assert (Hs1 : stored F1 dp cp (new_value c) 3) by (eapply stored_puk; [exact Hs'|exact Hi1|intros; apply fwrite_other; assumption]).
      assert (Hok1 : okimg F1) by (exists dp, cp, (new_value c), 3; split; [exact Hs1|may; auto]).
      split; [|split].
      * intros N X1. apply wp_fail. split; [exact Ho|]; split; [exact Hok|]; split; [constructor; [exact Hok|exact HL]|]. intros E. elim N. apply HX, E.
      * intros N X1. apply wp_fail. split; [exact Ho|]; split; [exact Hok1|]; split; [constructor; [exact Hok1|constructor; [exact Hok|exact HL]]|]. intros E. elim N. apply HX, E.
      * intros X1 HX1 F2 Hi2.
        assert (Hs2 : stored F2 dp cp (new_value c) 3) by (eapply stored_puk; [exact Hs1|exact Hi2|intros; apply fsetattr_other; assumption]).
        assert (Hok2 : okimg F2) by (exists dp, cp, (new_value c), 3; split; [exact Hs2|may; auto]).
        change (0 =? PIN_IO_FAIL) with false. change (0 =? PIN_LENGTH_INVALID) with false. cbv iota.
        apply wp_bind. unfold must. apply wp_bind, wp_write_attr.
        -- intros _ X2 HX2. apply wp_ret, wp_ret. set (F3 := fsetattr F2 _ _ _).
           assert (Hs3 : stored F3 dp cp (new_value c) 3) by (eapply stored_puk; [exact Hs2|apply flag_inv, Hi2|intros; apply fsetattr_other; assumption]).
           assert (Hok3 : okimg F3) by (exists dp, cp, (new_value c), 3; split; [exact Hs3|may; auto]).
           split; [exact Ho|]; split; [exact Hok3|]; split; [repeat (constructor; [assumption|]); exact HL|].
           intros E. exists 0x9000, dp, cp, (new_value c), 3. split; [left; reflexivity|]. split; [exact Hs3|]. ans. split; [reflexivity|]. split; [reflexivity|]. left. auto.
        -- intros N X2 HX2. apply wp_fail. split; [exact Ho|]; split; [exact Hok2|]; split; [repeat (constructor; [assumption|]); exact HL|].
           intros E. destruct N as [N|N]; [elim N; apply HX1, HX, E|]. destruct Hi2 as (Hd & _). elim (fdata_some _ _ _ Hd N).
Qed.
Lemma unblock_cmd_wp s F L R T : c_ins c = 0x2C -> stored F dp cp dk ck -> Forall okimg L -> objpath s ->
  wp (piv_reset_retry_counter c) pq s (mkE F L X R T []).
Proof.
  intros Hi Hs HL Ho. unfold piv_reset_retry_counter.
  apply wp_bind, wp_guard; intros G1; [|apply other_form with (w := SW_WRONG_P1P2); auto; [form|left; right; reflexivity]].
  apply wp_bind, wp_guard; intros G2; [|apply other_form with (w := SW_REFERENCE_DATA_NOT_FOUND); auto; [form|left; right; reflexivity]].
  apply wp_bind, wp_guard; intros G3; [|apply other_form with (w := SW_WRONG_LENGTH); auto; [form|left; right; reflexivity]].
  assert (H16 : 16 = c_lc c) by lia. pose proof (sl_new H16) as Hnew.
  assert (Hz : 8 <= zlen (drop 8 (c_data c))) by (unfold drop, c_lc, zlen in *; rewrite skipn_length; lia).
  pose proof Hs as (Hp & Hk & Hal).
  assert (V : unblock_cmd c) by (repeat split; try assumption; lia).
  apply wp_try with (d := dk) (n := ck); [auto|reflexivity|lia|exact Hk| | |].
  - intros N X' v. apply io_fail; auto.
  - intros X' F' L' sw n' HF Hi' Hn Hr. eapply refused_puk_pq; eauto.
  - intros X' F' HX Gv EF Hi'. assert (Hs' : stored F' dp cp dk 3) by (eapply stored_puk; [exact Hs|exact Hi'|intros; subst F'; apply fsetattr_other; assumption]).
    assert (Hok : okimg F') by (exists dp, cp, dk, 3; split; [exact Hs'|may; auto]).
    clear EF. pose proof Hs' as (Hp' & _ & _). apply wp_bind.
    apply (wp_pin_update pin setpin) with (N := 3) (d := dp) (c := cp); [cbn; lia|cbn; lia|lia|lia|exact Hp'|intros W; elim W; cbn; lia|]. intros _. rewrite Hnew. intros F1 Hi1.
    assert (Hs1 : stored F1 (new_value c) cp dk 3) by (eapply stored_pin; [exact Hs'|exact Hi1|intros; apply fwrite_other; assumption]).
    assert (Hok1 : okimg F1) by (exists (new_value c), cp, dk, 3; split; [exact Hs1|may; auto]).
    split; [|split].
    + intros N X1. apply wp_fail. split; [exact Ho|]; split; [exact Hok|]; split; [constructor; [exact Hok|exact HL]|]. intros E. elim N. apply HX, E.
    + intros N X1. apply wp_fail. split; [exact Ho|]; split; [exact Hok1|]; split; [constructor; [exact Hok1|constructor; [exact Hok|exact HL]]|]. intros E. elim N. apply HX, E.
    + intros X1 HX1 F2 Hi2.
      assert (Hs2 : stored F2 (new_value c) 3 dk 3) by (eapply stored_pin; [exact Hs1|exact Hi2|intros; apply fsetattr_other; assumption]).
      assert (Hok2 : okimg F2) by (exists (new_value c), 3, dk, 3; split; [exact Hs2|may; auto]).
      change (0 =? PIN_IO_FAIL) with false. change (0 =? PIN_LENGTH_INVALID) with false. cbv iota. apply wp_ret.
      split; [exact Ho|]; split; [exact Hok2|]; split; [repeat (constructor; [assumption|]); exact HL|].
      intros E. exists 0x9000, (new_value c), 3, dk, 3. split; [left; reflexivity|]. split; [exact Hs2|]. ans. split; [reflexivity|]. left. auto.
Qed.
End PinCmds.

(** ** All commands and histories *)
Section All.
Variable K : crypto.
Lemma fr_obj nfc t1 t2 c tail : frame objpath (fun _ => True) (piv_body K nfc t1 t2 c tail).
Proof.
  destruct (Z.eqb_spec (c_ins c) 0x20) as [E|N1]; [|destruct (Z.eqb_spec (c_ins c) 0x24) as [E|N2]; [|destruct (Z.eqb_spec (c_ins c) 0x2C) as [E|N3];
    [|destruct (Z.eqb_spec (c_ins c) 0xFB) as [E|N4]]]].
  1-4: unfold piv_body; rewrite E; apply fr_bind; [apply fr_guard|intros _]; (apply fr_bind; [cbv iota; fr anyfs|intros _]); (apply fr_bind; [cbv iota; fr anyfs|intros _]); cbn [Z.eqb Pos.eqb].
  - unfold piv_verify; piv_unfold; fr anyfs.
  - unfold piv_change_reference_data; piv_unfold; destruct (c_p2 c =? 0x80); fr anyfs.
  - unfold piv_reset_retry_counter; piv_unfold; fr anyfs.
  - unfold piv_reset; piv_unfold; fr anyfs. apply fr_ignore, fr_install_tail; [exact anyfs|intros s H; left; reflexivity|intros d s H; exact H].
  - apply fr_pins_gen; auto. intros; apply anyfs.
Qed.
Lemma boot_obj F flt rnd : objpath (d_ram (boot F flt rnd)).
Proof.
  unfold boot, installed. pose proof (fr_any (fun s => v_path s = "") (piv_install false) piv_boot (start F flt rnd [])) as H. unfold wp in H.
  destruct (piv_install _ _ _) as [[o s'] e']. cbn [d_ram]. left. apply H; [|reflexivity].
  apply fr_install_tail; [exact anyfs|reflexivity|exact (fun _ _ H => H)].
Qed.
Lemma step_obj d v o d' : objpath (d_ram d) -> step K d v = Some (o, d') -> objpath (d_ram d').
Proof.
  intros IH Hst. destruct v as [x|x n flt rnd| |flt rnd|flt rnd n flt' rnd'|F]; cbn [step] in Hst.
  - pose proof (exec_wp K d x (fun _ s' _ => objpath s')) as W. destruct (exec K d x) as [[[r|] s'] e']; [|discriminate]. injection Hst as _ <-.
    apply W. apply (fr_any objpath); [apply fr_obj|exact IH].
  - destruct (exec K d x) as [[? ?] e]. injection Hst as _ <-. apply boot_obj.
  - injection Hst as _ <-. left. reflexivity.
  - unfold installed in Hst. pose proof (fr_any objpath (piv_install true) (d_ram d) (start (d_fs d) flt rnd [])) as W. unfold wp in W.
    destruct (piv_install _ _ _) as [[o' s'] e']. injection Hst as _ <-. apply W; [|exact IH].
    apply fr_install_tail; [exact anyfs|intros s H; left; reflexivity|exact (fun _ _ H => H)].
  - destruct (installed _ _ _ _ _) as [[? ?] e]. injection Hst as _ <-. apply boot_obj.
  - injection Hst as _ <-. exact IH.
Qed.
Lemma hist_obj d0 tr d : objpath (d_ram d0) -> hist K d0 tr d -> objpath (d_ram d).
Proof. intros H0 H. induction H; auto. eapply step_obj; [|eassumption]. auto. Qed.
Lemma since_obj tr d : since_boot K tr d -> objpath (d_ram d).
Proof. intros (F & flt & rnd & H). eapply hist_obj; [|exact H]. apply boot_obj. Qed.

Lemma body_wp d x dp cp dk ck : objpath (d_ram d) -> stored (d_fs d) dp cp dk ck -> c_ins (x_apdu x) <> 0xFB ->
  wp (piv_body K (x_nfc x) (x_t1 x) (x_t2 x) (x_apdu x) (x_tail x))
     (fun o s' e' => okimg (x_apdu x) dp dk cp ck (e_fs e') /\ Forall (okimg (x_apdu x) dp dk cp ck) (e_log e') /\
        (x_flt x = [] -> verify_cmd (x_apdu x) \/ change_cmd (x_apdu x) \/ change_puk_cmd (x_apdu x) \/ unblock_cmd (x_apdu x) ->
           exists sw dp' cp' dk' ck', sw_is o sw /\ stored (e_fs e') dp' cp' dk' ck' /\ answered (x_apdu x) dp cp dk ck sw dp' cp' dk' ck'))
     (d_ram d) (start (d_fs d) (x_flt x) (x_rnd x) (x_tch x)).
Proof.
  intros Ho Hs N. set (c := x_apdu x) in *.
  assert (Hi0 : okimg c dp dk cp ck (d_fs d)) by (apply same_img, Hs).
  assert (Hpin : c_ins c = 0x20 \/ c_ins c = 0x24 \/ c_ins c = 0x2C -> wp (piv_body K (x_nfc x) (x_t1 x) (x_t2 x) c (x_tail x))
    (fun o s' e' => c_cla c = 0 /\ pq c dp dk cp ck (x_flt x) o s' e' \/ c_cla c <> 0 /\ e_fs e' = d_fs d /\ e_log e' = [d_fs d])
    (d_ram d) (start (d_fs d) (x_flt x) (x_rnd x) (x_tch x))).
  { intros Hins. unfold piv_body, start. apply wp_bind, wp_guard; intros G; [|right; split; [lia|split; reflexivity]].
    assert (Hcla : c_cla c = 0) by lia.
    replace (c_ins c =? 0xDB) with false by lia. replace (c_ins c =? 0xC0) with false by lia. apply wp_bind, wp_modify, wp_bind, wp_modify.
    replace (c_ins c =? 0xA4) with false by lia. replace (c_ins c =? 0xCB) with false by lia.
    apply (wp_mono _ (pq c dp dk cp ck (x_flt x))); [|intros o s' e' W; left; auto].
    destruct Hins as [E|[E|E]]; rewrite E; cbn [Z.eqb Pos.eqb].
    - apply verify_cmd_wp; auto.
    - apply change_cmd_wp; auto.
    - apply unblock_cmd_wp; auto. }
  destruct (Z.eq_dec (c_ins c) 0x20) as [E|N1]; [|destruct (Z.eq_dec (c_ins c) 0x24) as [E|N2]; [|destruct (Z.eq_dec (c_ins c) 0x2C) as [E|N3]]].
  1-3: eapply wp_mono; [apply Hpin; auto|]; intros o s' e' [[Hcla (Q1 & Q2 & Q3 & Q4)]|(Hcla & Q1 & Q2)];
    [split; [exact Q2|]; split; [exact Q3|]; intros Hx _; exact (Q4 Hx)
    |rewrite Q1, Q2; split; [exact Hi0|]; split; [constructor; [exact Hi0|constructor]|];
     intros _ W; exfalso; destruct W as [(V1 & V)|[(V1 & V)|[(V1 & V)|(V1 & V)]]]; contradiction].
  eapply wp_mono.
  - apply (fr_pins K (x_nfc x) (x_t1 x) (x_t2 x) c (x_tail x) (d_fs d) N1 N2 N3 N). split; [exact Ho|].
    assert (pins_are (d_fs d) (d_fs d)) as Hpa by (split; [reflexivity|split; [reflexivity|apply Hs]]). split; [exact Hpa|]. constructor; [exact Hpa|constructor].
  - intros o s' e' (_ & Q1 & Q2).
    assert (Hgen : forall G, pins_are (d_fs d) G -> okimg c dp dk cp ck G).
    { intros G (G1 & G2 & G3). apply same_img. destruct Hs as (S1 & S2 & S3). unfold stored, pin_inv, fdata, fattr in *. cbn [pin_path pin puk] in *. rewrite G1, G2. auto. }
    split; [apply Hgen, Q1|]. split; [eapply Forall_impl; [exact Hgen|exact Q2]|].
    intros _ W. exfalso. destruct W as [(V1 & V2 & V)|[(V1 & V2 & V)|[(V1 & V2 & V)|(V1 & V2 & V)]]]; contradiction.
Qed.
End All.

(** The PIN and the PUK change, and their retry counters rise, only as [may_become] says: by a command that presents the right secret while
    tries are left.  This holds of what is stored after the command and of every image that a power cut in it can leave, whatever storage errors
    it meets.  (For RESET see C34.) *)
Theorem C33_change_rules : forall K tr d x dp cp dk ck, since_boot K tr d -> stored (d_fs d) dp cp dk ck -> c_ins (x_apdu x) <> 0xFB ->
  let '(_, _, e) := exec K d x in
  forall G, G = e_fs e \/ In G (e_log e) -> exists dp' cp' dk' ck', stored G dp' cp' dk' ck' /\ may_become (x_apdu x) dp cp dk ck dp' cp' dk' ck'.
Proof.
  intros K tr d x dp cp dk ck Hb Hs N. pose proof (exec_wp K d x (fun _ _ e => okimg (x_apdu x) dp dk cp ck (e_fs e) /\ Forall (okimg (x_apdu x) dp dk cp ck) (e_log e))) as W.
  destruct (exec K d x) as [[r s'] e]. destruct W as [W1 W2].
  - eapply wp_mono; [apply body_wp; [eapply since_obj, Hb|exact Hs|exact N]|]. intros o s1 e1 (Q1 & Q2 & _). auto.
  - intros G [->|HG]; [exact W1|]. rewrite Forall_forall in W2. apply W2, HG.
Qed.
Print Assumptions C33_change_rules.

(** Without storage errors the commands on the PIN and the PUK are answered as [answered] says: right secret 9000, wrong one costs one try. *)
Theorem C33_tries : forall K tr d x dp cp dk ck, since_boot K tr d -> stored (d_fs d) dp cp dk ck -> x_flt x = [] ->
  verify_cmd (x_apdu x) \/ change_cmd (x_apdu x) \/ change_puk_cmd (x_apdu x) \/ unblock_cmd (x_apdu x) ->
  exists r dp' cp' dk' ck' d', step K d (Do x) = Some (Some r, d') /\ stored (d_fs d') dp' cp' dk' ck' /\
    answered (x_apdu x) dp cp dk ck (r_sw r) dp' cp' dk' ck'.
Proof.
  intros K tr d x dp cp dk ck Hb Hs Hx Hc. cbn [step].
  assert (N : c_ins (x_apdu x) <> 0xFB) by (destruct Hc as [(V1 & V2 & V)|[(V1 & V2 & V)|[(V1 & V2 & V)|(V1 & V2 & V)]]]; lia).
  pose proof (exec_wp K d x (fun r _ e => exists a dp' cp' dk' ck', r = Some a /\ stored (e_fs e) dp' cp' dk' ck' /\ answered (x_apdu x) dp cp dk ck (r_sw a) dp' cp' dk' ck')) as W.
  destruct (exec K d x) as [[r s'] e]. destruct W as (a & dp' & cp' & dk' & ck' & -> & W2 & W3).
  - eapply wp_mono; [apply body_wp; [eapply since_obj, Hb|exact Hs|exact N]|]. intros o s1 e1 (_ & _ & Q).
    destruct (Q Hx Hc) as (sw & dp' & cp' & dk' & ck' & Q1 & Q2 & Q3).
    destruct Q1 as [-> | ->]; eexists; exists dp', cp', dk', ck'; (split; [reflexivity|split; [exact Q2|exact Q3]]).
  - exists a, dp', cp', dk', ck', (mkD s' (e_fs e)). auto.
Qed.
Print Assumptions C33_tries.

(** In any history without a reset of the applet, the PIN at the end differs from the PIN at the start only if somewhere between the PIN or the
    PUK of that moment was given, while tries were left, by CHANGE REFERENCE DATA or RESET RETRY COUNTER; the PUK likewise.  Power cuts included;
    but the boot after one must be able to read the storage (see C68 for what it does otherwise). *)
Definition no_reset (v : ev) : Prop :=
  match v with
  | Do x => c_ins (x_apdu x) <> 0xFB
  | Cut x _ flt _ => c_ins (x_apdu x) <> 0xFB /\ flt = []
  | Install _ _ | InstallCut _ _ _ _ _ => False
  | _ => True
  end.
Definition ev_cmd (v : ev) : option capdu := match v with Do x | Cut x _ _ _ => Some (x_apdu x) | _ => None end.
Definition changes_pin (e : entry) : Prop :=
  exists c dp cp dk ck, ev_cmd (snd (fst e)) = Some c /\ stored (d_fs (fst (fst e))) dp cp dk ck /\ (change_cmd c /\ gives c dp cp \/ unblock_cmd c /\ gives c dk ck).
Definition changes_puk (e : entry) : Prop :=
  exists c dp cp dk ck, ev_cmd (snd (fst e)) = Some c /\ stored (d_fs (fst (fst e))) dp cp dk ck /\ change_puk_cmd c /\ gives c dk ck.
Definition puk_value (d : dev) : option bytes := fdata (d_fs d) "piv-puk".
Lemma boot_keeps F rnd : F "piv-alg" <> None -> d_fs (boot F [] rnd) = F.
Proof.
  intros H. unfold boot, installed, piv_install, bind, modify, start, get_file_size, pop_fault, got, read_file, ALGORITHM_EXT_CONFIG_PATH, bind, ret. cbn.
  destruct (F "piv-alg") as [f|] eqn:E; [|congruence]. cbn. rewrite E. reflexivity.
Qed.
Theorem C33_history : forall K tr0 d0 tr d dp cp dk ck, since_boot K tr0 d0 -> stored (d_fs d0) dp cp dk ck -> hist K d0 tr d ->
  Forall (fun e => no_reset (snd (fst e))) tr ->
  (exists dp' cp' dk' ck', stored (d_fs d) dp' cp' dk' ck') /\
  (pin_value d <> pin_value d0 -> Exists changes_pin tr) /\ (puk_value d <> puk_value d0 -> Exists changes_puk tr).
Proof.
  intros K tr0 d0 tr d dp cp dk ck Hb Hs H HF. induction H as [d0|d0 tr d v o d' H IH Hok Hst].
  - split; [eauto|]. split; intros W; elim W; reflexivity.
  - apply Forall_app in HF. destruct HF as [HF Hv]. inversion Hv as [|? ? Hv1 _]; subst. cbn [fst snd] in Hv1.
    destruct (IH Hb Hs HF) as ((dp1 & cp1 & dk1 & ck1 & Hs1) & I1 & I2). clear IH.
    assert (Ho : objpath (d_ram d)) by (eapply hist_obj; [eapply since_obj, Hb|exact H]).
    assert (Hpv : forall G dp' cp' dk' ck', stored G dp' cp' dk' ck' -> fdata G "piv-pin" = Some dp' /\ fdata G "piv-puk" = Some dk').
    { intros G dp' cp' dk' ck' ((E1 & _) & (E2 & _) & _). auto. }
    assert (Hcmd : forall x G, ev_cmd v = Some (x_apdu x) -> okimg (x_apdu x) dp1 dk1 cp1 ck1 G -> d_fs d' = G ->
      (exists dp' cp' dk' ck', stored (d_fs d') dp' cp' dk' ck') /\
      (pin_value d' <> pin_value d0 -> Exists changes_pin (tr ++ [(d, v, o)])) /\ (puk_value d' <> puk_value d0 -> Exists changes_puk (tr ++ [(d, v, o)]))).
    { intros x G Ex (dp' & cp' & dk' & ck' & Q1 & M1 & M2 & _) EG. rewrite EG. split; [eauto|].
      destruct (Hpv _ _ _ _ _ Q1) as [P1 P2]. destruct (Hpv _ _ _ _ _ Hs1) as [P3 P4]. unfold pin_value, puk_value in *. rewrite EG, P1, P2. rewrite P3 in I1. rewrite P4 in I2.
      split; intros W; apply Exists_app.
      - destruct (list_eq_dec Z.eq_dec dp' dp1) as [->|Ne]; [left; apply I1; exact W|right]. constructor. exists (x_apdu x), dp1, cp1, dk1, ck1. cbn [fst snd].
        split; [exact Ex|]. split; [exact Hs1|]. apply M1, Ne.
      - destruct (list_eq_dec Z.eq_dec dk' dk1) as [->|Ne]; [left; apply I2; exact W|right]. constructor. exists (x_apdu x), dp1, cp1, dk1, ck1. cbn [fst snd].
        split; [exact Ex|]. split; [exact Hs1|]. apply M2, Ne. }
    assert (Hsame : (forall q, In q ["piv-pin"; "piv-puk"; "piv-alg"] -> d_fs d' q = d_fs d q) ->
      (exists dp' cp' dk' ck', stored (d_fs d') dp' cp' dk' ck') /\
      (pin_value d' <> pin_value d0 -> Exists changes_pin (tr ++ [(d, v, o)])) /\ (puk_value d' <> puk_value d0 -> Exists changes_puk (tr ++ [(d, v, o)]))).
    { intros E. assert (E1 : d_fs d' "piv-pin" = d_fs d "piv-pin") by (apply E; cbn; auto). assert (E2 : d_fs d' "piv-puk" = d_fs d "piv-puk") by (apply E; cbn; auto).
      assert (E3 : d_fs d' "piv-alg" = d_fs d "piv-alg") by (apply E; cbn; auto). split.
      - exists dp1, cp1, dk1, ck1. unfold stored, pin_inv, fdata, fattr in *. cbn [pin_path pin puk] in *. rewrite E1, E2, E3. exact Hs1.
      - unfold pin_value, puk_value, fdata in *. rewrite E1, E2. split; intros W; apply Exists_app; left; auto. }
    destruct v as [x|x n flt rnd| |flt rnd|flt rnd n flt' rnd'|F]; cbn [step no_reset] in Hst, Hv1; try contradiction.
    + pose proof (exec_wp K d x (fun _ _ e => okimg (x_apdu x) dp1 dk1 cp1 ck1 (e_fs e))) as W. destruct (exec K d x) as [[[r|] s'] e]; [|discriminate]. injection Hst as _ <-.
      eapply (Hcmd x); [reflexivity| |reflexivity]. apply W. eapply wp_mono; [apply body_wp; [exact Ho|exact Hs1|exact Hv1]|]. intros ? ? ? (Q & _). exact Q.
    + destruct Hv1 as [Hv1 ->].
      pose proof (exec_wp K d x (fun _ _ e => okimg (x_apdu x) dp1 dk1 cp1 ck1 (e_fs e) /\ Forall (okimg (x_apdu x) dp1 dk1 cp1 ck1) (e_log e))) as W.
      destruct (exec K d x) as [[r s'] e]. injection Hst as _ <-.
      destruct W as [W1 W2]; [eapply wp_mono; [apply body_wp; [exact Ho|exact Hs1|exact Hv1]|]; intros ? ? ? (Q1 & Q2 & _); auto|].
      assert (W3 : okimg (x_apdu x) dp1 dk1 cp1 ck1 (nth n (e_log e) (e_fs e))).
      { destruct (nth_in_or_default n (e_log e) (e_fs e)) as [Q| ->]; [|exact W1]. rewrite Forall_forall in W2. apply W2, Q. }
      eapply (Hcmd x); [reflexivity|exact W3|]. apply boot_keeps. destruct W3 as (? & ? & ? & ? & (_ & _ & Q) & _). exact Q.
    + injection Hst as _ <-. apply Hsame. reflexivity.
    + injection Hst as _ <-. apply Hsame. cbn [ev_ok d_fs] in *. intros q Hq. apply Hok. unfold piv_files, piv_objects, piv_keys. cbn in *. intuition auto 25.
Qed.
Print Assumptions C33_history.

(** A fresh card; the host blocks the PIN, then unblocks it with the PUK and a new PIN. *)
Definition stored_seen (F : fs) : option (bytes * Z * bytes * Z) :=
  match fdata F "piv-pin", fattr F "piv-pin" 0, fattr F "piv-pin" 1, fdata F "piv-puk", fattr F "piv-puk" 0, fattr F "piv-puk" 1, F "piv-alg" with
  | Some dp, Some [cp], Some [3], Some dk, Some [ck], Some [3], Some _ => if (zlen dp <=? 64) && (zlen dk <=? 64) && (0 <=? cp) && (cp <=? 3) && (0 <=? ck) && (ck <=? 3) then Some (dp, cp, dk, ck) else None
  | _, _, _, _, _, _, _ => None
  end.
Lemma seen_stored F dp cp dk ck : stored_seen F = Some (dp, cp, dk, ck) -> stored F dp cp dk ck.
Proof.
  unfold stored_seen, stored, pin_inv. cbn [pin_path pin puk]. unfold RETRY_ATTR, DEFAULT_RETRY_ATTR.
  destruct (fdata F "piv-pin") as [a|]; [|discriminate]. destruct (fattr F "piv-pin" 0) as [[|b [|]]|]; try discriminate.
  destruct (fattr F "piv-pin" 1) as [[|z [|]]|]; try discriminate. all: destruct z as [|[[]|[]|]|]; try discriminate.
  destruct (fdata F "piv-puk") as [a'|]; [|discriminate]. destruct (fattr F "piv-puk" 0) as [[|b' [|]]|]; try discriminate.
  destruct (fattr F "piv-puk" 1) as [[|z [|]]|]; try discriminate. all: destruct z as [|[[]|[]|]|]; try discriminate.
  destruct (F "piv-alg"); [|discriminate]. destruct (_ && _) eqn:E; [|discriminate]. intros H. injection H as <- <- <- <-.
  repeat split; try lia. discriminate.
Qed.
Definition wrong_pin : capdu := mkC 0 0x20 0 0x80 (repeat 0x39 8) 256.
Definition unblock : capdu := mkC 0 0x2C 0 0x80 (DEFAULT_PUK ++ repeat 0x38 8) 256.
Example C33_ex : exists tr d, since_boot toy tr d /\ stored (d_fs d) DEFAULT_PIN 0 DEFAULT_PUK 3 /\
  map (fun e => option_map r_sw (snd e)) tr = [Some 0x63C2; Some 0x63C1; Some 0x6983; Some 0x6983] /\
  unblock_cmd unblock /\ exists r d', step toy d (Do (plain unblock)) = Some (Some r, d') /\ r_sw r = 0x9000 /\ stored (d_fs d') (repeat 0x38 8) 3 DEFAULT_PUK 3.
Proof.
  destruct (sees_ran (run_all toy (boot fs_empty [] []) [Do (plain wrong_pin); Do (plain wrong_pin); Do (plain wrong_pin); Do (plain verify_default)])
    (fun tr d => (map (fun e => option_map r_sw (snd e)) tr, stored_seen (d_fs d),
       match step toy d (Do (plain unblock)) with Some (Some r, d') => Some (r_sw r, stored_seen (d_fs d')) | _ => None end))
    ([Some 0x63C2; Some 0x63C1; Some 0x6983; Some 0x6983], Some (DEFAULT_PIN, 0, DEFAULT_PUK, 3), Some (0x9000, Some (repeat 0x38 8, 3, DEFAULT_PUK, 3)))) as (tr & d & E & H);
    [vm_compute; reflexivity|].
  pose proof (f_equal snd H) as H3. pose proof (f_equal (fun x => snd (fst x)) H) as H2. pose proof (f_equal (fun x => fst (fst x)) H) as H1. cbn [fst snd] in H1, H2, H3. clear H.
  exists tr, d. split; [eapply run_all_since; [|exact E]; bytes_ok|]. clear E. split; [apply seen_stored, H2|]. split; [exact H1|]. split; [repeat split|].
  destruct (step toy d (Do (plain unblock))) as [[[r|] d']|]; [|discriminate H3|discriminate H3]. exists r, d'. split; [reflexivity|].
  apply (f_equal (fun x => match x with Some y => y | None => (0, None) end)) in H3. apply pair_equal_spec in H3. destruct H3 as [H3 H4].
  split; [exact H3|apply seen_stored, H4].
Qed.
