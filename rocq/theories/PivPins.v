(** The PIV PIN and PUK: the words to state how they change, and the commands that leave them alone. *)
From Verif Require Import Sys Apdu Applet Frame Pin PinProofs PinWp Tlv Key PropKey Piv PivSpec PropPivGa PivFrame PropPivAuth PropPivPin.
Open Scope string_scope. Open Scope list_scope. Open Scope Z_scope.

(** ** The words *)
(** In this storage the PIN is [dp] with [cp] tries left and the PUK is [dk] with [ck] tries left, out of three each. *)
Definition stored (F : fs) (dp : bytes) (cp : Z) (dk : bytes) (ck : Z) : Prop :=
  pin_inv pin 3 dp cp F /\ pin_inv puk 3 dk ck F /\ F "piv-alg" <> None.
Definition change_puk_cmd (c : capdu) : Prop := c_cla c = 0 /\ c_ins c = 0x24 /\ c_p1 c = 0 /\ c_p2 c = 0x81 /\ c_lc c = 16.
Definition unblock_cmd (c : capdu) : Prop := c_cla c = 0 /\ c_ins c = 0x2C /\ c_p1 c = 0 /\ c_p2 c = 0x80 /\ c_lc c = 16.
(** The command presents the secret [d], of which [k] tries are left. *)
Definition gives (c : capdu) (d : bytes) (k : Z) : Prop := k <> 0 /\ firstn 8 (c_data c) = d.
Definition new_value (c : capdu) : bytes := skipn 8 (c_data c).
(** What command [c] may make of the PIN and the PUK *)
Definition may_become (c : capdu) (dp : bytes) (cp : Z) (dk : bytes) (ck : Z) (dp' : bytes) (cp' : Z) (dk' : bytes) (ck' : Z) : Prop :=
  (dp' <> dp -> (change_cmd c /\ gives c dp cp \/ unblock_cmd c /\ gives c dk ck) /\ dp' = new_value c) /\
  (dk' <> dk -> (change_puk_cmd c /\ gives c dk ck) /\ dk' = new_value c) /\
  (cp' > cp -> (verify_cmd c \/ change_cmd c) /\ gives c dp cp \/ unblock_cmd c /\ gives c dk ck) /\
  (ck' > ck -> (change_puk_cmd c \/ unblock_cmd c) /\ gives c dk ck).

(** ** Commands that leave both alone *)
Definition objpath (s : piv) : Prop := v_path s = "" \/ In (v_path s) piv_objects.
Definition pins_are (F G : fs) : Prop := G "piv-pin" = F "piv-pin" /\ G "piv-puk" = F "piv-puk" /\ G "piv-alg" <> None.
Definition pfile (p : path) : Prop := p <> "piv-pin" /\ p <> "piv-puk" /\ p <> "piv-alg".
Lemma pins_indep F p : pfile p -> indep (pins_are F) p.
Proof. intros (N1 & N2 & N3) G x (H1 & H2 & H3). unfold pins_are. rewrite !fset_other by congruence. auto. Qed.
Lemma obj_pfile p : In p piv_objects -> pfile p.
Proof. intros H. unfold piv_objects in H. repeat destruct H as [<-|H]; try (repeat split; discriminate). contradiction. Qed.
Lemma key_pfile id p : key_slot id = Some p -> pfile p.
Proof.
  unfold key_slot, get_key_path, CARD_ADMIN_KEY_PATH.
  repeat match goal with |- context [id =? ?n] => destruct (id =? n) end; intros H; try discriminate H; injection H as <-; repeat split; discriminate.
Qed.
Lemma tag_obj tag p : get_object_path_by_tag tag = Some p -> In p piv_objects.
Proof.
  unfold get_object_path_by_tag, piv_objects.
  repeat match goal with |- context [tag =? ?n] => destruct (tag =? n) end; intros H; try discriminate H; injection H as <-; cbn; auto 12.
Qed.

Section Gen.
Context {S : Type} (I : S -> Prop) (P : fs -> Prop).
Lemma fr_get_bind {A} (k : S -> M S A) : (forall s, I s -> frame I P (k s)) -> frame I P (s <- get ;; k s).
Proof. intros H s e Hg. apply wp_bind, wp_get. apply H; [apply Hg|exact Hg]. Qed.
Lemma fr_write_some p d o t : (forall F x, P F -> P (fset F p (Some x))) -> frame I P (write_file p d o t).
Proof.
  intros Hp s e H. assert (W : forall e x, fgood I P s e -> fgood I P s (commit (fset (e_fs e) p (Some x)) e)).
  { intros e0 x (H1 & H2 & H3). split; [exact H1|]. split; [apply Hp, H2|]. constructor; [apply Hp, H2|exact H3]. }
  apply (fr_pop I P) in H. unfold wp, write_file. destruct (pop_fault e) as [x e']. cbn [snd] in H.
  destruct x; try exact H; (destruct (e_fs e' p) as [f|] eqn:E;
    [ rewrite ?E; try exact H; apply W; assumption
    | cbn [e_fs commit]; rewrite ?fset_same; pose proof (W e' (mkF [] no_attr) H) as H1; try exact H1; exact (W _ _ H1) ]).
Qed.
End Gen.

Ltac setp := intros ? ?; first [assumption | exact (fun x => x) | left; reflexivity | right; cbn [v_path set_path set_write set_read]; assumption].
Ltac frp A := repeat first
  [ match goal with
    | |- frame _ _ (bind get _) => apply fr_get_bind; intros ? ?
    | |- frame _ _ (match get_object_path_by_tag ?t with _ => _ end) =>
        let p := fresh "p" in let E := fresh "E" in destruct (get_object_path_by_tag t) as [p|] eqn:E; [apply tag_obj in E|]
    | |- frame _ _ (match key_slot ?t with _ => _ end) =>
        let p := fresh "p" in let E := fresh "E" in destruct (key_slot t) as [p|] eqn:E; [apply key_pfile in E|]
    | |- frame _ _ (if String.eqb (v_path ?s) "" then _ else _) => destruct (String.eqb_spec (v_path s) "")
    | H : objpath ?s, N : v_path ?s <> "" |- frame _ _ (append_file (v_path ?s) _) => apply fr_append_file, A, obj_pfile; destruct H; [contradiction|assumption]
    end
  | frame1 | apply fr_modify; setp
  | apply fr_write_file; apply A; first [assumption|apply obj_pfile; assumption | repeat split; discriminate]
  | apply fr_write_attr; apply A; first [assumption|repeat split; discriminate]].

Section Cmds.
Variable K : crypto.
Lemma fr_pins_gen P nfc t1 t2 c tail : (forall p, pfile p -> indep P p) -> (forall F x, P F -> P (fset F "piv-alg" (Some x))) ->
  c_ins c <> 0x20 -> c_ins c <> 0x24 -> c_ins c <> 0x2C -> c_ins c <> 0xFB ->
  frame objpath P (piv_body K nfc t1 t2 c tail).
Proof.
  intros A HA N1 N2 N3 N4. unfold piv_body.
  apply fr_bind; [apply fr_guard|intros _]. apply fr_bind; [destruct (_ =? _); frp A|intros _]. apply fr_bind; [destruct (_ =? _); frp A|intros _].
  destruct (c_ins c =? 0xA4); [unfold piv_select; frp A|].
  destruct (c_ins c =? 0xCB).
  { unfold piv_get_data, piv_get_large_data; piv_unfold. frp A. }
  destruct (c_ins c =? 0xC0); [unfold piv_get_data_response; piv_unfold; frp A|].
  destruct (Z.eqb_spec (c_ins c) 0x20); [contradiction|].
  destruct (Z.eqb_spec (c_ins c) 0x24); [contradiction|].
  destruct (Z.eqb_spec (c_ins c) 0x2C); [contradiction|].
  destruct (c_ins c =? 0x87).
  { unfold piv_general_authenticate, ga_internal, ga_external_request, ga_external_response, ga_mutual_request, ga_mutual_response, ga_ecdh,
      piv_security_status_check, piv_touch; piv_unfold. cbv zeta. frp A. }
  destruct (c_ins c =? 0xDB).
  { unfold piv_put_data, admin_only; piv_unfold. frp A. }
  destruct (c_ins c =? 0x47).
  { unfold piv_generate, admin_only; piv_unfold. frp A. }
  destruct (c_ins c =? 0xFF); [unfold piv_set_management_key, admin_only; piv_unfold; frp A|].
  destruct (Z.eqb_spec (c_ins c) 0xFB); [contradiction|].
  destruct (c_ins c =? 0xFE).
  { unfold piv_import, admin_only; piv_unfold. frp A. }
  destruct (c_ins c =? 0xFD); [unfold piv_get_version; piv_unfold; frp A|].
  destruct (c_ins c =? 0xF8); [unfold piv_get_serial; piv_unfold; frp A|].
  destruct (c_ins c =? 0xF7); [unfold piv_get_metadata; piv_unfold; frp A|].
  destruct (c_ins c =? 0xEE).
  { unfold piv_algorithm_extension, admin_only; piv_unfold. frp A. apply fr_write_some, HA. }
  apply fr_except.
Qed.
Lemma fr_pins nfc t1 t2 c tail F : c_ins c <> 0x20 -> c_ins c <> 0x24 -> c_ins c <> 0x2C -> c_ins c <> 0xFB ->
  frame objpath (pins_are F) (piv_body K nfc t1 t2 c tail).
Proof.
  intros. apply fr_pins_gen; try assumption; [apply pins_indep|].
  intros G x (Q1 & Q2 & Q3). unfold pins_are. rewrite !fset_other, fset_same by discriminate. split; [exact Q1|]. split; [exact Q2|discriminate].
Qed.
End Cmds.
