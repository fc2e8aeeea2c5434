(** What the PIV commands leave alone. *)
From Verif Require Export Sys Apdu Applet Frame Pin Tlv Key PropKey Piv PivSpec PropPivGa.
Open Scope string_scope. Open Scope list_scope. Open Scope Z_scope.

(** ** Commands as computations that leave things alone *)
Ltac piv_unfold :=
  unfold must, mustz, got, opt, ck_write_key, ck_write_key_metadata, ck_read_key, ck_read_key_metadata, ck_generate_key,
    create_key, verified, pin_verify, pin_verify_gen, pin_update, pin_get_retries, pin_get_default_retries, pin_get_attr,
    pin_get_size, pin_create, no_args, Admin.fill_sn.

Definition noadmin (s : piv) : Prop := v_admin s = false.
Lemma fr_admin {A} P (k : M piv A) : frame noadmin P (admin_only ;;; k).
Proof. intros s e H. unfold wp, admin_only, bind, get, guard. destruct H as (H & H'). rewrite H. split; assumption. Qed.

Ltac fr A := repeat first [ apply fr_admin | frame1
  | apply fr_write_file; apply A | apply fr_append_file; apply A | apply fr_write_attr; apply A ].

(** the authentication state *)
Definition auth_is (st : Z) (ch : bytes) (ad : bool) (s : piv) : Prop := v_state s = st /\ v_chal s = ch /\ v_admin s = ad.
Definition chal_is (st : Z) (ch : bytes) (s : piv) : Prop := v_state s = st /\ v_chal s = ch.
Lemma anyfs p : indep (fun _ => True) p. Proof. intros F x _. exact I. Qed.
(** everything but the PIN and the PUK *)
Definition rest_is (F : fs) (G : fs) : Prop := forall q, q <> "piv-pin" -> q <> "piv-puk" -> G q = F q.
Lemma rest_pin F : indep (rest_is F) (pin_path pin).
Proof. intros G x H q Q1 Q2. rewrite fset_other by exact Q1. apply H; assumption. Qed.
Lemma rest_puk F : indep (rest_is F) (pin_path puk).
Proof. intros G x H q Q1 Q2. rewrite fset_other by exact Q2. apply H; assumption. Qed.

Section Frames.
Variable K : crypto.
Variable nfc : bool.
Variables t1 t2 : Z.
Notation body := (piv_body K nfc t1 t2).
Notation ga := (piv_general_authenticate K nfc t1 t2).

Lemma fr_others st ch ad c tail : c_ins c <> 0x87 -> c_ins c <> 0xA4 -> c_ins c <> 0xFB ->
  frame (auth_is st ch ad) (fun _ => True) (body c tail).
Proof.
  intros N1 N2 N3. unfold piv_body. pose proof anyfs as A.
  apply fr_bind; [apply fr_guard|intros _]. apply fr_bind; [destruct (_ =? _); fr A|intros _]. apply fr_bind; [destruct (_ =? _); fr A|intros _].
  destruct (Z.eqb_spec (c_ins c) 0xA4); [contradiction|].
  destruct (c_ins c =? 0xCB); [unfold piv_get_data, piv_get_large_data; piv_unfold; fr A|].
  destruct (c_ins c =? 0xC0); [unfold piv_get_data_response; piv_unfold; fr A|].
  destruct (c_ins c =? 0x20); [unfold piv_verify; piv_unfold; fr A|].
  destruct (c_ins c =? 0x24); [unfold piv_change_reference_data; piv_unfold; destruct (c_p2 c =? 0x80); fr A|].
  destruct (c_ins c =? 0x2C); [unfold piv_reset_retry_counter; piv_unfold; fr A|].
  destruct (Z.eqb_spec (c_ins c) 0x87); [contradiction|].
  destruct (c_ins c =? 0xDB); [unfold piv_put_data, admin_only; piv_unfold; fr A|].
  destruct (c_ins c =? 0x47); [unfold piv_generate, admin_only; piv_unfold; fr A|].
  destruct (c_ins c =? 0xFF); [unfold piv_set_management_key, admin_only; piv_unfold; fr A|].
  destruct (Z.eqb_spec (c_ins c) 0xFB); [contradiction|].
  destruct (c_ins c =? 0xFE); [unfold piv_import, admin_only; piv_unfold; fr A|].
  destruct (c_ins c =? 0xFD); [unfold piv_get_version; piv_unfold; fr A|].
  destruct (c_ins c =? 0xF8); [unfold piv_get_serial; piv_unfold; fr A|].
  destruct (c_ins c =? 0xF7); [unfold piv_get_metadata; piv_unfold; fr A|].
  destruct (c_ins c =? 0xEE); [unfold piv_algorithm_extension, admin_only; piv_unfold; fr A|].
  apply fr_except.
Qed.

Lemma anyst s : (fun _ : piv => True) s. Proof. exact I. Qed.
(** GENERAL AUTHENTICATE writes nothing *)
Lemma fr_ga P c tail : frame (fun _ => True) P (ga c tail).
Proof.
  unfold piv_general_authenticate, ga_internal, ga_external_request, ga_external_response, ga_mutual_request, ga_mutual_response, ga_ecdh,
    piv_security_status_check, piv_touch; piv_unfold. cbv zeta.
  repeat first [frame1 | apply fr_modify; exact (fun _ _ => I)].
Qed.
(** Without management authentication no command but RESET writes anything but the PIN and the PUK. *)
Lemma fr_rest F c tail : c_ins c <> 0xFB -> c_ins c <> 0x87 -> frame noadmin (rest_is F) (body c tail).
Proof.
  intros N3 N1. unfold piv_body. pose proof (rest_pin F) as A. pose proof (rest_puk F) as B.
  apply fr_bind; [apply fr_guard|intros _]. apply fr_bind; [destruct (_ =? _); fr A|intros _]. apply fr_bind; [destruct (_ =? _); fr A|intros _].
  destruct (c_ins c =? 0xA4).
  { unfold piv_select. apply fr_bind; [apply fr_guard|intros _]. apply fr_bind; [|intros _; fr A]. apply fr_modify. intros s _. reflexivity. }
  destruct (c_ins c =? 0xCB); [unfold piv_get_data, piv_get_large_data; piv_unfold; fr A|].
  destruct (c_ins c =? 0xC0); [unfold piv_get_data_response; piv_unfold; fr A|].
  destruct (c_ins c =? 0x20); [unfold piv_verify; piv_unfold; fr A|].
  destruct (c_ins c =? 0x24); [unfold piv_change_reference_data; piv_unfold; destruct (c_p2 c =? 0x80); [fr A|fr B]|].
  destruct (c_ins c =? 0x2C); [unfold piv_reset_retry_counter; piv_unfold; fr A; fr B|].
  destruct (Z.eqb_spec (c_ins c) 0x87); [contradiction|].
  destruct (c_ins c =? 0xDB); [unfold piv_put_data; fr A|].
  destruct (c_ins c =? 0x47); [unfold piv_generate; fr A|].
  destruct (c_ins c =? 0xFF); [unfold piv_set_management_key; fr A|].
  destruct (Z.eqb_spec (c_ins c) 0xFB); [contradiction|].
  destruct (c_ins c =? 0xFE); [unfold piv_import; fr A|].
  destruct (c_ins c =? 0xFD); [unfold piv_get_version; piv_unfold; fr A|].
  destruct (c_ins c =? 0xF8); [unfold piv_get_serial; piv_unfold; fr A|].
  destruct (c_ins c =? 0xF7); [unfold piv_get_metadata; piv_unfold; fr A|].
  destruct (c_ins c =? 0xEE); [unfold piv_algorithm_extension; fr A|].
  apply fr_except.
Qed.

Lemma fr_ignore (I : piv -> Prop) P m : frame I P m -> frame I P (ignore m).
Proof. intros H s e Hg. specialize (H s e Hg). unfold wp, ignore in *. destruct (m s e) as [[[a|w| |] s'] e']; exact H. Qed.
Lemma fr_install_tail (I : piv -> Prop) P reset : (forall p, indep P p) -> (forall s, I s -> I (piv_poweroff s)) -> (forall d s, I s -> I (set_alg d s)) ->
  frame I P (piv_install reset).
Proof.
  intros A Hp Ha. unfold piv_install; piv_unfold.
  repeat first [ apply fr_modify; intros ? ?; first [apply Ha; assumption|apply Hp; assumption] | frame1
    | apply fr_write_file; apply A | apply fr_write_attr; apply A ].
Qed.
End Frames.

