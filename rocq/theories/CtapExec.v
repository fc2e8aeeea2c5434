(** A storage invariant of whole commands. *)
From Verif Require Import CtapFrame CtapSpec.
Open Scope string_scope. Open Scope list_scope. Open Scope Z_scope.

Section Ex.
Variable K : fcrypto.
Variables P Q : fs -> Prop.
Hypothesis PQ : forall F, P F -> Q F.
Definition anyst (_ : ctap) : Prop := True.
Notation kp := (keep anyst P Q).
Hypothesis P_dc : indep P DC_FILE.
Hypothesis P_dm : indep P DC_META_FILE.
Hypothesis P_lbt : indep P LB_FILE_TMP.
Hypothesis P_ren : kp (fs_rename LB_FILE_TMP LB_FILE).
Hypothesis P_attr : forall a v, a <> PIN_ATTR -> a <> PIN_CTR_ATTR -> a <> KH_KEY_ATTR -> kp (write_attr CTAP_CERT_FILE a v).
Hypothesis P_cert : forall d, kp (write_file CTAP_CERT_FILE d 0 true).
(** The commands that are left out: those of the PIN, and the resets *)
Definition left_out (x : cmd) : Prop :=
  match x_op x with
  | OCbor q => if is_pin q || is_reset q then kp (cbor_cmd K (x_nfc x) (x_t1 x) (x_t2 x) (x_junk x) q) else True
  | OReset => kp (ctap_install K true)
  | _ => True
  end.
Lemma ex_count : kp increase_counter.
Proof.
  unfold increase_counter. apply kp_bind; [apply kp_got, kp_read_attr|intros v]. cbv zeta.
  apply kp_bind; [apply kp_must, P_attr; discriminate|intros _; apply kp_ret].
Qed.
Lemma exec_keep d x : P (d_fs d) -> left_out x -> let '(o, s, e) := exec K d x in P (e_fs e) /\ Forall Q (e_log e).
Proof.
  intros HP Hx. pose proof (exec_wp K d x (fun _ _ e => P (e_fs e) /\ Forall Q (e_log e))) as W. destruct (exec K d x) as [[o s] e]. apply W. clear W o s e.
  assert (G : kgood anyst P Q (d_ram d) (start (d_fs d) (x_flt x) (x_rnd x) (x_tch x))).
  { split; [exact I|]. split; [exact HP|]. constructor; [apply PQ, HP|constructor]. }
  assert (B : forall (m : Mc Z), kp m -> wp m (fun o _ e => match o with Ret _ | Exc _ => P (e_fs e) /\ Forall Q (e_log e) | Fail => P (e_fs e) /\ Forall Q (e_log e) | UB => P (e_fs e) /\ Forall Q (e_log e) end)
      (d_ram d) (start (d_fs d) (x_flt x) (x_rnd x) (x_tch x))).
  { intros m Hm. eapply wp_mono; [apply Hm, G|]. intros [] s e (H1 & H2 & H3); auto. }
  assert (BC : forall q, kp (cbor_cmd K (x_nfc x) (x_t1 x) (x_t2 x) (x_junk x) q) -> wp (cbor_body K x q)
      (fun o s e => match o with Ret (c, v) => P (e_fs e) /\ Forall Q (e_log e) | _ => P (e_fs e) /\ Forall Q (e_log e) end) (d_ram d) (start (d_fs d) (x_flt x) (x_rnd x) (x_tch x))).
  { intros q Hm. eapply wp_mono; [exact (kp_process K _ _ _ _ anyst P Q (fun _ _ _ => I) (x_cap x) q Hm _ _ G)|]. intros [[c v]| | |] s e (H1 & H2 & H3); auto. }
  unfold left_out in Hx. destruct (x_op x) as [q|da|p1 da| |da|da|da] eqn:Ex.
  - apply BC. destruct (is_pin q || is_reset q) eqn:E; [exact Hx|]. apply orb_false_iff in E.
    eapply (kp_cbor K) with (okq := fun _ => True); try exact PQ; try exact P_dc; try exact P_dm; try exact P_lbt; try exact P_ren; try exact ex_count; try apply E; try (intros; exact I).
    destruct q as [|[|]| | | | | | | | ]; exact Logic.I.
  - unfold body. rewrite Ex. apply B. apply kp_bind; [eapply kp_register|intros; apply kp_ret].
  - unfold body. rewrite Ex. apply B. apply kp_bind; [|intros; apply kp_ret]. eapply kp_auth. apply ex_count.
  - unfold body. rewrite Ex. apply B. apply kp_bind; [exact Hx|intros; apply kp_ret].
  - unfold body. rewrite Ex. apply B. apply kp_bind; [|intros; apply kp_ret]. unfold install_private_key. apply kp_bind; [apply kp_guard|intros _]. apply kp_bind; [apply kp_modify; intros; exact I|intros _].
    apply kp_bind; [apply kp_must, P_attr; discriminate|intros _; apply kp_must, P_attr; discriminate].
  - unfold body. rewrite Ex. apply B. apply kp_bind; [|intros; apply kp_ret]. unfold install_cert. apply kp_bind; [apply kp_guard|intros _]. apply kp_must, P_cert.
  - unfold body. rewrite Ex. apply B. apply kp_bind; [|intros; apply kp_ret]. unfold write_sm2_config. apply kp_bind; [apply kp_guard|intros _]. apply kp_bind; [apply P_attr; discriminate|intros ok]. apply kp_bind; [apply kp_modify; intros; exact I|intros _; apply kp_guard].
Qed.
End Ex.
