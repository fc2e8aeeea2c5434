(** C35: the template of GENERAL AUTHENTICATE. *)
From Verif Require Import Sys Apdu Applet Pin Tlv Key PropKey Piv PivSpec.
Open Scope string_scope. Open Scope list_scope. Open Scope Z_scope.

(** [pos] and [len] recorded for a tag describe its value: inside the data, after the four bytes of the headers. *)
Definition describes (d : bytes) (r : Z * Z) (v : option bytes) : Prop :=
  match v with
  | None => r = (0, 0)
  | Some v => 4 <= fst r /\ fst r + snd r <= zlen d /\ snd r = zlen v /\ slice (fst r) (snd r) d = v
  end.
Definition describes_all (d : bytes) (t : tpl) (val : Z -> option bytes) : Prop :=
  describes d (t_w t) (val 0x80) /\ describes d (t_c t) (val 0x81) /\ describes d (t_r t) (val 0x82) /\ describes d (t_x t) (val 0x85).

Lemma drop_len a b : drop (zlen a) (a ++ b) = b.
Proof. unfold drop, zlen. rewrite Nat2Z.id, skipn_app, skipn_all, Nat.sub_diag. reflexivity. Qed.

Section Parse.
Variable buf : bytes.
Variable len : Z.
Hypothesis Hlen : 0 <= len <= zlen buf.
Hypothesis Hbuf : all_bytes buf.
Notation cut := (firstn (Z.to_nat len) buf).

Definition value_from (v0 : option bytes) (tag : Z) (l : list (Z * bytes)) : option bytes :=
  fold_left (fun r x => if fst x =? tag then Some (snd x) else r) l v0.
Lemma elements_parse fuel : forall p t val, 2 <= p <= len -> (Z.to_nat (len - p) <= fuel)%nat ->
  describes_all cut t val ->
  inside buf len (fun b => ga_elements fuel b p len t)
    (fun t' => exists l, elements (drop p cut) l /\ describes_all cut t' (fun tag => value_from (val tag) tag l)).
Proof.
  induction fuel as [|fuel IH]; intros p t val Hp Hf Ht; cbn [ga_elements].
  { apply in_ret. exists []. split; [|exact Ht]. rewrite drop_end; [constructor|lia|rewrite (zlen_cut buf len Hlen); lia]. }
  destruct (Z.ltb_spec p len) as [Hlt|Hge]; cbn [negb].
  2: { apply in_ret. exists []. split; [|exact Ht]. rewrite drop_end; [constructor|lia|rewrite (zlen_cut buf len Hlen); lia]. }
  eapply in_bind; [apply in_rd; try assumption; lia|]; cbv beta; intros tag [_ Htag].
  eapply in_bind; [apply in_guard|]; cbv beta; intros _ G.
  eapply in_bind; [apply in_tlv; try assumption; lia|]; cbv beta; intros [n q] (lb & L1 & L2 & L3 & L4 & L5 & L6). cbn [fst snd] in *.
  assert (Hlb : 1 <= zlen lb) by (inversion L2; autorewrite with zlen; lia).
  set (v := slice q n cut).
  assert (Hv : zlen v = n) by (unfold v; rewrite zlen_slice by lia; rewrite (zlen_cut buf len Hlen); lia).
  assert (Hd : describes cut (q, n) (Some v)).
  { cbn [describes fst snd]. rewrite (zlen_cut buf len Hlen). split; [lia|]. split; [lia|]. split; [lia|reflexivity]. }
  set (val' := fun tg => if tg =? tag then Some v else val tg).
  assert (Ht' : describes_all cut (put_tpl tag (q, n) t) val').
  { destruct Ht as (T1 & T2 & T3 & T4). unfold val'.
    assert (tag = 0x80 \/ tag = 0x81 \/ tag = 0x82 \/ tag = 0x85) as [->|[->|[->| ->]]] by lia; cbn;
      (split; [|split; [|split]]); assumption || exact Hd. }
  eapply in_mono; [apply (IH (q + n) (put_tpl tag (q, n) t) val'); try assumption; lia|].
  cbv beta. intros t' (l & Hl & Hd'). exists ((tag, v) :: l). split.
  - rewrite (rd_drop _ _ _ Htag), L1.
    assert (drop q cut = v ++ drop (q + n) cut) as ->.
    { apply (drop_take buf len). rewrite sub_ok by (rewrite ?(zlen_cut buf len Hlen); lia). reflexivity. }
    change (tag :: lb ++ v ++ drop (q + n) cut) with ([tag] ++ lb ++ v ++ drop (q + n) cut).
    constructor; [cbn; lia|rewrite Hv; exact L2|exact Hl].
  - unfold value_from in *. cbn [fold_left fst snd]. unfold val' in Hd'.
    destruct Hd' as (T1 & T2 & T3 & T4). unfold describes_all. rewrite !(Z.eqb_sym tag). auto.
Qed.

Lemma template_parse : rd buf 0 = Some 0x7C -> 1 <= len ->
  inside buf len (fun b => ga_template b len)
    (fun t => exists l, template cut l /\ describes_all cut t (fun tag => value tag l)).
Proof.
  intros H0 H1. unfold ga_template.
  eapply in_bind; [apply in_tlv; try assumption; lia|]; cbv beta; intros [n q] (lb & L1 & L2 & L3 & L4 & L5 & L6). cbn [fst snd] in *.
  eapply in_mono; [apply (elements_parse _ q no_tpl (fun _ => None)); try lia|].
  { repeat split; reflexivity. }
  cbv beta. intros t (l & Hl & Hd). exists l. split; [|exact Hd].
  exists lb, n, (drop q cut). split; [|split; [exact L2|split; [|exact Hl]]].
  - rewrite <- (drop_0 cut) at 1. rewrite <- L1. rewrite <- (rd_firstn buf len) in H0 by lia. rewrite (rd_drop _ _ _ H0). reflexivity.
  - rewrite zlen_drop, (zlen_cut buf len Hlen) by lia. lia.
Qed.

(** The converse: a well-formed template is accepted. *)
Lemma elements_accept l : forall d p fuel t, elements d l -> drop p cut = d -> 0 <= p <= len -> (Z.to_nat (len - p) <= fuel)%nat ->
  exists t', ga_elements fuel buf p len t = Ret t'.
Proof.
  induction l as [|[tag v] l IH]; intros d p fuel t He Hd Hp Hf; inversion He; subst.
  - assert (p = len).
    { apply (f_equal zlen) in H. change (zlen (@nil Z)) with 0 in H. rewrite zlen_drop, (zlen_cut buf len Hlen) in H by lia. lia. }
    exists t. destruct fuel; cbn [ga_elements]; [reflexivity|]. destruct (Z.ltb_spec p len); [lia|reflexivity].
  - idtac.
    match goal with E : _ = drop p cut |- _ => rename E into Hd end. assert (Hz : zlen (drop p cut) = len - p) by (rewrite zlen_drop, (zlen_cut buf len Hlen) by lia; lia).
    assert (Hl1 : 1 <= zlen lb) by (inversion H4; autorewrite with zlen; lia). pose proof (zlen_nonneg v). pose proof (zlen_nonneg d0).
    rewrite <- Hd, !zlen_app in Hz. change (zlen [tag]) with 1 in Hz.
    destruct fuel as [|fuel]; [lia|]. cbn [ga_elements]. destruct (Z.ltb_spec p len); [|lia]. cbn [negb].
    assert (Hr : rd buf p = Some tag).
    { rewrite <- (rd_firstn buf len) by lia. unfold rd. destruct (Z.ltb_spec p 0); [lia|].
      assert (nth_error (drop p cut) 0 = Some tag) as Hn by (rewrite <- Hd; reflexivity).
      unfold drop in Hn. rewrite <- Hn. rewrite <- (firstn_skipn (Z.to_nat p) cut) at 1.
      rewrite nth_error_app2; [|rewrite firstn_length; lia]. rewrite firstn_length.
      replace (Z.to_nat p - Nat.min (Z.to_nat p) (length cut))%nat with 0%nat; [reflexivity|].
      pose proof (zlen_cut buf len Hlen). unfold zlen in *. lia. }
    rewrite Hr. cbn [oneed obind]. assert (Hg : (tag =? 0x80) || (tag =? 0x81) || (tag =? 0x82) || (tag =? 0x85) = true) by (cbn in H3; lia).
    rewrite Hg. cbn [oguard obind].
    assert (Hd1 : drop (p + 1) cut = lb ++ v ++ d0).
    { assert (rd cut p = Some tag) as Hr' by (rewrite rd_firstn by lia; exact Hr). pose proof (rd_drop _ _ _ Hr') as Hq. rewrite <- Hd in Hq. cbn [app] in Hq. injection Hq as Hq. symmetry. exact Hq. }
    assert (Ht : tlv_get_length_safe (drop (p + 1) buf) (len - (p + 1)) = Tlv (zlen v) false (Some (zlen lb))).
    { rewrite <- tlv_firstn by lia. apply tlv_exact.
      - rewrite zlen_drop, (zlen_cut buf len Hlen) by lia. lia.
      - unfold drop. apply all_bytes_skipn, all_bytes_firstn, Hbuf.
      - exists lb, (v ++ d0). split; [|split; [exact H4|split; [reflexivity|rewrite zlen_app; lia]]].
        rewrite Hd1. apply firstn_all2. pose proof (f_equal zlen Hd1) as Hq. rewrite zlen_drop, (zlen_cut buf len Hlen) in Hq by lia. unfold zlen in *. lia. }
    unfold tlv_at. rewrite Ht. cbn [obind fst snd]. eapply IH; [eassumption| |lia|lia].
    pose proof (f_equal (drop (zlen lb + zlen v)) Hd1) as Hq. rewrite drop_drop in Hq by lia. replace (p + 1 + zlen lb + zlen v) with (p + 1 + (zlen lb + zlen v)) by lia. rewrite Hq.
    rewrite app_assoc, <- zlen_app, drop_len. reflexivity.
Qed.
End Parse.

(** ** C35 *)
Theorem C35_template : forall d tail, all_bytes (d ++ tail) -> rd d 0 = Some 0x7C ->
  (* it does not look beyond the data *)
  ga_template (d ++ tail) (zlen d) = ga_template d (zlen d) /\ ga_template (d ++ tail) (zlen d) <> UB /\
  (* what it accepts is a template, and what it records describes the values *)
  (forall t, ga_template (d ++ tail) (zlen d) = Ret t ->
     exists l, template d l /\ describes_all d t (fun tag => value tag l)) /\
  (* every template is accepted *)
  (forall l, template d l -> exists t, ga_template (d ++ tail) (zlen d) = Ret t).
Proof.
  intros d tail Hb H0. pose proof (zlen_nonneg d). pose proof (zlen_nonneg tail).
  assert (Hl : 0 <= zlen d <= zlen (d ++ tail)) by (rewrite zlen_app; lia).
  assert (Hc : firstn (Z.to_nat (zlen d)) (d ++ tail) = d) by (unfold zlen; rewrite Nat2Z.id, firstn_app, firstn_all, Nat.sub_diag; apply app_nil_r).
  assert (H0' : rd (d ++ tail) 0 = Some 0x7C) by (destruct d; [discriminate|exact H0]).
  assert (Hz1 : 1 <= zlen d) by (destruct d; [discriminate|rewrite zlen_cons; pose proof (zlen_nonneg d); lia]).
  destruct (template_parse (d ++ tail) (zlen d) Hl Hb H0' Hz1) as (P1 & P2 & P3). rewrite Hc in *.
  split; [exact P1|]. split; [exact P2|]. split; [exact P3|].
  intros l (lb & n & rest & Hd & Hlb & Hn & He). unfold ga_template.
  assert (Hlb1 : 1 <= zlen lb <= 3) by (inversion Hlb; autorewrite with zlen; lia). pose proof (zlen_nonneg rest).
  assert (Hz : zlen d = 1 + zlen lb + zlen rest) by (rewrite Hd, !zlen_app; change (zlen [0x7C]) with 1; lia).
  assert (Hd1 : drop 1 d = lb ++ rest) by (rewrite Hd; reflexivity).
  assert (Ht : tlv_get_length_safe (drop 1 (d ++ tail)) (zlen d - 1) = Tlv n false (Some (zlen lb))).
  { rewrite <- (tlv_firstn (d ++ tail) (zlen d)) by lia. rewrite Hc, Hd1. apply tlv_exact.
    - rewrite zlen_app. lia.
    - rewrite <- Hd1. unfold drop. apply all_bytes_skipn. rewrite <- Hc. apply all_bytes_firstn, Hb.
    - exists lb, rest. split; [|auto]. apply firstn_all2. rewrite app_length. unfold zlen in *. lia. }
  unfold tlv_at. rewrite Ht. cbn [obind snd].
  apply (elements_accept (d ++ tail) (zlen d) Hl Hb l rest); [exact He| |lia|lia].
  rewrite Hc, <- (drop_drop 1 (zlen lb)) by lia. rewrite Hd1. apply drop_len.
Qed.
Print Assumptions C35_template.

(** A mutual authentication response, and a template that is refused because an element runs over the end *)
Example C35_ex :
  ga_template ([0x7C; 20; 0x80; 8] ++ repeat 1 8 ++ [0x81; 8] ++ repeat 2 8 ++ repeat 0xEE 50) 22 = Ret (mkT (4, 8) (14, 8) (0, 0) (0, 0)) /\
  template ([0x7C; 20; 0x80; 8] ++ repeat 1 8 ++ [0x81; 8] ++ repeat 2 8) [(0x80, repeat 1 8); (0x81, repeat 2 8)] /\
  ga_template ([0x7C; 20; 0x80; 8] ++ repeat 1 8 ++ [0x81; 9] ++ repeat 2 8 ++ repeat 0xEE 50) 22 = Exc SW_WRONG_LENGTH.
Proof.
  split; [vm_compute; reflexivity|]. split; [|vm_compute; reflexivity].
  exists [20], 20, ([0x80; 8] ++ repeat 1 8 ++ [0x81; 8] ++ repeat 2 8). split; [reflexivity|]. split; [constructor; lia|].
  split; [vm_compute; discriminate|].
  apply (el_cons 0x80 [8] (repeat 1 8) ([0x81; 8] ++ repeat 2 8)); [cbn; auto|constructor; vm_compute; split; [discriminate|reflexivity]|].
  change ([0x81; 8] ++ repeat 2 8) with ([0x81] ++ [8] ++ repeat 2 8 ++ []).
  apply (el_cons 0x81 [8] (repeat 2 8) []); [cbn; auto|constructor; vm_compute; split; [discriminate|reflexivity]|constructor].
Qed.
