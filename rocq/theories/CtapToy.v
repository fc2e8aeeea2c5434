(** A toy cryptography and a way to play histories, for the examples. *)
From Verif Require Export CtapSpec.
Open Scope string_scope. Open Scope list_scope. Open Scope Z_scope.

Definition toy_sha (d : bytes) : bytes := let h := fold_left (fun a b => Z.land (a * 33 + b + 1) 0xFFFFFF) (d ++ [0; 0]) 7 in concat (repeat (to_be 4 h) 8).
Lemma toy_sha_length d : zlen (toy_sha d) = 32.
Proof. unfold toy_sha. generalize (fold_left (fun a b => Z.land (a * 33 + b + 1) 0xFFFFFF) (d ++ [0; 0]) 7). intros h. reflexivity. Qed.
Definition toyf : fcrypto := mkFC
  toy_sha
  (fun k m => toy_sha (k ++ m))
  (fun r => (r, r ++ r))
  (fun a p => Some (map (fun b => Z.land (b + nth 0 p 0) 255) a))
  (fun k iv d => Some (map (fun b => Z.land (b + nth 0 k 0) 255) d))
  (fun k iv d => Some (map (fun b => Z.land (b - nth 0 k 0) 255) d))
  (fun _ k => Some (k ++ k))
  (fun _ k m => Some (toy_sha (k ++ m))).
Definition blank : fs := fun _ => None.
(** A device as it is first powered up, and its state *)
Definition fresh_dev : dev := boot toyf blank [] (repeat 5 100 ++ repeat 9 100).
(** Commands without errors: by USB, at time [t] in milliseconds, with every touch given *)
Definition cmd_at (t : Z) (o : op) : cmd := mkCmd o 1300 false t t [] [] (repeat (t mod 256) 200) (repeat 0 8).
Definition do_at (t : Z) (o : op) : ev := Do (cmd_at t o).
Definition user_of (id : Z) : bytes := repeat id 64 ++ [1] ++ repeat 0 130.
Definition mc_of (rp id rk : Z) (param : option bytes) : mcreq :=
  mkMc (repeat 3 32) (repeat rp 32) (repeat rp 32) (user_of id) ALG_ES256 [] rk 2 2 param (match param with Some _ => Some 1 | None => None end) false false 0 None.
Definition ga_of (rp : Z) (l : list bytes) (param : option bytes) : gareq :=
  mkGa (repeat rp 32) (repeat 4 32) l 2 2 2 param (match param with Some _ => Some 1 | None => None end) None false.

Section Play.
Variable K : fcrypto.
Fixpoint play (d : dev) (l : list ev) : option (list entry * dev) :=
  match l with
  | [] => Some ([], d)
  | v :: r => match step K d v with Some (o, d') => match play d' r with Some (tr, d2) => Some ((d, v, o) :: tr, d2) | None => None end | None => None end
  end.
Lemma hist_cons d v o d' tr d2 : ev_ok d v -> step K d v = Some (o, d') -> hist K d' tr d2 -> hist K d ((d, v, o) :: tr) d2.
Proof.
  intros Hv Hs H. revert Hs. induction H as [d'|d' tr d3 v3 o3 d4 H IH Hv3 Hs3]; intros Hs.
  - apply (h_snoc K d [] d v o d'); [constructor|exact Hv|exact Hs].
  - rewrite app_comm_cons. econstructor; eauto.
Qed.
Definition entry_ok (e : entry) : Prop := ev_ok (fst (fst e)) (snd (fst e)).
Lemma play_hist l d tr d' : play d l = Some (tr, d') -> Forall entry_ok tr -> hist K d tr d'.
Proof.
  revert d tr. induction l as [|v r IH]; intros d tr H Ho; cbn [play] in H; [injection H as <- <-; constructor|].
  destruct (step K d v) as [[o d1]|] eqn:E; [|discriminate]. destruct (play d1 r) as [[t2 d2]|] eqn:E2; [|discriminate].
  injection H as <- <-. inversion Ho; subst. eapply hist_cons; eauto.
Qed.
(** With a test of what is to be shown of the entries and of the last state *)
Lemma play_ex d l (ok : list entry -> dev -> bool) : 
  match play d l with Some (tr, d') => ok tr d' | None => false end = true ->
  (forall tr d', play d l = Some (tr, d') -> map (fun e => snd (fst e)) tr = l -> Forall entry_ok tr) ->
  exists tr d', hist K d tr d' /\ ok tr d' = true /\ map (fun e => snd (fst e)) tr = l.
Proof.
  intros H1 H2. destruct (play d l) as [[tr d']|] eqn:E; [|discriminate]. exists tr, d'.
  assert (M : map (fun e => snd (fst e)) tr = l).
  { clear - E. revert d tr E. induction l as [|v r IH]; intros d tr H; cbn [play] in H; [injection H as <- <-; reflexivity|].
    destruct (step K d v) as [[o d1]|] eqn:E; [|discriminate]. destruct (play d1 r) as [[t2 d2]|] eqn:E2; [|discriminate].
    injection H as <- <-. cbn [map snd fst]. f_equal. eapply IH; eauto. }
  split; [|auto]. eapply play_hist; eauto.
Qed.
End Play.
(** Decidable versions of what the parser guarantees *)
Definition bytes_ofb (n : Z) (l : bytes) : bool := (zlen l =? n) && forallb (fun b => (0 <=? b) && (b <? 256)) l.
Lemma all_bytesb l : forallb (fun b => (0 <=? b) && (b <? 256)) l = true -> all_bytes l.
Proof. intros H. apply Forall_forall. intros x Hx. rewrite forallb_forall in H. specialize (H x Hx). unfold is_byte. lia. Qed.
Lemma bytes_ofb_ok n l : bytes_ofb n l = true -> bytes_of n l.
Proof. intros H. apply andb_true_iff in H. destruct H. split; [lia|apply all_bytesb; assumption]. Qed.
Definition creq_okb (q : creq) : bool :=
  match q with
  | RMake (inr q) => bytes_ofb 32 (mc_cdh q) && bytes_ofb 32 (mc_rphash q) && bytes_ofb 195 (mc_user q) && (u_size (mc_user q) <=? 64) &&
      (zlen (mc_rp q) <=? 32) && forallb (fun b => (0 <=? b) && (b <? 256)) (mc_rp q) && (0 <=? mc_cp q) && (mc_cp q <=? 3) &&
      (-2147483648 <=? mc_alg q) && (mc_alg q <? 2147483648) && match mc_blob q with Some b => forallb (fun b => (0 <=? b) && (b <? 256)) b | None => true end
  | RGet (inr q) => bytes_ofb 32 (ga_cdh q) && bytes_ofb 32 (ga_rphash q)
  | RCm (inr q) => bytes_ofb 32 (cm_rphash q) && bytes_ofb 70 (cm_id q) && bytes_ofb 195 (cm_user q) && (u_size (cm_user q) <=? 64)
  | RLarge (inr q) => (0 <=? lb_off q) && (lb_off q <? 65536) && forallb (fun b => (0 <=? b) && (b <? 256)) (lb_set q) && (zlen (lb_set q) <=? 1236) &&
      match lb_get q with Some n => (0 <=? n) && (n <=? 1236) | None => negb (lb_off q =? 0) || (17 <=? lb_len q) && (lb_len q <=? 4096) end
  | _ => true
  end.
Lemma creq_okb_ok q : creq_okb q = true -> creq_ok q.
Proof.
  destruct q as [[|q]|[|q]| | |p| |[|q]| |[|q]| ]; try exact (fun _ => I); cbn [creq_okb creq_ok]; intros H.
  - repeat match goal with H : _ && _ = true |- _ => apply andb_true_iff in H; destruct H end. unfold mc_ok.
    repeat match goal with |- _ /\ _ => split | H : bytes_ofb ?n ?l = true |- bytes_of ?n ?l => apply bytes_ofb_ok; exact H end; try lia.
    + apply all_bytesb. assumption.
    + destruct (mc_blob q); [apply all_bytesb; assumption|exact I].
  - apply andb_true_iff in H; destruct H. split; apply bytes_ofb_ok; assumption.
  - repeat match goal with H : _ && _ = true |- _ => apply andb_true_iff in H; destruct H end. unfold cm_ok.
    repeat match goal with |- _ /\ _ => split | H : bytes_ofb ?n ?l = true |- bytes_of ?n ?l => apply bytes_ofb_ok; exact H end; lia.
  - repeat match goal with H : _ && _ = true |- _ => apply andb_true_iff in H; destruct H end. unfold lb_ok.
    split; [lia|]. split; [apply all_bytesb; assumption|]. split; [lia|]. destruct (lb_get q); lia.
Qed.
Definition ev_okb (v : ev) : bool := match v with Do x | Cut x _ _ _ => match x_op x with OCbor q => creq_okb q | _ => true end | Other _ => false end.
Lemma ev_okb_ok d v : ev_okb v = true -> ev_ok d v.
Proof. destruct v as [x|x n f r|F]; cbn [ev_okb ev_ok]; [| |discriminate]; destruct (x_op x); try exact (fun _ => I); apply creq_okb_ok. Qed.
(** The form used: the test covers events, entries and last state. *)
Lemma play_case K d l (ok : list entry -> dev -> bool) :
  forallb ev_okb l && match play K d l with Some (tr, d') => ok tr d' | None => false end = true ->
  exists tr d', hist K d tr d' /\ ok tr d' = true /\ map (fun e => snd (fst e)) tr = l.
Proof.
  intros H. apply andb_true_iff in H. destruct H as (H1 & H2). apply (play_ex K d l ok H2).
  intros tr d' _ M. apply Forall_forall. intros e He. apply ev_okb_ok. rewrite forallb_forall in H1. apply H1. rewrite <- M. apply in_map_iff. exists e. auto.
Qed.
