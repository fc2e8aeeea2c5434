(** The credential that getAssertion and getNextAssertion choose. *)
From Verif Require Import CtapSpec CtapFrame CtapRel.
From Coq Require Import Sorted.
Open Scope string_scope. Open Scope list_scope. Open Scope Z_scope.

(** ** Specification *)
(** [pri] is the private key that belongs to the credential id, and the tag of the id is the one for this key and the RP of the id. *)
Definition genuine (K : fcrypto) (F : fs) (id pri : bytes) : Prop :=
  exists kh, fattr F "ctap_cert" 4 = Some kh /\ pri = f_hmac K (attr_buf 32 kh) (id_nonce id) /\ id_tag id = firstn 16 (f_hmac K pri (id_rp id)).
(** The discoverable credential in a slot *)
Definition live (F : fs) (j : Z) (d : bytes) : Prop := fread F "ctap_dc" (j * 300) 300 = Some d /\ zlen d = 300 /\ dc_deleted d = false.
(** credProtect (CTAP 2.1, 12.1): 2 userVerificationOptionalWithCredentialIDList, 3 userVerificationRequired *)
Definition may_use (cp : Z) (listed uv : bool) : Prop := (cp = 2 -> uv = true \/ listed = true) /\ (cp = 3 -> uv = true).
(** The ids of the list, as the device reads them: one into the place of the one before *)
Definition shown (l : list bytes) (id : bytes) : Prop := exists i prev, In i l /\ zlen prev = 70 /\ id = load_id prev i.
(** The slots with a credential for an RP, from the last one down *)
Definition fits (F : fs) (rp : bytes) (uv : bool) (j : Z) : Prop := exists d, live F j d /\ id_rp (dc_id d) = rp /\ may_use (id_cp (dc_id d)) false uv.
Definition eligible (F : fs) (rp : bytes) (uv : bool) (n : Z) (l : list Z) : Prop :=
  StronglySorted (fun a b => b < a) l /\ forall j, In j l <-> 0 <= j < n /\ fits F rp uv j.
(** The credential [d] with the private key [pri] is chosen: [id] is the id that was checked. *)
Definition listed_choice (K : fcrypto) (F : fs) (rp : bytes) (uv : bool) (l : list bytes) (d pri : bytes) : Prop :=
  exists id, shown l id /\ genuine K F id pri /\ id_rp id = rp /\ may_use (id_cp id) true uv /\ zlen id = 70 /\
    id_nonce (dc_id d) = id_nonce id /\ id_rp (dc_id d) = rp /\ (id_dc id = 0 -> dc_id d = id) /\ (id_dc id <> 0 -> exists j, 0 <= j /\ live F j d).

Lemma shown_whole l id : Forall (fun i => zlen i = 70) l -> shown l id -> In id l.
Proof.
  intros H (i & prev & Hi & Hp & ->). assert (Hl : zlen i = 70) by (rewrite Forall_forall in H; apply H, Hi). unfold load_id, ID_SIZE. rewrite Hl. cbn [Z.ltb Z.eqb Z.compare Pos.compare Pos.compare_cont Pos.eqb].
  unfold overlay. rewrite skipn_all2 by (unfold zlen in *; lia). rewrite app_nil_r. exact Hi.
Qed.
Lemma protect_may id b uv : protect_ok id b uv = true <-> may_use (id_cp id) b uv.
Proof. unfold protect_ok, may_use. destruct (id_cp id =? 2) eqn:E2; [|destruct (id_cp id =? 3) eqn:E3]; (split; [intros H; split; intros E; try lia; try (apply orb_true_iff in H; exact H); exact H|intros (H1 & H2)]); [apply orb_true_iff; apply H1; lia|apply H2; lia|reflexivity]. Qed.

(** ** Proof *)
Section S.
Variable K : fcrypto.
(** The post-conditions: the storage and the variables are the same *)
Definition reads {A} (F : fs) (s : ctap) (P : A -> Prop) (o : out A) (s' : ctap) (e' : env) : Prop := match o with Ret a => P a /\ s' = s /\ e_fs e' = F | _ => True end.
Lemma rd_bind {A B} (m : Mc A) (k : A -> Mc B) F s (P : A -> Prop) (Q : B -> Prop) e : wp m (reads F s P) s e -> (forall a e', e_fs e' = F -> P a -> wp (k a) (reads F s Q) s e') -> wp (bind m k) (reads F s Q) s e.
Proof. intros Hm Hk. apply wp_bind. eapply wp_mono; [exact Hm|]. intros [a|?| |] s' e' H; try exact I. destruct H as (Ha & -> & He). apply Hk; assumption. Qed.
Lemma rd_rec p size i F s e : e_fs e = F -> wp (read_rec p size i) (reads F s (fun d => fread F p (i * size) size = Some d /\ zlen d = size)) s e.
Proof.
  intros <-. destruct e as [F L X R T O]. unfold read_rec, got. apply wp_bind, wp_bind. apply wp_read_file. intros X' r _ Hr. destruct r as [d|]; [|exact I]. apply wp_ret. destruct (zlen d =? size) eqn:E; [|exact I].
  apply wp_ret. cbn [reads e_fs]. split; [split; [destruct Hr; congruence|lia]|auto].
Qed.
Lemma rd_count p size F s e : e_fs e = F -> wp (count_recs p size) (reads F s (fun n => exists z, fsize F p = Some z /\ n = z / size)) s e.
Proof.
  intros <-. destruct e as [F L X R T O]. unfold count_recs, got. apply wp_bind, wp_bind. apply wp_get_file_size. intros X' r _ Hr. destruct r as [z|]; [|exact I]. apply wp_ret, wp_ret.
  split; [exists z; destruct Hr; [discriminate|auto]|auto].
Qed.
Lemma rd_verify id F s e : e_fs e = F -> wp (verify_key_handle K id) (reads F s (fun v => forall pri, v = Some (Some pri) -> genuine K F id pri)) s e.
Proof.
  intros <-. destruct e as [F L X R T O]. unfold verify_key_handle, read_key32. apply wp_bind, wp_bind. apply wp_read_attr. intros X' r _ Hr. apply wp_ret, wp_ret. split; [|auto].
  intros pri E. destruct r as [kh|]; cbn [option_map] in E; [|discriminate]. destruct (beqb _ _) eqn:Eb in E; [|discriminate]. injection E as <-. apply beqb_eq in Eb. exists kh.
  split; [destruct Hr; [discriminate|symmetry; assumption]|]. split; [reflexivity|]. symmetry. exact Eb.
Qed.
Lemma rd_ret {A} (a : A) F s (P : A -> Prop) e : e_fs e = F -> P a -> wp (ret a) (reads F s P) s e.
Proof. intros H1 H2. apply wp_ret. split; auto. Qed.
Lemma rd_find n j rp nonce buf F s e : e_fs e = F -> 0 <= j -> zlen buf = 300 ->
  wp (find_dc n j rp nonce buf) (reads F s (fun f => zlen (snd f) = 300 /\ (fst f = true -> (exists j, 0 <= j /\ live F j (snd f)) /\ id_rp (dc_id (snd f)) = rp /\ id_nonce (dc_id (snd f)) = nonce))) s e.
Proof.
  revert j buf e. induction n as [|n IH]; intros j buf e He Hj Hb; cbn [find_dc]; [apply rd_ret; [exact He|split; [exact Hb|discriminate]]|].
  eapply rd_bind; [apply rd_rec; exact He|]. intros d e1 He1 (Hd & Hl). destruct (dc_deleted d) eqn:Ed; [apply IH; [exact He1|lia|exact Hl]|].
  destruct (beqb rp (id_rp (dc_id d)) && beqb nonce (id_nonce (dc_id d))) eqn:E; [|apply IH; [exact He1|lia|exact Hl]].
  apply andb_true_iff in E. destruct E as (E1 & E2). apply beqb_eq in E1, E2. apply rd_ret; [exact He1|]. cbn [fst snd]. split; [exact Hl|]. intros _. split; [exists j; split; [exact Hj|]; split; [exact Hd|auto]|auto].
Qed.
Lemma zlen_dc_id d : zlen d = 300 -> zlen (dc_id d) = 70.
Proof. intros H. unfold dc_id. rewrite zlen_slice; lia. Qed.
Lemma zlen_load buf i : zlen buf = 70 -> zlen (load_id buf i) = 70.
Proof.
  intros H. unfold load_id, ID_SIZE, overlay. destruct (zlen i <? 70) eqn:E1; [|destruct (zlen i =? 70) eqn:E2; [|exact H]]; unfold zlen in *; rewrite app_length, skipn_length, ?app_length; cbn [length]; lia.
Qed.
Lemma dc_id_overlay id d : zlen id = 70 -> zlen d = 300 -> dc_id (overlay id d) = id /\ zlen (overlay id d) = 300.
Proof.
  intros H1 H2. assert (Hn : Z.to_nat 70 = length id) by (unfold zlen in H1; lia). unfold overlay, dc_id, slice. split; [|unfold zlen in *; rewrite app_length, skipn_length; lia].
  change (Z.to_nat 0) with O. cbn [skipn]. rewrite Hn, firstn_app, Nat.sub_diag, firstn_all, firstn_O, app_nil_r. reflexivity.
Qed.
Lemma rd_allow rp uv l dc F s e : e_fs e = F -> zlen dc = 300 -> wp (allow K rp uv l dc) (reads F s (fun r => listed_choice K F rp uv l (fst r) (snd r))) s e.
Proof.
  intros He Hd. assert (G : forall l' dc e, e_fs e = F -> zlen dc = 300 -> (forall i, In i l' -> In i l) -> wp (allow K rp uv l' dc) (reads F s (fun r => listed_choice K F rp uv l (fst r) (snd r))) s e); [|apply G; auto].
  clear. induction l' as [|i r IH]; intros dc e He Hd Hi; cbn [allow]; [exact I|]. set (id := load_id (dc_id dc) i). pose proof (zlen_dc_id dc Hd) as Hz. assert (Hid : zlen id = 70) by (apply zlen_load, Hz).
  destruct (dc_id_overlay id dc Hid Hd) as (Ho & Hol). cbv zeta. set (dc' := overlay id dc) in *. assert (Hsh : shown l id) by (exists i, (dc_id dc); split; [apply Hi; left; reflexivity|auto]). clearbody id dc'.
  assert (Hr : forall j, In j r -> In j l) by (intros j Hj; apply Hi; right; exact Hj).
  destruct (beqb (id_rp id) rp) eqn:Er; cbn [negb]; [|apply IH; assumption]. apply beqb_eq in Er.
  eapply rd_bind; [apply rd_verify; exact He|]. intros v e1 He1 Hv. destruct v as [[pri|]|]; [|apply IH; assumption|exact I]. specialize (Hv pri eq_refl).
  destruct (protect_ok id true uv) eqn:Ep; cbn [negb]; [|apply IH; assumption]. apply protect_may in Ep.
  destruct (id_dc id =? 0) eqn:E0.
  - apply rd_ret; [exact He1|]. cbn [fst snd]. exists id. rewrite Ho. split; [exact Hsh|]. split; [exact Hv|]. split; [exact Er|]. split; [exact Ep|]. split; [exact Hid|]. split; [reflexivity|]. split; [exact Er|]. split; [reflexivity|]. intros H. lia.
  - eapply rd_bind; [apply rd_count; exact He1|]. intros n e2 He2 _. eapply rd_bind; [apply rd_find; [exact He2|lia|exact Hol]|]. intros f e3 He3 (Hf & Hf'). destruct (fst f) eqn:Ef; [|apply IH; assumption].
    destruct (Hf' Ef) as (Hl & H1 & H2). apply rd_ret; [exact He3|]. cbn [fst snd]. exists id. split; [exact Hsh|]. split; [exact Hv|]. split; [exact Er|]. split; [exact Ep|]. split; [exact Hid|]. split; [exact H2|]. split; [exact H1|]. split; [lia|]. intros _. exact Hl.
Qed.
Lemma rd_applicable n rp uv F s e : e_fs e = F -> wp (applicable n rp uv) (reads F s (eligible F rp uv (Z.of_nat n))) s e.
Proof.
  revert e. induction n as [|n IH]; intros e He; cbn [applicable].
  - apply rd_ret; [exact He|]. split; [constructor|]. intros j. split; [intros []|lia].
  - cbv zeta. eapply rd_bind; [apply rd_rec; exact He|]. intros d e1 He1 (Hd & Hl). change (fread F "ctap_dc" (Z.of_nat n * 300) 300 = Some d) in Hd. eapply rd_bind; [apply IH; exact He1|]. intros r e2 He2 (Hs & Hr). apply rd_ret; [exact He2|].
    set (b := if dc_deleted d then false else if negb (protect_ok (dc_id d) false uv) then false else beqb rp (id_rp (dc_id d))).
    assert (Hb : b = true <-> fits F rp uv (Z.of_nat n)).
    { unfold b. split.
      - destruct (dc_deleted d) eqn:Ed; [discriminate|]. destruct (protect_ok (dc_id d) false uv) eqn:Ep; cbn [negb]; [|discriminate]. intros Eb. apply beqb_eq in Eb. apply protect_may in Ep. exists d. split; [split; [exact Hd|auto]|auto].
      - intros (d' & (H1 & _ & H2) & H3 & H4). assert (d' = d) as -> by congruence. rewrite H2. apply protect_may in H4. rewrite H4. cbn [negb]. rewrite H3. apply beqb_refl. }
    assert (E : (if dc_deleted d then r else if negb (protect_ok (dc_id d) false uv) then r else if beqb rp (id_rp (dc_id d)) then Z.of_nat n :: r else r) = if b then Z.of_nat n :: r else r).
    { unfold b. destruct (dc_deleted d); [reflexivity|]. destruct (negb _); [reflexivity|]. reflexivity. }
    rewrite E. clearbody b. destruct b.
    + split.
      * constructor; [exact Hs|]. apply Forall_forall. intros j Hj. apply Hr in Hj. lia.
      * intros j. cbn [In]. rewrite Hr. split; [intros [<-|(H1 & H2)]; [split; [lia|apply Hb; reflexivity]|split; [lia|exact H2]]|]. intros (H1 & H2). destruct (Z.eq_dec (Z.of_nat n) j); [auto|right; split; [lia|exact H2]].
    + split; [exact Hs|]. intros j. rewrite Hr. split; intros (H1 & H2); (split; [|exact H2]); [lia|]. destruct (Z.eq_dec (Z.of_nat n) j) as [<-|]; [|lia]. apply Hb in H2. discriminate.
Qed.
(** What the choice of getAssertion and getNextAssertion leaves *)
Definition slots_of (F : fs) : Z := match fsize F "ctap_dc" with Some z => z / 300 | None => 0 end.
Definition chosen (F : fs) (q : gareq) (g g' : gast) (d pri : bytes) : Prop :=
  g_req g' = g_req g /\ g_ctr g' = g_ctr g /\ g_uv g' = g_uv g /\ g_up g' = g_up g /\ g_timer g' = g_timer g /\
  match ga_allow q with
  | [] => genuine K F (dc_id d) pri /\ fread F "ctap_dc" (nth (Z.to_nat (g_ctr g)) (g_list g') 0 * 300) 300 = Some d /\ zlen d = 300 /\
      (if g_ctr g =? 0 then eligible F (ga_rphash q) (g_uv g) (slots_of F) (g_list g') /\ g_n g' = u8 (zlen (g_list g')) /\ g_n g' <> 0 else g_list g' = g_list g /\ g_n g' = g_n g)
  | _ => listed_choice K F (ga_rphash q) (g_uv g) (ga_allow q) d pri /\ g_n g' = 1 /\ g_list g' = g_list g
  end.
Lemma select_spec q s e : wp (ga_select K q) (fun o s' e' => match o with Ret r => exists f, s' = set_ga f s /\ chosen (e_fs e) q (c_ga s) (c_ga s') (fst r) (snd r) /\ e_fs e' = e_fs e | _ => True end) s e.
Proof.
  unfold ga_select, gets. apply wp_bind, wp_bind, wp_get, wp_ret. unfold chosen. destruct (ga_allow q) as [|i l] eqn:Eal.
  - assert (W : forall f e1, e_fs e1 = e_fs e -> g_req (f (c_ga s)) = g_req (c_ga s) /\ g_ctr (f (c_ga s)) = g_ctr (c_ga s) /\ g_uv (f (c_ga s)) = g_uv (c_ga s) /\ g_up (f (c_ga s)) = g_up (c_ga s) /\ g_timer (f (c_ga s)) = g_timer (c_ga s) ->
        (if g_ctr (c_ga s) =? 0 then eligible (e_fs e) (ga_rphash q) (g_uv (c_ga s)) (slots_of (e_fs e)) (g_list (f (c_ga s))) /\ g_n (f (c_ga s)) = u8 (zlen (g_list (f (c_ga s)))) /\ g_n (f (c_ga s)) <> 0
         else g_list (f (c_ga s)) = g_list (c_ga s) /\ g_n (f (c_ga s)) = g_n (c_ga s)) ->
        wp (g <- (s <- get ;; ret (c_ga s)) ;; d <- read_rec DC_FILE DC_SIZE (nth (Z.to_nat (g_ctr g)) (g_list g) 0) ;; v <- verify_key_handle K (dc_id d) ;;
        match v with Some (Some pri) => ret (d, pri) | _ => except ERR_UNHANDLED end) (fun o s' e' => match o with Ret r => exists f, s' = set_ga f s /\ (g_req (c_ga s') = g_req (c_ga s) /\ g_ctr (c_ga s') = g_ctr (c_ga s) /\ g_uv (c_ga s') = g_uv (c_ga s) /\ g_up (c_ga s') = g_up (c_ga s) /\ g_timer (c_ga s') = g_timer (c_ga s) /\
          genuine K (e_fs e) (dc_id (fst r)) (snd r) /\ fread (e_fs e) "ctap_dc" (nth (Z.to_nat (g_ctr (c_ga s))) (g_list (c_ga s')) 0 * 300) 300 = Some (fst r) /\ zlen (fst r) = 300 /\
          (if g_ctr (c_ga s) =? 0 then eligible (e_fs e) (ga_rphash q) (g_uv (c_ga s)) (slots_of (e_fs e)) (g_list (c_ga s')) /\ g_n (c_ga s') = u8 (zlen (g_list (c_ga s'))) /\ g_n (c_ga s') <> 0
           else g_list (c_ga s') = g_list (c_ga s) /\ g_n (c_ga s') = g_n (c_ga s))) /\ e_fs e' = e_fs e | _ => True end) (set_ga f s) e1).
    { intros f e1 H1 (A1 & A2 & A3 & A4 & A5) H2. apply wp_bind, wp_bind, wp_get, wp_ret. cbn [set_ga c_ga]. rewrite A2. apply wp_bind. eapply wp_mono; [apply rd_rec; reflexivity|]. intros [d|?| |] s2 e2 H; try exact I. destruct H as ((Hd & Hl) & -> & He2).
      apply wp_bind. eapply wp_mono; [apply rd_verify; reflexivity|]. intros [v|?| |] s3 e3 H; try exact I. destruct H as (Hv & -> & He3). destruct v as [[pri|]|]; try exact I. specialize (Hv pri eq_refl). apply wp_ret. exists f. split; [reflexivity|]. cbn [set_ga c_ga fst snd].
      rewrite He3, He2, H1 in *. rewrite A2 in *. tauto. }
    destruct (g_ctr (c_ga s) =? 0) eqn:Ec.
    + apply wp_bind. apply wp_bind. eapply wp_mono; [apply rd_count; reflexivity|]. intros [n|?| |] s1 e1 H; try exact I. destruct H as ((z & Hz & ->) & -> & He1). apply wp_bind. eapply wp_mono; [apply rd_applicable; exact He1|]. intros [l|?| |] s2 e2 H; try exact I. destruct H as (Hel & -> & He2).
      apply wp_bind, wp_modify. apply wp_guard; [intros Hn|exact (fun _ => I)]. change (set_ga (gs_list l (u8 (zlen l))) s) with (set_ga (gs_list l (u8 (zlen l))) s). apply W; [exact He2|repeat (split; [reflexivity|]); reflexivity|].
      cbn [gs_list g_list g_n]. split; [|split; [reflexivity|lia]]. unfold slots_of. change DC_FILE with "ctap_dc" in Hz. rewrite Hz. unfold DC_SIZE in Hel. assert (0 <= z) by (unfold fsize in Hz; destruct (e_fs e "ctap_dc") as [f0|]; [|discriminate]; injection Hz as <-; apply zlen_nonneg).
      rewrite Z2Nat.id in Hel by (apply Z.div_pos; lia). exact Hel.
    + apply wp_bind, wp_ret. assert (Es : s = set_ga (fun g => g) s) by (destruct s; reflexivity). specialize (W (fun g => g) e eq_refl). cbv beta in W. rewrite <- Es in W. apply W; [tauto|auto].
  - apply wp_bind. eapply wp_mono; [apply rd_allow; [reflexivity|reflexivity]|]. intros [r|?| |] s1 e1 H; try exact I. destruct H as (H & -> & He1). apply wp_bind, wp_modify, wp_ret. exists (gs_n 1). split; [reflexivity|]. split; [|exact He1]. repeat (split; [reflexivity|]). split; [exact H|auto].
Qed.
End S.
