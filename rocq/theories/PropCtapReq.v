(** C82-C83: reading requests to the FIDO applet stays within memory, and gives records within the limits. *)
From Verif Require Import CtapReq CtapSpec CtapToy PropCtapRp.
Open Scope string_scope. Open Scope list_scope. Open Scope Z_scope.

(** ** Specification *)
(** The strings of a message consist of bytes. *)
Fixpoint of_bytes (v : cbor) : Prop :=
  match v with
  | CBytes b | CText b | CRaw b => all_bytes b
  | CArr l => (fix go l := match l with [] => True | x :: r => of_bytes x /\ go r end) l
  | CMap l => (fix go l := match l with [] => True | (k, x) :: r => of_bytes k /\ of_bytes x /\ go r end) l
  | _ => True
  end.

(** ** Proof *)
Definition safe {A} (m : pres A) (Q : A -> Prop) : Prop := match m with POk a => Q a | PErr _ => True | PUB => False end.
Lemma safe_bind {A B} (m : pres A) (f : A -> pres B) (Q : B -> Prop) : safe m (fun a => safe (f a) Q) -> safe (pbind m f) Q.
Proof. destruct m; auto. Qed.
Lemma safe_mono {A} (m : pres A) (Q Q' : A -> Prop) : safe m Q -> (forall a, Q a -> Q' a) -> safe m Q'.
Proof. destruct m; cbn; auto. Qed.
Lemma safe_as {A} (m : pres A) (Q : A -> Prop) : safe m Q -> safe (as_cbor_error m) Q. Proof. destruct m; auto. Qed.
Lemma of_arr l : of_bytes (CArr l) -> Forall of_bytes l.
Proof. induction l as [|x r IH]; constructor; destruct H as [Hx Hr]; auto. Qed.
Lemma of_map l : of_bytes (CMap l) -> Forall (fun p => of_bytes (snd p)) l.
Proof. induction l as [|[k x] r IH]; constructor; destruct H as (Hk & Hx & Hr); auto. Qed.
Lemma safe_get_int v : safe (get_int v) (fun z => -2147483648 <= z < 2147483648).
Proof. destruct v; cbn; auto. destruct ((_ <=? _) && _) eqn:E; cbn; [lia|auto]. Qed.
Lemma safe_get_bytes v : of_bytes v -> safe (get_bytes v) all_bytes. Proof. destruct v; cbn; auto. Qed.
Lemma safe_get_text v : of_bytes v -> safe (get_text v) all_bytes. Proof. destruct v; cbn; auto. Qed.
Lemma safe_get_bool v : safe (get_bool v) (fun _ => True). Proof. destruct v; cbn; auto. Qed.
Lemma safe_get_map v : of_bytes v -> safe (get_map v) (Forall (fun p => of_bytes (snd p))). Proof. destruct v; cbn; auto. apply of_map. Qed.
Lemma safe_get_arr v : of_bytes v -> safe (get_arr v) (Forall of_bytes). Proof. destruct v; cbn; auto. apply of_arr. Qed.
Lemma get_int_inv v z : get_int v = POk z -> v = CInt z /\ -2147483648 <= z < 2147483648.
Proof. destruct v; try discriminate. cbn. destruct ((_ <=? _) && _) eqn:E; [|discriminate]. intros X. injection X as <-. split; [reflexivity|lia]. Qed.
Lemma safe_int_loop {A} step (I : A -> Prop) l st : Forall (fun p => of_bytes (snd p)) l -> I st ->
  (forall k v s, In (CInt k, v) l -> of_bytes v -> I s -> safe (step k v s) I) -> safe (int_loop step l st) I.
Proof.
  revert st. induction l as [|[k v] r IH]; intros st Hl Hi H; cbn [int_loop]; [exact Hi|]. inversion Hl as [|? ? Hv Hr]; subst.
  apply safe_bind. destruct (get_int k) as [z| |] eqn:E; [|exact Logic.I|destruct k; try discriminate; cbn in E; destruct ((_ <=? _) && _); discriminate].
  apply get_int_inv in E. destruct E as [-> _]. apply safe_bind. eapply safe_mono; [apply H; [left; reflexivity|exact Hv|exact Hi]|].
  intros s Hs. apply IH; [exact Hr|exact Hs|]. intros; apply H; [right|..]; assumption.
Qed.
Lemma safe_txt_loop {A} n step (I : A -> Prop) l st : Forall (fun p => of_bytes (snd p)) l -> I st ->
  (forall k v s, of_bytes v -> I s -> safe (step k v s) I) -> safe (txt_loop n step l st) I.
Proof.
  intros Hl. revert st. induction Hl as [|[k v] r Hv Hr IH]; intros st Hi H; cbn [txt_loop]; [exact Hi|].
  apply safe_bind. destruct k; try exact Logic.I. cbn [get_text safe]. destruct (n <? _); [exact Logic.I|]. apply safe_bind.
  eapply safe_mono; [apply H; [exact Hv|exact Hi]|]. intros s Hs. apply IH; assumption.
Qed.
(** The state: fields keep their sizes, numbers their ranges *)
Definition bok (f : string) (b : bytes) : Prop :=
  if String.eqb f "set" then all_bytes b else if String.eqb f "raw" then True else
  bytes_of (size_of f) b /\ (f = "user" -> u_size b <= 64).
Definition zok (f : string) (z : Z) : Prop :=
  if String.eqb f "rp_len" then 0 <= z <= 32 else if String.eqb f "cp" then 0 <= z <= 3
  else if String.eqb f "alg" then -2147483648 <= z < 2147483648
  else if String.eqb f "get" || String.eqb f "offset" || String.eqb f "length" then 0 <= z < 65536 else True.
Definition good (st : pst) : Prop := (forall f, bok f (pb st f)) /\ (forall f, zok f (pz st f)).
Lemma good_b f b st : good st -> bok f b -> good (set_b f b st).
Proof. intros (H1 & H2) Hb. split; cbn; [|exact H2]. intros g. unfold upd. destruct (String.eqb_spec f g) as [->|]; [exact Hb|apply H1]. Qed.
Lemma good_z f z st : good st -> zok f z -> good (set_z f z st).
Proof. intros (H1 & H2) Hb. split; cbn; [exact H1|]. intros g. unfold upd. destruct (String.eqb_spec f g) as [->|]; [exact Hb|apply H2]. Qed.
Lemma good_l l st : good st -> good (set_l l st). Proof. intros (H1 & H2). split; assumption. Qed.
Lemma zeros_len n : 0 <= n -> zlen (zeros n) = n. Proof. intros H. unfold zlen, zeros. rewrite repeat_length. lia. Qed.
Lemma good_0 : good pst0.
Proof.
  split; intros f; unfold bok, zok; cbn.
  - destruct (String.eqb f "set") eqn:E1; [apply String.eqb_eq in E1; subst f; exact (zeros_bytes 0)|]. destruct (String.eqb f "raw"); [exact Logic.I|].
    split; [split; [apply zeros_len; unfold size_of; repeat (destruct (String.eqb f _); [lia|]); lia|apply zeros_bytes]|]. intros ->. vm_compute. discriminate.
  - destruct (String.eqb f "rp_len") eqn:E1; [apply String.eqb_eq in E1; subst f; cbn; lia|]. destruct (String.eqb f "cp") eqn:E2; [apply String.eqb_eq in E2; subst f; cbn; lia|].
    destruct (String.eqb f "alg") eqn:E3; [apply String.eqb_eq in E3; subst f; cbn; lia|].
    destruct (String.eqb f "get") eqn:E4; [apply String.eqb_eq in E4; subst f; cbn; lia|]. destruct (String.eqb f "offset") eqn:E5; [apply String.eqb_eq in E5; subst f; cbn; lia|].
    destruct (String.eqb f "length") eqn:E6; [apply String.eqb_eq in E6; subst f; cbn; lia|]. exact Logic.I.
Qed.
Lemma put_at_len off d buf : 0 <= off -> off + zlen d <= zlen buf -> zlen (put_at off d buf) = zlen buf.
Proof. intros H1 H2. unfold put_at, zlen in *. rewrite !app_length, firstn_length, skipn_length. lia. Qed.
Lemma put_at_bytes off d buf : all_bytes d -> all_bytes buf -> all_bytes (put_at off d buf).
Proof. intros H1 H2. unfold put_at. rewrite !all_bytes_app. auto using all_bytes_firstn, all_bytes_skipn. Qed.
Lemma put_at_before off d buf i : 0 <= off -> off <= zlen buf -> (i < Z.to_nat off)%nat -> nth i (put_at off d buf) 0 = nth i buf 0.
Proof.
  intros H1 H2 H3. unfold put_at. rewrite app_nth1 by (rewrite firstn_length; unfold zlen in *; lia).
  rewrite <- (firstn_skipn (Z.to_nat off) buf) at 2. rewrite app_nth1 by (rewrite firstn_length; unfold zlen in *; lia). reflexivity.
Qed.
Lemma nth_skipn' k (l : bytes) i : nth i (skipn k l) 0 = nth (k + i) l 0.
Proof. revert l. induction k as [|k IH]; intros l; [reflexivity|]. destruct l; [destruct i; reflexivity|]. cbn [skipn plus nth]. apply IH. Qed.
Lemma put_at_after off d buf i : 0 <= off -> off + zlen d <= zlen buf -> off + zlen d <= Z.of_nat i -> nth i (put_at off d buf) 0 = nth i buf 0.
Proof.
  intros H1 H2 H3. unfold put_at. unfold zlen in *. rewrite app_nth2 by (rewrite firstn_length; lia). rewrite firstn_length. rewrite app_nth2 by lia.
  rewrite nth_skipn'. f_equal. lia.
Qed.
Lemma put_at_in off d buf i : 0 <= off -> off <= zlen buf -> (i < length d)%nat -> nth (Z.to_nat off + i) (put_at off d buf) 0 = nth i d 0.
Proof.
  intros H1 H2 H3. unfold put_at. unfold zlen in *. rewrite app_nth2 by (rewrite firstn_length; lia). rewrite firstn_length. rewrite app_nth1 by lia. f_equal. lia.
Qed.
Definition plain (f : string) : Prop := String.eqb f "set" = false /\ String.eqb f "raw" = false.
Lemma good_plain f st : plain f -> good st -> bytes_of (size_of f) (pb st f) /\ (f = "user" -> u_size (pb st f) <= 64).
Proof. intros (P1 & P2) (H & _). specialize (H f). unfold bok in H. rewrite P1, P2 in H. exact H. Qed.
Lemma safe_put f off room d st : good st -> plain f -> all_bytes d -> 0 <= off -> zlen d <= room -> off + zlen d <= size_of f ->
  (f = "user" -> u_size (put_at off d (pb st f)) <= 64) -> safe (put_in f off room d st) good.
Proof.
  intros G P Hd H0 Hr Hs Hu. unfold put_in. destruct (Z.leb_spec (zlen d) room); [|lia]. cbn [safe]. destruct (good_plain f st P G) as ((L & B) & _).
  apply good_b; [exact G|]. unfold bok. destruct P as [-> ->]. split; [split; [rewrite put_at_len; lia|apply put_at_bytes; assumption]|exact Hu].
Qed.
Lemma padded_len s cap : zlen s <= cap -> zlen (if zlen s <? cap then s ++ [0] else s) <= cap.
Proof. intros H. destruct (Z.ltb_spec (zlen s) cap); [|lia]. unfold zlen in *. rewrite app_length. cbn [length]. lia. Qed.
Lemma padded_bytes s (b : bool) : all_bytes s -> all_bytes (if b then s ++ [0] else s).
Proof. intros H. destruct b; [|exact H]. apply all_bytes_app. split; [exact H|]. repeat constructor; unfold is_byte; lia. Qed.
Lemma safe_copy f off room cap oom s st : good st -> plain f -> all_bytes s -> 0 <= off -> cap <= room -> off + cap <= size_of f ->
  (f = "user" -> off + cap <= 64 \/ 65 <= off) -> safe (copy f off room cap oom s st) (fun st' => good st' /\ zlen s <= cap).
Proof.
  intros G P Hs H0 Hc Hz Hu. unfold copy. destruct (Z.ltb_spec cap (zlen s)) as [|Hl]; [exact Logic.I|]. 
  match goal with |- safe (put_in _ _ _ ?x _) _ => set (d := x) end. assert (Hp : zlen d <= cap) by exact (padded_len s cap Hl).
  assert (Hb : all_bytes d) by exact (padded_bytes s (zlen s <? cap) Hs). clearbody d.
  eapply safe_mono; [apply safe_put; [exact G|exact P|exact Hb|exact H0|lia|lia|]|intros a Ha; split; [exact Ha|lia]].
  intros Ef. destruct (good_plain f st P G) as ((L & _) & Hn). subst f. unfold u_size in *. change (size_of "user") with 195 in *. assert (0 <= zlen d) by (unfold zlen; lia).
  destruct (Hu eq_refl) as [X|X]; [rewrite put_at_after by lia|rewrite put_at_before by lia]; apply Hn; reflexivity.
Qed.
(** A copy with the length of the string *)
Lemma safe_exact f room oom s st : good st -> plain f -> all_bytes s -> zlen s <= room -> room <= size_of f -> f <> "user" -> safe (copy f 0 room (zlen s) oom s st) good.
Proof.
  intros G P Hs Hr Hz Hu. eapply safe_mono; [apply safe_copy; try assumption; try lia; contradiction|]. intros a Ha; apply Ha.
Qed.
Ltac zk := first [exact Logic.I | unfold zok; cbn in *; lia].
Ltac gd := repeat first [apply good_z; [|zk] | apply good_l | assumption].
Ltac pl := split; reflexivity.
Ltac by_bytes := apply safe_bind; eapply safe_mono; [apply safe_get_bytes; assumption|intros s Hs].
Ltac by_int := apply safe_bind; eapply safe_mono; [apply safe_get_int|intros z Hz].
Ltac by_bool := apply safe_bind; eapply safe_mono; [apply safe_get_bool|intros b _].
Ltac by_copy := apply safe_bind; eapply safe_mono; [apply safe_copy; [assumption|pl|assumption|lia|lia|cbn; lia|first [discriminate|intros _; lia]]|intros s2 (G2 & L2)].
Lemma zlen1 (x : Z) : zlen [x] = 1. Proof. reflexivity. Qed.
Ltac one := rewrite zlen1; try change (size_of "user") with 195; unfold zlen in *; lia.
Section S.
Variable K : fcrypto.
Hypothesis sha_size : forall m, bytes_of 32 (f_sha K m).
Variable sm2 : bytes.
Lemma user_safe v st : of_bytes v -> good st -> safe (parse_user v st) good.
Proof.
  intros Hv G. unfold parse_user. apply safe_bind. eapply safe_mono; [apply safe_get_map, Hv|]. intros l Hl. apply safe_txt_loop; [exact Hl|exact G|].
  clear st G. intros k w st Hw G. unfold user_step. repeat destruct (key_is _ _).
  - by_bytes. by_copy. apply safe_put; [exact G2|pl| |lia|one|one|]; [constructor; [unfold is_byte, zlen in *; lia|constructor]|].
    intros _. destruct (good_plain "user" s2 ltac:(pl) G2) as ((L & _) & _). change (size_of "user") with 195 in L. unfold u_size.
    change 64%nat with (Z.to_nat 64 + 0)%nat. rewrite put_at_in; [exact L2|lia|lia|cbn; lia].
  - apply safe_bind. eapply safe_mono; [apply safe_get_text; assumption|intros s Hs]. by_copy.
    destruct (good_plain "user" s2 ltac:(pl) G2) as ((L & _) & Hn). change (size_of "user") with 195 in L.
    apply safe_put; [exact G2|pl| |unfold zlen; lia|one|one|]; [repeat constructor; unfold is_byte; lia|].
    intros _. unfold u_size in *. rewrite put_at_before; [apply Hn; reflexivity|unfold zlen; lia|lia|unfold zlen; lia].
  - apply safe_bind. eapply safe_mono; [apply safe_get_text; assumption|intros s Hs]. by_copy.
    destruct (good_plain "user" s2 ltac:(pl) G2) as ((L & _) & Hn). change (size_of "user") with 195 in L.
    apply safe_put; [exact G2|pl| |unfold zlen; lia|one|one|]; [repeat constructor; unfold is_byte; lia|].
    intros _. unfold u_size in *. rewrite put_at_before; [apply Hn; reflexivity|unfold zlen; lia|lia|unfold zlen; lia].
  - apply safe_bind. eapply safe_mono; [apply safe_get_text; assumption|intros s Hs]. exact G.
  - exact G.
Qed.
Lemma alg_safe v st : of_bytes v -> good st -> safe (parse_verify_pub_key_cred_params sm2 v st) good.
Proof.
  intros Hv G. unfold parse_verify_pub_key_cred_params. apply safe_bind. eapply safe_mono; [apply safe_get_arr, Hv|]. intros l _. generalize false. revert st G.
  induction l as [|x r IH]; intros st G c; cbn [alg_loop]; [destruct c; [exact G|exact Logic.I]|]. apply safe_bind. unfold parse_pub_key_cred_param.
  destruct x as [| | | | |m|]; try exact Logic.I. cbn [get_map pbind]. destruct (map_find "type" m) as [[]|]; try exact Logic.I. destruct (map_find "alg" m) as [[]|]; try exact Logic.I.
  destruct (negb _); [exact Logic.I|]. eapply safe_mono; [apply safe_get_int|]. intros a Ha. destruct (_ && _); apply IH; gd; exact G.
Qed.
Lemma find_bytes k l v : Forall (fun p => of_bytes (snd p)) l -> map_find k l = Some v -> of_bytes v.
Proof.
  induction 1 as [|[x y] r Hy Hr IH]; [discriminate|]. cbn [map_find]. destruct x; auto. destruct (beqb _ _); [|exact IH]. intros E. injection E as <-. exact Hy.
Qed.
Lemma desc_id_safe v : of_bytes v -> safe (descriptor_id v) all_bytes.
Proof.
  intros Hv. unfold descriptor_id. apply safe_bind. eapply safe_mono; [apply safe_get_map, Hv|]. intros l Hl. destruct (map_find "id" l) as [[]|] eqn:E; try exact Logic.I.
  exact (find_bytes _ _ _ Hl E).
Qed.
Lemma desc_type_safe v : safe (descriptor_type v) (fun _ => True).
Proof. unfold descriptor_type. destruct v; try exact Logic.I. cbn [get_map pbind]. destruct (map_find "type" l) as [[]|]; exact Logic.I. Qed.
Lemma list_safe v st : of_bytes v -> good st -> safe (parse_public_key_credential_list v st) good.
Proof.
  intros Hv G. unfold parse_public_key_credential_list. apply safe_bind. eapply safe_mono; [apply safe_get_arr, Hv|]. intros l Hl. apply safe_bind.
  eapply safe_mono with (Q := fun _ => True); [|intros; apply good_l; exact G]. induction Hl as [|x r Hx Hr IH]; cbn [id_list]; [exact Logic.I|].
  apply safe_bind. eapply safe_mono; [apply desc_id_safe, Hx|]. intros i _. apply safe_bind. eapply safe_mono; [apply desc_type_safe|]. intros _ _.
  apply safe_bind. eapply safe_mono; [exact IH|]. intros; exact Logic.I.
Qed.
Lemma options_safe v st : good st -> safe (parse_options v st) good.
Proof.
  intros G. unfold parse_options. destruct v; try exact Logic.I. cbn [get_map pbind]. revert st G. induction l as [|[k x] r IH]; intros st G; cbn [options_loop]; [exact G|].
  destruct k; try exact Logic.I. destruct x; try exact Logic.I. cbn [get_text get_bool pbind]. apply IH. repeat destruct (beqb _ _); gd; exact G.
Qed.
Lemma cose_safe v st : of_bytes v -> good st -> safe (parse_cose_key v st) good.
Proof.
  intros Hv G. unfold parse_cose_key. apply safe_bind. eapply safe_mono; [apply safe_get_map, Hv|]. intros l Hl. apply safe_bind.
  eapply safe_mono with (Q := fun x => good (fst x)); [|intros [a n] Ha; cbn; destruct (_ <? _); [exact Logic.I|exact Ha]].
  apply safe_int_loop; [exact Hl|exact G|]. clear st G. intros k w [st n] _ Hw G. unfold cose_step. cbn [fst] in G.
  repeat match goal with |- context [if ?b then _ else _] => lazymatch b with k =? _ => destruct b end end.
  1-3: by_int; destruct (_ =? _); [exact G|exact Logic.I].
  1-2: by_bytes; by_copy; destruct (_ =? 32); [exact G2|exact Logic.I].
  exact G.
Qed.
Lemma long_safe v st : of_bytes v -> good st -> safe (long_param v st) good.
Proof.
  intros Hv G. unfold long_param. by_bytes. destruct (Z.ltb_spec 32 (zlen s)); [exact Logic.I|]. apply safe_bind. destruct (0 <? zlen s).
  - eapply safe_mono; [apply safe_exact; [exact G|pl|exact Hs|lia|cbn; lia|discriminate]|]. intros a Ha. cbn [safe]. gd.
  - cbn [safe]. gd; exact G.
Qed.
Lemma short_safe v st : of_bytes v -> good st -> safe (short_param v st) good.
Proof.
  intros Hv G. unfold short_param. by_bytes. destruct ((_ =? 0) || _) eqn:E; [exact Logic.I|]. apply safe_bind.
  eapply safe_mono; [apply safe_exact; [exact G|pl|exact Hs|lia|cbn; lia|discriminate]|]. intros a Ha. cbn [safe]. gd.
Qed.
Lemma proto_safe v st : good st -> safe (protocol_of v st) good.
Proof. intros G. unfold protocol_of. by_int. destruct (_ || _); [|exact Logic.I]. cbn [safe]. gd; exact G. Qed.
Lemma cdh_safe v st : of_bytes v -> good st -> safe (client_data_hash v st) good.
Proof. intros Hv G. unfold client_data_hash. by_bytes. by_copy. destruct (_ =? _); [|exact Logic.I]. cbn [safe]. gd; exact G2. Qed.
Lemma trunc_bytes buf rp : all_bytes buf -> all_bytes rp -> all_bytes (fst (maybe_truncate_rpid buf rp)).
Proof.
  intros Hb Hr. unfold maybe_truncate_rpid. destruct (_ <=? _); [apply put_at_bytes; assumption|].
  assert (X : forall p : bytes * Z, all_bytes (fst p) -> all_bytes (fst (let '(buf, used) := p in if MAX_STORED_RPID_LENGTH - used <? 3 then (buf, used) else
    (put_at (used + 3) (slice (zlen rp - (MAX_STORED_RPID_LENGTH - (used + 3))) (MAX_STORED_RPID_LENGTH - (used + 3)) rp) (put_at used [226; 128; 166] buf), MAX_STORED_RPID_LENGTH)))).
  { intros [b u] H. destruct (_ <? 3); [exact H|]. cbn [fst] in *. apply put_at_bytes; [apply all_bytes_slice, Hr|]. apply put_at_bytes; [|exact H]. repeat constructor; unfold is_byte; lia. }
  apply X. destruct (memchr _ _); [|exact Hb]. cbn [fst]. apply put_at_bytes; [apply all_bytes_slice, Hr|exact Hb].
Qed.
Lemma rp_safe v st : of_bytes v -> good st -> safe (mc_rp_step K v st) good.
Proof.
  intros Hv G. unfold mc_rp_step.
  assert (X : forall r, match parse_rp K v r with inl _ => True | inr r' => (bytes_of 32 (rp_buf r) /\ 0 <= rp_len r <= 32 /\ bytes_of 32 (rp_hash r)) ->
    bytes_of 32 (rp_buf r') /\ 0 <= rp_len r' <= 32 /\ bytes_of 32 (rp_hash r') end).
  { intros r. destruct v; try exact Logic.I. cbn [parse_rp]. apply of_map in Hv. revert r. induction Hv as [|[k x] l Hx Hl IH]; intros r; cbn [rp_loop]; [auto|].
    destruct k; try exact Logic.I. destruct (4 <? _); [exact Logic.I|]. destruct x as [| |rp| | | |]; try exact Logic.I. destruct (key_is _ _); [|apply IH].
    destruct (_ <? _); [exact Logic.I|]. pose proof (C59_truncation (rp_buf r) rp) as T. pose proof (trunc_bytes (rp_buf r) rp) as TB.
    destruct (maybe_truncate_rpid _ _) as [b1 n]. specialize (IH (mkRp b1 n (f_sha K rp))). destruct (rp_loop K l _); [exact Logic.I|]. intros ((L & B) & _ & _). apply IH. cbn [rp_buf rp_len rp_hash].
    cbn [fst] in TB. destruct T as (T1 & T2 & _); [unfold zlen in L; lia|]. split; [split; [unfold zlen; lia|apply TB; assumption]|]. split; [lia|apply sha_size]. }
  specialize (X (mkRp (pb st "rp") (pz st "rp_len") (pb st "rphash"))). destruct (parse_rp _ _ _) as [c|r]; [exact Logic.I|]. cbn [rp_buf rp_len rp_hash] in X.
  destruct X as (X1 & X2 & X3).
  - split; [apply (good_plain "rp" st ltac:(pl) G)|]. split; [apply (proj2 G "rp_len")|apply (good_plain "rphash" st ltac:(pl) G)].
  - cbn [safe]. apply good_z; [|zk]. apply good_b; [|split; [exact X3|discriminate]]. apply good_z; [|exact X2]. apply good_b; [exact G|split; [exact X1|discriminate]].
Qed.
Lemma mc_ext_safe v st : of_bytes v -> good st -> safe (parse_mc_extensions v st) good.
Proof.
  intros Hv G. unfold parse_mc_extensions. apply safe_bind. eapply safe_mono; [apply safe_get_map, Hv|]. intros l Hl. apply safe_txt_loop; [exact Hl|exact G|].
  clear st G. intros k w st Hw G. unfold mc_ext_step. repeat destruct (key_is _ _).
  - by_int. destruct (_ || _) eqn:E; [exact Logic.I|]. cbn [safe]. apply good_z; [exact G|zk].
  - by_bytes. assert (G' : good (set_z "has_blob" 1 st)) by (gd; exact G). cbv zeta. destruct (32 <? zlen s); [cbn [safe]; gd; exact G'|]. by_copy. cbn [safe]. gd; exact G2.
  - by_bool. destruct b; [|exact Logic.I]. cbn [safe]. gd; exact G.
  - by_bool. cbn [safe]. gd; exact G.
  - exact G.
Qed.
Lemma ga_ext_safe v st : of_bytes v -> good st -> safe (parse_ga_extensions v st) good.
Proof.
  intros Hv G. unfold parse_ga_extensions. apply safe_bind. eapply safe_mono; [apply safe_get_map, Hv|]. intros l Hl. apply safe_txt_loop; [exact Hl|exact G|].
  clear st G. intros k w st Hw G. unfold ga_ext_step. repeat destruct (key_is _ _).
  - apply safe_bind. eapply safe_mono; [apply safe_get_map, Hw|]. intros m Hm. apply safe_bind. eapply safe_mono with (Q := good).
    + apply safe_int_loop; [exact Hm|gd; exact G|]. clear st G. intros j x st _ Hx G. unfold hs_step.
      repeat match goal with |- context [if ?b then _ else _] => lazymatch b with j =? _ => destruct b end end.
      * apply safe_bind. eapply safe_mono; [apply safe_as, cose_safe; assumption|]. intros a Ha. cbn [safe]. gd.
      * by_bytes. by_copy. cbn [safe]. gd; exact G2.
      * by_bytes. by_copy. cbn [safe]. gd; exact G2.
      * by_int. cbn [safe]. gd; exact G.
      * exact G.
    + intros a Ha. cbv zeta. repeat (match goal with |- safe (if ?b then _ else _) _ => destruct b end; [exact Logic.I|]). cbn [safe]. gd.
  - by_bool. cbn [safe]. gd; exact G.
  - by_bool. destruct b; [exact G|exact Logic.I].
  - exact G.
Qed.
Lemma mc_safe k v st : of_bytes v -> good st -> safe (mc_step K sm2 k v st) good.
Proof.
  intros Hv G. unfold mc_step. repeat match goal with |- context [if ?b then _ else _] => lazymatch b with k =? _ => destruct b end end.
  - apply cdh_safe; assumption.
  - apply rp_safe; assumption.
  - apply safe_bind. eapply safe_mono; [apply user_safe; assumption|]. intros a Ha. cbn [safe]. gd.
  - apply safe_bind. eapply safe_mono; [apply alg_safe; assumption|]. intros a Ha. cbn [safe]. gd.
  - apply list_safe; assumption.
  - apply mc_ext_safe; assumption.
  - apply options_safe; assumption.
  - apply long_safe; assumption.
  - apply proto_safe; assumption.
  - exact G.
Qed.
Lemma ga_safe k v st : of_bytes v -> good st -> safe (ga_step K k v st) good.
Proof.
  intros Hv G. unfold ga_step. repeat match goal with |- context [if ?b then _ else _] => lazymatch b with k =? _ => destruct b end end.
  - apply safe_bind. eapply safe_mono; [apply safe_get_text, Hv|]. intros s Hs. destruct (_ <? _); [exact Logic.I|]. cbn [safe]. apply good_z; [|zk]. apply good_b; [exact G|split; [apply sha_size|discriminate]].
  - apply cdh_safe; assumption.
  - apply list_safe; assumption.
  - apply ga_ext_safe; assumption.
  - apply options_safe; assumption.
  - apply long_safe; assumption.
  - apply proto_safe; assumption.
  - exact G.
Qed.
Lemma cm_par_safe v st : of_bytes v -> good st -> safe (parse_cm_params v st) good.
Proof.
  intros Hv G. unfold parse_cm_params. apply safe_bind. eapply safe_mono; [apply safe_get_map, Hv|]. intros l Hl. apply safe_int_loop; [exact Hl|exact G|].
  clear st G. intros k w st _ Hw G. unfold cm_param_step. repeat match goal with |- context [if ?b then _ else _] => lazymatch b with k =? _ => destruct b end end.
  - by_bytes. destruct (Z.eqb_spec (zlen s) 32); [|exact Logic.I]. cbn [negb]. apply safe_bind.
    eapply safe_mono; [apply safe_exact; [exact G|pl|exact Hs|lia|cbn; lia|discriminate]|]. intros a Ha. cbn [safe]. gd.
  - apply safe_bind. eapply safe_mono with (Q := good); [|intros a Ha; cbn [safe]; gd]. apply safe_as. apply safe_bind. eapply safe_mono; [apply desc_id_safe, Hw|]. intros s Hs.
    by_copy. apply safe_bind. eapply safe_mono; [apply desc_type_safe|]. intros _ _. exact G2.
  - apply safe_bind. eapply safe_mono; [apply safe_as, user_safe; assumption|]. intros a Ha. cbn [safe]. gd.
  - exact G.
Qed.
Lemma cm_safe k v st : of_bytes v -> good st -> safe (cm_step k v st) good.
Proof.
  intros Hv G. unfold cm_step. repeat match goal with |- context [if ?b then _ else _] => lazymatch b with k =? _ => destruct b end end.
  - by_int. cbn [safe]. gd; exact G.
  - apply safe_bind. eapply safe_mono; [apply safe_as, cm_par_safe; assumption|]. intros a Ha. cbn [safe]. apply good_b; [exact Ha|exact Logic.I].
  - apply proto_safe; assumption.
  - apply short_safe; assumption.
  - exact G.
Qed.
Lemma lb_safe k v st : of_bytes v -> good st -> safe (lb_step k v st) good.
Proof.
  intros Hv G. unfold lb_step. assert (U : forall f, zok f = zok "get" -> zok ("has_" ++ f) = (fun _ => True) -> safe (unsigned f v st) good).
  { intros f E1 E2. unfold unsigned. by_int. destruct (Z.ltb_spec z 0); [exact Logic.I|]. cbn [safe]. apply good_z; [|rewrite E2; exact Logic.I]. apply good_z; [exact G|].
    rewrite E1. unfold cap16, zok. cbn. destruct (Z.ltb_spec 65535 z); lia. }
  repeat match goal with |- context [if ?b then _ else _] => lazymatch b with k =? _ => destruct b end end.
  - apply U; reflexivity.
  - by_bytes. cbn [safe]. apply good_z; [|zk]. apply good_b; [exact G|exact Hs].
  - apply U; reflexivity.
  - apply U; reflexivity.
  - apply short_safe; assumption.
  - apply proto_safe; assumption.
  - exact G.
Qed.
Lemma loop_safe step v : of_bytes v -> (forall k w st, of_bytes w -> good st -> safe (step k w st) good) ->
  safe (l <<- get_map v ; int_loop step l pst0) good.
Proof.
  intros Hv H. apply safe_bind. eapply safe_mono; [apply safe_get_map, Hv|]. intros l Hl. apply safe_int_loop; [exact Hl|apply good_0|]. intros; apply H; assumption.
Qed.
Lemma split_loop {B} (step : Z -> cbor -> pst -> pres pst) v (f : pst -> pres B) (Q : B -> Prop) :
  safe (l <<- get_map v ; int_loop step l pst0) (fun st => safe (f st) Q) -> safe (l <<- get_map v ; st <<- int_loop step l pst0 ; f st) Q.
Proof. destruct (get_map v); cbn; auto. destruct (int_loop step a pst0); auto. Qed.
Ltac skip := repeat (match goal with |- safe (if ?b then PErr _ else _) _ => destruct b eqn:? end; [exact Logic.I|]).
Lemma make_safe v : of_bytes v -> safe (parse_make_credential K sm2 v) mc_ok.
Proof.
  intros Hv. apply split_loop. eapply safe_mono; [apply loop_safe; [exact Hv|apply mc_safe]|]. intros st G. destruct (_ && _); [|exact Logic.I]. cbn [safe].
  pose proof (fun f P => good_plain f st P G) as B. pose proof (proj2 G) as Z. unfold mc_ok. cbn.
  destruct (B "cdh" ltac:(pl)) as (B1 & _). destruct (B "rphash" ltac:(pl)) as (B2 & _). destruct (B "user" ltac:(pl)) as (B3 & B3'). destruct (B "rp" ltac:(pl)) as ((B4 & B4') & _).
  split; [exact B1|]. split; [exact B2|]. split; [exact B3|]. split; [apply B3'; reflexivity|].
  pose proof (Z "rp_len") as Z1. pose proof (Z "cp") as Z2. pose proof (Z "alg") as Z3. cbn in Z1, Z2, Z3.
  split; [unfold zlen in *; rewrite firstn_length; lia|]. split; [apply all_bytes_firstn, B4'|]. split; [exact Z2|]. split; [exact Z3|].
  unfold opt. destruct (has "has_blob" st); [|exact Logic.I]. apply all_bytes_firstn. apply all_bytes_app. split; [apply (B "blob" ltac:(pl))|].
  repeat constructor; unfold is_byte; lia.
Qed.
Lemma get_safe v : of_bytes v -> safe (parse_get_assertion K v) ga_ok.
Proof.
  intros Hv. apply split_loop. eapply safe_mono; [apply loop_safe; [exact Hv|apply ga_safe]|]. intros st G. destruct (_ && _); [|exact Logic.I]. cbn [safe].
  split; [apply (good_plain "cdh" st ltac:(pl) G)|apply (good_plain "rphash" st ltac:(pl) G)].
Qed.
Lemma manage_safe v : of_bytes v -> safe (parse_credential_management v) cm_ok.
Proof.
  intros Hv. apply split_loop. eapply safe_mono; [apply loop_safe; [exact Hv|apply cm_safe]|]. intros st G. cbv zeta. skip. cbn [safe].
  split; [apply (good_plain "rphash" st ltac:(pl) G)|]. split; [apply (good_plain "id" st ltac:(pl) G)|]. destruct (good_plain "user" st ltac:(pl) G) as (B & B'). split; [exact B|apply B'; reflexivity].
Qed.
Lemma large_safe v : of_bytes v -> safe (parse_large_blobs v) lb_ok.
Proof.
  intros Hv. apply split_loop. eapply safe_mono; [|intros st G; exact G]. eapply safe_mono with (Q := fun st => good st /\ (has "has_set" st = true \/ pb st "set" = [])).
  - apply safe_bind. eapply safe_mono; [apply safe_get_map, Hv|]. intros l Hl. apply safe_int_loop; [exact Hl|split; [apply good_0|right; reflexivity]|].
    intros k w st _ Hw (G & H). pose proof (lb_safe k w st Hw G) as S.
    assert (X : forall st', lb_step k w st = POk st' -> has "has_set" st' = true \/ pb st' "set" = []).
    { intros st'. unfold lb_step, unsigned, protocol_of, short_param.
      repeat match goal with |- context [if ?b then _ else _] => lazymatch b with k =? _ => destruct b end end; intros E.
      - destruct (get_int w); try discriminate. cbn [pbind] in E. destruct (_ <? 0); [discriminate|]. injection E as <-. exact H.
      - destruct (get_bytes w); try discriminate. injection E as <-. left. reflexivity.
      - destruct (get_int w); try discriminate. cbn [pbind] in E. destruct (_ <? 0); [discriminate|]. injection E as <-. exact H.
      - destruct (get_int w); try discriminate. cbn [pbind] in E. destruct (_ <? 0); [discriminate|]. injection E as <-. exact H.
      - destruct (get_bytes w) as [b| |]; try discriminate. cbn [pbind] in E. destruct (_ || _); [discriminate|]. unfold copy, put_in in E. rewrite !Z.ltb_irrefl in E. destruct (_ <=? _); [|discriminate]. injection E as <-. exact H.
      - destruct (get_int w); try discriminate. cbn [pbind] in E. destruct (_ || _); [|discriminate]. injection E as <-. exact H.
      - injection E as <-. exact H. }
    destruct (lb_step k w st); [split; [exact S|apply X; reflexivity]|exact Logic.I|exact S].
  - intros st (G & H). skip. cbn [safe].
    pose proof (proj2 G "get") as Z1. pose proof (proj2 G "offset") as Z2. pose proof (proj2 G "length") as Z3. pose proof (proj1 G "set") as B. cbn in Z1, Z2, Z3, B.
    unfold lb_ok. cbn. unfold MAX_FRAGMENT_LENGTH, LARGE_BLOB_SIZE_LIMIT in *.
    split; [exact Z2|]. split; [exact B|]. unfold opt.
    split; [destruct (has "has_set" st) eqn:Es; [|destruct H as [H|H]; [discriminate|rewrite H; unfold zlen; cbn; lia]]; cbn [andb] in *; lia|].
    destruct (has "has_get" st) eqn:Eg; [cbn [andb] in *; lia|]. intros E0. rewrite E0 in *. destruct (has "has_set" st) eqn:Es; [|discriminate]. cbn [andb orb negb Z.eqb] in *. lia.
Qed.
Lemma copy_pz f off room cap oom s st st' : copy f off room cap oom s st = POk st' -> pz st' = pz st.
Proof. unfold copy, put_in. destruct (_ <? _); [discriminate|]. destruct (_ <=? _); [|discriminate]. intros E. injection E as <-. reflexivity. Qed.
Lemma cose_pz v st st' : parse_cose_key v st = POk st' -> pz st' = pz st.
Proof.
  unfold parse_cose_key. destruct (get_map v) as [l| |]; try discriminate. cbn [pbind].
  assert (X : forall l x x', int_loop cose_step l x = POk x' -> pz (fst x') = pz (fst x)).
  { induction l0 as [|[k w] r IH]; intros x x' E; cbn [int_loop] in E; [injection E as <-; reflexivity|]. destruct (get_int k); try discriminate. cbn [pbind] in E.
    destruct (cose_step a w x) as [y| |] eqn:Ey; try discriminate. cbn [pbind] in E. rewrite (IH _ _ E). clear E IH. unfold cose_step in Ey. destruct x as [s n].
    repeat match type of Ey with context [if ?b then _ else _] => lazymatch b with a =? _ => destruct b end end.
    1-3: destruct (get_int w); try discriminate; cbn [pbind] in Ey; destruct (_ =? _); [injection Ey as <-; reflexivity|discriminate].
    1-2: destruct (get_bytes w) as [b| |]; try discriminate; cbn [pbind] in Ey; destruct (copy _ _ _ _ _ _ _) eqn:Ec; try discriminate; cbn [pbind] in Ey; destruct (_ =? 32); [|discriminate]; injection Ey as <-; exact (copy_pz _ _ _ _ _ _ _ _ Ec).
    injection Ey as <-. reflexivity. }
  destruct (int_loop cose_step l (st, 0)) as [x| |] eqn:E; try discriminate. cbn [pbind]. destruct (_ <? 4); [discriminate|]. intros F. injection F as <-. exact (X _ _ _ E).
Qed.
Lemma set_z_other f g z st : String.eqb f g = false -> pz (set_z f z st) g = pz st g. Proof. intros E. cbn. unfold upd. rewrite E. reflexivity. Qed.
(** One entry of a clientPIN request: safe if its strings fit, or the protocol is known *)
Definition fits (k : Z) (v : cbor) (st : pst) : Prop :=
  forall s, v = CBytes s -> (k = 5 -> zlen s <= 80 \/ 1 <= pz st "proto" <= 2) /\ (k = 6 -> zlen s <= 32 \/ 1 <= pz st "proto" <= 2).
Lemma enc_safe f room n1 n2 v st : good st -> plain f -> f <> "user" -> of_bytes v -> room <= size_of f -> n1 <= room -> n2 <= room ->
  (forall s, v = CBytes s -> zlen s <= room \/ 1 <= pz st "proto" <= 2) -> safe (enc_field f room n1 n2 v st) (fun st' => good st' /\ pz st' = pz st).
Proof.
  intros G P Nu Hv H1 H2 H3 Hf. unfold enc_field. destruct v as [|s| | | | |]; try exact Logic.I. cbn [get_bytes pbind]. specialize (Hf s eq_refl). cbn in Hv.
  destruct (_ || _) eqn:E; [exact Logic.I|]. assert (L : zlen s <= room) by (destruct Hf as [Hf|Hf]; [exact Hf|]; clear -E Hf H2 H3; lia).
  pose proof (safe_exact f room ERR_INVALID_CBOR s st G P Hv L H1 Nu) as S. destruct (copy _ _ _ _ _ _ _) as [st'| |] eqn:Ec; [|exact Logic.I|exact S].
  split; [exact S|exact (copy_pz _ _ _ _ _ _ _ _ Ec)].
Qed.
Lemma cp_safe k v st : of_bytes v -> good st -> fits k v st ->
  safe (cp_step K k v st) (fun st' => good st' /\ (pz st' "proto" = pz st "proto" \/ 1 <= pz st' "proto" <= 2)).
Proof.
  intros Hv G F. unfold cp_step. repeat match goal with |- context [if ?b then _ else _] => lazymatch b with k =? ?c => destruct (Z.eqb_spec k c) end end.
  - pose proof (proto_safe v st G) as S. unfold protocol_of in *. destruct (get_int v) as [z| |]; [|exact Logic.I|exact S]. cbn [pbind] in *. destruct ((z =? 1) || (z =? 2)) eqn:E; [|exact Logic.I].
    split; [exact S|]. right. cbn. lia.
  - by_int. cbn [safe]. split; [gd; exact G|left; reflexivity].
  - pose proof (cose_safe v st Hv G) as S. destruct (parse_cose_key v st) as [s2| |] eqn:E; [|exact Logic.I|exact S]. cbn. split; [gd; exact S|]. left. rewrite (cose_pz _ _ _ E). reflexivity.
  - pose proof (short_safe v st Hv G) as S. unfold short_param in *. destruct (get_bytes v) as [b| |]; [|exact Logic.I|exact S]. cbn [pbind] in *. destruct (_ || _); [exact Logic.I|].
    destruct (copy _ _ _ _ _ _ _) as [s2| |] eqn:E; [|exact Logic.I|exact S]. cbn [pbind safe] in *. split; [exact S|]. left. cbn. rewrite (copy_pz _ _ _ _ _ _ _ _ E). reflexivity.
  - apply safe_bind. eapply safe_mono; [apply (enc_safe "new"); [exact G|pl|discriminate|exact Hv|cbn; lia|lia|lia|]|].
    + intros s Es. destruct (F s Es) as (F5 & _). apply F5. lia.
    + intros s2 (G2 & E2). cbn. split; [gd; exact G2|]. left. rewrite E2. reflexivity.
  - apply safe_bind. eapply safe_mono; [apply (enc_safe "hash"); [exact G|pl|discriminate|exact Hv|cbn; lia|lia|lia|]|].
    + intros s Es. destruct (F s Es) as (_ & F6). apply F6. lia.
    + intros s2 (G2 & E2). cbn. split; [gd; exact G2|]. left. rewrite E2. reflexivity.
  - by_int. skip. cbn [safe]. split; [gd; exact G|left; reflexivity].
  - apply safe_bind. eapply safe_mono; [apply safe_get_text, Hv|]. intros s Hs. skip. cbn [safe]. split; [|left; reflexivity].
    apply good_z; [|zk]. apply good_b; [exact G|split; [apply sha_size|discriminate]].
  - split; [exact G|left; reflexivity].
Qed.
Lemma pin_tail st : safe (if negb (has "has_sub" st) then PErr ERR_MISSING else
  if cp_missing st then PErr ERR_MISSING else
  if (pz st "sub" =? 5) && (has "has_perm" st || has "has_rp" st) then PErr ERR_PARAMETER else
  if (pz st "sub" =? 9) && negb (has "has_proto" st && has "has_key" st && has "has_hash" st && has "has_perm" st) then PErr ERR_MISSING else
  POk (cp_of_pst st)) (fun _ => True).
Proof. skip. exact Logic.I. Qed.
Lemma pin_fits l : of_bytes (CMap l) -> (forall s, In (CInt 5, CBytes s) l -> zlen s <= 80) -> (forall s, In (CInt 6, CBytes s) l -> zlen s <= 32) ->
  safe (parse_client_pin K (CMap l)) (fun _ => True).
Proof.
  intros Hv H5 H6. apply split_loop. eapply safe_mono; [|intros st _; apply pin_tail]. apply safe_bind. cbn [get_map safe].
  apply safe_int_loop with (I := good); [apply of_map, Hv|apply good_0|]. intros k w st Hin Hw G. eapply safe_mono; [apply cp_safe; [exact Hw|exact G|]|intros a Ha; apply Ha].
  intros s ->. split; intros ->; left; auto.
Qed.
Lemma pin_first p r : of_bytes (CMap ((CInt 1, p) :: r)) -> safe (parse_client_pin K (CMap ((CInt 1, p) :: r))) (fun _ => True).
Proof.
  intros Hv. apply split_loop. eapply safe_mono with (Q := fun _ => True); [|intros st _; apply pin_tail]. apply safe_bind. cbn [get_map safe]. cbn [int_loop]. change (get_int (CInt 1)) with (POk 1). cbn [pbind].
  destruct Hv as (_ & Hp & Hr). pose proof (proto_safe p pst0 good_0) as S. change (cp_step K 1 p pst0) with (protocol_of p pst0). unfold protocol_of in *.
  destruct (get_int p) as [z| |]; [|exact Logic.I|exact S]. cbn [pbind] in *. destruct ((z =? 1) || (z =? 2)) eqn:E; [|exact Logic.I]. cbn [safe pbind] in *.
  eapply safe_mono with (Q := fun st => good st /\ 1 <= pz st "proto" <= 2); [|intros a Ha; first [exact Logic.I|exact (proj1 Ha)]]. apply safe_int_loop; [apply of_map, Hr|split; [exact S|cbn; lia]|].
  intros k w st _ Hw (G & P). eapply safe_mono; [apply cp_safe; [exact Hw|exact G|]|].
  - intros s ->. split; intros _; right; exact P.
  - intros st' (G' & [P'|P']); (split; [exact G'|]); [rewrite P'; exact P|exact P'].
Qed.

(** ** C82: no request makes the parser write outside the request record *)
(** True of every command but clientPIN, for every message *)
Theorem C82_other_commands cmd v : of_bytes v -> cmd <> CTAP_CLIENT_PIN -> parse_request K sm2 cmd v <> None.
Proof.
  intros Hv Hc. unfold parse_request, parsed.
  pose proof (make_safe v Hv). pose proof (get_safe v Hv). pose proof (manage_safe v Hv). pose proof (large_safe v Hv).
  repeat match goal with |- context [if ?b then _ else _] => lazymatch b with (cmd =? _) => destruct b eqn:? | (cmd =? _) || _ => destruct b eqn:? end end; try discriminate; try lia.
  all: match goal with |- match ?m with _ => _ end <> None => destruct m; [discriminate|discriminate|contradiction] end.
Qed.
(** clientPIN: when pinUvAuthProtocol comes first, where the canonical order puts it *)
Theorem C82_protocol_first_partial p r : of_bytes (CMap ((CInt 1, p) :: r)) -> parse_request K sm2 CTAP_CLIENT_PIN (CMap ((CInt 1, p) :: r)) <> None.
Proof.
  intros Hv. change (parse_request K sm2 CTAP_CLIENT_PIN ?v) with (parsed RPin (parse_client_pin K v)). pose proof (pin_first p r Hv).
  unfold parsed. destruct (parse_client_pin _ _); [discriminate|discriminate|contradiction].
Qed.
(** clientPIN: and whenever newPinEnc and pinHashEnc are not longer than the fields for them *)
Theorem C82_short_strings_partial l : of_bytes (CMap l) ->
  (forall s, In (CInt 5, CBytes s) l -> zlen s <= 80) -> (forall s, In (CInt 6, CBytes s) l -> zlen s <= 32) ->
  parse_request K sm2 CTAP_CLIENT_PIN (CMap l) <> None.
Proof.
  intros Hv H5 H6. change (parse_request K sm2 CTAP_CLIENT_PIN ?v) with (parsed RPin (parse_client_pin K v)). pose proof (pin_fits l Hv H5 H6).
  unfold parsed. destruct (parse_client_pin _ _); [discriminate|discriminate|contradiction].
Qed.
(** Not true of clientPIN in general: a request without the protocol, in canonical order and within a message of 1300 bytes, whose
    newPinEnc is written over the end of its field, by any number of bytes up to 1200 *)
Theorem C82_refuted n : 80 < n <= 1200 ->
  let v := CMap [(CInt 2, CInt 3); (CInt 5, CBytes (zeros n))] in
  of_bytes v /\ zlen (CTAP_CLIENT_PIN :: enc v) <= 1300 /\ parse_request K sm2 CTAP_CLIENT_PIN v = None.
Proof.
  intros Hn v. split; [split; [exact Logic.I|]; split; [exact Logic.I|]; split; [exact Logic.I|]; split; [apply zeros_bytes|exact Logic.I]|].
  assert (Lz : zlen (zeros n) = n) by (apply zeros_len; lia). split.
  - unfold v. cbn [enc app]. change (cbor_head 5 _) with [162]. cbn [Z.ltb Z.compare]. change (cbor_head 0 2) with [2]. change (cbor_head 0 3) with [3]. change (cbor_head 0 5) with [5].
    cbn [app]. rewrite app_nil_r. unfold zlen at 1. cbn [length]. rewrite app_length, Lz. assert (Hh : (length (cbor_head 2 n) <= 3)%nat).
    { unfold cbor_head. destruct (n <? 24); [cbn [length]; lia|]. destruct (n <? 256); [cbn [length]; lia|]. destruct (Z.ltb_spec n 65536) as [X|X]; [|exfalso; lia]. cbn [length]. rewrite to_be_length. lia. }
    unfold zlen in Lz. lia.
  - unfold v. change (parse_request K sm2 CTAP_CLIENT_PIN ?v) with (parsed RPin (parse_client_pin K v)). unfold parse_client_pin. cbn [get_map pbind int_loop].
    change (get_int (CInt 2)) with (POk 2). cbn [pbind]. change (cp_step K 2 (CInt 3) pst0) with (POk (set_z "has_sub" 1 (set_z "sub" 3 pst0))). cbn [pbind].
    change (get_int (CInt 5)) with (POk 5). cbn [pbind]. unfold cp_step. cbn [Z.eqb Pos.eqb]. unfold enc_field. cbn [get_bytes pbind].
    change (pz (set_z "has_sub" 1 (set_z "sub" 3 pst0)) "proto") with 0. cbn [Z.eqb andb orb]. unfold copy, put_in. rewrite !Z.ltb_irrefl, Lz. destruct (Z.leb_spec n 80); [lia|]. reflexivity.
Qed.
(** ** C83: what the parser lets through is within the limits that the commands rely on *)
Theorem C83_limits cmd v q : of_bytes v -> parse_request K sm2 cmd v = Some q -> creq_ok q.
Proof.
  intros Hv. unfold parse_request, parsed.
  pose proof (make_safe v Hv). pose proof (get_safe v Hv). pose proof (manage_safe v Hv). pose proof (large_safe v Hv).
  repeat match goal with |- context [if ?b then _ else _] => lazymatch b with (cmd =? _) => destruct b | (cmd =? _) || _ => destruct b end end;
    try (intros E; injection E as <-; exact Logic.I).
  all: match goal with |- match ?m with _ => _ end = _ -> _ => destruct m; intros E; [injection E as <-|injection E as <-|discriminate] end; try exact Logic.I; assumption.
Qed.
End S.
(** Instances: a makeCredential request with an exclude list, extensions and options; getAssertion with hmac-secret; clientPIN; the
    deletion of a credential; a first fragment of large blobs *)
Lemma toy_sha_bytes m : bytes_of 32 (f_sha toyf m).
Proof.
  split; [apply toy_sha_length|]. cbn [toyf f_sha]. unfold toy_sha. generalize (fold_left (fun a b => Z.land (a * 33 + b + 1) 0xFFFFFF) (m ++ [0; 0]) 7). intros h.
  pose proof (to_be_bytes 4 h) as B. cbn [repeat concat]. rewrite !all_bytes_app. repeat split; try exact B. constructor.
Qed.
Definition descriptor (i : Z) : cbor := CMap [(txt "id", CBytes (repeat i 70)); (txt "type", txt "public-key")].
Definition msg_make : cbor := CMap [
  (CInt 1, CBytes (repeat 3 32)); (CInt 2, CMap [(txt "id", txt "example.com"); (txt "name", txt "Example")]);
  (CInt 3, CMap [(txt "id", CBytes [7; 8; 9]); (txt "name", txt "user"); (txt "displayName", txt "A User")]);
  (CInt 4, CArr [CMap [(txt "alg", CInt (-257)); (txt "type", txt "public-key")]; CMap [(txt "alg", CInt (-8)); (txt "type", txt "public-key")]]);
  (CInt 5, CArr [descriptor 1; descriptor 2]); (CInt 6, CMap [(txt "credProtect", CInt 2); (txt "credBlob", CBytes (repeat 5 32))]);
  (CInt 7, CMap [(txt "rk", CBool true)])].
Definition cose : cbor := CMap [(CInt 1, CInt 2); (CInt 3, CInt (-25)); (CInt (-1), CInt 1); (CInt (-2), CBytes (repeat 1 32)); (CInt (-3), CBytes (repeat 2 32))].
Definition msg_get : cbor := CMap [
  (CInt 1, txt "example.com"); (CInt 2, CBytes (repeat 4 32)); (CInt 3, CArr [descriptor 3]);
  (CInt 4, CMap [(txt "hmac-secret", CMap [(CInt 1, cose); (CInt 2, CBytes (repeat 6 32)); (CInt 3, CBytes (repeat 7 16))])]); (CInt 5, CMap [(txt "up", CBool false)])].
Definition msg_pin : cbor := CMap [(CInt 1, CInt 2); (CInt 2, CInt 9); (CInt 3, cose); (CInt 6, CBytes (repeat 8 32)); (CInt 9, CInt 3); (CInt 10, txt "example.com")].
Definition msg_delete : cbor := CMap [(CInt 1, CInt 6); (CInt 2, CMap [(CInt 2, descriptor 5)]); (CInt 3, CInt 1); (CInt 4, CBytes (repeat 1 16))].
Definition msg_blob : cbor := CMap [(CInt 2, CBytes (repeat 1 20)); (CInt 3, CInt 0); (CInt 4, CInt 20)].
Example C83_case :
  parse_request toyf (zeros 9) 1 msg_make = Some (RMake (inr (mkMc (repeat 3 32) (chars "example.com") (toy_sha (chars "example.com"))
    ([7; 8; 9] ++ zeros 61 ++ [3] ++ chars "user" ++ zeros 61 ++ chars "A User" ++ zeros 59) (-8) [repeat 1 70; repeat 2 70] 1 2 2 None None false false 2 (Some (repeat 5 32))))) /\
  parse_request toyf (zeros 9) 2 msg_get = Some (RGet (inr (mkGa (toy_sha (chars "example.com")) (repeat 4 32) [repeat 3 70] 2 2 0 None None
    (Some (mkHs (repeat 1 32 ++ repeat 2 32) (repeat 6 32) (repeat 7 16 ++ zeros 16) 1)) false))) /\
  parse_request toyf (zeros 9) 6 msg_pin = Some (RPin (inr (mkCp 9 2 (repeat 1 32 ++ repeat 2 32) (zeros 32) (zeros 80) (repeat 8 32) 3 (Some (toy_sha (chars "example.com")))))) /\
  parse_request toyf (zeros 9) 10 msg_delete = Some (RCm (inr (mkCm 6 (enc (CMap [(CInt 2, descriptor 5)])) (zeros 32) (repeat 5 70) (zeros 195) 1 (repeat 1 16 ++ zeros 16)))) /\
  parse_request toyf (zeros 9) 12 msg_blob = Some (RLarge (inr (mkLb None (repeat 1 20) 0 20 None None))).
Proof. vm_compute. repeat split. Qed.
Example C82_case : exists n, 80 < n <= 1200 /\ forall m, bytes_of 32 (f_sha toyf m). Proof. exists 1000. split; [lia|apply toy_sha_bytes]. Qed.
Print Assumptions C82_other_commands.
Print Assumptions C82_protocol_first_partial.
Print Assumptions C82_short_strings_partial.
Print Assumptions C82_refuted.
Print Assumptions C83_limits.
