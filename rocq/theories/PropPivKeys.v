(** C88: the private keys in the PIV slots. *)
From Verif Require Import Sys Apdu Applet Frame Pin Tlv Key PropKey Piv PivSpec PropPivGa PivFrame PropPivAuth PropPivPin.
Open Scope string_scope. Open Scope list_scope. Open Scope Z_scope.

(** ** What may differ *)
(** The key a slot's file holds, as the code reads it: 1286 bytes of key material, the description (algorithm, origin, policies) in an
    attribute.  The public key: the point, at byte 66 of the material, on an elliptic curve; for RSA the modulus, computed from the primes, and
    the exponent at byte 2. *)
Definition material (f : file) : bytes := overlay (slice 0 KEY_SIZE (f_data f)) (zeros KEY_SIZE).
Definition public_part (K : crypto) (t : Z) (d : bytes) : bytes :=
  if (0 <=? t) && (t <=? 6) then slice 66 (nth (Z.to_nat t) [64; 64; 96; 132; 64; 32; 32] 0) d
  else if (7 <=? t) && (t <=? 9) then rsa_get_public_key K d ++ slice 2 4 d
  else [].
Definition public_key (K : crypto) (f : file) : option bytes :=
  match f_attr f KEY_META_ATTR with Some m => Some (public_part K (nth 0 m 0) (material f)) | None => None end.
(** Two storages with the same contents, but with other keys in the slots: there is a key in the same slots, described by the same
    attributes, with the same public key. *)
Definition same_file (K : crypto) (q : path) (x y : option file) : Prop :=
  match x, y with
  | None, None => True
  | Some f, Some g => if in_dec string_dec q piv_keys then (forall a, f_attr f a = f_attr g a) /\ public_key K f = public_key K g else f = g
  | _, _ => False
  end.
Definition same_but_private (K : crypto) (F G : fs) : Prop := forall q, same_file K q (F q) (G q).

Ltac din := match goal with |- context [in_dec ?a ?b ?c] => destruct (in_dec a b c) | _ : context [in_dec ?a ?b ?c] |- _ => destruct (in_dec a b c) end.
Lemma same_file_refl K q x : same_file K q x x.
Proof. unfold same_file. destruct x; [|exact I]. din; auto. Qed.
Lemma same_refl K F : same_but_private K F F. Proof. intros q. apply same_file_refl. Qed.

(** Generated elliptic-curve keys have the length their algorithm says. *)
Definition key_sizes (K : crypto) : Prop := forall t seed a b, IS_ECC t = true -> ecc_generate K t seed = Some (a, b) ->
  zlen a = PRIVATE_KEY_LENGTH t /\ zlen b = PUBLIC_KEY_LENGTH t.

(** ** Two runs *)
Section Two.
Variable K : crypto.
(** [LG]: are the images at a power failure compared, too?  If not, there are no storage errors. *)
Variable LG : Prop.
Notation same := (same_but_private K).
Definition slotp (p : path) : Prop := In p piv_keys.
Definition env0 (e f : env) : Prop :=
  same (e_fs e) (e_fs f) /\ ((LG -> Forall2 same (e_log e) (e_log f)) /\ (~ LG -> e_flt e = [])) /\ e_flt e = e_flt f /\ e_rnd e = e_rnd f /\ e_tch e = e_tch f.
Definition env1 (e f : env) : Prop := env0 e f /\ e_out e = e_out f.
(** continued reading and writing is of data objects *)
Definition rp (s : piv) : Prop := ~ slotp (v_path s).
Definition orel {A} (R : A -> A -> Prop) (x y : out A) : Prop :=
  match x, y with Ret a, Ret b => R a b | Exc a, Exc b => a = b | Fail, Fail => True | UB, UB => True | _, _ => False end.
(** same results, same RAM, same answer so far *)
Definition two {A} (R : A -> A -> Prop) (m m' : M piv A) : Prop := forall s e f, rp s -> env1 e f ->
  let '(o1, s1, e1) := m s e in let '(o2, s2, e2) := m' s f in orel R o1 o2 /\ s1 = s2 /\ rp s1 /\ env1 e1 e2.
Notation ni m := (two eq m m).
(** same RAM; the answers may differ *)
Definition isub {A} (o : out A) : Prop := match o with UB => True | _ => False end.
Definition weak {A} (m m' : M piv A) : Prop := forall s e f, rp s -> env1 e f ->
  let '(o1, s1, e1) := m s e in let '(o2, s2, e2) := m' s f in (isub o1 <-> isub o2) /\ s1 = s2 /\ rp s1 /\ env0 e1 e2.

Lemma two_bind {A B} (R : A -> A -> Prop) (Q : B -> B -> Prop) m m' k k' :
  two R m m' -> (forall a b, R a b -> two Q (k a) (k' b)) -> two Q (bind m k) (bind m' k').
Proof.
  intros Hm Hk s e f Is E. specialize (Hm s e f Is E). unfold bind. destruct (m s e) as [[o1 s1] e1], (m' s f) as [[o2 s2] e2].
  destruct Hm as (H1 & <- & Is' & E'). destruct o1, o2; cbn in H1; try contradiction; subst; cbn; auto. exact (Hk _ _ H1 _ _ _ Is' E').
Qed.
Lemma ni_bind {A B} (m : M piv A) (k : A -> M piv B) : ni m -> (forall a, ni (k a)) -> ni (bind m k).
Proof. intros Hm Hk. eapply two_bind; [exact Hm|]. intros a b <-. apply Hk. Qed.
Lemma weak_bind {A B} (R : A -> A -> Prop) m m' (k k' : A -> M piv B) :
  two R m m' -> (forall a b, R a b -> weak (k a) (k' b)) -> weak (bind m k) (bind m' k').
Proof.
  intros Hm Hk s e f Is E. specialize (Hm s e f Is E). unfold bind. destruct (m s e) as [[o1 s1] e1], (m' s f) as [[o2 s2] e2].
  destruct Hm as (H1 & <- & Is' & E'). destruct o1, o2; cbn in H1; try contradiction; subst; cbn; try (destruct E' as [E' ?]; tauto). exact (Hk _ _ H1 _ _ _ Is' E').
Qed.
Lemma weak_bind_eq {A B} (m : M piv A) (k k' : A -> M piv B) : ni m -> (forall a, weak (k a) (k' a)) -> weak (bind m k) (bind m k').
Proof. intros Hm Hk. eapply weak_bind; [exact Hm|]. intros a b <-. apply Hk. Qed.
Lemma weak_two {A} (R : A -> A -> Prop) (m m' : M piv A) : two R m m' -> weak m m'.
Proof.
  intros Hm s e f Is E. specialize (Hm s e f Is E). destruct (m s e) as [[o1 s1] e1], (m' s f) as [[o2 s2] e2].
  destruct Hm as (H1 & <- & Is' & E' & _). split; [|auto]. destruct o1, o2; cbn in *; tauto.
Qed.
(** computations that touch nothing but the answer *)
Definition mute {A} (m : M piv A) : Prop := forall s e, let '(o, s', e') := m s e in
  ~ isub o /\ s' = s /\ e' = mkE (e_fs e) (e_log e) (e_flt e) (e_rnd e) (e_tch e) (e_out e').
Lemma weak_mute {A} (m m' : M piv A) : mute m -> mute m' -> weak m m'.
Proof.
  intros H1 H2 s e f Is [(E1 & E2 & E3 & E4 & E5) E6]. specialize (H1 s e). specialize (H2 s f). destruct (m s e) as [[o1 s1] e1], (m' s f) as [[o2 s2] e2].
  destruct H1 as (A1 & A2 & A3), H2 as (B1 & B2 & B3). split; [tauto|]. split; [congruence|]. split; [congruence|]. rewrite A3, B3. repeat (split; [assumption|]). assumption.
Qed.
Lemma mute_bind {A B} (m : M piv A) (k : A -> M piv B) : mute m -> (forall a, mute (k a)) -> mute (bind m k).
Proof.
  intros H1 H2 s e. specialize (H1 s e). unfold bind. destruct (m s e) as [[o1 s1] e1]. destruct H1 as (A1 & -> & A3).
  destruct o1; cbn; auto. specialize (H2 a s e1). destruct (k a s e1) as [[o2 s2] e2]. destruct H2 as (B1 & -> & B3).
  split; [exact B1|]. split; [reflexivity|]. rewrite B3, A3. reflexivity.
Qed.
Lemma mute_ret {A} (a : A) : mute (ret a). Proof. intros s [? ? ? ? ? ?]; cbn; auto. Qed.
Lemma mute_out d : mute (set_out d). Proof. intros s [? ? ? ? ? ?]; cbn; auto. Qed.
Lemma mute_fail {A} : mute (@fail piv A). Proof. intros s [? ? ? ? ? ?]; cbn; auto. Qed.
Lemma mute_opt {A} (o : option A) : mute (opt o). Proof. destruct o; [apply mute_ret|apply mute_fail]. Qed.

Lemma ni_get {A} (k : piv -> M piv A) : (forall s, rp s -> ni (k s)) -> ni (bind get k).
Proof. intros Hk s e f Is E. exact (Hk s Is s e f Is E). Qed.
Lemma two_get {A} (R : A -> A -> Prop) (k k' : piv -> M piv A) : (forall s, rp s -> two R (k s) (k' s)) -> two R (bind get k) (bind get k').
Proof. intros Hk s e f Is E. exact (Hk s Is s e f Is E). Qed.
Lemma weak_get {A} (k : piv -> M piv A) : (forall s, rp s -> weak (k s) (k s)) -> weak (bind get k) (bind get k).
Proof. intros Hk s e f Is E. exact (Hk s Is s e f Is E). Qed.
Lemma two_ret {A} (R : A -> A -> Prop) a b : R a b -> two R (ret a) (ret b). Proof. intros H s e f Is E; cbn; auto. Qed.
Lemma two_fail {A} (R : A -> A -> Prop) : two R fail fail. Proof. intros s e f Is E; cbn; auto. Qed.
Lemma two_except {A} (R : A -> A -> Prop) w : two R (except w) (except w). Proof. intros s e f Is E; cbn; auto. Qed.
Lemma two_lift {A} (R : A -> A -> Prop) x y : orel R x y -> two R (lift x) (lift y).
Proof. intros H s e f Is E. unfold lift. destruct x, y; cbn in *; try contradiction; subst; cbn; auto. Qed.
Lemma ni_ret {A} (a : A) : ni (ret a). Proof. apply two_ret; reflexivity. Qed.
Lemma ni_lift {A} (a : out A) : ni (lift a). Proof. apply two_lift. destruct a; cbn; auto. Qed.
Lemma ni_fail {A} : ni (@fail piv A). Proof. apply two_fail. Qed.
Lemma ni_ub {A} : ni (@ub piv A). Proof. intros s e f Is E; cbn; auto. Qed.
Lemma ni_except {A} w : ni (@except piv A w). Proof. apply two_except. Qed.
Lemma ni_refused {A} w (k : unit -> M piv A) : ni (bind (except w) k). Proof. intros s e f Is E; cbn; auto. Qed.
Lemma ni_guard b w : ni (guard b w). Proof. destruct b; [apply ni_ret|apply ni_except]. Qed.
Lemma ni_need {A} (o : option A) : ni (need o). Proof. destruct o; [apply ni_ret|apply ni_ub]. Qed.
Lemma ni_modify g : (forall s, rp s -> rp (g s)) -> ni (modify g). Proof. intros Hg s e f Is E; cbn; auto. Qed.
Lemma ni_set_out d : ni (set_out d). Proof. intros s e f Is ((E1 & E2 & E3 & E4 & E5) & E6); cbn; unfold env1, env0; cbn; auto 10. Qed.
Lemma ni_wait : ni wait_touch.
Proof.
  intros s e f Is ((E1 & E2 & E3 & E4 & E5) & E6). unfold wait_touch. rewrite <- E5.
  destruct (e_tch e) eqn:T; (split; [reflexivity|]; split; [reflexivity|]; split; [assumption|]); unfold env1, env0; cbn; (split; [repeat (split; [assumption|]); congruence|assumption]).
Qed.
Lemma ni_random n : ni (random_buffer n).
Proof.
  intros s e f Is ((E1 & E2 & E3 & E4 & E5) & E6). unfold random_buffer. rewrite <- E4.
  split; [reflexivity|]. split; [reflexivity|]. split; [assumption|]. unfold env1, env0; cbn; auto 10.
Qed.
Lemma pop_two e f : env1 e f -> fst (pop_fault e) = fst (pop_fault f) /\ env1 (snd (pop_fault e)) (snd (pop_fault f)).
Proof.
  intros ((E1 & (E2 & E2') & E3 & E4 & E5) & E6). unfold pop_fault. rewrite <- E3.
  destruct (e_flt e) as [|x r] eqn:Q; cbn; (split; [reflexivity|]); unfold env1, env0; cbn.
  - rewrite Q. split; [|exact E6]. split; [exact E1|]. split; [split; [exact E2|intros _; reflexivity]|]. split; [exact E3|auto].
  - split; [|exact E6]. split; [exact E1|]. split; [split; [exact E2|intros L; discriminate (E2' L)]|auto].
Qed.
Ltac pops := intros s e f Is E; destruct (pop_two e f E) as [Ex E']; clear E;
  destruct (pop_fault e) as [x e0] eqn:P, (pop_fault f) as [x' f0] eqn:Q; cbn [fst snd] in Ex, E'; subst x'.
Lemma same_open p F G : ~ slotp p -> same F G -> F p = G p.
Proof. intros Hp H. specialize (H p). unfold same_file in H. destruct (F p), (G p); try contradiction; try reflexivity. din; [contradiction|congruence]. Qed.
Lemma ni_read_file p o n : ~ slotp p -> ni (read_file p o n).
Proof.
  intros Hp. pops. unfold read_file. rewrite P, Q. destruct x; cbn; auto. rewrite <- (same_open p _ _ Hp (proj1 (proj1 E'))). destruct (e_fs e0 p); cbn; auto.
Qed.
Lemma ni_size p : ~ slotp p -> ni (get_file_size p).
Proof.
  intros Hp. pops. unfold get_file_size. rewrite P, Q. destruct x; cbn; auto. rewrite <- (same_open p _ _ Hp (proj1 (proj1 E'))). destruct (e_fs e0 p); cbn; auto.
Qed.
Lemma same_attr p F G : same F G -> match F p, G p with Some f, Some g => forall a, f_attr f a = f_attr g a | None, None => True | _, _ => False end.
Proof. intros H. specialize (H p). unfold same_file in H. destruct (F p), (G p); try contradiction; try exact I. din; [tauto|congruence]. Qed.
Lemma ni_read_attr p a : ni (read_attr p a).
Proof.
  pops. unfold read_attr. rewrite P, Q. destruct x; cbn; auto. pose proof (same_attr p _ _ (proj1 (proj1 E'))) as W.
  destruct (e_fs e0 p), (e_fs f0 p); try contradiction; cbn; rewrite ?W; auto.
Qed.
Lemma same_fset F G p x y : same F G -> same_file K p x y -> same (fset F p x) (fset G p y).
Proof. intros H Hx q. destruct (string_dec q p) as [->|N]; [rewrite !fset_same; exact Hx|rewrite !fset_other by assumption; apply H]. Qed.
Lemma env1_commit e f p x y : env1 e f -> same_file K p x y -> env1 (commit (fset (e_fs e) p x) e) (commit (fset (e_fs f) p y) f).
Proof.
  intros ((E1 & E2 & E3 & E4 & E5) & E6) Hx. unfold env1, env0, commit. cbn. pose proof (same_fset _ _ p x y E1 Hx).
  split; [|exact E6]. split; [assumption|]. split; [split; [intros L; constructor; tauto|tauto]|auto].
Qed.
Definition created (p : path) (e : env) : env := match e_fs e p with None => commit (fset (e_fs e) p (Some (mkF [] no_attr))) e | Some _ => e end.
Lemma created_some p e : exists g, e_fs (created p e) p = Some g.
Proof. unfold created. destruct (e_fs e p) eqn:W; [eauto|]. cbn. rewrite fset_same. eauto. Qed.
Lemma env1_created p e f : env1 e f -> env1 (created p e) (created p f).
Proof.
  intros E. unfold created. pose proof (same_attr p _ _ (proj1 (proj1 E))) as W. destruct (e_fs e p), (e_fs f p); try contradiction; auto.
  apply env1_commit; [assumption|apply same_file_refl].
Qed.
(** writing the same contents *)
Lemma ni_write_file p d : ni (write_file p d 0 true).
Proof.
  pops. unfold write_file. rewrite P, Q. destruct x; cbn; auto.
  all: fold (created p e0) (created p f0); pose proof (env1_created p e0 f0 E') as C; auto.
  destruct (created_some p e0) as [g Hg], (created_some p f0) as [g' Hg']. rewrite Hg, Hg'. split; [reflexivity|]. split; [reflexivity|]. split; [assumption|].
  apply env1_commit; [assumption|]. pose proof (same_attr p _ _ (proj1 (proj1 C))) as W. pose proof (proj1 (proj1 C) p) as V. rewrite Hg, Hg' in W, V.
  unfold same_file in *. destruct (in_dec string_dec p piv_keys); [|congruence]. split; [exact W|]. unfold public_key. cbn [f_attr f_data]. rewrite W. reflexivity.
Qed.
Lemma ni_append_file p d : ~ slotp p -> ni (append_file p d).
Proof.
  intros Hp. pops. unfold append_file. rewrite P, Q. destruct x; cbn; auto.
  all: fold (created p e0) (created p f0); pose proof (env1_created p e0 f0 E') as C; auto.
  destruct (created_some p e0) as [g Hg], (created_some p f0) as [g' Hg']. rewrite Hg, Hg'. split; [reflexivity|]. split; [reflexivity|]. split; [assumption|].
  apply env1_commit; [assumption|]. pose proof (same_open p _ _ Hp (proj1 (proj1 C))) as W. rewrite Hg, Hg' in W. injection W as <-. apply same_file_refl.
Qed.
Lemma ni_write_attr p a v : ~ slotp p -> ni (write_attr p a v).
Proof.
  intros Hp. pops. unfold write_attr. rewrite P, Q. destruct x; cbn; auto. rewrite <- (same_open p _ _ Hp (proj1 (proj1 E'))).
  destruct (e_fs e0 p); cbn; auto. split; [reflexivity|]. split; [reflexivity|]. split; [assumption|]. apply env1_commit; [assumption|apply same_file_refl].
Qed.
(** ** Keys *)
(** what is known of two keys read from the same slot *)
Definition kr (k k' : ckey) : Prop :=
  k_meta k = k_meta k' /\ zlen (k_data k) = KEY_SIZE /\ zlen (k_data k') = KEY_SIZE /\ public_part K (m_type (k_meta k)) (k_data k) = public_part K (m_type (k_meta k')) (k_data k').
Lemma zlen_material f : zlen (material f) = KEY_SIZE.
Proof.
  unfold material, overlay, zeros, slice, zlen. rewrite app_length, skipn_length, repeat_length. pose proof (firstn_le_length (Z.to_nat KEY_SIZE) (skipn (Z.to_nat 0) (f_data f))). 
  rewrite firstn_length in *. unfold KEY_SIZE in *. lia.
Qed.

Lemma two_opt {A} (R : A -> A -> Prop) (m m' : M piv (option A)) :
  two (fun x y => match x, y with Some a, Some b => R a b | None, None => True | _, _ => False end) m m' -> two R (got m) (got m').
Proof. intros H. unfold got. eapply two_bind; [exact H|]. intros [a|] [b|] Hab; try contradiction; [apply two_ret; exact Hab|apply two_fail]. Qed.
Lemma two_read_key p : two (fun x y => match x, y with Some a, Some b => kr a b | None, None => True | _, _ => False end) (ck_read_key p) (ck_read_key p).
Proof.
  unfold ck_read_key, ck_read_key_metadata. intros s e f Is E. unfold bind.
  destruct (pop_two e f E) as [Ex E']. clear E. unfold read_attr, read_file.
  destruct (pop_fault e) as [x e0] eqn:P, (pop_fault f) as [x' f0] eqn:Q. cbn [fst snd] in Ex, E'. subst x'.
  destruct x; cbn [option_map ret orel]; auto. pose proof (same_attr p _ _ (proj1 (proj1 E'))) as W. pose proof (proj1 (proj1 E') p) as V.
  destruct (e_fs e0 p) as [g|] eqn:G, (e_fs f0 p) as [g'|] eqn:G'; try contradiction; cbn [option_map ret orel]; auto.
  pose proof (W KEY_META_ATTR) as W0. destruct (f_attr g KEY_META_ATTR) as [m|] eqn:M; rewrite <- W0; cbn [option_map ret orel]; auto.
  destruct (pop_two e0 f0 E') as [Ex E2]. 
  assert (Z1 : e_fs (snd (pop_fault e0)) = e_fs e0) by (unfold pop_fault; destruct (e_flt e0); reflexivity).
  assert (Z2 : e_fs (snd (pop_fault f0)) = e_fs f0) by (unfold pop_fault; destruct (e_flt f0); reflexivity).
  destruct (pop_fault e0) as [x e1] eqn:P1, (pop_fault f0) as [x' f1] eqn:Q1. cbn [fst snd] in *. subst x'.
  destruct x; cbn; auto. rewrite Z1, Z2, G, G'. cbn. split; [|auto].
  fold (material g). fold (material g'). unfold kr. cbn [k_meta k_data]. split; [reflexivity|]. split; [apply zlen_material|]. split; [apply zlen_material|].
  unfold same_file in V. din; [|congruence]. destruct V as [_ V]. unfold public_key in V. rewrite M, <- W0 in V. injection V as V. exact V.
Qed.
Lemma material_write d a : zlen d = KEY_SIZE -> material (mkF (write_at [] 0 d) a) = d.
Proof.
  intros H. unfold material, write_at, overlay. cbn [f_data]. change (zeros (0 - zlen [])) with (@nil Z). cbn [app firstn Z.to_nat Nat.add].
  rewrite skipn_nil, app_nil_r. rewrite <- H, slice_all. unfold zeros, zlen. rewrite Nat2Z.id.
  rewrite skipn_all2; [apply app_nil_r|]. rewrite repeat_length. lia.
Qed.
Lemma two_write_key p k k' s e f : slotp p -> k_meta k = k_meta k' ->
  k_data k = k_data k' \/ ~ LG /\ kr k k' -> rp s -> env1 e f ->
  let '(o1, s1, e1) := ck_write_key p k s e in let '(o2, s2, e2) := ck_write_key p k' s f in orel eq o1 o2 /\ s1 = s2 /\ rp s1 /\ env1 e1 e2.
Proof.
  intros Hp Hm Hd Is E. pose proof (proj2 (proj1 (proj2 (proj1 E)))) as N. unfold ck_write_key, ck_write_key_metadata, write_file. destruct (pop_two e f E) as [Ex E'].
  assert (NF : e_flt e = [] -> fst (pop_fault e) = FNone /\ e_flt (snd (pop_fault e)) = []) by (intros N0; unfold pop_fault; rewrite N0; auto).
  unfold bind. destruct (pop_fault e) as [x e0] eqn:P, (pop_fault f) as [x' f0] eqn:Q. cbn [fst snd] in Ex, E', NF. subst x'.
  destruct x; cbn [negb ret orel]; auto.
  all: fold (created p e0) (created p f0); pose proof (env1_created p e0 f0 E') as C; auto.
  destruct (created_some p e0) as [g Hg], (created_some p f0) as [g' Hg']. rewrite Hg, Hg'. cbn [negb ret].
  assert (NF1 : e_flt e = [] -> e_flt (created p e0) = []).
  { intros N0. destruct (NF N0) as [_ N1]. unfold created. destruct (e_fs e0 p); exact N1. }
  clear NF E' P Q E. revert C Hg Hg' NF1. generalize (created p e0) (created p f0). clear e0 f0. intros e1 f1 C Hg Hg' NF1.
  pose proof (same_attr p _ _ (proj1 (proj1 C))) as W. rewrite Hg, Hg' in W.
  set (c1 := if (length (k_data k) =? 0)%nat then [] else _). set (c2 := if (length (k_data k') =? 0)%nat then [] else _).
  unfold write_attr. destruct Hd as [Hd|(NL & Hk)].
  - assert (Hc : c1 = c2) by (subst c1 c2; rewrite Hd; reflexivity). rewrite <- Hc. clear c2 Hc.
    assert (C1 : env1 (commit (fset (e_fs e1) p (Some (mkF c1 (f_attr g)))) e1) (commit (fset (e_fs f1) p (Some (mkF c1 (f_attr g')))) f1)).
    { apply env1_commit; [exact C|]. unfold same_file. din; [|contradiction]. split; [exact W|]. unfold public_key. cbn [f_attr f_data]. rewrite W. reflexivity. }
    assert (G1 : e_fs (commit (fset (e_fs e1) p (Some (mkF c1 (f_attr g)))) e1) p = Some (mkF c1 (f_attr g))) by apply fset_same.
    assert (G2 : e_fs (commit (fset (e_fs f1) p (Some (mkF c1 (f_attr g')))) f1) p = Some (mkF c1 (f_attr g'))) by apply fset_same.
    revert C1 G1 G2. generalize (commit (fset (e_fs e1) p (Some (mkF c1 (f_attr g)))) e1) (commit (fset (e_fs f1) p (Some (mkF c1 (f_attr g')))) f1).
    intros e2 f2 C1 G1 G2. destruct (pop_two e2 f2 C1) as [Ex E'].
    assert (Z1 : e_fs (snd (pop_fault e2)) = e_fs e2) by (unfold pop_fault; destruct (e_flt e2); reflexivity).
    assert (Z2 : e_fs (snd (pop_fault f2)) = e_fs f2) by (unfold pop_fault; destruct (e_flt f2); reflexivity).
    destruct (pop_fault e2) as [x e3], (pop_fault f2) as [x' f3]. cbn [fst snd] in *. subst x'.
    destruct x; cbn [orel]; auto. rewrite Z1, Z2, G1, G2. cbn [orel f_data f_attr]. split; [reflexivity|]. split; [reflexivity|]. split; [assumption|].
    rewrite <- Z1, <- Z2. apply env1_commit; [exact E'|]. unfold same_file. din; [|contradiction]. cbn [f_attr].
    split; [intros a; unfold aset; rewrite Hm, W; reflexivity|]. unfold public_key. cbn [f_attr f_data]. unfold aset. rewrite Z.eqb_refl, Hm. reflexivity.
  - assert (Hc : forall k0, zlen (k_data k0) = KEY_SIZE -> (if (length (k_data k0) =? 0)%nat then [] else write_at [] 0 (k_data k0)) = write_at [] 0 (k_data k0)).
    { intros k0 Hk0. unfold zlen, KEY_SIZE in Hk0. replace (length (k_data k0) =? 0)%nat with false; [reflexivity|]. symmetry. apply Nat.eqb_neq. lia. }
    destruct Hk as (_ & L1 & L2 & He). subst c1 c2. rewrite (Hc k L1), (Hc k' L2). specialize (NF1 (N NL)).
    destruct C as ((E1 & E2 & E3 & E4 & E5) & E6).
    unfold pop_fault, commit. cbn [e_flt]. rewrite <- E3, NF1. cbn [e_fs e_log e_rnd e_tch e_out]. rewrite !fset_same. cbn [orel].
    split; [reflexivity|]. split; [reflexivity|]. split; [assumption|].
    split; [|exact E6]. split; [|split; [split; [contradiction|auto]|auto]].
    intros q. destruct (string_dec q p) as [->|Nq]; cbn [e_fs]; [|rewrite !fset_other by assumption; apply E1].
    rewrite !fset_same. unfold same_file. din; [|contradiction]. cbn [f_attr f_data].
    split; [intros a; unfold aset; rewrite Hm, W; reflexivity|]. unfold public_key. cbn [f_attr f_data]. unfold aset. rewrite Z.eqb_refl.
    rewrite !material_write by assumption. f_equal. exact He.
Qed.

(** ** The commands *)
Lemma not_slot_admin : ~ slotp CARD_ADMIN_KEY_PATH. Proof. intros W. cbn in W. intuition discriminate. Qed.
Lemma slot_is id p : key_slot id = Some p -> slotp p.
Proof.
  unfold key_slot, get_key_path. destruct (Z.eqb_spec id 0x9B); [discriminate|].
  repeat match goal with |- (if ?b then _ else _) = _ -> _ => destruct b eqn:?; [intros [= <-]; cbn; tauto || lia|] end. discriminate.
Qed.
Lemma object_open tag p : get_object_path_by_tag tag = Some p -> ~ slotp p.
Proof.
  unfold get_object_path_by_tag.
  repeat match goal with |- (if ?b then _ else _) = _ -> _ => destruct b; [intros [= <-] W; cbn in W; intuition discriminate|] end. discriminate.
Qed.
Lemma parse_same k k' buf n : k_meta k = k_meta k' -> ck_parse_piv K k buf n = ck_parse_piv K k' buf n.
Proof. intros H. unfold ck_parse_piv. rewrite H. reflexivity. Qed.
Lemma ni_write_slot p k : slotp p -> ni (ck_write_key p k).
Proof. intros Hp s e f Is E. apply two_write_key; auto. Qed.
Lemma ni_read_meta p : ni (ck_read_key_metadata p).
Proof. unfold ck_read_key_metadata. apply ni_bind; [apply ni_read_attr|intros ?; apply ni_ret]. Qed.
Ltac npx := first [assumption | eapply object_open; eassumption | exact not_slot_admin | let W := fresh in intros W; cbn in W; intuition discriminate].
Ltac n1 :=
  match goal with
  | |- two eq (bind get _) _ => apply ni_get; intros ? ?
  | |- two eq (bind _ _) _ => apply ni_bind; [|intros ?]
  | |- two eq (ret _) _ => apply ni_ret
  | |- two eq (lift _) _ => apply ni_lift
  | |- two eq fail _ => apply ni_fail
  | |- two eq ub _ => apply ni_ub
  | |- two eq (except _) _ => apply ni_except
  | |- two eq (guard _ _) _ => apply ni_guard
  | |- two eq (need _) _ => apply ni_need
  | |- two eq (set_out _) _ => apply ni_set_out
  | |- two eq wait_touch _ => apply ni_wait
  | |- two eq (random_buffer _) _ => apply ni_random
  | |- two eq (ck_read_key_metadata _) _ => apply ni_read_meta
  | |- two eq (read_file _ _ _) _ => apply ni_read_file; npx
  | |- two eq (get_file_size _) _ => apply ni_size; npx
  | |- two eq (read_attr _ _) _ => apply ni_read_attr
  | |- two eq (write_attr _ _ _) _ => apply ni_write_attr; npx
  | |- two eq (write_file _ _ _ _) _ => apply ni_write_file
  | |- two eq (append_file _ _) _ => apply ni_append_file; npx
  | |- two eq (modify _) _ => apply ni_modify; first [exact (fun _ H => H)|intros ? ?; unfold rp; cbn; npx]
  | |- two eq (if ?b then _ else _) _ => destruct b
  | |- two eq (match ?x with _ => _ end) _ => destruct x eqn:?
  | |- two eq (let _ := _ in _) _ => cbv zeta
  end.
Ltac nk := repeat n1.
Ltac pu := unfold must, mustz, opt, verified, pin_verify, pin_verify_gen, pin_update, pin_get_retries, pin_get_default_retries, pin_get_attr,
    pin_get_size, pin_create, no_args, Admin.fill_sn, admin_only.
Lemma ni_create p u l : slotp p -> ni (create_key p u l).
Proof. intros H. apply ni_write_slot; exact H. Qed.
Lemma ni_install r : ni (piv_install r).
Proof.
  unfold piv_install; pu; unfold got.
  repeat match goal with
  | |- two eq (create_key _ _ _) _ => apply ni_create; cbn; tauto
  | |- two eq (ck_write_key _ _) _ => unfold ck_write_key, ck_write_key_metadata
  | _ => n1
  end.
Qed.
Lemma ni_ignore (m : M piv unit) : ni m -> ni (ignore m).
Proof.
  intros Hm s e f Is E. specialize (Hm s e f Is E). unfold ignore. destruct (m s e) as [[o1 s1] e1], (m s f) as [[o2 s2] e2].
  destruct Hm as (H1 & H2 & H3 & H4). destruct o1, o2; cbn in H1; try contradiction; subst; cbn; auto.
Qed.
Lemma app_eq_len_r (a a' b b' : bytes) : a ++ b = a' ++ b' -> length b = length b' -> a = a' /\ b = b'.
Proof.
  intros H L. assert (La : length a = length a') by (apply (f_equal (@length Z)) in H; rewrite !app_length in H; lia).
  split; [apply (f_equal (firstn (length a))) in H|apply (f_equal (skipn (length a))) in H].
  - rewrite La in H at 2. rewrite !firstn_app, !Nat.sub_diag, !firstn_all, !firstn_O, !app_nil_r in H. exact H.
  - rewrite La in H at 2. rewrite !skipn_app, !Nat.sub_diag, !skipn_all in H. exact H.
Qed.
Lemma same_encode k k' : kr k k' -> ck_encode_public_key K k = ck_encode_public_key K k'.
Proof.
  intros (H1 & H2 & H3 & H4). rewrite <- H1 in H4. unfold ck_encode_public_key, pub_of. rewrite <- H1. set (t := m_type (k_meta k)) in *. unfold public_part in H4.
  assert (Q : (0 <=? t) && (t <=? 6) = true -> slice O_PUB (PUBLIC_KEY_LENGTH t) (k_data k) = slice O_PUB (PUBLIC_KEY_LENGTH t) (k_data k')).
  { intros Ht. rewrite Ht in H4. unfold PUBLIC_KEY_LENGTH, O_PUB. replace (nth (Z.to_nat t) [64; 64; 96; 132; 64; 32; 32; 256; 384; 512] 0) with (nth (Z.to_nat t) [64; 64; 96; 132; 64; 32; 32] 0); [exact H4|].
    assert (Z.to_nat t <= 6)%nat by lia. destruct (Z.to_nat t) as [|[|[|[|[|[|[|?]]]]]]]; try reflexivity. lia. }
  unfold SECP256R1, SECP256K1, SECP384R1, SM2, SECP521R1, ED25519, X25519, IS_RSA, RSA2048, RSA4096.
  destruct ((t =? 0) || (t =? 1) || (t =? 2) || (t =? 4)) eqn:C1; [rewrite Q by lia; reflexivity|].
  destruct (t =? 3) eqn:C2; [rewrite Q by lia; reflexivity|].
  destruct ((t =? 5) || (t =? 6)) eqn:C3; [rewrite Q by lia; reflexivity|].
  destruct ((7 <=? t) && (t <=? 9)) eqn:C4; [|reflexivity]. replace ((0 <=? t) && (t <=? 6)) with false in H4 by lia.
  assert (L1 : zlen (slice 2 4 (k_data k)) = 4) by (rewrite zlen_slice by lia; rewrite H2; unfold KEY_SIZE; lia).
  assert (L2 : zlen (slice 2 4 (k_data k')) = 4) by (rewrite zlen_slice by lia; rewrite H3; unfold KEY_SIZE; lia).
  assert (X : rsa_get_public_key K (k_data k) = rsa_get_public_key K (k_data k') /\ slice 2 4 (k_data k) = slice 2 4 (k_data k')).
  { apply app_eq_len_r; [exact H4|]. unfold zlen in L1, L2. lia. }
  destruct X as [X1 X2]. unfold O_E, E_LENGTH. rewrite X1, X2. reflexivity.
Qed.
Lemma ni_metadata c : ni (piv_get_metadata K c).
Proof.
  unfold piv_get_metadata. pu. n1; [n1|]. n1; [n1|]. cbv zeta. n1.
  { unfold got. destruct (c_p2 c =? 0x80); nk. }
  n1; [unfold got; nk|]. destruct (key_slot (c_p2 c)) as [p|] eqn:Hp; [|n1].
  eapply two_bind; [apply two_opt, two_read_key|]. intros k k' Hk. pose proof (same_encode k k' Hk) as H4. destruct Hk as (H1 & _). rewrite <- H1, <- H4. nk.
Qed.
Lemma ni_import c tail : ni (piv_import K c tail).
Proof.
  unfold piv_import. n1; [pu; nk|]. destruct (key_slot (c_p2 c)) as [p|] eqn:Hp; [|n1]. pose proof (slot_is _ _ Hp).
  eapply two_bind; [apply two_opt, two_read_key|]. intros k k' (H1 & _).
  apply two_get; intros s _. cbv zeta. eapply two_bind; [apply ni_guard|]. intros _ _ _. rewrite (parse_same (set_type _ k) (set_type (algo_id_to_key_type (v_alg s) (c_p1 c)) k')) by (cbn; rewrite H1; reflexivity).
  unfold must. repeat match goal with |- two eq (ck_write_key _ _) _ => apply ni_write_slot; assumption | _ => n1 end.
Qed.
(** the policies are read into the description of the key only *)
Lemma policies_data fuel : forall k buf p n, ck_parse_piv_policies fuel k buf p n =
  match ck_parse_piv_policies fuel (mkKey (k_meta k) []) buf p n with Ret x => Ret (mkKey (k_meta x) (k_data k)) | Exc w => Exc w | Fail => Fail | UB => UB end.
Proof.
  induction fuel as [|fuel IH]; intros k buf p n; cbn [ck_parse_piv_policies]; [destruct k; reflexivity|].
  destruct (negb (p <? n)); [destruct k; reflexivity|]. destruct (oneed (rd buf p)) as [b| | |]; cbn [obind]; try reflexivity.
  destruct ((b =? 0xAA) || (b =? 0xAB)); [|destruct k; reflexivity].
  match goal with |- context [obind ?x _] => destruct x as [q| | |]; cbn [obind]; try reflexivity end.
  match goal with |- context [obind ?x _] => destruct x as [u| | |]; cbn [obind]; try reflexivity end.
  destruct (oneed (rd buf q)) as [v| | |]; cbn [obind]; try reflexivity.
  destruct (b =? 0xAA); rewrite IH; cbn [k_meta k_data set_pin set_touch]; rewrite (IH (mkKey _ [])); cbn [k_meta k_data]; 
    destruct (ck_parse_piv_policies fuel _ buf (q + 1) n); reflexivity.
Qed.
Lemma policies_type fuel : forall k buf p n x, ck_parse_piv_policies fuel k buf p n = Ret x -> m_type (k_meta x) = m_type (k_meta k).
Proof.
  induction fuel as [|fuel IH]; intros k buf p n x; cbn [ck_parse_piv_policies]; [intros [= <-]; reflexivity|].
  destruct (negb (p <? n)); [intros [= <-]; reflexivity|]. destruct (oneed (rd buf p)) as [b| | |]; cbn [obind]; try discriminate.
  destruct ((b =? 0xAA) || (b =? 0xAB)); [|intros [= <-]; reflexivity].
  match goal with |- context [obind ?x _] => destruct x as [q| | |]; cbn [obind]; try discriminate end.
  match goal with |- context [obind ?x _] => destruct x as [u| | |]; cbn [obind]; try discriminate end.
  destruct (oneed (rd buf q)) as [v| | |]; cbn [obind]; try discriminate. intros H. apply IH in H. rewrite H. destruct (b =? 0xAA); reflexivity.
Qed.
Lemma ecc_lengths t : IS_ECC t = true -> PRIVATE_KEY_LENGTH t <= 66 /\ 0 <= PUBLIC_KEY_LENGTH t <= 132.
Proof.
  unfold IS_ECC, X25519, PRIVATE_KEY_LENGTH, PUBLIC_KEY_LENGTH. intros H. assert (V : t = 0 \/ t = 1 \/ t = 2 \/ t = 3 \/ t = 4 \/ t = 5 \/ t = 6) by lia.
  assert (L : forall a b : Z, (a <=? b) = true -> a <= b) by lia.
  repeat (destruct V as [->|V]; [split; [|split]; apply L; reflexivity|]). subst t. split; [|split]; apply L; reflexivity.
Qed.
Lemma two_generate_key k k' : key_sizes K -> k_meta k = k_meta k' -> zlen (k_data k) = KEY_SIZE -> zlen (k_data k') = KEY_SIZE ->
  two (fun x y => match x, y with
       | Some a, Some b => k_meta a = k_meta b /\ (k_data a = k_data b \/ zlen (k_data a) = KEY_SIZE /\ zlen (k_data b) = KEY_SIZE /\ public_part K (m_type (k_meta a)) (k_data a) = public_part K (m_type (k_meta b)) (k_data b))
       | None, None => True | _, _ => False end) (ck_generate_key K k) (ck_generate_key K k').
Proof.
  intros HK Hm L1 L2. unfold ck_generate_key. cbv zeta. eapply two_bind; [apply ni_random|]. intros seed _ <-. apply two_ret.
  cbn [set_origin k_meta m_type]. rewrite <- Hm. set (t := m_type (k_meta k)). destruct (IS_ECC t) eqn:Et.
  - destruct (ecc_generate K t seed) as [[a b]|] eqn:G; cbn; [|exact I]. split; [rewrite Hm; reflexivity|]. right.
    destruct (HK t seed a b Et G) as [La Lb]. destruct (ecc_lengths t Et) as [B1 B2].
    assert (LL : forall d, zlen d = KEY_SIZE -> zlen (splice d O_PRI a) = KEY_SIZE /\ zlen (splice (splice d O_PRI a) O_PUB b) = KEY_SIZE).
    { intros d Hd. unfold KEY_SIZE, O_PRI, O_PUB in *. assert (zlen (splice d 0 a) = zlen d) by (apply zlen_splice; lia). split; [lia|]. rewrite zlen_splice; lia. }
    destruct (LL _ L1) as [M1 M2], (LL _ L2) as [N1 N2]. split; [exact M2|]. split; [exact N2|].
    assert (P : forall d, zlen d = KEY_SIZE -> public_part K t (splice (splice d O_PRI a) O_PUB b) = b).
    { intros d Hd. destruct (LL _ Hd) as [A1 _]. unfold public_part. unfold IS_ECC, X25519 in Et. rewrite Et.
      replace (nth (Z.to_nat t) [64; 64; 96; 132; 64; 32; 32] 0) with (zlen b).
      - change 66 with O_PUB. apply slice_splice_same; [unfold O_PUB; lia|]. rewrite A1. unfold KEY_SIZE, O_PUB. lia.
      - rewrite Lb. unfold PUBLIC_KEY_LENGTH. assert (Z.to_nat t <= 6)%nat by lia. destruct (Z.to_nat t) as [|[|[|[|[|[|[|?]]]]]]]; try reflexivity. lia. }
    unfold put_at. cbn [k_meta k_data m_type set_origin]. rewrite <- Hm. fold t. rewrite !P by assumption. reflexivity.
  - destruct (IS_RSA t); cbn; [|exact I]. destruct (rsa_generate_key _ _ _); cbn; [|exact I]. split; [rewrite Hm; reflexivity|]. left. reflexivity.
Qed.
Lemma ni_generate c tail : key_sizes K -> ~ LG -> ni (piv_generate K c tail).
Proof.
  intros HK HL. unfold piv_generate. n1; [pu; nk|]. n1; [n1|]. cbv zeta. n1; [n1|]. destruct (key_slot (c_p2 c)) as [p|] eqn:Hp; [|n1]. pose proof (slot_is _ _ Hp) as Hs.
  eapply two_bind; [apply two_opt, two_read_key|]. intros k k' (H1 & H2 & H3 & _). apply two_get; intros s _.
  eapply two_bind; [apply ni_guard|]. intros _ _ _.
  eapply two_bind; [apply two_opt, two_generate_key; [exact HK|cbn; rewrite H1; reflexivity|exact H2|exact H3]|].
  clear k k' H1 H2 H3. intros k k' (H1 & H2).
  set (buf := c_data c ++ tail). set (fl := Z.to_nat (c_lc c)).
  apply (two_bind (fun a b => k_meta a = k_meta b /\ (k_data a = k_data b \/ ~ LG /\ kr a b) /\ ck_encode_public_key K a = ck_encode_public_key K b)).
  { apply two_lift. rewrite (policies_data fl k), (policies_data fl k'), <- H1. pose proof (policies_type fl (mkKey (k_meta k) []) buf 5 (c_lc c)) as T.
    destruct (ck_parse_piv_policies fl _ buf 5 (c_lc c)) as [x| | |]; cbn; auto. specialize (T x eq_refl). cbn in T.
    split; [reflexivity|].
    destruct H2 as [H2|(A1 & A2 & A3)]; [rewrite H2; auto|]. rewrite <- H1 in A3.
    assert (V : kr (mkKey (k_meta x) (k_data k)) (mkKey (k_meta x) (k_data k'))) by (unfold kr; cbn; rewrite T; auto).
    split; [right; auto|]. apply same_encode, V. }
  clear k k' H1 H2. intros k k' (H1 & H2 & H3). unfold must.
  apply (two_bind (@eq unit)).
  - eapply (two_bind eq eq). { intros s0 e f Is E. apply two_write_key; assumption. } intros ok _ <-. destruct ok; nk.
  - intros _ _ _. rewrite <- H3. nk.
Qed.

(** GENERAL AUTHENTICATE *)
Section GA.
Variable nfc : bool.
Variables t1 t2 : Z.
Ltac wk1 :=
  match goal with
  | |- weak (bind get _) _ => apply weak_get; intros ? ?
  | |- weak (bind (got (ck_read_key _)) _) _ => eapply weak_bind; [apply two_opt, two_read_key|]; intros ? ? (? & ? & ? & _)
  | |- weak (bind _ _) _ => apply weak_bind_eq; [|intros ?]
  | |- weak (if ?b then _ else _) (if ?b then _ else _) => destruct b
  | |- weak (match ?b with _ => _ end) (match ?b with _ => _ end) => destruct b eqn:?
  end.
Ltac mutes := repeat match goal with
  | |- mute (bind _ _) => apply mute_bind; [|intros ?]
  | |- mute (ret _) => apply mute_ret
  | |- mute fail => apply mute_fail
  | |- mute (opt _) => apply mute_opt
  | |- mute (set_out _) => apply mute_out
  end.
Lemma weak_internal p m buf t : weak (ga_internal K p m buf t) (ga_internal K p m buf t).
Proof.
  unfold ga_internal. wk1; [nk|]. wk1; [unfold piv_security_status_check; nk|]. wk1; [nk|]. cbv zeta. destruct (t_c t) as [pos len].
  wk1; [nk|]. wk1. match goal with H : k_meta _ = k_meta _ |- _ => rewrite <- H end. wk1.
  - wk1; [n1|]. apply weak_mute; mutes.
  - wk1; [|apply weak_mute; mutes]. wk1; [nk|]. apply weak_mute; destruct (IS_SHORT_WEIERSTRASS _); mutes.
Qed.
Lemma weak_ecdh p m buf t : weak (ga_ecdh K p m buf t) (ga_ecdh K p m buf t).
Proof.
  unfold ga_ecdh. wk1; [nk|]. wk1; [unfold piv_security_status_check; nk|]. wk1; [nk|]. cbv zeta. destruct (t_x t) as [pos len].
  wk1; [nk|]. wk1. match goal with H : k_meta _ = k_meta _ |- _ => rewrite <- H end. wk1; [n1|]. apply weak_mute; mutes.
Qed.
(** the management key is the same in both *)
Lemma ni_admin_key p : ~ slotp p -> ni (got (ck_read_key p)).
Proof. intros Hp. unfold got, ck_read_key. nk. Qed.
Ltac adm p Hp := repeat match goal with |- two eq (got (ck_read_key p)) _ => apply ni_admin_key; exact Hp | _ => n1 end.
Lemma weak_ga c tail : weak (piv_general_authenticate K nfc t1 t2 c tail) (piv_general_authenticate K nfc t1 t2 c tail).
Proof.
  unfold piv_general_authenticate. cbv zeta. wk1; [n1|]. wk1; [n1|]. wk1; [n1|].
  destruct (get_key_path (c_p2 c)) as [p|] eqn:Hp; [|apply (weak_two eq); n1].
  wk1; [n1|]. wk1; [unfold got; nk|]. wk1; [n1|]. wk1. wk1; [n1|]. wk1; [n1|]. wk1; [unfold piv_touch; nk|].
  destruct (Z.eq_dec (c_p2 c) 0x9B) as [E|E].
  - assert (Hn : ~ slotp p) by (rewrite E in Hp; injection Hp as <-; exact not_slot_admin).
    wk1; [apply weak_internal|]. do 4 (wk1; [apply (weak_two eq);
      unfold ga_external_request, ga_external_response, ga_mutual_request, ga_mutual_response; unfold opt; adm p Hn|]).
    wk1; [apply weak_ecdh|]. apply (weak_two eq). nk.
  - assert (E0 : (c_p2 c =? 0x9B) = false) by lia.
    wk1; [apply weak_internal|]. do 4 (wk1; [apply (weak_two eq);
      unfold ga_external_request, ga_external_response, ga_mutual_request, ga_mutual_response; rewrite E0; cbn [negb guard];
      repeat match goal with |- two eq (bind (except _) _) _ => apply ni_refused | |- two eq (if _ || true || _ || _ then _ else _) _ => rewrite orb_true_r; cbn [orb] | _ => n1 end|]).
    wk1; [apply weak_ecdh|]. apply (weak_two eq). nk.
Qed.
Lemma ni_ga_admin c tail : c_p2 c = 0x9B -> ni (piv_general_authenticate K nfc t1 t2 c tail).
Proof.
  intros E. unfold piv_general_authenticate. cbv zeta. n1; [n1|]. n1; [n1|]. n1; [n1|].
  destruct (get_key_path (c_p2 c)) as [p|] eqn:Hp; [|n1]. assert (Hn : ~ slotp p) by (rewrite E in Hp; injection Hp as <-; exact not_slot_admin).
  n1; [n1|]. n1; [unfold got; nk|].
  unfold ga_internal, ga_external_request, ga_external_response, ga_mutual_request, ga_mutual_response, ga_ecdh, piv_security_status_check, piv_touch, opt.
  cbv zeta. adm p Hn.
Qed.
End GA.

(** The commands *)
Lemma ni_body nfc t1 t2 c tail : ~ (c_ins c = 0x87 /\ c_p2 c <> 0x9B) -> (c_ins c = 0x47 -> key_sizes K /\ ~ LG) -> ni (piv_body K nfc t1 t2 c tail).
Proof.
  intros N1 N2. unfold piv_body. n1; [n1|]. n1; [nk|]. n1; [nk|].
  destruct (c_ins c =? 0xA4); [unfold piv_select; nk|].
  destruct (c_ins c =? 0xCB); [unfold piv_get_data, piv_get_large_data, got; nk|].
  destruct (c_ins c =? 0xC0); [unfold piv_get_data_response, got; nk|].
  destruct (c_ins c =? 0x20); [unfold piv_verify; pu; nk|].
  destruct (c_ins c =? 0x24); [unfold piv_change_reference_data; pu; destruct (c_p2 c =? 0x80); nk|].
  destruct (c_ins c =? 0x2C); [unfold piv_reset_retry_counter; pu; nk|].
  destruct (Z.eqb_spec (c_ins c) 0x87); [apply ni_ga_admin; lia|].
  destruct (c_ins c =? 0xDB); [unfold piv_put_data; pu; nk|].
  destruct (Z.eqb_spec (c_ins c) 0x47) as [E|_]; [apply ni_generate; apply N2; exact E|].
  destruct (c_ins c =? 0xFF); [unfold piv_set_management_key; pu; nk|].
  destruct (c_ins c =? 0xFB).
  { unfold piv_reset; pu. repeat match goal with |- two eq (ignore _) _ => apply ni_ignore, ni_install | _ => n1 end. }
  destruct (c_ins c =? 0xFE); [apply ni_import|].
  destruct (c_ins c =? 0xFD); [unfold piv_get_version; pu; nk|].
  destruct (c_ins c =? 0xF8); [unfold piv_get_serial; pu; nk|].
  destruct (c_ins c =? 0xF7); [apply ni_metadata|].
  destruct (c_ins c =? 0xEE); [unfold piv_algorithm_extension, got; pu; nk|].
  n1.
Qed.
Lemma weak_body nfc t1 t2 c tail : c_ins c = 0x87 -> weak (piv_body K nfc t1 t2 c tail) (piv_body K nfc t1 t2 c tail).
Proof.
  intros E. unfold piv_body. rewrite E. cbn [Z.eqb Pos.eqb andb]. apply weak_bind_eq; [n1|intros _]. apply weak_bind_eq; [nk|intros _]. apply weak_bind_eq; [nk|intros _].
  apply weak_ga.
Qed.
End Two.

Section Hist.
Variable K : crypto.
Notation same := (same_but_private K).
(** a command that uses the private key of a slot *)
Definition uses_key (v : ev) : Prop := match v with Do x => c_ins (x_apdu x) = 0x87 /\ c_p2 (x_apdu x) <> 0x9B | _ => False end.
Definition uses_keyb (v : ev) : bool := match v with Do x => (c_ins (x_apdu x) =? 0x87) && negb (c_p2 (x_apdu x) =? 0x9B) | _ => false end.
(** What is not looked at: storage errors or power loss while a key is being generated (the new key is stored before its description). *)
Definition calm (v : ev) : Prop :=
  match v with
  | Do x => c_ins (x_apdu x) = 0x47 -> x_flt x = []
  | Cut x _ _ _ => c_ins (x_apdu x) <> 0x47
  | Other _ => False
  | _ => True
  end.
Lemma start_two LG F G flt rnd tch : (LG \/ ~ LG /\ flt = []) -> same F G -> env1 K LG (start F flt rnd tch) (start G flt rnd tch).
Proof. intros H HF. unfold env1, env0, start. cbn. split; [|reflexivity]. split; [exact HF|]. split; [split; [intros _; repeat constructor; exact HF|tauto]|auto]. Qed.
Lemma logs_nth e f n : Forall2 same (e_log e) (e_log f) -> same (e_fs e) (e_fs f) -> same (nth n (e_log e) (e_fs e)) (nth n (e_log f) (e_fs f)).
Proof. intros H H0. revert n. induction H; intros [|n]; cbn; auto. Qed.
Lemma rp_boot : rp piv_boot. Proof. intros W. cbn in W. intuition discriminate. Qed.
Lemma boot_two F G flt rnd : same F G ->
  d_ram (boot F flt rnd) = d_ram (boot G flt rnd) /\ rp (d_ram (boot F flt rnd)) /\ same (d_fs (boot F flt rnd)) (d_fs (boot G flt rnd)).
Proof.
  intros H. unfold boot, installed. pose proof (ni_install K True false piv_boot _ _ rp_boot (start_two True F G flt rnd [] (or_introl I) H)) as W.
  destruct (piv_install _ _ (start F flt rnd [])) as [[o1 s1] e1], (piv_install _ _ (start G flt rnd [])) as [[o2 s2] e2]. cbn.
  destruct W as (_ & -> & W2 & (W3 & _) & _). auto.
Qed.
Lemma exec_two d F x : key_sizes K -> rp (d_ram d) -> same (d_fs d) F -> (c_ins (x_apdu x) = 0x47 -> x_flt x = []) ->
  let '(r1, s1, e1) := exec K d x in let '(r2, s2, e2) := exec K (mkD (d_ram d) F) x in
  (r1 = None <-> r2 = None) /\ (~ uses_key (Do x) -> r1 = r2) /\ s1 = s2 /\ rp s1 /\ same (e_fs e1) (e_fs e2) /\
  (c_ins (x_apdu x) <> 0x47 -> Forall2 same (e_log e1) (e_log e2)).
Proof.
  intros HK Hr HF Hc. unfold exec, run_apdu. cbn [d_ram d_fs start e_fs e_log e_flt e_rnd e_tch].
  change (mkE (d_fs d) [d_fs d] (x_flt x) (x_rnd x) (x_tch x) []) with (start (d_fs d) (x_flt x) (x_rnd x) (x_tch x)).
  change (mkE F [F] (x_flt x) (x_rnd x) (x_tch x) []) with (start F (x_flt x) (x_rnd x) (x_tch x)).
  set (LG := c_ins (x_apdu x) <> 0x47).
  assert (HL : LG \/ ~ LG /\ x_flt x = []). { subst LG. destruct (Z.eq_dec (c_ins (x_apdu x)) 0x47) as [E|E]; [right; split; [tauto|auto]|left; exact E]. }
  pose proof (start_two LG _ _ (x_flt x) (x_rnd x) (x_tch x) HL HF) as E.
  set (m := piv_body _ _ _ _ _ _).
  destruct (Z.eq_dec (c_ins (x_apdu x)) 0x87) as [E1|E1]; [destruct (Z.eq_dec (c_p2 (x_apdu x)) 0x9B) as [E2|E2]|].
  2: { pose proof (weak_body K LG (x_nfc x) (x_t1 x) (x_t2 x) (x_apdu x) (x_tail x) E1 (d_ram d) _ _ Hr E) as W. fold m in W.
    destruct (m _ (start (d_fs d) _ _ _)) as [[o1 s1] e1], (m _ (start F _ _ _)) as [[o2 s2] e2].
    destruct W as (W1 & <- & W2 & (W3 & (W4 & _) & _)).
    assert (U : uses_key (Do x)) by (split; assumption).
    destruct o1, o2; cbn in W1; try tauto; (split; [split; discriminate || reflexivity|]); (split; [tauto|]); repeat (split; [auto; fail|]); auto. }
  all: assert (W : two K LG eq m m) by (apply ni_body; [lia|subst LG; tauto]); specialize (W (d_ram d) _ _ Hr E);
    destruct (m _ (start (d_fs d) _ _ _)) as [[o1 s1] e1], (m _ (start F _ _ _)) as [[o2 s2] e2];
    destruct W as (W1 & <- & W2 & (W3 & (W4 & _) & _) & W5);
    (destruct o1, o2; cbn in W1; try contradiction; subst; rewrite ?W5; (split; [tauto|]); repeat (split; [auto; fail|]); auto).
Qed.
Lemma rp_exec d x : rp (d_ram d) -> let '(_, s1, _) := exec K d x in rp s1.
Proof.
  intros Hr. pose proof (exec_wp K d x (fun _ s' _ => rp s')) as W. destruct (exec K d x) as [[r s1] e1]. apply W. clear W.
  destruct (Z.eq_dec (c_ins (x_apdu x)) 0x47) as [E|E].
  - apply fr_any; [|exact Hr]. unfold piv_body. rewrite E. cbn [Z.eqb Pos.eqb]. pose proof anyfs as A.
    unfold piv_generate, admin_only; piv_unfold. repeat first [frame1 | apply fr_write_file; apply A | apply fr_write_attr; apply A].
  - set (m := piv_body _ _ _ _ _ _). unfold wp.
    pose proof (start_two True _ _ (x_flt x) (x_rnd x) (x_tch x) (or_introl I) (same_refl K (d_fs d))) as E0.
    destruct (Z.eq_dec (c_ins (x_apdu x)) 0x87) as [E1|E1].
    + pose proof (weak_body K True (x_nfc x) (x_t1 x) (x_t2 x) (x_apdu x) (x_tail x) E1 (d_ram d) _ _ Hr E0) as W. fold m in W.
      destruct (m _ _) as [[? ?] ?]. tauto.
    + assert (W : two K True eq m m) by (apply ni_body; [lia|tauto]). specialize (W (d_ram d) _ _ Hr E0). destruct (m _ _) as [[? ?] ?]. tauto.
Qed.
Lemma rp_install r s F flt rnd : rp s -> let '(_, s1, _) := installed r s F flt rnd in rp s1.
Proof.
  intros Hr. unfold installed. pose proof (ni_install K True r s _ _ Hr (start_two True _ _ flt rnd [] (or_introl I) (same_refl K F))) as W.
  destruct (piv_install _ _ _) as [[? ?] ?]. tauto.
Qed.
Lemma hist_rp tr d : since_boot K tr d -> rp (d_ram d).
Proof.
  intros (F0 & flt0 & rnd0 & H). remember (boot F0 flt0 rnd0) as d0 eqn:E0. induction H as [d0|d0 tr d v o d' H IH Hok Hst].
  - subst. apply (boot_two F0 F0). apply same_refl.
  - specialize (IH E0). destruct v as [x|x n flt rnd| |flt rnd|flt rnd n flt' rnd'|F]; cbn [step] in Hst.
    + pose proof (rp_exec d x IH) as W. destruct (exec K d x) as [[[r|] s'] e']; [|discriminate]. injection Hst as _ <-. exact W.
    + destruct (exec K d x) as [[? ?] e]. injection Hst as _ <-. apply (boot_two _ _ _ _ (same_refl K _)).
    + injection Hst as _ <-. intros W. cbn in W. intuition discriminate.
    + pose proof (rp_install true (d_ram d) (d_fs d) flt rnd IH) as W. destruct (installed _ _ _ _ _) as [[o' s'] e']. injection Hst as _ <-. exact W.
    + destruct (installed _ _ _ _ _) as [[? ?] e]. injection Hst as _ <-. apply (boot_two _ _ _ _ (same_refl K _)).
    + injection Hst as _ <-. exact IH.
Qed.
Lemma step_two d F v : key_sizes K -> rp (d_ram d) -> same (d_fs d) F -> calm v ->
  match step K d v, step K (mkD (d_ram d) F) v with
  | Some (r, d1), Some (r', d2) => (~ uses_key v -> r = r') /\ d_ram d1 = d_ram d2 /\ rp (d_ram d1) /\ same (d_fs d1) (d_fs d2)
  | None, None => True
  | _, _ => False
  end.
Proof.
  intros HK Hr HF Hc. destruct v as [x|x n flt rnd| |flt rnd|flt rnd n flt' rnd'|G]; cbn [step d_ram d_fs]; cbn [calm] in Hc.
  - pose proof (exec_two d F x HK Hr HF Hc) as W. destruct (exec K d x) as [[r1 s1] e1], (exec K (mkD (d_ram d) F) x) as [[r2 s2] e2].
    destruct W as (W1 & W2 & -> & W3 & W4 & _). destruct r1, r2; cbn [d_ram d_fs]; auto; [destruct W1 as [_ W1]; discriminate W1; reflexivity|destruct W1 as [W1 _]; discriminate W1; reflexivity].
  - assert (Hc' : c_ins (x_apdu x) = 0x47 -> x_flt x = []) by (intros E; contradiction).
    pose proof (exec_two d F x HK Hr HF Hc') as W. destruct (exec K d x) as [[r1 s1] e1], (exec K (mkD (d_ram d) F) x) as [[r2 s2] e2].
    destruct W as (_ & _ & _ & _ & W4 & W5). specialize (W5 Hc). pose proof (logs_nth e1 e2 n W5 W4) as W6. apply (boot_two _ _ flt rnd) in W6. tauto.
  - split; [auto|]. split; [reflexivity|]. split; [|exact HF]. intros W. cbn in W. intuition discriminate.
  - unfold installed. pose proof (ni_install K True true (d_ram d) _ _ Hr (start_two True _ _ flt rnd [] (or_introl I) HF)) as W.
    destruct (piv_install _ _ (start (d_fs d) _ _ _)) as [[o1 s1] e1], (piv_install _ _ (start F _ _ _)) as [[o2 s2] e2]. cbn. destruct W as (_ & -> & W2 & (W3 & _) & _). auto.
  - unfold installed. pose proof (ni_install K True true (d_ram d) _ _ Hr (start_two True _ _ flt rnd [] (or_introl I) HF)) as W.
    destruct (piv_install _ _ (start (d_fs d) _ _ _)) as [[o1 s1] e1], (piv_install _ _ (start F _ _ _)) as [[o2 s2] e2]. destruct W as (_ & _ & _ & (W3 & (W4 & _) & _) & _).
    pose proof (logs_nth e1 e2 n (W4 I) W3) as W6. apply (boot_two _ _ flt' rnd') in W6. tauto.
  - contradiction.
Qed.
(** The answers, except those of commands that use the private key of a slot *)
Definition other_answers (tr : list entry) : list (ev * option rapdu) :=
  map (fun e => match e with (_, v, r) => (v, if uses_keyb v then None else r) end) tr.
Lemma usesb v : uses_keyb v = false -> ~ uses_key v.
Proof. destruct v; cbn; auto. intros H [H1 H2]. lia. Qed.
End Hist.

(** Whatever is sent to the card and whatever happens to it: if the keys in the slots were others with the same public keys, every answer would
    be the same, except for those that are computed with the private key (GENERAL AUTHENTICATE of that slot). *)
Theorem C88_private_keys : forall K tr d F vs,
  key_sizes K -> since_boot K tr d -> same_but_private K (d_fs d) F -> Forall calm vs ->
  match run_all K d vs, run_all K (mkD (d_ram d) F) vs with
  | Some (tr1, d1), Some (tr2, d2) =>
      other_answers tr1 = other_answers tr2 /\ d_ram d1 = d_ram d2 /\ same_but_private K (d_fs d1) (d_fs d2)
  | None, None => True
  | _, _ => False
  end.
Proof.
  intros K tr d F vs HK Hb HF Hv. pose proof (hist_rp K tr d Hb) as Hr. clear Hb tr. revert d F Hr HF.
  induction Hv as [|v vs Hc Hv IH]; intros d F Hr HF; cbn [run_all].
  - cbn. auto.
  - pose proof (step_two K d F v HK Hr HF Hc) as W. destruct (step K d v) as [[r d1]|], (step K (mkD (d_ram d) F) v) as [[r' d2]|]; auto; try contradiction.
    destruct W as (W1 & W2 & W3 & W4). specialize (IH d1 (d_fs d2) W3 W4). replace (mkD (d_ram d1) (d_fs d2)) with d2 in IH by (rewrite W2; destruct d2; reflexivity).
    destruct (run_all K d1 vs) as [[tr1 d1']|], (run_all K d2 vs) as [[tr2 d2']|]; auto. destruct IH as (I1 & I2 & I3).
    split; [|auto]. cbn [other_answers map]. fold (other_answers tr1) (other_answers tr2). rewrite I1. f_equal. f_equal.
    destruct (uses_keyb v) eqn:U; [reflexivity|]. apply W1, usesb, U.
Qed.
Print Assumptions C88_private_keys.

(** A key is imported into the card-authentication slot.  The same card with another private key there has the same public key, and signs
    differently; the descriptions of the key, and what follows the generation of a new one, are the same. *)
Definition import_cmd : capdu := mkC 0 0xFE 0x11 0x9E ([6; 32] ++ repeat 7 32) 256.
Definition sign_cmd : capdu := mkC 0 0x87 0x11 0x9E ([0x7C; 36; 0x82; 0; 0x81; 32] ++ repeat 1 32) 256.
Definition meta_cmd : capdu := mkC 0 0xF7 0 0x9E [] 256.
Definition generate_cmd (alg : Z) : capdu := mkC 0 0x47 0 0x9E [0xAC; 3; 0x80; 1; alg] 256.
Definition other_key (p : path) (d : bytes) (F : fs) : fs := match F p with Some f => fset F p (Some (mkF d (f_attr f))) | None => F end.
Definition dev88 : dev := match run_all toy (boot fs_empty [] []) (ex_external ++ [Do (plain import_cmd)]) with Some (_, d) => d | None => mkD piv_boot fs_empty end.
Definition data88 : bytes := repeat 8 32 ++ zeros 34 ++ repeat 9 64 ++ zeros (1286 - 130).
Definition fs88 : fs := other_key "piv-cauk" data88 (d_fs dev88).
Lemma toy_key_sizes : key_sizes toy.
Proof.
  intros t seed a b Ht. cbn [toy ecc_generate]. intros [= <- <-]. pose proof (ecc_lengths t Ht) as L. assert (0 <= PRIVATE_KEY_LENGTH t).
  { unfold PRIVATE_KEY_LENGTH. assert (P : forall n, 0 <= nth n [32; 32; 48; 66; 32; 32; 32; 128; 192; 256] 0) by (do 10 (destruct n as [|n]; [cbn; lia|]); destruct n; cbn; lia). apply P. }
  split; [|rewrite zlen_repeat; lia]. unfold zlen, zeros. rewrite firstn_length, app_length, repeat_length. lia.
Qed.
Lemma other_same K p d F f : In p piv_keys -> F p = Some f -> public_key K f = public_key K (mkF d (f_attr f)) -> same_but_private K F (other_key p d F).
Proof.
  intros Hp Hf H q. unfold other_key. rewrite Hf. destruct (string_dec q p) as [->|N]; [|rewrite fset_other by assumption; apply same_file_refl].
  rewrite fset_same, Hf. unfold same_file. din; [|contradiction]. auto.
Qed.
Lemma opt_beq (a b : option bytes) : match a, b with Some a, Some b => beqb a b | _, _ => false end = true -> a = b.
Proof. destruct a, b; try discriminate. intros H. apply beqb_eq in H. congruence. Qed.
Definition talk88 : list ev := [Do (plain meta_cmd); Do (plain sign_cmd); Do (plain (generate_cmd 0x14)); Do (plain meta_cmd)].
Definition sigs (r : option (list entry * dev)) : option (list (option bytes) * bool) :=
  match r with Some (tr, _) => Some (map (fun e => match e with (_, Do x, Some r) => if c_ins (x_apdu x) =? 0x87 then Some (r_data r) else None | _ => None end) tr,
    forallb (fun e => match e with (_, _, Some r) => r_sw r =? 0x9000 | _ => false end) tr) | None => None end.
Example C88_case : (exists tr, since_boot toy tr dev88) /\ same_but_private toy (d_fs dev88) fs88 /\ Forall calm talk88 /\
  sigs (run_all toy dev88 talk88) = Some ([None; Some ([0x7C; 66; 0x82; 64] ++ repeat 1 32 ++ repeat 7 32); None; None], true) /\
  sigs (run_all toy (mkD (d_ram dev88) fs88) talk88) = Some ([None; Some ([0x7C; 66; 0x82; 64] ++ repeat 1 32 ++ repeat 8 32); None; None], true).
Proof.
  split; [|split; [|split; [|split]]].
  - destruct (run_all toy (boot fs_empty [] []) (ex_external ++ [Do (plain import_cmd)])) as [[tr d]|] eqn:E.
    + exists tr. assert (Q : dev88 = d) by (unfold dev88; rewrite E; reflexivity). rewrite Q. eapply run_all_since; [|exact E].
      unfold ex_external, import_cmd. cbn [app repeat]. bytes_ok.
    + exfalso. assert (S : match run_all toy (boot fs_empty [] []) (ex_external ++ [Do (plain import_cmd)]) with Some _ => true | None => false end = true) by (vm_compute; reflexivity).
      rewrite E in S. discriminate S.
  - destruct (d_fs dev88 "piv-cauk") as [f|] eqn:E.
    + apply (other_same toy "piv-cauk" data88 _ f); [cbn; tauto|exact E|].
      assert (S : match d_fs dev88 "piv-cauk" with Some f => match public_key toy f, public_key toy (mkF data88 (f_attr f)) with Some a, Some b => beqb a b | _, _ => false end | None => false end = true)
        by (vm_compute; reflexivity).
      rewrite E in S. exact (opt_beq _ _ S).
    + exfalso. assert (S : match d_fs dev88 "piv-cauk" with Some _ => true | None => false end = true) by (vm_compute; reflexivity). rewrite E in S. discriminate S.
  - repeat constructor; cbn; discriminate.
  - vm_compute. reflexivity.
  - vm_compute. reflexivity.
Qed.

(** If an error occurs between the two writes of GENERATE, the slot keeps the description of the old key.  When the old key was RSA and the new one
    is not, the "modulus" given out afterwards is computed from what is left of the old private key (the first prime has been overwritten, the
    second one has not).  Here the modulus is one byte made of one byte of each prime. *)
Definition toy_rsa : crypto := mkCrypto (ecc_verify_private_key toy) (ecc_complete_key toy) (ecc_generate toy) (rsa_generate_key toy)
  (fun k => [(nth 80 k 0 + nth 300 k 0) mod 256]) (ecc_sign toy) (rsa_sign_pkcs_v15 toy) (rsa_private toy) (rsa_decrypt toy) (ecdsa_sig2ansi toy) (ecdh toy) (tdes_enc toy).
Definition dev_rsa : dev := match run_all toy_rsa (boot fs_empty [] []) (ex_external ++ [Do (plain (generate_cmd 0x07))]) with Some (_, d) => d | None => mkD piv_boot fs_empty end.
Definition rsa_data (p q : Z) : bytes := zeros 80 ++ [p] ++ zeros 219 ++ [q] ++ zeros 985.
Definition fs_rsa (p q : Z) : fs := other_key "piv-cauk" (rsa_data p q) (d_fs dev_rsa).
Definition gen_fault : ev := Do (with_faults [FNone; FNone; FNone; FEarly] (generate_cmd 0x11)).
Definition modulus (F : fs) (vs : list ev) : option bytes :=
  match run_all toy_rsa (mkD (d_ram dev_rsa) F) (vs ++ [Do (plain meta_cmd)]) with
  | Some (tr, _) => match rev tr with (_, _, Some r) :: _ => if r_sw r =? 0x9000 then Some (slice 18 1 (r_data r)) else None | _ => None end
  | None => None end.
Theorem C88_interrupted_refuted :
  same_but_private toy_rsa (fs_rsa 1 4) (fs_rsa 2 3) /\
  modulus (fs_rsa 1 4) [] = Some [5] /\ modulus (fs_rsa 2 3) [] = Some [5] /\
  modulus (fs_rsa 1 4) [gen_fault] = Some [9 + 4] /\ modulus (fs_rsa 2 3) [gen_fault] = Some [9 + 3].
Proof.
  split.
  - assert (S : match d_fs dev_rsa "piv-cauk" with Some f => match public_key toy_rsa (mkF (rsa_data 1 4) (f_attr f)), public_key toy_rsa (mkF (rsa_data 2 3) (f_attr f)) with Some a, Some b => beqb a b | _, _ => false end | None => false end = true)
      by (vm_compute; reflexivity).
    intros q. unfold fs_rsa, other_key. destruct (d_fs dev_rsa "piv-cauk") as [f|]; [|discriminate S].
    destruct (string_dec q "piv-cauk") as [->|N]; [|rewrite !fset_other by assumption; apply same_file_refl].
    rewrite !fset_same. unfold same_file. din; [|contradiction n; cbn; tauto]. cbn [f_attr]. split; [reflexivity|].
    exact (opt_beq _ _ S).
  - repeat split; vm_compute; reflexivity.
Qed.
Print Assumptions C88_interrupted_refuted.
