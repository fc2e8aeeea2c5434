(** C89: the private keys of the OpenPGP applet. *)
From Verif Require Import Sys Apdu Applet Frame Pin PinProofs Tlv Key PropKey Pgp PgpSpec PgpFlags PropPgpAccess.
Open Scope string_scope. Open Scope list_scope. Open Scope Z_scope.

(** ** What may differ *)
(** The key a file holds, as the code reads it: 1286 bytes of key material; the description (algorithm, origin, usage, policies) in an
    attribute.  There is a key if the origin is not 0.  The public key: the point, at byte 66 of the material, on an elliptic curve; for RSA
    the modulus, computed from the primes, and the exponent at byte 2. *)
Definition material (f : file) : bytes := overlay (slice 0 KEY_SIZE (f_data f)) (zeros KEY_SIZE).
Definition public_part (K : crypto) (t : Z) (d : bytes) : bytes :=
  if (0 <=? t) && (t <=? 6) then slice 66 (nth (Z.to_nat t) [64; 64; 96; 132; 64; 32; 32] 0) d
  else if (7 <=? t) && (t <=? 9) then rsa_get_public_key K d ++ slice 2 4 d
  else [].
Definition public_key (K : crypto) (f : file) : option bytes :=
  match f_attr f KEY_META_ATTR with
  | Some m => if nth 1 m 0 =? 0 then None else Some (public_part K (nth 0 m 0) (material f))
  | None => None
  end.
(** Two storages with the same contents, but with other private keys: the keys are described by the same attributes (fingerprints and dates
    included), and those that are present have the same public keys. *)
Definition same_file (K : crypto) (q : path) (x y : option file) : Prop :=
  match x, y with
  | None, None => True
  | Some f, Some g => if in_dec string_dec q pgp_keys then (forall a, f_attr f a = f_attr g a) /\ public_key K f = public_key K g else f = g
  | _, _ => False
  end.
Definition same_but_private (K : crypto) (F G : fs) : Prop := forall q, same_file K q (F q) (G q).

Ltac din := match goal with |- context [in_dec ?a ?b ?c] => destruct (in_dec a b c) | _ : context [in_dec ?a ?b ?c] |- _ => destruct (in_dec a b c) end.
Lemma same_file_refl K q x : same_file K q x x.
Proof. unfold same_file. destruct x; [|exact I]. din; auto. Qed.
Lemma same_refl K F : same_but_private K F F. Proof. intros q. apply same_file_refl. Qed.

(** Generated elliptic-curve keys have the length their algorithm says. *)
Definition key_sizes (K : crypto) : Prop := forall t seed a b, IS_ECC t = true -> ecc_generate K t seed = Some (a, b) ->
  zlen a = PRIVATE_KEY_LENGTH t /\ zlen b = PUBLIC_KEY_LENGTH t.
(** Whether the signature can be computed does not depend on the private key. *)
Definition signs_alike (K : crypto) : Prop :=
  (forall t a b x, ecc_sign K t a x = None <-> ecc_sign K t b x = None) /\
  (forall a b x, rsa_sign_pkcs_v15 K a x = None <-> rsa_sign_pkcs_v15 K b x = None).

(** ** Two runs *)
Section Two.
Variable K : crypto.
(** [OUT]: are the answers compared, too? *)
Variable OUT : Prop.
Notation same := (same_but_private K).
Definition keyp (p : path) : Prop := In p pgp_keys.
Definition env0 (e f : env) : Prop :=
  same (e_fs e) (e_fs f) /\ Forall2 same (e_log e) (e_log f) /\ e_flt e = e_flt f /\ e_rnd e = e_rnd f /\ e_tch e = e_tch f.
Definition env1 (e f : env) : Prop := env0 e f /\ (OUT -> e_out e = e_out f).
Definition orel {A} (R : A -> A -> Prop) (x y : out A) : Prop :=
  match x, y with Ret a, Ret b => R a b | Exc a, Exc b => a = b | Fail, Fail => True | UB, UB => True | _, _ => False end.
(** same results, same RAM, same answer so far *)
Definition res {A} (R : A -> A -> Prop) (x y : out A * pgp * env) : Prop :=
  let '(o1, s1, e1) := x in let '(o2, s2, e2) := y in orel R o1 o2 /\ s1 = s2 /\ env1 e1 e2.
Definition two {A} (R : A -> A -> Prop) (m m' : M pgp A) : Prop := forall s e f, env1 e f -> res R (m s e) (m' s f).
Notation ni m := (two eq m m).
(** same RAM; the answers may differ *)
Definition isub {A} (o : out A) : Prop := match o with UB => True | _ => False end.
Definition weak {A} (m m' : M pgp A) : Prop := forall s e f, env1 e f ->
  let '(o1, s1, e1) := m s e in let '(o2, s2, e2) := m' s f in (isub o1 <-> isub o2) /\ s1 = s2 /\ env0 e1 e2.

Lemma res_bind {A B} (R : A -> A -> Prop) (Q : B -> B -> Prop) m m' k k' s e f :
  res R (m s e) (m' s f) -> (forall a b, R a b -> two Q (k a) (k' b)) -> res Q (bind m k s e) (bind m' k' s f).
Proof.
  intros Hm Hk. unfold bind, res in *. destruct (m s e) as [[o1 s1] e1], (m' s f) as [[o2 s2] e2].
  destruct Hm as (H1 & <- & E'). destruct o1, o2; cbn in H1; try contradiction; subst; cbn; auto. exact (Hk _ _ H1 _ _ _ E').
Qed.
Lemma two_bind {A B} (R : A -> A -> Prop) (Q : B -> B -> Prop) m m' k k' :
  two R m m' -> (forall a b, R a b -> two Q (k a) (k' b)) -> two Q (bind m k) (bind m' k').
Proof. intros Hm Hk s e f E. eapply res_bind; [apply Hm; exact E|exact Hk]. Qed.
Lemma ni_bind {A B} (m : M pgp A) (k : A -> M pgp B) : ni m -> (forall a, ni (k a)) -> ni (bind m k).
Proof. intros Hm Hk. eapply two_bind; [exact Hm|]. intros a b <-. apply Hk. Qed.
Lemma weak_bind {A B} (R : A -> A -> Prop) m m' (k k' : A -> M pgp B) :
  two R m m' -> (forall a b, R a b -> weak (k a) (k' b)) -> weak (bind m k) (bind m' k').
Proof.
  intros Hm Hk s e f E. specialize (Hm s e f E). unfold bind, res in *. destruct (m s e) as [[o1 s1] e1], (m' s f) as [[o2 s2] e2].
  destruct Hm as (H1 & <- & E'). destruct o1, o2; cbn in H1; try contradiction; subst; cbn; try (destruct E' as [E' ?]; tauto). exact (Hk _ _ H1 _ _ _ E').
Qed.
Lemma weak_bind_eq {A B} (m : M pgp A) (k k' : A -> M pgp B) : ni m -> (forall a, weak (k a) (k' a)) -> weak (bind m k) (bind m k').
Proof. intros Hm Hk. eapply weak_bind; [exact Hm|]. intros a b <-. apply Hk. Qed.
Lemma weak_two {A} (R : A -> A -> Prop) (m m' : M pgp A) : two R m m' -> weak m m'.
Proof.
  intros Hm s e f E. specialize (Hm s e f E). unfold res in Hm. destruct (m s e) as [[o1 s1] e1], (m' s f) as [[o2 s2] e2].
  destruct Hm as (H1 & <- & E' & _). split; [|auto]. destruct o1, o2; cbn in *; tauto.
Qed.
(** computations that touch nothing but the answer *)
Definition mute {A} (m : M pgp A) : Prop := forall s e, let '(o, s', e') := m s e in
  ~ isub o /\ s' = s /\ e' = mkE (e_fs e) (e_log e) (e_flt e) (e_rnd e) (e_tch e) (e_out e').
Lemma weak_mute {A} (m m' : M pgp A) : mute m -> mute m' -> weak m m'.
Proof.
  intros H1 H2 s e f [(E1 & E2 & E3 & E4 & E5) E6]. specialize (H1 s e). specialize (H2 s f). destruct (m s e) as [[o1 s1] e1], (m' s f) as [[o2 s2] e2].
  destruct H1 as (A1 & A2 & A3), H2 as (B1 & B2 & B3). split; [tauto|]. split; [congruence|]. rewrite A3, B3. repeat (split; [assumption|]). assumption.
Qed.
Lemma mute_bind {A B} (m : M pgp A) (k : A -> M pgp B) : mute m -> (forall a, mute (k a)) -> mute (bind m k).
Proof.
  intros H1 H2 s e. specialize (H1 s e). unfold bind. destruct (m s e) as [[o1 s1] e1]. destruct H1 as (A1 & -> & A3).
  destruct o1; cbn; auto. specialize (H2 a s e1). destruct (k a s e1) as [[o2 s2] e2]. destruct H2 as (B1 & -> & B3).
  split; [exact B1|]. split; [reflexivity|]. rewrite B3, A3. reflexivity.
Qed.
Lemma mute_ret {A} (a : A) : mute (ret a). Proof. intros s [? ? ? ? ? ?]; cbn; auto. Qed.
Lemma mute_out d : mute (set_out d). Proof. intros s [? ? ? ? ? ?]; cbn; auto. Qed.
Lemma mute_fail {A} : mute (@fail pgp A). Proof. intros s [? ? ? ? ? ?]; cbn; auto. Qed.
Lemma mute_except {A} w : mute (@except pgp A w). Proof. intros s [? ? ? ? ? ?]; cbn; auto. Qed.
Lemma mute_opt {A} (o : option A) : mute (opt o). Proof. destruct o; [apply mute_ret|apply mute_fail]. Qed.

Lemma two_get {A} (R : A -> A -> Prop) (k k' : pgp -> M pgp A) : (forall s, two R (k s) (k' s)) -> two R (bind get k) (bind get k').
Proof. intros Hk s e f E. exact (Hk s s e f E). Qed.
Lemma ni_get {A} (k : pgp -> M pgp A) : (forall s, ni (k s)) -> ni (bind get k).
Proof. apply two_get. Qed.
Lemma weak_get {A} (k : pgp -> M pgp A) : (forall s, weak (k s) (k s)) -> weak (bind get k) (bind get k).
Proof. intros Hk s e f E. exact (Hk s s e f E). Qed.
Lemma two_ret {A} (R : A -> A -> Prop) a b : R a b -> two R (ret a) (ret b). Proof. intros H s e f E; cbn; auto. Qed.
Lemma two_fail {A} (R : A -> A -> Prop) : two R fail fail. Proof. intros s e f E; cbn; auto. Qed.
Lemma two_except {A} (R : A -> A -> Prop) w : two R (except w) (except w). Proof. intros s e f E; cbn; auto. Qed.
Lemma ni_ret {A} (a : A) : ni (ret a). Proof. apply two_ret; reflexivity. Qed.
Lemma ni_lift {A} (a : out A) : ni (lift a). Proof. intros s e f E. destruct a; cbn; auto. Qed.
Lemma ni_fail {A} : ni (@fail pgp A). Proof. apply two_fail. Qed.
Lemma ni_ub {A} : ni (@ub pgp A). Proof. intros s e f E; cbn; auto. Qed.
Lemma ni_except {A} w : ni (@except pgp A w). Proof. apply two_except. Qed.
Lemma ni_guard b w : ni (guard b w). Proof. destruct b; [apply ni_ret|apply ni_except]. Qed.
Lemma ni_need {A} (o : option A) : ni (need o). Proof. destruct o; [apply ni_ret|apply ni_ub]. Qed.
Lemma ni_modify g : ni (modify g). Proof. intros s e f E; cbn; auto. Qed.
Lemma two_set_out d d' : (OUT -> d = d') -> two eq (set_out d) (set_out d').
Proof. intros H s e f ((E1 & E2 & E3 & E4 & E5) & E6); cbn; unfold env1, env0; cbn; auto 10. Qed.
Lemma ni_set_out d : ni (set_out d). Proof. apply two_set_out. auto. Qed.
Lemma ni_wait : ni wait_touch.
Proof.
  intros s e f ((E1 & E2 & E3 & E4 & E5) & E6). unfold wait_touch. rewrite <- E5.
  destruct (e_tch e) eqn:T; (split; [reflexivity|]; split; [reflexivity|]); unfold env1, env0; cbn; (split; [repeat (split; [assumption|]); congruence|assumption]).
Qed.
Lemma ni_random n : ni (random_buffer n).
Proof.
  intros s e f ((E1 & E2 & E3 & E4 & E5) & E6). unfold random_buffer. rewrite <- E4.
  split; [reflexivity|]. split; [reflexivity|]. unfold env1, env0; cbn; auto 10.
Qed.
Lemma pop_two e f : env1 e f -> fst (pop_fault e) = fst (pop_fault f) /\ env1 (snd (pop_fault e)) (snd (pop_fault f)).
Proof.
  intros ((E1 & E2 & E3 & E4 & E5) & E6). unfold pop_fault. rewrite <- E3.
  destruct (e_flt e) as [|x r] eqn:Q; cbn; (split; [reflexivity|]); unfold env1, env0; cbn; rewrite ?Q; auto 10.
Qed.
Lemma pop_fs e : e_fs (snd (pop_fault e)) = e_fs e. Proof. unfold pop_fault; destruct (e_flt e); reflexivity. Qed.
Ltac pops := intros s e f E; destruct (pop_two e f E) as [Ex E']; clear E;
  destruct (pop_fault e) as [x e0] eqn:P, (pop_fault f) as [x' f0] eqn:Q; cbn [fst snd] in Ex, E'; subst x'.
Lemma same_open p F G : ~ keyp p -> same F G -> F p = G p.
Proof. intros Hp H. specialize (H p). unfold same_file in H. destruct (F p), (G p); try contradiction; try reflexivity. din; [contradiction|congruence]. Qed.
Lemma ni_read_file p o n : ~ keyp p -> ni (read_file p o n).
Proof.
  intros Hp. pops. unfold read_file. rewrite P, Q. destruct x; cbn; auto. rewrite <- (same_open p _ _ Hp (proj1 (proj1 E'))). destruct (e_fs e0 p); cbn; auto.
Qed.
Lemma ni_size p : ~ keyp p -> ni (get_file_size p).
Proof.
  intros Hp. pops. unfold get_file_size. rewrite P, Q. destruct x; cbn; auto. rewrite <- (same_open p _ _ Hp (proj1 (proj1 E'))). destruct (e_fs e0 p); cbn; auto.
Qed.
Lemma same_attr p F G : same F G -> match F p, G p with Some f, Some g => forall a, f_attr f a = f_attr g a | None, None => True | _, _ => False end.
Proof. intros H. specialize (H p). unfold same_file in H. destruct (F p), (G p); try contradiction; try exact I. din; [tauto|congruence]. Qed.
Lemma ni_read_attr p a : ni (read_attr p a).
Proof.
  pops. unfold read_attr. rewrite P, Q. destruct x; cbn; auto. pose proof (same_attr p _ _ (proj1 (proj1 E'))) as W.
  destruct (e_fs e0 p), (e_fs f0 p); try contradiction; cbn; rewrite ?W; auto.
Qed.
Lemma same_fset F G p x y : same F G -> same_file K p x y -> same (fset F p x) (fset G p y).
Proof. intros H Hx q. destruct (string_dec q p) as [->|N]; [rewrite !fset_same; exact Hx|rewrite !fset_other by assumption; apply H]. Qed.
Lemma env1_commit e f p x y : env1 e f -> same_file K p x y -> env1 (commit (fset (e_fs e) p x) e) (commit (fset (e_fs f) p y) f).
Proof.
  intros ((E1 & E2 & E3 & E4 & E5) & E6) Hx. unfold env1, env0, commit. cbn. pose proof (same_fset _ _ p x y E1 Hx).
  split; [|exact E6]. split; [assumption|]. split; [constructor; assumption|auto].
Qed.
Definition created (p : path) (e : env) : env := match e_fs e p with None => commit (fset (e_fs e) p (Some (mkF [] no_attr))) e | Some _ => e end.
Lemma created_some p e : exists g, e_fs (created p e) p = Some g.
Proof. unfold created. destruct (e_fs e p) eqn:W; [eauto|]. cbn. rewrite fset_same. eauto. Qed.
Lemma env1_created p e f : env1 e f -> env1 (created p e) (created p f).
Proof.
  intros E. unfold created. pose proof (same_attr p _ _ (proj1 (proj1 E))) as W. destruct (e_fs e p), (e_fs f p); try contradiction; auto.
  apply env1_commit; [assumption|apply same_file_refl].
Qed.
(** writing the same contents *)
Lemma ni_write_file p d : ni (write_file p d 0 true).
Proof.
  pops. unfold write_file. rewrite P, Q. destruct x; cbn; auto.
  all: fold (created p e0) (created p f0); pose proof (env1_created p e0 f0 E') as C; auto.
  destruct (created_some p e0) as [g Hg], (created_some p f0) as [g' Hg']. rewrite Hg, Hg'. split; [reflexivity|]. split; [reflexivity|].
  apply env1_commit; [assumption|]. pose proof (same_attr p _ _ (proj1 (proj1 C))) as W. pose proof (proj1 (proj1 C) p) as V. rewrite Hg, Hg' in W, V.
  unfold same_file in *. destruct (in_dec string_dec p pgp_keys); [|congruence]. split; [exact W|]. unfold public_key. cbn [f_attr f_data]. rewrite W. reflexivity.
Qed.
(** the description of a key: [write_attr] keeps the relation if it is not rewritten, or says that there is no key, or says the same of algorithm and origin as before *)
Definition described (p : path) (t o : Z) (e : env) : Prop := exists g m, e_fs e p = Some g /\ f_attr g KEY_META_ATTR = Some m /\ nth 0 m 0 = t /\ nth 1 m 0 = o.
Lemma res_write_attr p a v s e f : ~ keyp p \/ a <> KEY_META_ATTR \/ nth 1 v 0 = 0 \/ described p (nth 0 v 0) (nth 1 v 0) e -> env1 e f ->
  res eq (write_attr p a v s e) (write_attr p a v s f).
Proof.
  intros Hp. revert s f. cut (forall s f, env1 e f -> res eq (write_attr p a v s e) (write_attr p a v s f)); [auto|]. intros s f E. destruct (pop_two e f E) as [Ex E']. clear E. unfold write_attr. pose proof (pop_fs e) as Fe.
  destruct (pop_fault e) as [x e0] eqn:P, (pop_fault f) as [x' f0] eqn:Q; cbn [fst snd] in Ex, E', Fe; subst x'.
  destruct x; cbn; auto. pose proof (same_attr p _ _ (proj1 (proj1 E'))) as W. pose proof (proj1 (proj1 E') p) as V.
  destruct (e_fs e0 p) as [g|] eqn:G, (e_fs f0 p) as [g'|] eqn:G'; try contradiction; cbn; auto.
  split; [reflexivity|]. split; [reflexivity|]. apply env1_commit; [assumption|]. unfold same_file in *. din; [|congruence]. cbn [f_attr].
  destruct V as [_ V]. split; [intros b; unfold aset; rewrite W; reflexivity|]. unfold public_key in *. cbn [f_attr f_data]. unfold aset, material in *. cbn [f_data].
  destruct (Z.eqb_spec KEY_META_ATTR a) as [<-|N]; [|exact V].
  destruct Hp as [Hp|[Hp|[Hp|(g0 & m & Hg & Hm & H0 & H1)]]]; [contradiction|contradiction|rewrite Hp; reflexivity|].
  rewrite <- Fe, G in Hg. injection Hg as <-. rewrite <- W, Hm, H0, H1 in V. exact V.
Qed.
Lemma ni_write_attr p a v : ~ keyp p \/ a <> KEY_META_ATTR \/ nth 1 v 0 = 0 -> ni (write_attr p a v).
Proof. intros Hp s e f E. apply res_write_attr; [tauto|exact E]. Qed.
(** ** Keys *)
(** what is known of two keys read from the same file *)
Definition kr (k k' : ckey) : Prop :=
  k_meta k = k_meta k' /\ zlen (k_data k) = KEY_SIZE /\ zlen (k_data k') = KEY_SIZE /\
  (m_origin (k_meta k) <> 0 -> public_part K (m_type (k_meta k)) (k_data k) = public_part K (m_type (k_meta k)) (k_data k')).
Lemma zlen_material f : zlen (material f) = KEY_SIZE.
Proof.
  unfold material, overlay, zeros, slice, zlen. rewrite app_length, skipn_length, repeat_length. pose proof (firstn_le_length (Z.to_nat KEY_SIZE) (skipn (Z.to_nat 0) (f_data f))). 
  rewrite firstn_length in *. unfold KEY_SIZE in *. lia.
Qed.

Lemma material_write d a : zlen d = KEY_SIZE -> material (mkF (write_at [] 0 d) a) = d.
Proof.
  intros H. unfold material, write_at, overlay. cbn [f_data]. change (zeros (0 - zlen [])) with (@nil Z). cbn [app firstn Z.to_nat Nat.add].
  rewrite skipn_nil, app_nil_r. rewrite <- H, slice_all. unfold zeros, zlen. rewrite Nat2Z.id.
  rewrite skipn_all2; [apply app_nil_r|]. rewrite repeat_length. lia.
Qed.

Lemma described_pop p t o e : described p t o e -> described p t o (snd (pop_fault e)).
Proof. unfold described. rewrite pop_fs. auto. Qed.
(** after a key was read, its description is there *)
Lemma res_read_key {A} (R : A -> A -> Prop) p (k k' : ckey -> M pgp A) :
  (forall a b, kr a b -> forall s e f, env1 e f -> described p (m_type (k_meta a)) (m_origin (k_meta a)) e -> res R (k a s e) (k' b s f)) ->
  two R (bind (got (ck_read_key p)) k) (bind (got (ck_read_key p)) k').
Proof.
  intros Hk s e f E. unfold got, ck_read_key, ck_read_key_metadata, bind.
  destruct (pop_two e f E) as [Ex E']. clear E. unfold read_attr, read_file.
  destruct (pop_fault e) as [x e0] eqn:P, (pop_fault f) as [x' f0] eqn:Q. cbn [fst snd] in Ex, E'. subst x'.
  destruct x; cbn [option_map ret orel res fail]; auto. pose proof (same_attr p _ _ (proj1 (proj1 E'))) as W. pose proof (proj1 (proj1 E') p) as V.
  destruct (e_fs e0 p) as [g|] eqn:G, (e_fs f0 p) as [g'|] eqn:G'; try contradiction; cbn [option_map ret orel res fail]; auto.
  pose proof (W KEY_META_ATTR) as W0. destruct (f_attr g KEY_META_ATTR) as [m|] eqn:M; rewrite <- W0; cbn [option_map ret orel res fail]; auto.
  destruct (pop_two e0 f0 E') as [Ex E2]. pose proof (pop_fs e0) as Z1. pose proof (pop_fs f0) as Z2.
  destruct (pop_fault e0) as [x e1] eqn:P1, (pop_fault f0) as [x' f1] eqn:Q1. cbn [fst snd] in *. subst x'.
  destruct x; cbn [option_map ret orel res fail]; auto. rewrite Z1, Z2, G, G'. cbn [option_map ret].
  fold (material g). fold (material g'). apply Hk; [|exact E2|exists g, m; rewrite Z1; auto].
  unfold kr. cbn [k_meta k_data meta_of m_type m_origin]. split; [reflexivity|]. split; [apply zlen_material|]. split; [apply zlen_material|].
  intros Ho. unfold same_file in V. din; [|rewrite V; reflexivity]. destruct V as [_ V]. unfold public_key in V. rewrite M, <- W0 in V.
  destruct (Z.eqb_spec (nth 1 m 0) 0); [contradiction|]. injection V as V. exact V.
Qed.
Lemma two_read_key {A} (R : A -> A -> Prop) p (k k' : ckey -> M pgp A) :
  (forall a b, kr a b -> two R (k a) (k' b)) -> two R (bind (got (ck_read_key p)) k) (bind (got (ck_read_key p)) k').
Proof. intros Hk. apply res_read_key. intros a b H s e f E _. apply Hk; assumption. Qed.
Lemma res_read_meta {A} (R : A -> A -> Prop) p (k k' : meta -> M pgp A) :
  (forall m s e f, env1 e f -> described p (m_type m) (m_origin m) e -> res R (k m s e) (k' m s f)) ->
  two R (bind (got (ck_read_key_metadata p)) k) (bind (got (ck_read_key_metadata p)) k').
Proof.
  intros Hk s e f E. unfold got, ck_read_key_metadata, bind. destruct (pop_two e f E) as [Ex E']. clear E. unfold read_attr.
  destruct (pop_fault e) as [x e0] eqn:P, (pop_fault f) as [x' f0] eqn:Q. cbn [fst snd] in Ex, E'. subst x'.
  destruct x; cbn [option_map ret orel res fail]; auto. pose proof (same_attr p _ _ (proj1 (proj1 E'))) as W.
  destruct (e_fs e0 p) as [g|] eqn:G, (e_fs f0 p) as [g'|] eqn:G'; try contradiction; cbn [option_map ret orel res fail]; auto.
  rewrite <- W. destruct (f_attr g KEY_META_ATTR) as [m|] eqn:M; cbn [option_map ret orel res fail]; auto.
  apply Hk; [exact E'|]. exists g, m. auto.
Qed.
(** storing a new key of the algorithm described before *)
Lemma res_write_key p k k' s e f : keyp p -> k_meta k = k_meta k' ->
  k_data k = k_data k' \/
    zlen (k_data k) = KEY_SIZE /\ zlen (k_data k') = KEY_SIZE /\ public_part K (m_type (k_meta k)) (k_data k) = public_part K (m_type (k_meta k)) (k_data k') /\
    (exists o, described p (m_type (k_meta k)) o e) ->
  env1 e f -> res eq (ck_write_key p k s e) (ck_write_key p k' s f).
Proof.
  intros Hp Hm Hd E. unfold ck_write_key, ck_write_key_metadata, write_file. destruct (pop_two e f E) as [Ex E'].
  assert (Hd' : k_data k = k_data k' \/ zlen (k_data k) = KEY_SIZE /\ zlen (k_data k') = KEY_SIZE /\ public_part K (m_type (k_meta k)) (k_data k) = public_part K (m_type (k_meta k)) (k_data k') /\
    (exists o, described p (m_type (k_meta k)) o (snd (pop_fault e)))).
  { destruct Hd as [Hd|(H1 & H2 & H3 & o & H4)]; [auto|]. right. repeat (split; [assumption|]). exists o. apply described_pop, H4. }
  clear Hd E. unfold bind. destruct (pop_fault e) as [x e0] eqn:P, (pop_fault f) as [x' f0] eqn:Q. cbn [fst snd] in Ex, E', Hd'. subst x'.
  destruct x; cbn [negb ret orel res]; auto.
  all: fold (created p e0) (created p f0); pose proof (env1_created p e0 f0 E') as C; auto.
  destruct (created_some p e0) as [g Hg], (created_some p f0) as [g' Hg']. rewrite Hg, Hg'. cbn [negb ret].
  assert (Hd : k_data k = k_data k' \/ zlen (k_data k) = KEY_SIZE /\ zlen (k_data k') = KEY_SIZE /\ public_part K (m_type (k_meta k)) (k_data k) = public_part K (m_type (k_meta k)) (k_data k') /\
    (exists o, described p (m_type (k_meta k)) o (created p e0))).
  { destruct Hd' as [Hd|(H1 & H2 & H3 & o & H4)]; [auto|]. right. repeat (split; [assumption|]). exists o. unfold created. destruct H4 as (g0 & m0 & G0 & H4). rewrite G0. exists g0, m0. auto. }
  clear E' P Q Hd'. revert C Hg Hg' Hd. generalize (created p e0) (created p f0). clear e0 f0 e f. intros e1 f1 C Hg Hg' Hd.
  pose proof (same_attr p _ _ (proj1 (proj1 C))) as W. rewrite Hg, Hg' in W.
  set (c1 := if (length (k_data k) =? 0)%nat then [] else _). set (c2 := if (length (k_data k') =? 0)%nat then [] else _).
  (* with the new description, and with the old one, the public keys are the same *)
  assert (Hc : forall k0, zlen (k_data k0) = KEY_SIZE -> (if (length (k_data k0) =? 0)%nat then [] else write_at [] 0 (k_data k0)) = write_at [] 0 (k_data k0)).
  { intros k0 Hk0. unfold zlen, KEY_SIZE in Hk0. replace (length (k_data k0) =? 0)%nat with false; [reflexivity|]. symmetry. apply Nat.eqb_neq. lia. }
  assert (S1 : same_file K p (Some (mkF c1 (f_attr g))) (Some (mkF c2 (f_attr g')))).
  { unfold same_file. din; [|contradiction]. split; [exact W|]. unfold public_key. cbn [f_attr]. rewrite <- W.
    destruct Hd as [Hd|(L1 & L2 & He & o & g0 & m0 & G0 & M0 & T0 & _)]; [subst c1 c2; rewrite Hd; reflexivity|].
    rewrite Hg in G0. injection G0 as <-. rewrite M0, T0. destruct (nth 1 m0 0 =? 0); [reflexivity|].
    subst c1 c2. rewrite (Hc k L1), (Hc k' L2), !material_write by assumption. rewrite He. reflexivity. }
  assert (S2 : forall v, v = meta_bytes (k_meta k) -> same_file K p (Some (mkF c1 (aset (f_attr g) KEY_META_ATTR v))) (Some (mkF c2 (aset (f_attr g') KEY_META_ATTR v)))).
  { intros v ->. unfold same_file. din; [|contradiction]. cbn [f_attr]. split; [intros a; unfold aset; rewrite W; reflexivity|]. unfold public_key. cbn [f_attr]. unfold aset. rewrite Z.eqb_refl.
    cbn [meta_bytes nth]. destruct (m_origin (k_meta k) =? 0); [reflexivity|]. 
    destruct Hd as [Hd|(L1 & L2 & He & _)]; [subst c1 c2; rewrite Hd; reflexivity|].
    subst c1 c2. rewrite (Hc k L1), (Hc k' L2), !material_write by assumption. rewrite He. reflexivity. }
  clear Hc Hd. unfold write_attr. rewrite <- Hm.
  pose proof (env1_commit e1 f1 p _ _ C S1) as C1.
  assert (G1 : e_fs (commit (fset (e_fs e1) p (Some (mkF c1 (f_attr g)))) e1) p = Some (mkF c1 (f_attr g))) by apply fset_same.
  assert (G2 : e_fs (commit (fset (e_fs f1) p (Some (mkF c2 (f_attr g')))) f1) p = Some (mkF c2 (f_attr g'))) by apply fset_same.
  revert C1 G1 G2. generalize (commit (fset (e_fs e1) p (Some (mkF c1 (f_attr g)))) e1) (commit (fset (e_fs f1) p (Some (mkF c2 (f_attr g')))) f1).
  intros e2 f2 C1 G1 G2. destruct (pop_two e2 f2 C1) as [Ex E']. pose proof (pop_fs e2) as Z1. pose proof (pop_fs f2) as Z2.
  destruct (pop_fault e2) as [x e3], (pop_fault f2) as [x' f3]. cbn [fst snd] in *. subst x'.
  destruct x; cbn [orel res]; auto. rewrite Z1, Z2, G1, G2. cbn [orel res f_data f_attr]. split; [reflexivity|]. split; [reflexivity|].
  rewrite <- Z1, <- Z2. apply env1_commit; [exact E'|]. apply S2. reflexivity.
Qed.
Lemma ni_write_key p k : keyp p -> ni (ck_write_key p k).
Proof. intros Hp s e f E. apply res_write_key; auto. Qed.
Lemma ni_read_meta p : ni (ck_read_key_metadata p).
Proof. unfold ck_read_key_metadata. apply ni_bind; [apply ni_read_attr|intros ?; apply ni_ret]. Qed.
Lemma app_eq_len_r (a a' b b' : bytes) : a ++ b = a' ++ b' -> length b = length b' -> a = a' /\ b = b'.
Proof.
  intros H L. assert (La : length a = length a') by (apply (f_equal (@length Z)) in H; rewrite !app_length in H; lia).
  split; [apply (f_equal (firstn (length a))) in H|apply (f_equal (skipn (length a))) in H].
  - rewrite La in H at 2. rewrite !firstn_app, !Nat.sub_diag, !firstn_all, !firstn_O, !app_nil_r in H. exact H.
  - rewrite La in H at 2. rewrite !skipn_app, !Nat.sub_diag, !skipn_all in H. exact H.
Qed.
Lemma same_encode k k' : k_meta k = k_meta k' -> zlen (k_data k) = KEY_SIZE -> zlen (k_data k') = KEY_SIZE -> public_part K (m_type (k_meta k)) (k_data k) = public_part K (m_type (k_meta k)) (k_data k') -> ck_encode_public_key K k = ck_encode_public_key K k'.
Proof.
  intros H1 H2 H3 H4. unfold ck_encode_public_key, pub_of. rewrite <- H1. set (t := m_type (k_meta k)) in *. unfold public_part in H4.
  assert (Q : (0 <=? t) && (t <=? 6) = true -> slice O_PUB (PUBLIC_KEY_LENGTH t) (k_data k) = slice O_PUB (PUBLIC_KEY_LENGTH t) (k_data k')).
  { intros Ht. rewrite Ht in H4. unfold PUBLIC_KEY_LENGTH, O_PUB. replace (nth (Z.to_nat t) [64; 64; 96; 132; 64; 32; 32; 256; 384; 512] 0) with (nth (Z.to_nat t) [64; 64; 96; 132; 64; 32; 32] 0); [exact H4|].
    assert (Z.to_nat t <= 6)%nat by lia. destruct (Z.to_nat t) as [|[|[|[|[|[|[|?]]]]]]]; try reflexivity. lia. }
  unfold SECP256R1, SECP256K1, SECP384R1, SM2, SECP521R1, ED25519, X25519, IS_RSA, RSA2048, RSA4096.
  destruct ((t =? 0) || (t =? 1) || (t =? 2) || (t =? 4)) eqn:C1; [rewrite Q by lia; reflexivity|].
  destruct (t =? 3) eqn:C2; [rewrite Q by lia; reflexivity|].
  destruct ((t =? 5) || (t =? 6)) eqn:C3; [rewrite Q by lia; reflexivity|].
  destruct ((7 <=? t) && (t <=? 9)) eqn:C4; [|reflexivity]. replace ((0 <=? t) && (t <=? 6)) with false in H4 by lia.
  assert (L1 : zlen (slice 2 4 (k_data k)) = 4) by (rewrite zlen_slice by lia; rewrite H2; unfold KEY_SIZE; lia).
  assert (L2 : zlen (slice 2 4 (k_data k')) = 4) by (rewrite zlen_slice by lia; rewrite H3; unfold KEY_SIZE; lia).
  assert (X : rsa_get_public_key K (k_data k) = rsa_get_public_key K (k_data k') /\ slice 2 4 (k_data k) = slice 2 4 (k_data k')).
  { apply app_eq_len_r; [exact H4|]. unfold zlen in L1, L2. lia. }
  destruct X as [X1 X2]. unfold O_E, E_LENGTH. rewrite X1, X2. reflexivity.
Qed.
Lemma ecc_lengths t : IS_ECC t = true -> PRIVATE_KEY_LENGTH t <= 66 /\ 0 <= PUBLIC_KEY_LENGTH t <= 132.
Proof.
  unfold IS_ECC, X25519, PRIVATE_KEY_LENGTH, PUBLIC_KEY_LENGTH. intros H. assert (V : t = 0 \/ t = 1 \/ t = 2 \/ t = 3 \/ t = 4 \/ t = 5 \/ t = 6) by lia.
  assert (L : forall a b : Z, (a <=? b) = true -> a <= b) by lia.
  repeat (destruct V as [->|V]; [split; [|split]; apply L; reflexivity|]). subst t. split; [|split]; apply L; reflexivity.
Qed.

(** ** The commands *)
Lemma key_is b p : get_key_path b = Some p -> keyp p.
Proof. unfold get_key_path. repeat match goal with |- (if ?b then _ else _) = _ -> _ => destruct b; [intros [= <-]; cbn; tauto|] end. discriminate. Qed.
Lemma cert_open n p : cert_path n = Some p -> ~ keyp p.
Proof. unfold cert_path. repeat match goal with |- (if ?b then _ else _) = _ -> _ => destruct b; [intros [= <-] W; cbn in W; intuition discriminate|] end. discriminate. Qed.
Ltac npx := first [assumption | eapply cert_open; eassumption | let W := fresh in intros W; cbn in W; intuition discriminate].
Ltac n1 :=
  match goal with
  | |- two eq (bind get _) _ => apply ni_get; intros ?
  | |- two eq (bind _ _) _ => apply ni_bind; [|intros ?]
  | |- two eq (ret _) _ => apply ni_ret
  | |- two eq (lift _) _ => apply ni_lift
  | |- two eq fail _ => apply ni_fail
  | |- two eq ub _ => apply ni_ub
  | |- two eq (except _) _ => apply ni_except
  | |- two eq (guard _ _) _ => apply ni_guard
  | |- two eq (need _) _ => apply ni_need
  | |- two eq (set_out _) _ => apply ni_set_out
  | |- two eq wait_touch _ => apply ni_wait
  | |- two eq (random_buffer _) _ => apply ni_random
  | |- two eq (ck_read_key_metadata _) _ => apply ni_read_meta
  | |- two eq (ck_write_key _ _) _ => apply ni_write_key; first [assumption|cbn; tauto]
  | |- two eq (read_file _ _ _) _ => apply ni_read_file; npx
  | |- two eq (get_file_size _) _ => apply ni_size; npx
  | |- two eq (read_attr _ _) _ => apply ni_read_attr
  | |- two eq (write_attr _ _ _) _ => apply ni_write_attr; first [left; npx | right; left; discriminate | right; right; reflexivity]
  | |- two eq (write_file _ _ _ _) _ => apply ni_write_file
  | |- two eq (modify _) _ => apply ni_modify
  | |- two eq (if ?b then _ else _) _ => destruct b
  | |- two eq (match ?x with _ => _ end) _ => destruct x eqn:?
  | |- two eq (let _ := _ in _) _ => cbv zeta
  end.
Ltac nk := repeat n1.
Ltac pu := unfold ck_write_key_metadata, attr_upto, attr_exact, reset_sig_counter, fill_attr, out_ok, retries_byte, touch_if, pgp_touch, assert_admin,
    put_attr, pin_verify, pin_verify_gen, pin_update, pin_clear, pin_get_retries, pin_get_default_retries, pin_get_attr, pin_get_size, pin_create, Admin.fill_sn, must, mustz, got, opt.
Lemma ni_install r : ni (pgp_install r).
Proof. unfold pgp_install, install_key; pu. nk. Qed.
Lemma two_opt {A} (R : A -> A -> Prop) (x y : option A) : match x, y with Some a, Some b => R a b | None, None => True | _, _ => False end -> two R (opt x) (opt y).
Proof. destruct x, y; cbn; try contradiction; intros H; [apply two_ret, H|apply two_fail]. Qed.
Lemma pub_generated t a b d : key_sizes K -> IS_ECC t = true -> zlen a = PRIVATE_KEY_LENGTH t -> zlen b = PUBLIC_KEY_LENGTH t -> zlen d = KEY_SIZE ->
  zlen (splice (splice d O_PRI a) O_PUB b) = KEY_SIZE /\ public_part K t (splice (splice d O_PRI a) O_PUB b) = b.
Proof.
  intros HK Et La Lb Hd. destruct (ecc_lengths t Et) as [B1 B2].
  assert (A1 : zlen (splice d O_PRI a) = KEY_SIZE) by (unfold KEY_SIZE, O_PRI in *; rewrite zlen_splice; lia).
  split; [unfold KEY_SIZE, O_PUB in *; rewrite zlen_splice; lia|]. unfold public_part. unfold IS_ECC, X25519 in Et. rewrite Et.
  replace (nth (Z.to_nat t) [64; 64; 96; 132; 64; 32; 32] 0) with (zlen b).
  - change 66 with O_PUB. apply slice_splice_same; [unfold O_PUB; lia|]. rewrite A1. unfold KEY_SIZE, O_PUB. lia.
  - rewrite Lb. unfold PUBLIC_KEY_LENGTH. assert (Z.to_nat t <= 6)%nat by lia. destruct (Z.to_nat t) as [|[|[|[|[|[|[|?]]]]]]]; try reflexivity. lia.
Qed.
(** two new keys generated over two old ones *)
Definition made (a b : ckey) : Prop := k_meta a = k_meta b /\ (k_data a = k_data b \/ zlen (k_data a) = KEY_SIZE /\ zlen (k_data b) = KEY_SIZE /\
  public_part K (m_type (k_meta a)) (k_data a) = public_part K (m_type (k_meta a)) (k_data b)).
Lemma made_encode a b : made a b -> ck_encode_public_key K a = ck_encode_public_key K b.
Proof.
  intros (H1 & [H2|(H2 & H3 & H4)]); [|apply same_encode; assumption]. destruct a, b. cbn in *. subst. reflexivity.
Qed.
Lemma res_generate k k' (s : pgp) e f : key_sizes K -> kr k k' -> env1 e f ->
  let '(o1, s1, e1) := ck_generate_key K k s e in let '(o2, s2, e2) := ck_generate_key K k' s f in
  orel (fun x y => match x, y with Some a, Some b => made a b /\ m_type (k_meta a) = m_type (k_meta k) | None, None => True | _, _ => False end) o1 o2 /\ s1 = s2 /\ env1 e1 e2 /\ e_fs e1 = e_fs e.
Proof.
  intros HK (Hm & L1 & L2 & _) E. unfold ck_generate_key, bind. pose proof (ni_random 32 s e f E) as W. unfold res in W.
  assert (Fe : e_fs (snd (random_buffer 32 s e)) = e_fs e) by reflexivity.
  destruct (random_buffer 32 s e) as [[o1 s1] e1], (random_buffer 32 s f) as [[o2 s2] e2]. cbn [snd] in Fe. destruct W as (W1 & <- & W2).
  destruct o1 as [seed| | |], o2 as [seed'| | |]; cbn [orel] in W1; try contradiction; subst; cbn [ret orel]; auto. split; [|auto].
  cbn [set_origin k_meta m_type]. rewrite <- Hm. set (t := m_type (k_meta k)). destruct (IS_ECC t) eqn:Et.
  - destruct (ecc_generate K t _) as [[a b]|] eqn:G; cbn [option_map]; [|exact I]. split; [|reflexivity]. split; [cbn; rewrite Hm; reflexivity|]. right.
    destruct (HK t _ a b Et G) as [La Lb]. cbn [put_at k_data k_meta fst snd set_origin m_type]. fold t.
    destruct (pub_generated t a b (k_data k) HK Et La Lb L1) as [A1 A2]. destruct (pub_generated t a b (k_data k') HK Et La Lb L2) as [B1 B2].
    split; [exact A1|]. split; [exact B1|]. rewrite A2, B2. reflexivity.
  - destruct (IS_RSA t); cbn [option_map]; [|exact I]. destruct (rsa_generate_key _ _ _); cbn [option_map]; [|exact I]. split; [|reflexivity]. split; [cbn; rewrite Hm; reflexivity|]. left. reflexivity.
Qed.
Lemma res_bind_at {A B} (R : A -> A -> Prop) (Q : B -> B -> Prop) (P : env -> Prop) m m' k k' s e f :
  (let '(o1, s1, e1) := m s e in let '(o2, s2, e2) := m' s f in orel R o1 o2 /\ s1 = s2 /\ env1 e1 e2 /\ P e1) ->
  (forall a b s e f, R a b -> P e -> env1 e f -> res Q (k a s e) (k' b s f)) -> res Q (bind m k s e) (bind m' k' s f).
Proof.
  intros Hm Hk. unfold bind. destruct (m s e) as [[o1 s1] e1], (m' s f) as [[o2 s2] e2].
  destruct Hm as (H1 & <- & E' & HP). destruct o1, o2; cbn in H1; try contradiction; subst; cbn; auto.
Qed.
Lemma got_generate k k' (s : pgp) e f : key_sizes K -> kr k k' -> env1 e f ->
  let '(o1, s1, e1) := got (ck_generate_key K k) s e in let '(o2, s2, e2) := got (ck_generate_key K k') s f in
  orel (fun a b => made a b /\ m_type (k_meta a) = m_type (k_meta k)) o1 o2 /\ s1 = s2 /\ env1 e1 e2 /\ (fun e1 => e_fs e1 = e_fs e) e1.
Proof.
  intros HK Hk E. pose proof (res_generate k k' s e f HK Hk E) as W. unfold got, bind.
  destruct (ck_generate_key K k s e) as [[o1 s1] e1], (ck_generate_key K k' s f) as [[o2 s2] e2]. destruct W as (W1 & <- & W2 & W3).
  destruct o1 as [[ka|]| | |], o2 as [[kb|]| | |]; cbn [orel] in W1; try contradiction; subst; cbn [ret fail orel]; auto.
Qed.
Lemma ni_generate c tail : key_sizes K -> ni (pgp_generate K c tail).
Proof.
  intros HK. unfold pgp_generate. n1; [n1|]. n1; [n1|]. n1; [n1|]. destruct (get_key_path _) as [p|] eqn:Hp; [|n1]. pose proof (key_is _ _ Hp) as Hs.
  apply res_read_key. intros k k' Hk s e f E D.
  apply (res_bind (fun a b => ck_encode_public_key K a = ck_encode_public_key K b)).
  - destruct (c_p1 c =? 0x80); [|destruct (c_p1 c =? 0x81); [|apply two_except; exact E]].
    + eapply res_bind_at; [exact (got_generate k k' s e f HK Hk E)|]. cbv beta. intros ka kb s1 e1 f1 [W1 W4] W3 W2. apply (res_bind (@eq unit)).
      * unfold must. apply (res_bind (@eq bool)).
        -- destruct W1 as (H1 & H2). apply res_write_key; [exact Hs|exact H1| |exact W2]. destruct H2 as [H2|(H2 & H3 & H4)]; [auto|right]. repeat (split; [assumption|]).
           exists (m_origin (k_meta k)). unfold described. rewrite W3, W4. exact D.
        -- intros ok _ <-. nk.
      * intros _ _ _. apply two_ret, made_encode, W1.
    + destruct Hk as (H1 & H2 & H3 & H4). rewrite <- H1. unfold KEY_ORIGIN_NOT_PRESENT.
      destruct (Z.eqb_spec (m_origin (k_meta k)) 0) as [Ho|Ho]; cbn [negb].
      * cbn [guard]. unfold bind, except. cbn [res orel]. auto.
      * eapply res_bind; [apply ni_guard; exact E|]. intros _ _ _. apply two_ret, same_encode; auto.
  - intros ka kb Hab. rewrite <- Hab. pu. nk.
Qed.
Lemma ni_import c tail : ni (pgp_import K c tail).
Proof.
  unfold pgp_import; pu; cbv zeta.
  repeat match goal with H : get_key_path _ = Some _ |- _ => apply key_is in H | _ => n1 end.
Qed.
Lemma res_guard {A} (R : A -> A -> Prop) b w (k k' : unit -> M pgp A) s e f : env1 e f -> res R (k tt s e) (k' tt s f) ->
  res R (bind (guard b w) k s e) (bind (guard b w) k' s f).
Proof. intros E H. destruct b; [exact H|]. cbn. auto. Qed.
Lemma res_need {A B} (R : A -> A -> Prop) (o : option B) (k k' : B -> M pgp A) s e f : env1 e f -> (forall b, res R (k b s e) (k' b s f)) ->
  res R (bind (need o) k s e) (bind (need o) k' s f).
Proof. intros E H. destruct o; [apply H|]. cbn. auto. Qed.
Lemma ni_put_uif c tail p : ni (put_uif c tail p).
Proof.
  unfold put_uif. apply res_read_meta. intros m s e f E D. apply res_guard; [exact E|]. apply res_need; [exact E|]. intros b. apply res_guard; [exact E|].
  unfold must, ck_write_key_metadata. apply (res_bind (@eq unit)). 2: { intros _ _ _. nk. }
  apply (res_bind (@eq bool)). 2: { intros ok _ <-. nk. }
  apply res_write_attr; [|exact E]. right; right; right. exact D.
Qed.
Lemma ni_put_data c tail : ni (pgp_put_data c tail).
Proof.
  unfold pgp_put_data, put_algorithm, put_resetting_code; pu; cbv zeta.
  repeat match goal with |- two eq (put_uif _ _ _) _ => apply ni_put_uif | _ => n1 end.
Qed.
Ltac wk1 :=
  match goal with
  | |- weak (bind get _) _ => apply weak_get; intros ?
  | |- weak (bind _ _) _ => apply weak_bind_eq; [|intros ?]
  | |- weak (if ?b then _ else _) (if ?b then _ else _) => destruct b
  | |- weak (match ?b with _ => _ end) (match ?b with _ => _ end) => destruct b eqn:?
  end.
Ltac mutes := repeat match goal with
  | |- mute (bind _ _) => apply mute_bind; [|intros ?]
  | |- mute (ret _) => apply mute_ret
  | |- mute fail => apply mute_fail
  | |- mute (except _) => apply mute_except
  | |- mute (opt _) => apply mute_opt
  | |- mute (set_out _) => apply mute_out
  | |- mute (if ?b then _ else _) => destruct b
  | |- mute (match ?b with _ => _ end) => destruct b
  end.
Section Use.
Variable nfc : bool.
Variables t1 t2 : Z.
Lemma weak_read_key {A} p (k k' : ckey -> M pgp A) :
  (forall a b, kr a b -> weak (k a) (k' b)) -> weak (bind (got (ck_read_key p)) k) (bind (got (ck_read_key p)) k').
Proof.
  intros Hk. apply (weak_bind kr); [|exact Hk]. pose proof (two_read_key kr p ret ret) as W.
  intros s e f E. specialize (W (fun a b H => two_ret kr a b H) s e f E). unfold bind at 1 2 in W. destruct (got (ck_read_key p) s e) as [[o1 s1] e1], (got (ck_read_key p) s f) as [[o2 s2] e2].
  destruct o1, o2; cbn in *; tauto.
Qed.
Lemma weak_decipher c tail : weak (pgp_decipher K nfc t1 t2 c tail) (pgp_decipher K nfc t1 t2 c tail).
Proof.
  unfold pgp_decipher. wk1. wk1; [n1|]. wk1; [pu; nk|]. wk1; [pu; nk|]. wk1; [n1|]. wk1; [n1|].
  apply weak_read_key. intros k k' (H1 & _). cbv zeta. rewrite <- H1. wk1.
  - wk1; [n1|]. wk1; [n1|]. wk1; [n1|]. wk1; [n1|]. apply weak_mute; unfold out_ok; mutes.
  - wk1; [|apply (weak_two eq); n1]. wk1; [n1|]. wk1; [|apply (weak_two eq); n1..]. wk1; [n1|]. apply weak_mute; unfold out_ok; mutes.
Qed.
Lemma two_sign c b : signs_alike K -> ~ OUT -> ni (pgp_sign_or_auth K nfc t1 t2 c b).
Proof.
  intros [A1 A2] HO. unfold pgp_sign_or_auth. n1. n1; [n1|]. n1; [pu; nk|]. cbv zeta. n1; [pu; nk|]. n1; [pu; nk|]. n1; [n1|]. n1; [n1|]. n1; [nk|].
  apply two_read_key. intros k k' (H1 & _). apply (two_bind (fun _ _ => True)).
  - apply two_opt. unfold ck_sign. rewrite <- H1. set (t := m_type (k_meta k)).
    match goal with |- context [ecc_sign K t _ ?x] => specialize (A1 t (pri_of t k) (pri_of t k') x); specialize (A2 (k_data k) (k_data k') x) end.
    destruct (IS_ECC t); [|destruct (IS_RSA t); [|exact I]].
    + destruct (ecc_sign K t (pri_of t k) _), (ecc_sign K t (pri_of t k') _); try exact I; [destruct A1 as [_ A1]; discriminate (A1 eq_refl)|destruct A1 as [A1 _]; discriminate (A1 eq_refl)].
    + destruct (rsa_sign_pkcs_v15 K (k_data k) _), (rsa_sign_pkcs_v15 K (k_data k') _); try exact I; [destruct A2 as [_ A2]; discriminate (A2 eq_refl)|destruct A2 as [A2 _]; discriminate (A2 eq_refl)].
  - intros x y _. apply (two_bind eq); [apply two_set_out; contradiction|]. intros _ _ _. unfold count_signature; pu. nk.
Qed.
End Use.
Lemma ni_body nfc t1 t2 j c tail : key_sizes K -> c_ins c <> 0x2A -> c_ins c <> 0x88 -> ni (pgp_body K nfc t1 t2 j c tail).
Proof.
  intros HK N1 N2. unfold pgp_body. cbv zeta. n1; [n1|]. n1; [unfold selection; nk|]. n1; [n1|]. n1; [|n1]. n1; [n1|].
  destruct (c_ins c =? 0xA4); [unfold pgp_select; pu; nk|].
  destruct (c_ins c =? 0x44). { n1; [n1|]. unfold pgp_activate. n1; [n1|]. n1; [apply ni_install|n1]. }
  destruct (c_ins c =? 0xCA); [unfold pgp_get_data, cardholder_related_data, application_related_data, discretionary_data, pw_status_bytes; pu; nk|].
  destruct (c_ins c =? 0xA5); [unfold pgp_select_data; nk|].
  destruct (c_ins c =? 0xCC); [unfold pgp_get_next_data; pu; cbv zeta; repeat match goal with |- context [if g_occ ?s =? ?n then _ else _] => destruct (g_occ s =? n) | _ => n1 end|].
  destruct (c_ins c =? 0x20); [unfold pgp_verify, verify_with, verify_pin; pu; nk|].
  destruct (c_ins c =? 0x24); [unfold pgp_change_reference_data, change_with, verify_prefix, update_rest; pu; nk|].
  destruct (c_ins c =? 0x2C); [unfold pgp_reset_retry_counter, verify_prefix, update_rest; pu; nk|].
  destruct (c_ins c =? 0xDA); [apply ni_put_data|].
  destruct (c_ins c =? 0xDB); [apply ni_import|].
  destruct (c_ins c =? 0x47); [apply ni_generate, HK|].
  destruct (Z.eqb_spec (c_ins c) 0x2A); [contradiction|]. destruct (Z.eqb_spec (c_ins c) 0x88); [contradiction|].
  destruct (c_ins c =? 0x84); [unfold pgp_get_challenge; pu; nk|].
  destruct (c_ins c =? 0xE6); [unfold pgp_terminate; pu; nk|].
  n1.
Qed.
Lemma weak_body nfc t1 t2 j c tail : signs_alike K -> ~ OUT -> c_ins c = 0x2A \/ c_ins c = 0x88 -> weak (pgp_body K nfc t1 t2 j c tail) (pgp_body K nfc t1 t2 j c tail).
Proof.
  intros HS HO E. unfold pgp_body. cbv zeta. wk1; [n1|]. wk1; [unfold selection; nk|]. wk1; [n1|]. wk1; [|apply (weak_two eq); n1]. wk1; [n1|].
  destruct E as [E|E]; rewrite E; cbn [Z.eqb Pos.eqb].
  - destruct ((c_p1 c =? 0x9E) && (c_p2 c =? 0x9A)); [apply (weak_two eq), two_sign; assumption|].
    destruct ((c_p1 c =? 0x80) && (c_p2 c =? 0x86)); [apply weak_decipher|apply (weak_two eq); n1].
  - apply (weak_two eq), two_sign; assumption.
Qed.
End Two.

Section Hist.
Variable K : crypto.
Notation same := (same_but_private K).
(** The commands that use a private key: PERFORM SECURITY OPERATION and INTERNAL AUTHENTICATE *)
Definition uses_keyb (v : ev) : bool := match v with Do x => (c_ins (x_apdu x) =? 0x2A) || (c_ins (x_apdu x) =? 0x88) | _ => false end.
(** Everything that can happen to the card, but for the work of other applets *)
Definition ours (v : ev) : Prop := match v with Other _ => False | _ => True end.
Lemma start_two OUT F G flt rnd tch : same F G -> env1 K OUT (start F flt rnd tch) (start G flt rnd tch).
Proof. intros HF. unfold env1, env0, start. cbn. split; [|reflexivity]. split; [exact HF|]. split; [repeat constructor; exact HF|auto]. Qed.
Lemma logs_nth e f n : Forall2 same (e_log e) (e_log f) -> same (e_fs e) (e_fs f) -> same (nth n (e_log e) (e_fs e)) (nth n (e_log f) (e_fs f)).
Proof. intros H H0. revert n. induction H; intros [|n]; cbn; auto. Qed.
Lemma installed_two r s F G flt : same F G ->
  let '(_, s1, e1) := installed r s F flt in let '(_, s2, e2) := installed r s G flt in s1 = s2 /\ same (e_fs e1) (e_fs e2) /\ Forall2 same (e_log e1) (e_log e2).
Proof.
  intros H. unfold installed. pose proof (ni_install K True r s _ _ (start_two True F G flt [] [] H)) as W. unfold res in W.
  destruct (pgp_install _ _ (start F flt [] [])) as [[o1 s1] e1], (pgp_install _ _ (start G flt [] [])) as [[o2 s2] e2].
  destruct W as (_ & -> & (W3 & W4 & _) & _). auto.
Qed.
Lemma boot_two F G flt : same F G -> d_ram (boot F flt) = d_ram (boot G flt) /\ same (d_fs (boot F flt)) (d_fs (boot G flt)).
Proof.
  intros H. unfold boot. pose proof (installed_two false pgp_boot F G flt H) as W.
  destruct (installed _ _ F _) as [[o1 s1] e1], (installed _ _ G _) as [[o2 s2] e2]. cbn. tauto.
Qed.
Lemma exec_two d F x : key_sizes K -> signs_alike K -> same (d_fs d) F ->
  let '(r1, s1, e1) := exec K d x in let '(r2, s2, e2) := exec K (mkD (d_ram d) F) x in
  (r1 = None <-> r2 = None) /\ (uses_keyb (Do x) = false -> r1 = r2) /\ s1 = s2 /\ same (e_fs e1) (e_fs e2) /\ Forall2 same (e_log e1) (e_log e2).
Proof.
  intros HK HS HF. unfold exec, run_apdu. cbn [d_ram d_fs start e_fs e_log e_flt e_rnd e_tch].
  change (mkE (d_fs d) [d_fs d] (x_flt x) (x_rnd x) (x_tch x) []) with (start (d_fs d) (x_flt x) (x_rnd x) (x_tch x)).
  change (mkE F [F] (x_flt x) (x_rnd x) (x_tch x) []) with (start F (x_flt x) (x_rnd x) (x_tch x)).
  set (m := pgp_body _ _ _ _ _ _ _). destruct (uses_keyb (Do x)) eqn:U; cbn [uses_keyb] in U.
  - assert (U' : c_ins (x_apdu x) = 0x2A \/ c_ins (x_apdu x) = 0x88) by lia.
    pose proof (weak_body K False (x_nfc x) (x_t1 x) (x_t2 x) (x_junk x) (x_apdu x) (x_tail x) HS (fun f => f) U' (d_ram d) _ _ (start_two False _ _ (x_flt x) (x_rnd x) (x_tch x) HF)) as W. fold m in W.
    destruct (m _ (start (d_fs d) _ _ _)) as [[o1 s1] e1], (m _ (start F _ _ _)) as [[o2 s2] e2].
    destruct W as (W1 & <- & (W3 & W4 & _)).
    destruct o1, o2; cbn in W1; try tauto; (split; [split; discriminate || reflexivity|]); (split; [discriminate|]); auto.
  - assert (W : two K True eq m m) by (apply ni_body; [exact HK|lia|lia]). specialize (W (d_ram d) _ _ (start_two True _ _ (x_flt x) (x_rnd x) (x_tch x) HF)). unfold res in W.
    destruct (m _ (start (d_fs d) _ _ _)) as [[o1 s1] e1], (m _ (start F _ _ _)) as [[o2 s2] e2].
    destruct W as (W1 & <- & (W3 & W4 & _) & W5). specialize (W5 I).
    destruct o1, o2; cbn in W1; try contradiction; subst; rewrite ?W5; (split; [tauto|]); auto.
Qed.
Lemma step_two d F v : key_sizes K -> signs_alike K -> same (d_fs d) F -> ours v ->
  match step K d v, step K (mkD (d_ram d) F) v with
  | Some (r, d1), Some (r', d2) => (uses_keyb v = false -> r = r') /\ d_ram d1 = d_ram d2 /\ same (d_fs d1) (d_fs d2)
  | None, None => True
  | _, _ => False
  end.
Proof.
  intros HK HS HF Hc. destruct v as [x|x n flt| |flt|flt n flt'|G]; cbn [step d_ram d_fs]; cbn [ours] in Hc.
  - pose proof (exec_two d F x HK HS HF) as W. destruct (exec K d x) as [[r1 s1] e1], (exec K (mkD (d_ram d) F) x) as [[r2 s2] e2].
    destruct W as (W1 & W2 & -> & W4 & _). destruct r1, r2; cbn [d_ram d_fs]; auto; [destruct W1 as [_ W1]; discriminate W1; reflexivity|destruct W1 as [W1 _]; discriminate W1; reflexivity].
  - pose proof (exec_two d F x HK HS HF) as W. destruct (exec K d x) as [[r1 s1] e1], (exec K (mkD (d_ram d) F) x) as [[r2 s2] e2].
    destruct W as (_ & _ & _ & W4 & W5). pose proof (boot_two _ _ flt (logs_nth e1 e2 n W5 W4)). tauto.
  - auto.
  - pose proof (installed_two true (d_ram d) _ _ flt HF) as W.
    destruct (installed _ _ (d_fs d) _) as [[o1 s1] e1], (installed _ _ F _) as [[o2 s2] e2]. cbn. tauto.
  - pose proof (installed_two true (d_ram d) _ _ flt HF) as W.
    destruct (installed _ _ (d_fs d) _) as [[o1 s1] e1], (installed _ _ F _) as [[o2 s2] e2]. destruct W as (_ & W4 & W5).
    pose proof (boot_two _ _ flt' (logs_nth e1 e2 n W5 W4)). tauto.
  - contradiction.
Qed.
(** The answers, except those of commands that use a private key *)
Definition other_answers (tr : list entry) : list (ev * option rapdu) :=
  map (fun e => match e with (_, v, r) => (v, if uses_keyb v then None else r) end) tr.
End Hist.

(** Whatever is sent to the card and whatever happens to it (storage errors and power loss included): if the private keys were others with the
    same public keys, every answer would be the same, except for those that are computed with a private key. *)
Theorem C89_private_keys : forall K d F vs,
  key_sizes K -> signs_alike K -> same_but_private K (d_fs d) F -> Forall ours vs ->
  match run_all K d vs, run_all K (mkD (d_ram d) F) vs with
  | Some (tr1, d1), Some (tr2, d2) =>
      other_answers tr1 = other_answers tr2 /\ d_ram d1 = d_ram d2 /\ same_but_private K (d_fs d1) (d_fs d2)
  | None, None => True
  | _, _ => False
  end.
Proof.
  intros K d F vs HK HS HF Hv. revert d F HF. induction Hv as [|v vs Hc Hv IH]; intros d F HF; cbn [run_all].
  - cbn. auto.
  - pose proof (step_two K d F v HK HS HF Hc) as W. destruct (step K d v) as [[r d1]|], (step K (mkD (d_ram d) F) v) as [[r' d2]|]; auto; try contradiction.
    destruct W as (W1 & W2 & W4). specialize (IH d1 (d_fs d2) W4). replace (mkD (d_ram d1) (d_fs d2)) with d2 in IH by (rewrite W2; destruct d2; reflexivity).
    destruct (run_all K d1 vs) as [[tr1 d1']|], (run_all K d2 vs) as [[tr2 d2']|]; auto. destruct IH as (I1 & I2 & I3).
    split; [|auto]. cbn [other_answers map]. fold (other_answers tr1) (other_answers tr2). rewrite I1. f_equal. f_equal.
    destruct (uses_keyb v) eqn:U; [reflexivity|]. apply W1. reflexivity.
Qed.
Print Assumptions C89_private_keys.

(** A P-256 key is generated for signatures.  The same card with another private key has the same public key, and signs differently; what is
    read before and after, and what follows the generation of a new key, even if power fails during it, is the same. *)
Definition put_p256 : capdu := mkC 0 0xDA 0 0xC1 [0x13; 0x2A; 0x86; 0x48; 0xCE; 0x3D; 0x03; 0x01; 0x07] 256.
Definition read_sig : capdu := mkC 0 0x47 0x81 0 [0xB6; 0] 256.
Definition other_key (p : path) (d : bytes) (F : fs) : fs := match F p with Some f => fset F p (Some (mkF d (f_attr f))) | None => F end.
Definition start89 : list ev := [Do (plain verify83); Do (plain put_p256); Do (plain gen_sig)].
Definition dev89 : dev := match run_all toy (boot fs_empty []) start89 with Some (_, d) => d | None => mkD pgp_boot fs_empty end.
Definition data89 : bytes := repeat 8 32 ++ zeros 34 ++ repeat 9 64 ++ zeros (1286 - 130).
Definition fs89 : fs := other_key "pgp-sigk" data89 (d_fs dev89).
Definition talk89 : list ev := [Do (plain read_sig); Do (plain verify81); Do (plain sign); Cut (plain gen_sig) 0 []; Do (plain read_sig); Do (plain gen_sig)].
Lemma toy_key_sizes : key_sizes toy.
Proof.
  intros t seed a b Ht. cbn [toy ecc_generate]. intros [= <- <-]. pose proof (ecc_lengths t Ht) as L. assert (0 <= PRIVATE_KEY_LENGTH t).
  { unfold PRIVATE_KEY_LENGTH. assert (P : forall n, 0 <= nth n [32; 32; 48; 66; 32; 32; 32; 128; 192; 256] 0) by (do 10 (destruct n as [|n]; [cbn; lia|]); destruct n; cbn; lia). apply P. }
  split; [|rewrite zlen_repeat; lia]. unfold zlen, zeros. rewrite firstn_length, app_length, repeat_length. lia.
Qed.
Lemma toy_signs_alike : signs_alike toy. Proof. split; cbn; intros; split; discriminate. Qed.
Lemma other_same K p d F f : In p pgp_keys -> F p = Some f -> public_key K f = public_key K (mkF d (f_attr f)) -> same_but_private K F (other_key p d F).
Proof.
  intros Hp Hf H q. unfold other_key. rewrite Hf. destruct (string_dec q p) as [->|N]; [|rewrite fset_other by assumption; apply same_file_refl].
  rewrite fset_same, Hf. unfold same_file. din; [|contradiction]. auto.
Qed.
Lemma opt_beq (a b : option bytes) : match a, b with Some a, Some b => beqb a b | _, _ => false end = true -> a = b.
Proof. destruct a, b; try discriminate. intros H. apply beqb_eq in H. congruence. Qed.
Definition sigs (r : option (list entry * dev)) : option (list (option bytes) * list (option Z)) :=
  match r with Some (tr, _) => Some (map (fun e => match e with (_, Do x, Some r) => if c_ins (x_apdu x) =? 0x2A then Some (r_data r) else None | _ => None end) tr, sws tr) | None => None end.
Example C89_case : (exists tr, since_boot toy tr dev89) /\ same_but_private toy (d_fs dev89) fs89 /\ Forall ours talk89 /\
  sigs (run_all toy dev89 talk89) = Some ([None; None; Some (repeat 7 32 ++ repeat 0xA5 32); None; None; None], [Some 0x9000; Some 0x9000; Some 0x9000; None; Some 0x9000; Some 0x9000]) /\
  sigs (run_all toy (mkD (d_ram dev89) fs89) talk89) = Some ([None; None; Some (repeat 7 32 ++ repeat 8 32); None; None; None], [Some 0x9000; Some 0x9000; Some 0x9000; None; Some 0x9000; Some 0x9000]).
Proof.
  split; [|split; [|split; [|split]]].
  - destruct (run_all toy (boot fs_empty []) start89) as [[tr d]|] eqn:E.
    + exists tr. assert (Q : dev89 = d) by (unfold dev89; rewrite E; reflexivity). rewrite Q. eapply run_all_since; [|exact E]. unfold start89. bytes_ok.
    + exfalso. assert (S : match run_all toy (boot fs_empty []) start89 with Some _ => true | None => false end = true) by (vm_compute; reflexivity).
      rewrite E in S. discriminate S.
  - destruct (d_fs dev89 "pgp-sigk") as [f|] eqn:E.
    + apply (other_same toy "pgp-sigk" data89 _ f); [cbn; tauto|exact E|].
      assert (S : match d_fs dev89 "pgp-sigk" with Some f => match public_key toy f, public_key toy (mkF data89 (f_attr f)) with Some a, Some b => beqb a b | _, _ => false end | None => false end = true)
        by (vm_compute; reflexivity).
      rewrite E in S. exact (opt_beq _ _ S).
    + exfalso. assert (S : match d_fs dev89 "pgp-sigk" with Some _ => true | None => false end = true) by (vm_compute; reflexivity). rewrite E in S. discriminate S.
  - repeat constructor.
  - vm_compute. reflexivity.
  - vm_compute. reflexivity.
Qed.
