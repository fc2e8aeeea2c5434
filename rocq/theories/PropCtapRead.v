(** C85: the FIDO applet understands requests as they are written. *)
From Verif Require Import CtapReq CtapSpec CtapToy PropCtapRp PropCtapReq.
Open Scope string_scope. Open Scope list_scope. Open Scope Z_scope.

(** ** Specification *)
Definition entries := list (cbor * cbor).
(** What a map says under the number [k], and under the name [k] *)
Definition field (k : Z) (m : entries) : option cbor := option_map snd (find (fun e => match fst e with CInt z => z =? k | _ => false end) m).
Definition member (k : string) (m : entries) : option cbor := option_map snd (find (fun e => match fst e with CText t => beqb t (chars k) | _ => false end) m).
(** No key comes twice; no name contains a NUL character *)
Definition distinct (m : entries) : Prop := NoDup (map fst m).
Definition tidy (m : entries) : Prop := distinct m /\ forall k v, In (CText k, v) m -> ~ In 0 k.
(** [a] is what the value says, or [dflt] without a value *)
Definition given {A} (o : option cbor) (dflt : A) (says : cbor -> A -> Prop) (a : A) : Prop :=
  match o with Some v => says v a | None => a = dflt end.
(** A string in a buffer of [n] bytes *)
Definition padded (n : Z) (s : bytes) : bytes := s ++ zeros (n - zlen s).
Definition is_int (v : cbor) (z : Z) : Prop := v = CInt z.
Definition is_byte_number (v : cbor) (z : Z) : Prop := exists x, v = CInt x /\ z = x mod 256.
Definition is_bool (v : cbor) (b : bool) : Prop := v = CBool b.
Definition is_bool_number (v : cbor) (z : Z) : Prop := exists b, v = CBool b /\ z = if b then 1 else 0.
Definition is_bytes (v : cbor) (s : bytes) : Prop := v = CBytes s.
Definition is_text (v : cbor) (s : bytes) : Prop := v = CText s.
Definition is_some {A} (says : cbor -> A -> Prop) (v : cbor) (o : option A) : Prop := exists a, o = Some a /\ says v a.
Definition in_buffer (n : Z) (v : cbor) (s : bytes) : Prop := exists d, v = CBytes d /\ zlen d <= n /\ s = padded n d.
(** The map at [o] is [m], and what it says has to be read as [Q] tells. *)
Definition is_map (v : cbor) (Q : entries -> Prop) : Prop := exists m, v = CMap m /\ Q m.
(** A user: id, name and display name, at most 64 bytes each *)
Definition is_user (v : cbor) (u : bytes) : Prop := is_map v (fun m => tidy m -> exists id name display,
  u = padded 64 id ++ [zlen id] ++ padded 65 name ++ padded 65 display /\ zlen id <= 64 /\ zlen name <= 64 /\ zlen display <= 64 /\
  given (member "id" m) [] is_bytes id /\ given (member "name" m) [] is_text name /\ given (member "displayName" m) [] is_text display).
(** A list of credentials *)
Definition is_descriptor (v : cbor) (i : bytes) : Prop := is_map v (fun m => member "id" m = Some (CBytes i) /\ exists t, member "type" m = Some (CText t)).
Definition is_list (v : cbor) (ids : list bytes) : Prop := exists l, v = CArr l /\ Forall2 is_descriptor l ids.
(** The first supported algorithm of a list *)
Definition is_param (v : cbor) (a : Z) : Prop := is_map v (fun m => member "type" m = Some (CText (chars "public-key")) /\ member "alg" m = Some (CInt a)).
Definition known (sm2 : bytes) (a : Z) : Prop := a = -7 \/ a = -8 \/ (sm2_enabled sm2 = true /\ a = sm2_algo sm2).
Definition is_choice (sm2 : bytes) (v : cbor) (a : Z) : Prop := exists before p after,
  v = CArr (before ++ p :: after) /\ is_param p a /\ known sm2 a /\ Forall (fun p' => exists b, is_param p' b /\ ~ known sm2 b) before.
(** An EC key: both coordinates *)
Definition is_point (v : cbor) (k : bytes) : Prop := is_map v (fun m => distinct m ->
  exists x y, k = x ++ y /\ zlen x = 32 /\ zlen y = 32 /\ given (field (-2) m) (zeros 32) is_bytes x /\ given (field (-3) m) (zeros 32) is_bytes y).
(** The permission parameter: an empty one stays empty *)
Definition is_auth (v : cbor) (p : bytes) : Prop := exists s, v = CBytes s /\ zlen s <= 32 /\ p = if zlen s =? 0 then [] else padded 32 s.
Definition options (v : option cbor) (rk uv up : Z) : Prop :=
  match v with
  | None => rk = 2 /\ uv = 2 /\ up = 2
  | Some v => is_map v (fun m => distinct m ->
      given (member "rk" m) 2 is_bool_number rk /\ given (member "uv" m) 2 is_bool_number uv /\ given (member "up" m) 2 is_bool_number up)
  end.
(** A relying party: its hash, and its name as it is stored if it is short *)
Definition is_rp (K : fcrypto) (v : cbor) (hash name : bytes) : Prop :=
  is_map v (fun m => tidy m -> forall id, member "id" m = Some id -> exists s, id = CText s /\ hash = f_sha K s /\ (zlen s <= 32 -> name = s)).
(** Extensions of registrations; a blob that is too long is marked by its length *)
Definition is_blob (v : cbor) (b : bytes) : Prop := exists s, v = CBytes s /\ (zlen s <= 32 -> b = s) /\ (32 < zlen s -> 32 < zlen b).
Definition extensions (v : option cbor) (hs lbk : bool) (cp : Z) (blob : option bytes) : Prop :=
  match v with
  | None => hs = false /\ lbk = false /\ cp = 0 /\ blob = None
  | Some v => is_map v (fun m => tidy m ->
      given (member "hmac-secret" m) false is_bool hs /\ given (member "largeBlobKey" m) false is_bool lbk /\
      given (member "credProtect" m) 0 is_int cp /\ given (member "credBlob" m) None (is_some is_blob) blob)
  end.
(** hmac-secret: the point, the salt, the tag and the protocol *)
Definition is_hmac (v : cbor) (q : hsreq) : Prop := is_map v (fun h => distinct h ->
  (exists k, field 1 h = Some k /\ is_point k (hs_key q)) /\ field 2 h = Some (CBytes (hs_salt q)) /\
  (exists a, field 3 h = Some a /\ in_buffer 32 a (hs_auth q)) /\ given (field 4 h) 1 is_byte_number (hs_proto q)).
Definition ga_extensions (v : option cbor) (hs : option hsreq) (blob : bool) : Prop :=
  match v with
  | None => hs = None /\ blob = false
  | Some v => is_map v (fun m => tidy m -> given (member "hmac-secret" m) None (is_some is_hmac) hs /\ given (member "credBlob" m) false is_bool blob)
  end.
(** The parameters of credential management *)
Definition is_id (v : cbor) (i : bytes) : Prop := exists d, is_descriptor v d /\ zlen d <= 70 /\ i = padded 70 d.
Definition cm_params (v : option cbor) (raw rphash id user : bytes) : Prop :=
  match v with
  | None => raw = [] /\ rphash = zeros 32 /\ id = zeros 70 /\ user = zeros 195
  | Some v => raw = enc v /\ is_map v (fun m => distinct m ->
      given (field 1 m) (zeros 32) is_bytes rphash /\ given (field 2 m) (zeros 70) is_id id /\ given (field 3 m) (zeros 195) is_user user)
  end.
(** Numbers of large-blob requests: not negative, at most 65535 *)
Definition is_16bit (v : cbor) (z : Z) : Prop := exists x, v = CInt x /\ 0 <= x /\ z = Z.min x 65535.

(** ** Proof *)
Definition post {A} (m : pres A) (Q : A -> Prop) : Prop := match m with POk a => Q a | _ => True end.
Lemma post_bind {A B} (m : pres A) (f : A -> pres B) (Q : B -> Prop) : post m (fun a => post (f a) Q) -> post (pbind m f) Q.
Proof. destruct m; auto. Qed.
Lemma post_mono {A} (m : pres A) (Q Q' : A -> Prop) : post m Q -> (forall a, Q a -> Q' a) -> post m Q'.
Proof. destruct m; cbn; auto. Qed.
Lemma post_as {A} (m : pres A) (Q : A -> Prop) : post m Q -> post (as_cbor_error m) Q. Proof. destruct m; auto. Qed.
Lemma post_any {A} (m : pres A) : post m (fun _ => True). Proof. destruct m; exact Logic.I. Qed.
Lemma post_ok {A} (m : pres A) (Q : A -> Prop) a : post m Q -> m = POk a -> Q a. Proof. intros H ->. exact H. Qed.
Lemma bind_ok {A B} (m : pres A) (f : A -> pres B) b : pbind m f = POk b -> exists a, m = POk a /\ f a = POk b.
Proof. destruct m as [a| |]; try discriminate. intros E. exists a. auto. Qed.
Lemma get_text_inv v s : get_text v = POk s -> v = CText s. Proof. destruct v; try discriminate. intros E. injection E as <-. reflexivity. Qed.
Lemma get_bytes_inv v s : get_bytes v = POk s -> v = CBytes s. Proof. destruct v; try discriminate. intros E. injection E as <-. reflexivity. Qed.
Lemma get_bool_inv v s : get_bool v = POk s -> v = CBool s. Proof. destruct v; try discriminate. intros E. injection E as <-. reflexivity. Qed.
Lemma get_map_inv v s : get_map v = POk s -> v = CMap s. Proof. destruct v; try discriminate. intros E. injection E as <-. reflexivity. Qed.
Lemma get_arr_inv v s : get_arr v = POk s -> v = CArr s. Proof. destruct v; try discriminate. intros E. injection E as <-. reflexivity. Qed.

(** Looking up *)
Lemma member_find k m : map_find k m = member k m.
Proof. unfold member. induction m as [|[[z|b|t|b|l|l|b] v] r IH]; cbn [map_find find fst]; try exact IH; [reflexivity|]. destruct (beqb t (chars k)); [reflexivity|exact IH]. Qed.
Lemma field_absent k m : ~ In (CInt k) (map fst m) -> field k m = None.
Proof.
  unfold field. induction m as [|[[z|b|t|b|l|l|b] v] r IH]; cbn [find fst map In]; intros H; try (apply IH; tauto); [reflexivity|].
  destruct (Z.eqb_spec z k) as [->|]; [elim H; auto|apply IH; tauto].
Qed.
Lemma member_absent k m : ~ In (CText (chars k)) (map fst m) -> member k m = None.
Proof.
  unfold member. induction m as [|[[z|b|t|b|l|l|b] v] r IH]; cbn [find fst map In]; intros H; try (apply IH; tauto); [reflexivity|].
  destruct (beqb t (chars k)) eqn:E; [apply beqb_eq in E; subst t; elim H; auto|apply IH; tauto].
Qed.
Lemma int_keep {A Y} (step : Z -> cbor -> A -> pres A) (proj : A -> Y) (I : A -> Prop) k0 l st :
  I st -> (forall k v s, I s -> post (step k v s) (fun s' => I s' /\ (k <> k0 -> proj s' = proj s))) -> ~ In (CInt k0) (map fst l) ->
  post (int_loop step l st) (fun s' => I s' /\ proj s' = proj st).
Proof.
  intros Hi H. revert st Hi. induction l as [|[k v] r IH]; intros st Hi Hn; cbn [int_loop]; [cbn; auto|].
  apply post_bind. destruct (get_int k) as [z| |] eqn:E; try exact Logic.I. apply get_int_inv in E. destruct E as (-> & _). cbn [map fst In] in Hn. cbn [post].
  apply post_bind. eapply post_mono; [apply H, Hi|]. intros s' (Hi' & Hp). eapply post_mono; [apply IH; [exact Hi'|tauto]|]. intros s2 (Hi2 & E2). split; [exact Hi2|]. rewrite E2. apply Hp. intros ->. tauto.
Qed.
Lemma int_key {A Y} (step : Z -> cbor -> A -> pres A) (proj : A -> Y) (I : A -> Prop) k0 l st st' :
  I st -> (forall k v s, I s -> post (step k v s) (fun s' => I s' /\ (k <> k0 -> proj s' = proj s))) -> distinct l -> int_loop step l st = POk st' ->
  I st' /\ match field k0 l with
  | None => proj st' = proj st
  | Some v => exists s1 s2, I s1 /\ proj s1 = proj st /\ step k0 v s1 = POk s2 /\ proj st' = proj s2
  end.
Proof.
  intros Hi H. revert st Hi. induction l as [|[k v] r IH]; intros st Hi Hd E; cbn [int_loop] in E; [injection E as <-; cbn; auto|].
  apply bind_ok in E. destruct E as (z & Ez & E). apply get_int_inv in Ez. destruct Ez as (-> & _). apply bind_ok in E. destruct E as (s & Es & E).
  unfold distinct in Hd. cbn [map fst] in Hd. inversion Hd as [|? ? Hn Hr]; subst. pose proof (post_ok _ _ _ (H z v st Hi) Es) as (Hi' & Hp). unfold field. cbn [find fst].
  destruct (Z.eqb_spec z k0) as [->|Hz].
  - pose proof (post_ok _ _ _ (int_keep step proj I k0 r s Hi' H Hn) E) as (Hf & Ef). split; [exact Hf|]. cbn [option_map snd]. exists st, s. auto.
  - destruct (IH s Hi' Hr E) as (Hf & X). split; [exact Hf|]. unfold field in X. destruct (option_map snd (find _ r)) as [w|].
    + destruct X as (s1 & s2 & I1 & E1 & E2 & E3). exists s1, s2. rewrite E1. auto.
    + rewrite X. apply Hp, Hz.
Qed.
Lemma until0_tidy k : ~ In 0 k -> until0 k = k.
Proof. induction k as [|x r IH]; intros H; [reflexivity|]. cbn [until0 In] in *. destruct (Z.eqb_spec x 0) as [->|]; [tauto|]. f_equal. apply IH. tauto. Qed.
Lemma txt_keep {A Y} n (step : bytes -> cbor -> A -> pres A) (proj : A -> Y) (I : A -> Prop) k0 l st :
  I st -> (forall k v s, I s -> post (step k v s) (fun s' => I s' /\ (key_is k k0 = false -> proj s' = proj s))) -> 
  (forall k v, In (CText k, v) l -> ~ In 0 k) -> ~ In (CText (chars k0)) (map fst l) ->
  post (txt_loop n step l st) (fun s' => I s' /\ proj s' = proj st).
Proof.
  intros Hi H. revert st Hi. induction l as [|[k v] r IH]; intros st Hi Ht Hn; cbn [txt_loop]; [cbn; auto|].
  apply post_bind. destruct (get_text k) as [z| |] eqn:E; try exact Logic.I. apply get_text_inv in E. subst k. cbn [map fst In] in Hn. cbn [post]. destruct (n <? zlen z); [exact Logic.I|].
  apply post_bind. eapply post_mono; [apply H, Hi|]. intros s' (Hi' & Hp). eapply post_mono; [apply IH; [exact Hi'| |tauto]|].
  { intros k w Hk. apply (Ht k w). right. exact Hk. }
  intros s2 (Hi2 & E2). split; [exact Hi2|]. rewrite E2. apply Hp. unfold key_is. rewrite until0_tidy by (apply (Ht z v); left; reflexivity).
  destruct (beqb z (chars k0)) eqn:Eb; [|reflexivity]. apply beqb_eq in Eb. subst z. tauto.
Qed.
Lemma txt_key {A Y} n (step : bytes -> cbor -> A -> pres A) (proj : A -> Y) (I : A -> Prop) k0 l st st' :
  I st -> (forall k v s, I s -> post (step k v s) (fun s' => I s' /\ (key_is k k0 = false -> proj s' = proj s))) -> tidy l -> txt_loop n step l st = POk st' ->
  I st' /\ match member k0 l with
  | None => proj st' = proj st
  | Some v => exists k s1 s2, key_is k k0 = true /\ until0 k = chars k0 /\ I s1 /\ proj s1 = proj st /\ step k v s1 = POk s2 /\ proj st' = proj s2
  end.
Proof.
  intros Hi H (Hd & Ht). revert st Hi. induction l as [|[k v] r IH]; intros st Hi E; cbn [txt_loop] in E; [injection E as <-; cbn; auto|].
  apply bind_ok in E. destruct E as (z & Ez & E). apply get_text_inv in Ez. subst k. destruct (n <? zlen z); [discriminate|]. apply bind_ok in E. destruct E as (s & Es & E).
  unfold distinct in Hd. cbn [map fst] in Hd. inversion Hd as [|? ? Hn Hr]; subst. pose proof (post_ok _ _ _ (H z v st Hi) Es) as (Hi' & Hp). unfold member. cbn [find fst].
  assert (Hz : until0 z = z) by (apply until0_tidy, (Ht z v); left; reflexivity). unfold key_is in Hp. rewrite Hz in Hp.
  assert (Ht' : forall k w, In (CText k, w) r -> ~ In 0 k) by (intros k w Hk; apply (Ht k w); right; exact Hk).
  destruct (beqb z (chars k0)) eqn:Eb.
  - apply beqb_eq in Eb. subst z. pose proof (post_ok _ _ _ (txt_keep n step proj I k0 r s Hi' H Ht' Hn) E) as (Hf & Ef). split; [exact Hf|]. cbn [option_map snd]. exists (chars k0), st, s.
    unfold key_is. rewrite Hz, beqb_refl. auto 10.
  - destruct (IH Hr Ht' s Hi' E) as (Hf & X). split; [exact Hf|]. unfold member in X. destruct (option_map snd (find _ r)) as [w|].
    + destruct X as (k & s1 & s2 & K1 & K2 & I1 & E1 & E2 & E3). exists k, s1, s2. rewrite E1. auto 10.
    + rewrite X. apply Hp. reflexivity.
Qed.

(** ** Which fields a step changes *)
Definition outside (f : string) (l : list string) : bool := negb (existsb (String.eqb f) l).
Definition only (fb fz : list string) (ll : bool) (s s' : pst) : Prop :=
  (forall f, outside f fb = true -> pb s' f = pb s f) /\ (forall f, outside f fz = true -> pz s' f = pz s f) /\ (ll = false -> pl s' = pl s).
Lemma only_refl fb fz ll s : only fb fz ll s s. Proof. repeat split. Qed.
Lemma only_trans fb fz ll s1 s2 s3 : only fb fz ll s1 s2 -> only fb fz ll s2 s3 -> only fb fz ll s1 s3.
Proof. intros (A1 & A2 & A3) (B1 & B2 & B3). split; [|split]; intros; [rewrite B1, A1|rewrite B2, A2|rewrite B3, A3]; auto. Qed.
Lemma only_z f z fb fz ll s s' : only fb fz ll s s' -> outside f fz = false -> only fb fz ll s (set_z f z s').
Proof.
  intros (A1 & A2 & A3) Hf. split; [|split]; [exact A1| |exact A3]. intros g Hg. cbn. unfold upd. destruct (String.eqb_spec f g) as [->|]; [congruence|apply A2, Hg].
Qed.
Lemma only_b f b fb fz ll s s' : only fb fz ll s s' -> outside f fb = false -> only fb fz ll s (set_b f b s').
Proof.
  intros (A1 & A2 & A3) Hf. split; [|split]; [|exact A2|exact A3]. intros g Hg. cbn. unfold upd. destruct (String.eqb_spec f g) as [->|]; [congruence|apply A1, Hg].
Qed.
Lemma only_l l fb fz s s' : only fb fz true s s' -> only fb fz true s (set_l l s').
Proof. intros (A1 & A2 & A3). split; [|split]; [exact A1|exact A2|discriminate]. Qed.
Lemma put_only f off room d fb fz ll s s' : only fb fz ll s s' -> outside f fb = false -> post (put_in f off room d s') (only fb fz ll s).
Proof. intros H Hf. unfold put_in. destruct (_ <=? _); [|exact Logic.I]. cbn [post]. apply only_b; assumption. Qed.
Lemma copy_only f off room cap oom d fb fz ll s s' : only fb fz ll s s' -> outside f fb = false -> post (copy f off room cap oom d s') (only fb fz ll s).
Proof. intros H Hf. unfold copy. destruct (_ <? _); [exact Logic.I|]. apply put_only; assumption. Qed.
Lemma int_only (step : Z -> cbor -> pst -> pres pst) fb fz ll s l s' : (forall k v x, only fb fz ll s x -> post (step k v x) (only fb fz ll s)) -> only fb fz ll s s' ->
  post (int_loop step l s') (only fb fz ll s).
Proof.
  intros H. revert s'. induction l as [|[k v] r IH]; intros s' Hs; cbn [int_loop]; [exact Hs|]. apply post_bind. destruct (get_int k); try exact Logic.I. cbn [post].
  apply post_bind. eapply post_mono; [apply H, Hs|]. exact IH.
Qed.
Lemma txt_only n (step : bytes -> cbor -> pst -> pres pst) fb fz ll s l s' : (forall k v x, only fb fz ll s x -> post (step k v x) (only fb fz ll s)) -> only fb fz ll s s' ->
  post (txt_loop n step l s') (only fb fz ll s).
Proof.
  intros H. revert s'. induction l as [|[k v] r IH]; intros s' Hs; cbn [txt_loop]; [exact Hs|]. apply post_bind. destruct (get_text k); try exact Logic.I. cbn [post].
  destruct (n <? _); [exact Logic.I|]. apply post_bind. eapply post_mono; [apply H, Hs|]. exact IH.
Qed.
Lemma post_seq {A} (m : pres A) (f : A -> pres A) (Q : A -> Prop) : post m Q -> (forall a, Q a -> post (f a) Q) -> post (pbind m f) Q.
Proof. destruct m; cbn; auto. Qed.
Ltac ol := repeat first [eassumption | apply only_refl | apply only_z; [|first [assumption | reflexivity]] | apply only_b; [|first [assumption | reflexivity]] | apply only_l].
Ltac on1 :=
  match goal with
  | |- post (POk _) _ => cbn [post]; solve [ol]
  | |- post (PErr _) _ => exact Logic.I
  | |- post PUB _ => exact Logic.I
  | |- post (pbind (get_int ?v) _) _ => apply post_bind; destruct (get_int v); try exact Logic.I; cbn [post]
  | |- post (pbind (get_text ?v) _) _ => apply post_bind; destruct (get_text v); try exact Logic.I; cbn [post]
  | |- post (pbind (get_bytes ?v) _) _ => apply post_bind; destruct (get_bytes v); try exact Logic.I; cbn [post]
  | |- post (pbind (get_bool ?v) _) _ => apply post_bind; destruct (get_bool v); try exact Logic.I; cbn [post]
  | |- post (pbind (get_map ?v) _) _ => apply post_bind; destruct (get_map v); try exact Logic.I; cbn [post]
  | |- post (pbind (get_arr ?v) _) _ => apply post_bind; destruct (get_arr v); try exact Logic.I; cbn [post]
  | |- post (copy _ _ _ _ _ _ _) _ => apply copy_only; [solve [ol]|first [assumption | reflexivity]]
  | |- post (put_in _ _ _ _ _) _ => apply put_only; [solve [ol]|first [assumption | reflexivity]]
  | |- only _ _ _ _ _ => solve [ol]
  | |- post (pbind _ _) _ => apply post_seq; [|intros ? ?]
  | |- post (as_cbor_error _) _ => apply post_as
  | |- post (if ?b then _ else _) _ => destruct b
  end.
Section O.
Variables (fb fz : list string) (ll : bool) (s : pst).
Notation into := (only fb fz ll s).
Lemma user_only v s' : into s' -> outside "user" fb = false -> post (parse_user v s') into.
Proof. intros H F. unfold parse_user. on1. apply txt_only; [|exact H]. intros k w x Hx. unfold user_step. repeat on1. Qed.
Lemma alg_only sm2 v s' : into s' -> outside "alg" fz = false -> post (parse_verify_pub_key_cred_params sm2 v s') into.
Proof.
  intros H F. unfold parse_verify_pub_key_cred_params. on1. generalize false at 1 as c. revert s' H. induction a as [|w r IH]; intros s' H c; cbn [alg_loop]; [destruct c; [exact H|exact Logic.I]|].
  apply post_bind. destruct (parse_pub_key_cred_param w); try exact Logic.I. cbn [post]. destruct (supported sm2 a && negb c); apply IH; ol.
Qed.
Lemma options_only v s' : into s' -> outside "rk" fz = false -> outside "uv" fz = false -> outside "up" fz = false -> post (parse_options v s') into.
Proof.
  intros H F1 F2 F3. unfold parse_options. on1. revert s' H. induction a as [|[k w] r IH]; intros s' H; cbn [options_loop]; [exact H|]. on1. on1. apply IH.
  repeat (destruct (beqb _ _); [ol|]). ol.
Qed.
Lemma cose_step_only k w n s' : into s' -> outside "key" fb = false -> post (cose_step k w (s', n)) (fun x => into (fst x)).
Proof.
  intros H F. unfold cose_step. repeat match goal with |- post (if ?b then _ else _) _ => destruct b end; try exact H; on1;
    try (destruct (_ =? _); [exact H|exact Logic.I]); (apply post_bind; eapply post_mono; [apply copy_only; [eassumption|assumption]|]; intros x Hx; destruct (_ =? _); [exact Hx|exact Logic.I]).
Qed.
Lemma cose_only v s' : into s' -> outside "key" fb = false -> post (parse_cose_key v s') into.
Proof.
  intros H F. unfold parse_cose_key. on1. apply post_bind. assert (G : forall l n s', into s' -> post (int_loop cose_step l (s', n)) (fun x => into (fst x))).
  { clear -F. induction l as [|[k w] r IH]; intros n s' H; cbn [int_loop]; [exact H|]. on1. apply post_bind. eapply post_mono; [apply cose_step_only; [exact H|exact F]|]. intros [x m] Hx. apply IH, Hx. }
  eapply post_mono; [apply G, H|]. intros [x n] Hx. cbn [fst snd] in *. destruct (n <? 4); [exact Logic.I|exact Hx].
Qed.
Lemma long_only v s' : into s' -> outside "param" fb = false -> outside "has_param" fz = false -> outside "param_len" fz = false -> post (long_param v s') into.
Proof. intros H F1 F2 F3. unfold long_param. repeat on1. Qed.
Lemma short_only v s' : into s' -> outside "param" fb = false -> outside "has_param" fz = false -> post (short_param v s') into.
Proof. intros H F1 F2. unfold short_param. repeat on1. Qed.
Lemma proto_only v s' : into s' -> outside "has_proto" fz = false -> outside "proto" fz = false -> post (protocol_of v s') into.
Proof. intros H F1 F2. unfold protocol_of. repeat on1. Qed.
Lemma cdh_only v s' : into s' -> outside "cdh" fb = false -> outside "has_cdh" fz = false -> post (client_data_hash v s') into.
Proof. intros H F1 F2. unfold client_data_hash. repeat on1. Qed.
Lemma rp_only K v s' : into s' -> outside "rp" fb = false -> outside "rphash" fb = false -> outside "rp_len" fz = false -> outside "has_rp" fz = false -> post (mc_rp_step K v s') into.
Proof. intros H F1 F2 F3 F4. unfold mc_rp_step. destruct (parse_rp _ _ _); repeat on1. Qed.
Lemma mc_ext_only v s' : into s' -> outside "blob" fb = false -> (forall f, In f ["cp"; "has_blob"; "blob_len"; "lbk"; "hs"] -> outside f fz = false) -> post (parse_mc_extensions v s') into.
Proof.
  intros H F1 F. unfold parse_mc_extensions. on1. apply txt_only; [|exact H]. intros k w x Hx. unfold mc_ext_step.
  pose proof (F "cp" ltac:(cbn; auto 6)). pose proof (F "has_blob" ltac:(cbn; auto 6)). pose proof (F "blob_len" ltac:(cbn; auto 6)). pose proof (F "lbk" ltac:(cbn; auto 6)). pose proof (F "hs" ltac:(cbn; auto 6)).
  cbv zeta. repeat on1.
Qed.
Lemma ga_ext_only v s' : into s' -> (forall f, In f ["key"; "salt"; "auth"] -> outside f fb = false) ->
  (forall f, In f ["has_hs_auth"; "has_hs_salt"; "has_hs_key"; "hs_proto"; "salt_len"; "auth_len"; "has_hs"; "blob"] -> outside f fz = false) -> post (parse_ga_extensions v s') into.
Proof.
  intros H F1 F. unfold parse_ga_extensions. on1. apply txt_only; [|exact H]. intros k w x Hx. unfold ga_ext_step.
  pose proof (F1 "key" ltac:(cbn; auto 9)). pose proof (F1 "salt" ltac:(cbn; auto 9)). pose proof (F1 "auth" ltac:(cbn; auto 9)).
  pose proof (F "has_hs_auth" ltac:(cbn; auto 9)). pose proof (F "has_hs_salt" ltac:(cbn; auto 9)). pose proof (F "has_hs_key" ltac:(cbn; auto 9)). pose proof (F "hs_proto" ltac:(cbn; auto 9)).
  pose proof (F "salt_len" ltac:(cbn; auto 9)). pose proof (F "auth_len" ltac:(cbn; auto 9)). pose proof (F "has_hs" ltac:(cbn; auto 9)). pose proof (F "blob" ltac:(cbn; auto 9)).
  destruct (key_is k "hmac-secret"); [|repeat on1]. on1. apply post_bind. eapply post_mono; [apply int_only with (fb := fb) (fz := fz) (ll := ll) (s := s); [|ol]|].
  { intros z u y Hy. unfold hs_step. destruct (z =? 1); [apply post_bind, post_as; eapply post_mono; [apply cose_only; eassumption|]; intros; repeat on1|]. repeat on1. }
  intros y Hy. cbv beta zeta. repeat on1.
Qed.
Lemma enc_only f room n1 n2 v s' : into s' -> outside f fb = false -> post (enc_field f room n1 n2 v s') into.
Proof. intros H F. unfold enc_field. repeat on1. Qed.
Lemma unsigned_only f v s' : into s' -> outside ("has_" ++ f) fz = false -> outside f fz = false -> post (unsigned f v s') into.
Proof. intros H F1 F2. unfold unsigned. repeat on1. Qed.
Lemma cm_par_only v s' : into s' -> (forall f, In f ["rphash"; "id"; "user"] -> outside f fb = false) -> (forall f, In f ["has_rp"; "has_id"; "has_user"] -> outside f fz = false) ->
  post (parse_cm_params v s') into.
Proof.
  intros H F1 F. unfold parse_cm_params. on1. apply int_only; [|exact H]. intros k w x Hx. unfold cm_param_step.
  pose proof (F1 "rphash" ltac:(cbn; auto 9)). pose proof (F1 "id" ltac:(cbn; auto 9)). pose proof (F1 "user" ltac:(cbn; auto 9)).
  pose proof (F "has_rp" ltac:(cbn; auto 9)). pose proof (F "has_id" ltac:(cbn; auto 9)). pose proof (F "has_user" ltac:(cbn; auto 9)).
  destruct (k =? 1); [repeat on1|]. destruct (k =? 2).
  - apply post_bind, post_as. apply post_bind. destruct (descriptor_id w) as [i| |]; try exact Logic.I. cbn [post]. apply post_bind. eapply post_mono; [apply copy_only; eassumption|]. intros y Hy.
    apply post_bind. destruct (descriptor_type w); try exact Logic.I. cbn [post]. ol.
  - destruct (k =? 3); [|exact Hx]. apply post_bind, post_as. eapply post_mono; [apply user_only; eassumption|]. intros y Hy. cbn [post]. ol.
Qed.
End O.
(** What each entry of a request changes *)
Definition at_key (k : Z) (t : list (Z * list string)) : list string := match find (fun e => fst e =? k) t with Some e => snd e | None => [] end.
Definition mc_b := [(1, ["cdh"]); (2, ["rp"; "rphash"]); (3, ["user"]); (6, ["blob"]); (8, ["param"])].
Definition mc_z := [(1, ["has_cdh"]); (2, ["rp_len"; "has_rp"]); (3, ["has_user"]); (4, ["alg"; "has_alg"]); (6, ["cp"; "has_blob"; "blob_len"; "lbk"; "hs"]); (7, ["rk"; "uv"; "up"]);
  (8, ["has_param"; "param_len"]); (9, ["has_proto"; "proto"])].
Definition ga_b := [(1, ["rphash"]); (2, ["cdh"]); (4, ["key"; "salt"; "auth"]); (6, ["param"])].
Definition ga_z := [(1, ["has_rp"]); (2, ["has_cdh"]); (4, ["has_hs_auth"; "has_hs_salt"; "has_hs_key"; "hs_proto"; "salt_len"; "auth_len"; "has_hs"; "blob"]); (5, ["rk"; "uv"; "up"]);
  (6, ["has_param"; "param_len"]); (7, ["has_proto"; "proto"])].
Definition cp_b := [(3, ["key"]); (4, ["param"]); (5, ["new"]); (6, ["hash"]); (10, ["rphash"])].
Definition cp_z := [(1, ["has_proto"; "proto"]); (2, ["has_sub"; "sub"]); (3, ["has_key"]); (4, ["has_param"]); (5, ["has_new"]); (6, ["has_hash"]); (9, ["has_perm"; "perm"]); (10, ["has_rp"])].
Definition cm_b := [(2, ["rphash"; "id"; "user"; "raw"]); (4, ["param"])].
Definition cm_z := [(1, ["has_sub"; "sub"]); (2, ["has_rp"; "has_id"; "has_user"]); (3, ["has_proto"; "proto"]); (4, ["has_param"])].
Definition lb_b := [(2, ["set"]); (5, ["param"])].
Definition lb_z := [(1, ["has_get"; "get"]); (2, ["has_set"]); (3, ["has_offset"; "offset"]); (4, ["has_length"; "length"]); (5, ["has_param"]); (6, ["has_proto"; "proto"])].
Ltac ins := let f := fresh in intros f ?; cbn [In] in *; repeat match goal with H : _ \/ _ |- _ => destruct H as [<-|H] end; try contradiction; reflexivity.
Section F.
Variable K : fcrypto.
Variable sm2 : bytes.
Ltac keys := repeat match goal with |- context [if ?k =? ?n then _ else _] => is_var k; destruct (Z.eqb_spec k n) as [->|]; [cbn [at_key]; unfold at_key; cbn [find fst snd Z.eqb Pos.eqb mc_b mc_z ga_b ga_z cp_b cp_z cm_b cm_z lb_b lb_z]|] end.
Lemma mc_only k v s : post (mc_step K sm2 k v s) (only (at_key k mc_b) (at_key k mc_z) (k =? 5) s).
Proof.
  unfold mc_step. destruct (Z.eqb_spec k 1) as [->|]; [apply cdh_only; [apply only_refl|reflexivity..]|]. destruct (Z.eqb_spec k 2) as [->|]; [apply rp_only; [apply only_refl|reflexivity..]|].
  destruct (Z.eqb_spec k 3) as [->|]; [apply post_bind; eapply post_mono; [apply user_only with (fb := at_key 3 mc_b) (fz := at_key 3 mc_z) (ll := false); [apply only_refl|reflexivity]|]; intros; repeat on1|].
  destruct (Z.eqb_spec k 4) as [->|]; [apply post_bind; eapply post_mono; [apply alg_only with (fb := at_key 4 mc_b) (fz := at_key 4 mc_z) (ll := false); [apply only_refl|reflexivity]|]; intros; repeat on1|].
  destruct (Z.eqb_spec k 5) as [->|]; [unfold parse_public_key_credential_list; on1; apply post_bind; destruct (id_list a); try exact Logic.I; cbn [post]; ol|].
  destruct (Z.eqb_spec k 6) as [->|]; [apply mc_ext_only; [apply only_refl|reflexivity|ins]|]. destruct (Z.eqb_spec k 7) as [->|]; [apply options_only; [apply only_refl|reflexivity..]|].
  destruct (Z.eqb_spec k 8) as [->|]; [apply long_only; [apply only_refl|reflexivity..]|]. destruct (Z.eqb_spec k 9) as [->|]; [apply proto_only; [apply only_refl|reflexivity..]|].
  cbn [post]. apply only_refl.
Qed.
Lemma ga_only k v s : post (ga_step K k v s) (only (at_key k ga_b) (at_key k ga_z) (k =? 3) s).
Proof.
  unfold ga_step. destruct (Z.eqb_spec k 1) as [->|]; [repeat on1|]. destruct (Z.eqb_spec k 2) as [->|]; [apply cdh_only; [apply only_refl|reflexivity..]|].
  destruct (Z.eqb_spec k 3) as [->|]; [unfold parse_public_key_credential_list; on1; apply post_bind; destruct (id_list a); try exact Logic.I; cbn [post]; ol|].
  destruct (Z.eqb_spec k 4) as [->|]; [apply ga_ext_only; [apply only_refl|ins|ins]|]. destruct (Z.eqb_spec k 5) as [->|]; [apply options_only; [apply only_refl|reflexivity..]|].
  destruct (Z.eqb_spec k 6) as [->|]; [apply long_only; [apply only_refl|reflexivity..]|]. destruct (Z.eqb_spec k 7) as [->|]; [apply proto_only; [apply only_refl|reflexivity..]|].
  cbn [post]. apply only_refl.
Qed.
Lemma cp_only k v s : post (cp_step K k v s) (only (at_key k cp_b) (at_key k cp_z) false s).
Proof.
  unfold cp_step. destruct (Z.eqb_spec k 1) as [->|]; [apply proto_only; [apply only_refl|reflexivity..]|]. destruct (Z.eqb_spec k 2) as [->|]; [repeat on1|].
  destruct (Z.eqb_spec k 3) as [->|]; [apply post_bind; eapply post_mono; [apply cose_only with (fb := at_key 3 cp_b) (fz := at_key 3 cp_z) (ll := false); [apply only_refl|reflexivity]|]; intros; repeat on1|].
  destruct (Z.eqb_spec k 4) as [->|]; [apply short_only; [apply only_refl|reflexivity..]|].
  destruct (Z.eqb_spec k 5) as [->|]; [apply post_bind; eapply post_mono; [apply enc_only with (fb := at_key 5 cp_b) (fz := at_key 5 cp_z) (ll := false); [apply only_refl|reflexivity]|]; intros; repeat on1|].
  destruct (Z.eqb_spec k 6) as [->|]; [apply post_bind; eapply post_mono; [apply enc_only with (fb := at_key 6 cp_b) (fz := at_key 6 cp_z) (ll := false); [apply only_refl|reflexivity]|]; intros; repeat on1|].
  destruct (Z.eqb_spec k 9) as [->|]; [repeat on1|]. destruct (Z.eqb_spec k 10) as [->|]; [repeat on1|]. cbn [post]. apply only_refl.
Qed.
Lemma cm_only k v s : post (cm_step k v s) (only (at_key k cm_b) (at_key k cm_z) false s).
Proof.
  unfold cm_step. destruct (Z.eqb_spec k 1) as [->|]; [repeat on1|].
  destruct (Z.eqb_spec k 2) as [->|]; [apply post_bind, post_as; eapply post_mono; [apply cm_par_only with (fb := at_key 2 cm_b) (fz := at_key 2 cm_z) (ll := false); [apply only_refl|ins|ins]|]; intros; repeat on1|].
  destruct (Z.eqb_spec k 3) as [->|]; [apply proto_only; [apply only_refl|reflexivity..]|]. destruct (Z.eqb_spec k 4) as [->|]; [apply short_only; [apply only_refl|reflexivity..]|].
  cbn [post]. apply only_refl.
Qed.
Lemma lb_only k v s : post (lb_step k v s) (only (at_key k lb_b) (at_key k lb_z) false s).
Proof.
  unfold lb_step. destruct (Z.eqb_spec k 1) as [->|]; [apply unsigned_only; [apply only_refl|reflexivity..]|]. destruct (Z.eqb_spec k 2) as [->|]; [repeat on1|].
  destruct (Z.eqb_spec k 3) as [->|]; [apply unsigned_only; [apply only_refl|reflexivity..]|]. destruct (Z.eqb_spec k 4) as [->|]; [apply unsigned_only; [apply only_refl|reflexivity..]|].
  destruct (Z.eqb_spec k 5) as [->|]; [apply short_only; [apply only_refl|reflexivity..]|]. destruct (Z.eqb_spec k 6) as [->|]; [apply proto_only; [apply only_refl|reflexivity..]|].
  cbn [post]. apply only_refl.
Qed.
End F.

(** ** What each parser reads *)
Lemma zl0 (l : bytes) : 0 <= zlen l. Proof. unfold zlen. lia. Qed.
Lemma zlen_app' (a b : bytes) : zlen (a ++ b) = zlen a + zlen b. Proof. unfold zlen. rewrite app_length. lia. Qed.
Lemma skipn_repeat {A} (x : A) k n : skipn k (repeat x n) = repeat x (n - k).
Proof. revert n. induction k as [|k IH]; intros [|n]; cbn; auto. Qed.
Lemma firstn_rep {A} (x : A) k n : firstn k (repeat x n) = repeat x (min k n).
Proof. revert n. induction k as [|k IH]; intros [|n]; cbn; auto. f_equal. apply IH. Qed.
Lemma put_zeros s n : zlen s <= n -> put_at 0 s (zeros n) = padded n s.
Proof. intros H. unfold put_at, padded, zeros. change (Z.to_nat 0) with O. cbn [firstn app]. f_equal. rewrite skipn_repeat. f_equal. pose proof (zl0 s). lia. Qed.
Lemma padded_snoc s n : zlen s < n -> padded n (s ++ [0]) = padded n s.
Proof.
  intros H. unfold padded, zeros. rewrite <- app_assoc. f_equal. rewrite zlen_app'. change (zlen [0]) with 1. pose proof (zl0 s). replace (Z.to_nat (n - zlen s)) with (S (Z.to_nat (n - (zlen s + 1)))) by lia. reflexivity.
Qed.
Lemma copy_ok f room cap oom s st st' n : copy f 0 room cap oom s st = POk st' -> pb st f = zeros n -> room <= n ->
  zlen s <= cap /\ zlen s <= room /\ pb st' f = padded n s /\ pz st' = pz st /\ pl st' = pl st.
Proof.
  unfold copy, put_in. destruct (Z.ltb_spec cap (zlen s)) as [|Hc]; [discriminate|]. intros E Hz Hn. match type of E with (if ?b then _ else _) = _ => destruct b eqn:Hr; [|discriminate] end. apply Z.leb_le in Hr. injection E as <-. cbn [set_b pb pz pl]. unfold upd. rewrite String.eqb_refl, Hz. split; [exact Hc|]. destruct (zlen s <? cap) eqn:El.
  - rewrite zlen_app' in Hr. change (zlen [0]) with 1 in Hr. split; [lia|]. split; [|auto]. rewrite put_zeros by (rewrite zlen_app'; change (zlen [0]) with 1; lia). apply padded_snoc. lia.
  - split; [lia|]. split; [|auto]. apply put_zeros. lia.
Qed.
Lemma padded_full n s : zlen s = n -> padded n s = s. Proof. intros H. unfold padded. rewrite H, Z.sub_diag. apply app_nil_r. Qed.
Ltac bnd E a Ea := apply bind_ok in E; destruct E as (a & Ea & E).
Lemma cdh_said v s1 s2 : client_data_hash v s1 = POk s2 -> pb s1 "cdh" = zeros 32 -> v = CBytes (pb s2 "cdh") /\ has "has_cdh" s2 = true.
Proof.
  unfold client_data_hash. intros E Hz. bnd E s Es. apply get_bytes_inv in Es. bnd E st Ec. destruct (Z.eqb_spec (zlen s) 32) as [Hl|]; [|discriminate]. injection E as <-.
  pose proof (copy_ok _ _ _ _ _ _ _ 32 Ec Hz ltac:(lia)) as (_ & _ & Hp & _). cbn. rewrite Hp, padded_full by exact Hl. auto.
Qed.
Lemma proto_said v s1 s2 : protocol_of v s1 = POk s2 -> has "has_proto" s2 = true /\ v = CInt (pz s2 "proto").
Proof. unfold protocol_of. intros E. bnd E z Ez. apply get_int_inv in Ez. destruct Ez as (-> & _). destruct (_ || _); [|discriminate]. injection E as <-. split; reflexivity. Qed.
Lemma long_said v s1 s2 : long_param v s1 = POk s2 -> pb s1 "param" = zeros 32 -> is_some is_auth v (param_of s2).
Proof.
  unfold long_param. intros E Hz. bnd E s Es. apply get_bytes_inv in Es. subst v. destruct (Z.ltb_spec 32 (zlen s)); [discriminate|]. bnd E st Ec. injection E as <-.
  unfold param_of. unfold has. cbn [set_z pz pb pl]. unfold upd. cbn [String.eqb Ascii.eqb Bool.eqb]. cbn [opt negb Z.eqb]. unfold is_some, is_auth. eexists. split; [reflexivity|]. exists s. split; [reflexivity|]. split; [lia|].
  pose proof (zl0 s). destruct (Z.ltb_spec 0 (zlen s)).
  - pose proof (copy_ok _ _ _ _ _ _ _ 32 Ec Hz ltac:(lia)) as (_ & _ & Hp & _). destruct (Z.eqb_spec (zlen s) 0); [lia|]. exact Hp.
  - destruct (Z.eqb_spec (zlen s) 0); [reflexivity|lia].
Qed.
Lemma short_said v s1 s2 : short_param v s1 = POk s2 -> pb s1 "param" = zeros 32 -> has "has_param" s2 = true /\ in_buffer 32 v (pb s2 "param").
Proof.
  unfold short_param. intros E Hz. bnd E s Es. apply get_bytes_inv in Es. subst v. destruct ((zlen s =? 0) || (32 <? zlen s)) eqn:El; [discriminate|]. bnd E st Ec. injection E as <-.
  pose proof (copy_ok _ _ _ _ _ _ _ 32 Ec Hz ltac:(lia)) as (_ & _ & Hp & _). cbn. split; [reflexivity|]. exists s. split; [reflexivity|]. split; [lia|exact Hp].
Qed.
Lemma list_said v s1 s2 : parse_public_key_credential_list v s1 = POk s2 -> is_list v (pl s2).
Proof.
  unfold parse_public_key_credential_list. intros E. bnd E l El. apply get_arr_inv in El. subst v. bnd E is Ei. injection E as <-. cbn. exists l. split; [reflexivity|].
  revert is Ei. induction l as [|w r IH]; intros is E; cbn [id_list] in E; [injection E as <-; constructor|]. bnd E i Ei. bnd E t Et. bnd E ir Er. injection E as <-. constructor; [|apply IH, Er].
  unfold descriptor_id, descriptor_type in *. bnd Ei m Em. apply get_map_inv in Em. subst w. cbn [get_map pbind] in Et. rewrite member_find in *. exists m. split; [reflexivity|].
  destruct (member "id" m) as [[| | | | | |]|]; try discriminate. injection Ei as ->. split; [reflexivity|]. destruct (member "type" m) as [[| | | | | |]|]; try discriminate. eexists. reflexivity.
Qed.
Lemma known_supported sm2 a : supported sm2 a = true <-> known sm2 a.
Proof. unfold supported, known, ALG_ES256, ALG_EDDSA. rewrite !orb_true_iff, andb_true_iff, !Z.eqb_eq. tauto. Qed.
Lemma param_said v a : parse_pub_key_cred_param v = POk a -> is_param v a.
Proof.
  unfold parse_pub_key_cred_param. intros E. bnd E m Em. apply get_map_inv in Em. subst v. rewrite !member_find in E. exists m. split; [reflexivity|].
  destruct (member "type" m) as [[| |t| | | |]|]; try discriminate. destruct (member "alg" m) as [[z| | | | | |]|]; try discriminate. destruct (beqb t (chars "public-key")) eqn:Eb; [|discriminate].
  apply beqb_eq in Eb. subst t. cbn [negb] in E. apply get_int_inv in E. destruct E as (E & _). injection E as <-. auto.
Qed.
Lemma chosen_keeps sm2 l st : post (alg_loop sm2 l true st) (fun s => s = st).
Proof. induction l as [|w r IH]; [reflexivity|]. cbn [alg_loop]. apply post_bind. destruct (parse_pub_key_cred_param w); try exact Logic.I. cbn [post]. rewrite andb_false_r. exact IH. Qed.
Lemma alg_said sm2 v s1 s2 : parse_verify_pub_key_cred_params sm2 v s1 = POk s2 -> is_choice sm2 v (pz s2 "alg").
Proof.
  unfold parse_verify_pub_key_cred_params. intros E. bnd E l El. apply get_arr_inv in El. subst v.
  cut (exists before p after, l = before ++ p :: after /\ is_param p (pz s2 "alg") /\ known sm2 (pz s2 "alg") /\ Forall (fun p' => exists b, is_param p' b /\ ~ known sm2 b) before).
  { intros (b & p & a & -> & H). exists b, p, a. split; [reflexivity|exact H]. }
  induction l as [|w r IH]; cbn [alg_loop] in E; [discriminate|]. bnd E a Ea. apply param_said in Ea. destruct (supported sm2 a) eqn:Es; cbn [negb andb] in E.
  - pose proof (post_ok _ _ _ (chosen_keeps sm2 r _) E) as ->. cbn. unfold upd. cbn. exists [], w, r. repeat split; auto. apply known_supported, Es.
  - destruct (IH E) as (b & p & a' & -> & H1 & H2 & H3). exists (w :: b), p, a'. repeat split; auto. constructor; [|exact H3]. exists a. split; [exact Ea|]. rewrite <- known_supported. congruence.
Qed.
Lemma options_key nm m s1 s2 : In nm ["rk"; "uv"; "up"] -> options_loop m s1 = POk s2 -> distinct m -> given (member nm m) (pz s1 nm) is_bool_number (pz s2 nm).
Proof.
  intros Hn. revert s1. assert (G : forall m s1, options_loop m s1 = POk s2 -> ~ In (CText (chars nm)) (map fst m) -> pz s2 nm = pz s1 nm).
  { clear m. induction m as [|[k v] r IH]; intros s1 E Hk; cbn [options_loop] in E; [injection E as <-; reflexivity|]. bnd E t Et. apply get_text_inv in Et. subst k. bnd E b Eb.
    cbn [map fst In] in Hk. rewrite (IH _ E) by tauto. cbn [In] in Hn.
    assert (D : beqb t (chars nm) = false) by (destruct (beqb t (chars nm)) eqn:D; [apply beqb_eq in D; subst t; tauto|reflexivity]).
    destruct Hn as [<-|[<-|[<-|[]]]]; rewrite ?D; repeat match goal with |- context [beqb ?a ?b] => destruct (beqb a b) end; reflexivity. }
  induction m as [|[k v] r IH]; intros s1 E Hd; cbn [options_loop] in E; [injection E as <-; reflexivity|]. bnd E t Et. apply get_text_inv in Et. subst k. bnd E b Eb. apply get_bool_inv in Eb. subst v.
  unfold distinct in Hd. cbn [map fst] in Hd. inversion Hd as [|? ? Hk Hr]; subst. unfold member. cbn [find fst]. destruct (beqb t (chars nm)) eqn:D.
  - apply beqb_eq in D. subst t. cbn [option_map snd given]. exists b. split; [reflexivity|]. rewrite (G _ _ E Hk). clear -Hn. cbn [In] in Hn. destruct Hn as [<-|[<-|[<-|[]]]]; reflexivity.
  - specialize (IH _ E Hr). unfold member in IH. revert IH. assert (X : forall s, (s = if beqb t (chars "rk") then set_z "rk" (b2z b) s1 else if beqb t (chars "uv") then set_z "uv" (b2z b) s1 else if beqb t (chars "up") then set_z "up" (b2z b) s1 else s1) -> pz s nm = pz s1 nm).
    { intros s ->. cbn [In] in Hn. destruct Hn as [<-|[<-|[<-|[]]]]; rewrite ?D; repeat match goal with |- context [beqb ?a ?b] => destruct (beqb a b) end; reflexivity. }
    rewrite (X _ eq_refl). auto.
Qed.
Lemma options_said v s1 s2 : parse_options v s1 = POk s2 -> pz s1 "rk" = 2 -> pz s1 "uv" = 2 -> pz s1 "up" = 2 -> options (Some v) (pz s2 "rk") (pz s2 "uv") (pz s2 "up").
Proof.
  unfold parse_options. intros E H1 H2 H3. bnd E m Em. apply get_map_inv in Em. subst v. exists m. split; [reflexivity|]. intros Hd.
  pose proof (options_key "rk" m s1 s2 ltac:(cbn; auto) E Hd) as G1. pose proof (options_key "uv" m s1 s2 ltac:(cbn; auto) E Hd) as G2. pose proof (options_key "up" m s1 s2 ltac:(cbn; auto) E Hd) as G3.
  rewrite H1 in G1. rewrite H2 in G2. rewrite H3 in G3. auto.
Qed.
(** The user entity: three blocks of 65 bytes *)
Lemma slice_put_out o n off d b : 0 <= o -> 0 <= n -> 0 <= off -> off + zlen d <= zlen b -> (off + zlen d <= o \/ o + n <= off) -> slice o n (put_at off d b) = slice o n b.
Proof.
  intros H1 H2 H3 H4 H5. apply (nth_ext _ _ 0 0).
  - assert (L : length (put_at off d b) = length b) by (pose proof (put_at_len off d b H3 H4); unfold zlen in *; lia). unfold slice. rewrite !firstn_length, !skipn_length. lia.
  - intros i Hi. rewrite !nth_slice by exact H1. unfold slice in Hi. rewrite firstn_length in Hi. destruct (Nat.ltb_spec i (Z.to_nat n)); [|reflexivity].
    pose proof (zl0 d). destruct H5 as [H5|H5]; [rewrite put_at_after by lia|rewrite put_at_before by lia]; reflexivity.
Qed.
Lemma slice_put_in o n k d b : 0 <= o -> 0 <= k -> k + zlen d <= n -> o + n <= zlen b -> slice o n (put_at (o + k) d b) = put_at k d (slice o n b).
Proof.
  intros H1 H2 H3 H4. pose proof (zl0 d) as Hd. assert (Ls : zlen (slice o n b) = n) by (rewrite zlen_slice; lia).
  assert (Lp : zlen (put_at (o + k) d b) = zlen b) by (apply put_at_len; lia).
  apply (nth_ext _ _ 0 0).
  - pose proof (put_at_len k d (slice o n b) H2 ltac:(lia)) as L2. assert (zlen (slice o n (put_at (o + k) d b)) = n) by (rewrite zlen_slice; lia). unfold zlen in *. lia.
  - intros i Hi. assert (Hi' : Z.of_nat i < n). { assert (L : zlen (slice o n (put_at (o + k) d b)) = n) by (rewrite zlen_slice; lia). unfold zlen in L. lia. }
    rewrite nth_slice by exact H1. destruct (Nat.ltb_spec i (Z.to_nat n)); [|lia].
    destruct (Z.ltb_spec (Z.of_nat i) k) as [Hk|Hk]; [|destruct (Z.ltb_spec (Z.of_nat i) (k + zlen d)) as [Hk'|Hk']].
    + rewrite !put_at_before by lia. rewrite nth_slice by exact H1. destruct (Nat.ltb_spec i (Z.to_nat n)); [reflexivity|lia].
    + replace i with (Z.to_nat k + (i - Z.to_nat k))%nat at 2 by lia. replace (Z.to_nat o + i)%nat with (Z.to_nat (o + k) + (i - Z.to_nat k))%nat by lia.
      rewrite !put_at_in by (unfold zlen in *; lia). reflexivity.
    + rewrite !put_at_after by lia. rewrite nth_slice by exact H1. destruct (Nat.ltb_spec i (Z.to_nat n)); [reflexivity|lia].
Qed.
Lemma put_upd f off room d st st' : put_in f off room d st = POk st' -> st' = set_b f (put_at off d (pb st f)) st /\ zlen d <= room.
Proof. unfold put_in. destruct (Z.leb_spec (zlen d) room); [|discriminate]. intros X. injection X as <-. auto. Qed.
Lemma copy_upd f off room cap oom s st st' : copy f off room cap oom s st = POk st' ->
  exists d, st' = set_b f (put_at off d (pb st f)) st /\ zlen s <= cap /\ zlen d <= room /\ zlen d <= cap /\ ((d = s /\ zlen s = cap) \/ (d = s ++ [0] /\ zlen s < cap)).
Proof.
  unfold copy. destruct (Z.ltb_spec cap (zlen s)); [discriminate|]. intros E. apply put_upd in E. destruct E as (-> & E). pose proof (padded_len s cap ltac:(lia)).
  destruct (Z.ltb_spec (zlen s) cap); eexists; (split; [reflexivity|]); repeat split; try lia; [right|left]; split; (reflexivity || lia).
Qed.
Lemma pb_same f b st : pb (set_b f b st) f = b. Proof. cbn. unfold upd. rewrite String.eqb_refl. reflexivity. Qed.
Lemma zlen_zeros n : 0 <= n -> zlen (zeros n) = n. Proof. apply zeros_len. Qed.
Lemma put_padded k n s : zlen s = k -> k < n -> put_at k [0] (padded n s) = padded n s.
Proof.
  intros Hs Hk. pose proof (zl0 s). unfold put_at, padded. rewrite zlen1. rewrite firstn_app, skipn_app. unfold zlen, zeros in *.
  replace (Z.to_nat k - length s)%nat with O by lia. cbn [firstn]. rewrite firstn_all2 by lia. rewrite skipn_all2 by lia. rewrite skipn_repeat, app_nil_r. cbn [app]. f_equal.
  match goal with |- 0 :: repeat 0 ?a = _ => change (0 :: repeat 0 a) with (repeat 0 (S a)) end. f_equal. lia.
Qed.
Lemma put_last s n x : zlen s <= n -> 0 <= n -> put_at n [x] (padded (n + 1) s) = padded n s ++ [x].
Proof.
  intros Hs Hn. pose proof (zl0 s). unfold put_at, padded. rewrite zlen1. rewrite firstn_app. rewrite firstn_all2 by (unfold zlen in *; lia). rewrite skipn_all2.
  - rewrite app_nil_r, <- !app_assoc. f_equal. f_equal. unfold zeros, zlen in *. rewrite firstn_rep. f_equal. lia.
  - rewrite app_length. unfold zeros, zlen in *. rewrite repeat_length. lia.
Qed.
Definition block (o : Z) (s : pst) : bytes := slice o 65 (pb s "user").
Definition full (s : pst) : Prop := zlen (pb s "user") = 195.
Lemma user_step_frame k v s : full s -> post (user_step k v s) (fun s' => full s' /\ (key_is k "id" = false -> block 0 s' = block 0 s) /\
  (key_is k "name" = false -> block 65 s' = block 65 s) /\ (key_is k "displayName" = false -> block 130 s' = block 130 s)).
Proof.
  unfold full, block. intros Hf. unfold user_step.
  assert (P : forall off d st, zlen (pb st "user") = 195 -> 0 <= off -> off + zlen d <= 195 -> zlen (pb (set_b "user" (put_at off d (pb st "user")) st) "user") = 195).
  { intros. rewrite pb_same, put_at_len; lia. }
  destruct (key_is k "id") eqn:E1; [|destruct (key_is k "displayName") eqn:E2; [|destruct (key_is k "name") eqn:E3]].
  - destruct (get_bytes v) as [b| |]; try exact Logic.I. cbn [pbind]. destruct (copy _ _ _ _ _ _ _) as [s1| |] eqn:C; try exact Logic.I. cbn [pbind]. destruct (put_in _ _ _ _ _) as [s2| |] eqn:U; try exact Logic.I. cbn [post].
    apply copy_upd in C. destruct C as (d & -> & C1 & C2 & C3 & _). apply put_upd in U. destruct U as (-> & U). rewrite !pb_same. rewrite zlen1 in *. pose proof (zl0 d).
    assert (L : zlen (put_at 0 d (pb s "user")) = 195) by (rewrite put_at_len; lia). split; [rewrite put_at_len; rewrite ?zlen1; lia|]. split; [discriminate|].
    split; intros _; rewrite !slice_put_out; rewrite ?zlen1; try lia; reflexivity.
  - destruct (get_text v) as [b| |]; try exact Logic.I. cbn [pbind]. destruct (copy _ _ _ _ _ _ _) as [s1| |] eqn:C; try exact Logic.I. cbn [pbind]. destruct (put_in _ _ _ _ _) as [s2| |] eqn:U; try exact Logic.I. cbn [post].
    apply copy_upd in C. destruct C as (d & -> & C1 & C2 & C3 & _). apply put_upd in U. destruct U as (-> & U). rewrite !pb_same. rewrite zlen1 in *. pose proof (zl0 d). pose proof (zl0 b).
    assert (L : zlen (put_at 130 d (pb s "user")) = 195) by (rewrite put_at_len; lia). split; [rewrite put_at_len; rewrite ?zlen1; lia|].
    split; [|split; [|discriminate]]; intros _; rewrite !slice_put_out; rewrite ?zlen1; try lia; reflexivity.
  - destruct (get_text v) as [b| |]; try exact Logic.I. cbn [pbind]. destruct (copy _ _ _ _ _ _ _) as [s1| |] eqn:C; try exact Logic.I. cbn [pbind]. destruct (put_in _ _ _ _ _) as [s2| |] eqn:U; try exact Logic.I. cbn [post].
    apply copy_upd in C. destruct C as (d & -> & C1 & C2 & C3 & _). apply put_upd in U. destruct U as (-> & U). rewrite !pb_same. rewrite zlen1 in *. pose proof (zl0 d). pose proof (zl0 b).
    assert (L : zlen (put_at 65 d (pb s "user")) = 195) by (rewrite put_at_len; lia). split; [rewrite put_at_len; rewrite ?zlen1; lia|].
    split; [|split; [discriminate|]]; intros _; rewrite !slice_put_out; rewrite ?zlen1; try lia; reflexivity.
  - destruct (key_is k "icon"); [destruct (get_text v); try exact Logic.I|]; cbn; auto.
Qed.
Lemma written o n s d : ((d = s /\ zlen s = 64) \/ (d = s ++ [0] /\ zlen s < 64)) -> o = zeros 65 -> n = zlen s -> put_at 0 d o = padded 65 s.
Proof.
  intros H -> _. destruct H as [(-> & H)|(-> & H)]; rewrite put_zeros; rewrite ?zlen_app', ?zlen1; try lia; [reflexivity|]. apply padded_snoc. lia.
Qed.
Lemma other_key k a b : key_is k a = true -> chars a <> chars b -> key_is k b = false.
Proof. unfold key_is. intros H N. apply beqb_eq in H. rewrite H. destruct (beqb (chars a) (chars b)) eqn:E; [apply beqb_eq in E; contradiction|reflexivity]. Qed.
Lemma text_block (k : string) off oom v s s2 kk : (off = 65 \/ off = 130) -> full s -> block off s = zeros 65 ->
  (b <<- get_text v ; st <<- copy "user" off 65 64 oom b s ; put_in "user" (off + zlen b) (65 - zlen b) [0] st) = POk s2 -> kk = k ->
  exists b, v = CText b /\ zlen b <= 64 /\ block off s2 = padded 65 b.
Proof.
  unfold full, block. intros Ho Hf Hz E _. bnd E b Eb. apply get_text_inv in Eb. subst v. bnd E s1 C. apply copy_upd in C. destruct C as (d & -> & C1 & C2 & C3 & C4). apply put_upd in E. destruct E as (-> & U). exists b.
  split; [reflexivity|]. split; [exact C1|]. rewrite !pb_same. rewrite zlen1 in *. pose proof (zl0 d). pose proof (zl0 b).
  rewrite slice_put_in; [|lia|lia|rewrite zlen1; lia|rewrite put_at_len; lia]. replace (put_at off d) with (put_at (off + 0) d) by (f_equal; lia). rewrite slice_put_in by lia.
  rewrite (written _ (zlen b) b d C4 Hz eq_refl). apply put_padded; [reflexivity|lia].
Qed.
Lemma user_said v s1 s2 : parse_user v s1 = POk s2 -> pb s1 "user" = zeros 195 -> is_user v (pb s2 "user").
Proof.
  unfold parse_user. intros E Hz. bnd E m Em. apply get_map_inv in Em. subst v. exists m. split; [reflexivity|]. intros Ht.
  assert (F : full s1) by (unfold full; rewrite Hz; reflexivity).
  assert (G1 := txt_key 12 user_step (block 0) full "id" m s1 s2 F ltac:(intros k v s Hs; eapply post_mono; [apply user_step_frame, Hs|]; cbv beta; tauto) Ht E).
  assert (G2 := txt_key 12 user_step (block 65) full "name" m s1 s2 F ltac:(intros k v s Hs; eapply post_mono; [apply user_step_frame, Hs|]; cbv beta; tauto) Ht E).
  assert (G3 := txt_key 12 user_step (block 130) full "displayName" m s1 s2 F ltac:(intros k v s Hs; eapply post_mono; [apply user_step_frame, Hs|]; cbv beta; tauto) Ht E).
  destruct G1 as (F2 & G1). destruct G2 as (_ & G2). destruct G3 as (_ & G3).
  assert (Z0 : forall o, o = 0 \/ o = 65 \/ o = 130 -> block o s1 = zeros 65) by (intros o Ho; unfold block; rewrite Hz; destruct Ho as [-> | [-> | ->]]; reflexivity).
  assert (A : exists id, zlen id <= 64 /\ given (member "id" m) [] is_bytes id /\ block 0 s2 = padded 64 id ++ [zlen id]).
  { destruct (member "id" m) as [v|]; cbn [given]; [|exists []; rewrite G1, Z0 by auto; split; [vm_compute; discriminate|]; split; reflexivity].
    destruct G1 as (k & a & b & K1 & _ & I1 & P1 & S1 & ->). unfold user_step in S1. rewrite K1 in S1. bnd S1 s Es. apply get_bytes_inv in Es. subst v. bnd S1 st C. apply copy_upd in C. destruct C as (d & -> & C1 & C2 & C3 & C4). apply put_upd in S1. destruct S1 as (-> & U).
    exists s. split; [exact C1|]. split; [reflexivity|]. unfold block in *. unfold full in I1. rewrite !pb_same. pose proof (zl0 d). pose proof (zl0 s).
    change (put_at 64) with (put_at (0 + 64)). rewrite slice_put_in; [|lia|lia|rewrite zlen1; lia|rewrite put_at_len; lia]. change (put_at 0 d) with (put_at (0 + 0) d). rewrite slice_put_in by lia.
    rewrite (written _ (zlen s) s d C4 (eq_trans P1 (Z0 0 ltac:(auto))) eq_refl). apply put_last; lia. }
  assert (B : exists b, zlen b <= 64 /\ given (member "name" m) [] is_text b /\ block 65 s2 = padded 65 b).
  { destruct (member "name" m) as [v|]; cbn [given]; [|exists []; rewrite G2, Z0 by auto; split; [vm_compute; discriminate|]; split; reflexivity].
    destruct G2 as (k & a & b & K1 & _ & I1 & P1 & S1 & ->). unfold user_step in S1. rewrite K1, (other_key _ _ "id" K1), (other_key _ _ "displayName" K1) in S1 by discriminate.
    destruct (text_block "name" 65 _ v a b "name" ltac:(auto) I1 (eq_trans P1 (Z0 65 ltac:(auto))) S1 eq_refl) as (x & -> & X1 & X2). exists x. split; [exact X1|]. split; [reflexivity|exact X2]. }
  assert (D : exists b, zlen b <= 64 /\ given (member "displayName" m) [] is_text b /\ block 130 s2 = padded 65 b).
  { destruct (member "displayName" m) as [v|]; cbn [given]; [|exists []; rewrite G3, Z0 by auto; split; [vm_compute; discriminate|]; split; reflexivity].
    destruct G3 as (k & a & b & K1 & _ & I1 & P1 & S1 & ->). unfold user_step in S1. rewrite K1, (other_key _ _ "id" K1) in S1 by discriminate.
    destruct (text_block "displayName" 130 _ v a b "displayName" ltac:(auto) I1 (eq_trans P1 (Z0 130 ltac:(auto))) S1 eq_refl) as (x & -> & X1 & X2). exists x. split; [exact X1|]. split; [reflexivity|exact X2]. }
  destruct A as (i & A1 & A2 & A3). destruct B as (n & B1 & B2 & B3). destruct D as (d & D1 & D2 & D3). exists i, n, d. split; [|auto 10].
  rewrite app_assoc, <- A3, <- B3, <- D3. unfold block, full in *. rewrite <- (slice_all (pb s2 "user")) at 1. rewrite F2. change 195 with (65 + 130). rewrite slice_split by lia. change 130 with (65 + 65) at 1. rewrite slice_split by lia. reflexivity.
Qed.
(** EC keys *)
Definition half (o : Z) (x : pst * Z) : bytes := slice o 32 (pb (fst x) "key").
Definition kfull (x : pst * Z) : Prop := zlen (pb (fst x) "key") = 64.
Lemma cose_frame k v x : kfull x -> post (cose_step k v x) (fun x' => kfull x' /\ (k <> -2 -> half 0 x' = half 0 x) /\ (k <> -3 -> half 32 x' = half 32 x)).
Proof.
  destruct x as [s n]. unfold kfull, half. cbn [fst]. intros Hf. unfold cose_step.
  destruct (k =? 3); [destruct (get_int v); try exact Logic.I; cbn [pbind]; destruct (_ =? _); [|exact Logic.I]; cbn; auto|].
  destruct (k =? 1); [destruct (get_int v); try exact Logic.I; cbn [pbind]; destruct (_ =? _); [|exact Logic.I]; cbn; auto|].
  destruct (k =? -1); [destruct (get_int v); try exact Logic.I; cbn [pbind]; destruct (_ =? _); [|exact Logic.I]; cbn; auto|].
  destruct (Z.eqb_spec k (-2)) as [->|]; [|destruct (Z.eqb_spec k (-3)) as [->|]; [|cbn; auto]].
  all: destruct (get_bytes v) as [b| |]; try exact Logic.I; cbn [pbind]; destruct (copy _ _ _ _ _ _ _) as [s1| |] eqn:C; try exact Logic.I; cbn [pbind]; destruct (_ =? _); [|exact Logic.I]; cbn [post fst].
  all: apply copy_upd in C; destruct C as (d & -> & C1 & C2 & C3 & _); rewrite pb_same; pose proof (zl0 d); rewrite put_at_len by lia; split; [exact Hf|]; split; intros Hk; try (elim Hk; reflexivity).
  all: apply slice_put_out; lia.
Qed.
Lemma cose_point off v s n x' : 0 <= off <= 32 -> zlen (pb s "key") = 64 ->
  (b <<- get_bytes v ; st <<- copy "key" off 32 32 ERR_INVALID_CBOR b s ; if zlen b =? 32 then POk (st, u8 (n + 1)) else PErr ERR_UNHANDLED) = POk x' ->
  v = CBytes (slice off 32 (pb (fst x') "key")).
Proof.
  intros Ho Hf E. bnd E b Eb. apply get_bytes_inv in Eb. subst v. bnd E s1 C. destruct (Z.eqb_spec (zlen b) 32) as [L|]; [|discriminate]. injection E as <-. apply copy_upd in C.
  destruct C as (d & -> & C1 & C2 & C3 & [(-> & _)|(_ & C4)]); [|lia]. cbn [fst]. rewrite pb_same. f_equal. unfold put_at. rewrite L. rewrite slice_app_r; unfold zlen in *; rewrite firstn_length; [|lia].
  replace (off - Z.of_nat (min (Z.to_nat off) (length (pb s "key")))) with 0 by lia. rewrite <- (slice_0_app b (skipn (Z.to_nat (off + 32)) (pb s "key"))) at 1. f_equal. exact L.
Qed.
Lemma cose_said v s1 s2 : parse_cose_key v s1 = POk s2 -> pb s1 "key" = zeros 64 -> is_point v (pb s2 "key").
Proof.
  unfold parse_cose_key. intros E Hz. bnd E m Em. apply get_map_inv in Em. subst v. bnd E x Ex. destruct (snd x <? 4); [discriminate|]. injection E as <-. exists m. split; [reflexivity|]. intros Hd.
  assert (F : kfull (s1, 0)) by (unfold kfull; cbn [fst]; rewrite Hz; reflexivity).
  destruct (int_key cose_step (half 0) kfull (-2) m (s1, 0) x F ltac:(intros k v s Hs; eapply post_mono; [apply cose_frame, Hs|]; cbv beta; tauto) Hd Ex) as (F2 & G1).
  destruct (int_key cose_step (half 32) kfull (-3) m (s1, 0) x F ltac:(intros k v s Hs; eapply post_mono; [apply cose_frame, Hs|]; cbv beta; tauto) Hd Ex) as (_ & G2).
  exists (half 0 x), (half 32 x). unfold kfull in F2. split; [unfold half; rewrite <- (slice_all (pb (fst x) "key")) at 1; rewrite F2; change 64 with (32 + 32); rewrite slice_split by lia; reflexivity|].
  split; [unfold half; rewrite zlen_slice; lia|]. split; [unfold half; rewrite zlen_slice; lia|]. split.
  - destruct (field (-2) m) as [v|]; cbn [given]; [|rewrite G1; unfold half; cbn [fst]; rewrite Hz; reflexivity]. destruct G1 as ([a na] & b & I1 & _ & S1 & ->). exact (cose_point 0 v a na b ltac:(lia) I1 S1).
  - destruct (field (-3) m) as [v|]; cbn [given]; [|rewrite G2; unfold half; cbn [fst]; rewrite Hz; reflexivity]. destruct G2 as ([a na] & b & I1 & _ & S1 & ->). exact (cose_point 32 v a na b ltac:(lia) I1 S1).
Qed.
(** Relying parties *)
Section R.
Variable K : fcrypto.
Lemma rp_keep m st st' : rp_loop K m st = inr st' -> (forall k v, In (CText k, v) m -> ~ In 0 k) -> ~ In (CText (chars "id")) (map fst m) -> st' = st.
Proof.
  revert st. induction m as [|[k v] r IH]; intros st E Ht Hn; cbn [rp_loop] in E; [congruence|]. destruct k as [| |t| | | |]; try discriminate. destruct (4 <? zlen t); [discriminate|]. destruct v as [| |x| | | |]; try discriminate.
  cbn [map fst In] in Hn. unfold key_is in E. rewrite until0_tidy in E by (apply (Ht t (CText x)); left; reflexivity). destruct (beqb t (chars "id")) eqn:Eb; [apply beqb_eq in Eb; subst t; tauto|].
  apply IH; [exact E| |tauto]. intros k w Hk. apply (Ht k w). right. exact Hk.
Qed.
Lemma rp_read m st st' : rp_loop K m st = inr st' -> tidy m ->
  match member "id" m with
  | Some v => exists id, v = CText id /\ rp_hash st' = f_sha K id /\ (rp_buf st', rp_len st') = maybe_truncate_rpid (rp_buf st) id
  | None => st' = st
  end.
Proof.
  intros E (Hd & Ht). revert st E. induction m as [|[k v] r IH]; intros st E; cbn [rp_loop] in E; [injection E as <-; reflexivity|]. destruct k as [| |t| | | |]; try discriminate. destruct (4 <? zlen t); [discriminate|]. destruct v as [| |x| | | |]; try discriminate.
  unfold distinct in Hd. cbn [map fst] in Hd. inversion Hd as [|? ? Hn Hr]; subst. assert (Ht' : forall k w, In (CText k, w) r -> ~ In 0 k) by (intros k w Hk; apply (Ht k w); right; exact Hk).
  unfold key_is in E. rewrite until0_tidy in E by (apply (Ht t (CText x)); left; reflexivity). unfold member. cbn [find fst]. destruct (beqb t (chars "id")) eqn:Eb.
  - apply beqb_eq in Eb. subst t. cbn [option_map snd]. exists x. split; [reflexivity|]. destruct (DOMAIN_NAME_MAX_SIZE <? zlen x); [discriminate|]. destruct (maybe_truncate_rpid (rp_buf st) x) as [b n].
    rewrite (rp_keep _ _ _ E Ht' Hn). auto.
  - specialize (IH Hr Ht' st E). exact IH.
Qed.
Lemma rp_said v s1 s2 : mc_rp_step K v s1 = POk s2 -> pb s1 "rp" = zeros 32 -> is_rp K v (pb s2 "rphash") (firstn (Z.to_nat (pz s2 "rp_len")) (pb s2 "rp")).
Proof.
  unfold mc_rp_step. intros E Hz. destruct (parse_rp _ _ _) as [|r] eqn:Er; [discriminate|]. injection E as <-. cbn [set_z set_b pb pz]. unfold upd. cbn [String.eqb Ascii.eqb Bool.eqb].
  unfold parse_rp in Er. destruct v as [| | | | |m|]; try discriminate. exists m. split; [reflexivity|]. intros Ht id Hid. apply rp_read in Er; [|exact Ht]. rewrite Hid in Er. destruct Er as (s & -> & H1 & H2). exists s. split; [reflexivity|].
  split; [exact H1|]. intros Hs. cbn [rp_buf] in H2. unfold maybe_truncate_rpid, MAX_STORED_RPID_LENGTH in H2. destruct (Z.leb_spec (zlen s) 32); [|lia]. injection H2 as -> ->. rewrite Hz, put_zeros by lia.
  unfold padded, zlen. rewrite Nat2Z.id. rewrite firstn_app, Nat.sub_diag, firstn_all. apply app_nil_r.
Qed.
End R.
Lemma by_key {Y} (step : Z -> cbor -> pst -> pres pst) tb tz tl (proj : pst -> Y) k0 l s s' :
  (forall k v x, post (step k v x) (only (at_key k tb) (at_key k tz) (tl k) x)) ->
  (forall k x x', k <> k0 -> only (at_key k tb) (at_key k tz) (tl k) x x' -> proj x' = proj x) -> distinct l -> int_loop step l s = POk s' ->
  match field k0 l with None => proj s' = proj s | Some v => exists s1 s2, proj s1 = proj s /\ step k0 v s1 = POk s2 /\ proj s' = proj s2 end.
Proof.
  intros H1 H2 Hd E. destruct (int_key step proj (fun _ => True) k0 l s s' Logic.I) as (_ & G); [|exact Hd|exact E|].
  - intros k v x _. eapply post_mono; [apply H1|]. intros x' Hx. split; [exact Logic.I|]. intros Hk. apply (H2 k); assumption.
  - destruct (field k0 l); [|exact G]. destruct G as (a & b & _ & G). exists a, b. exact G.
Qed.
Ltac tbl := unfold at_key, mc_b, mc_z, ga_b, ga_z, cp_b, cp_z, cm_b, cm_z, lb_b, lb_z; cbn [find fst]; repeat match goal with |- context [?n =? ?k] => is_var k; destruct (Z.eqb_spec n k); [subst k; first [reflexivity | congruence]|]; cbn [find fst] end; try reflexivity.
(** For "proj" a tuple of fields *)
Ltac unrelated := let k := fresh "k" in let A := fresh in let B := fresh in let C := fresh in
  intros k ? ? ? (A & B & C); cbv beta; repeat match goal with |- (_, _) = (_, _) => apply (f_equal2 pair) end; first [apply A; tbl | apply B; tbl | apply C; destruct (Z.eqb_spec k 5); [congruence|reflexivity] | apply C; destruct (Z.eqb_spec k 3); [congruence|reflexivity]].
(** Extensions *)
Definition blob_of (st : pst) : option bytes := opt (has "has_blob" st) (firstn (Z.to_nat (pz st "blob_len")) (pb st "blob" ++ [0])).
Definition blob_fields (s : pst) := (pz s "has_blob", pz s "blob_len", pb s "blob").
Lemma mc_ext_frame k v s : post (mc_ext_step k v s) (fun s' => (key_is k "credProtect" = false -> pz s' "cp" = pz s "cp") /\ (key_is k "credBlob" = false -> blob_fields s' = blob_fields s) /\
  (key_is k "largeBlobKey" = false -> pz s' "lbk" = pz s "lbk") /\ (key_is k "hmac-secret" = false -> pz s' "hs" = pz s "hs")).
Proof.
  unfold mc_ext_step, blob_fields. destruct (key_is k "credProtect").
  { destruct (get_int v); try exact Logic.I. cbn [pbind]. destruct (_ || _); [exact Logic.I|]. cbn. repeat split; intros; try discriminate; reflexivity. }
  destruct (key_is k "credBlob").
  { destruct (get_bytes v); try exact Logic.I. cbn [pbind]. destruct (_ <? _); [cbn; repeat split; intros; try discriminate; reflexivity|]. destruct (copy _ _ _ _ _ _ _) as [x| |] eqn:C; try exact Logic.I. cbn [pbind post].
    apply copy_upd in C. destruct C as (d & -> & _). cbn. repeat split; intros; try discriminate; reflexivity. }
  destruct (key_is k "largeBlobKey").
  { destruct (get_bool v) as [[]| |]; try exact Logic.I. cbn. repeat split; intros; try discriminate; reflexivity. }
  destruct (key_is k "hmac-secret").
  { destruct (get_bool v) as [b| |]; try exact Logic.I. cbn. repeat split; intros; try discriminate; reflexivity. }
  cbn. auto.
Qed.
Lemma mc_ext_said v s1 s2 : parse_mc_extensions v s1 = POk s2 -> pz s1 "hs" = 0 -> pz s1 "lbk" = 0 -> pz s1 "cp" = 0 -> blob_fields s1 = (0, 0, zeros 32) ->
  extensions (Some v) (has "hs" s2) (has "lbk" s2) (pz s2 "cp") (blob_of s2).
Proof.
  unfold parse_mc_extensions. intros E H1 H2 H3 H4. bnd E m Em. apply get_map_inv in Em. subst v. exists m. split; [reflexivity|]. intros Ht.
  pose proof (proj2 (txt_key 13 mc_ext_step (fun s => pz s "hs") (fun _ => True) "hmac-secret" m s1 s2 Logic.I ltac:(intros; eapply post_mono; [apply mc_ext_frame|]; cbv beta; tauto) Ht E)) as G1.
  pose proof (proj2 (txt_key 13 mc_ext_step (fun s => pz s "lbk") (fun _ => True) "largeBlobKey" m s1 s2 Logic.I ltac:(intros; eapply post_mono; [apply mc_ext_frame|]; cbv beta; tauto) Ht E)) as G2.
  pose proof (proj2 (txt_key 13 mc_ext_step (fun s => pz s "cp") (fun _ => True) "credProtect" m s1 s2 Logic.I ltac:(intros; eapply post_mono; [apply mc_ext_frame|]; cbv beta; tauto) Ht E)) as G3.
  pose proof (proj2 (txt_key 13 mc_ext_step blob_fields (fun _ => True) "credBlob" m s1 s2 Logic.I ltac:(intros; eapply post_mono; [apply mc_ext_frame|]; cbv beta; tauto) Ht E)) as G4.
  cbv beta in *. split; [|split; [|split]].
  - unfold has. destruct (member "hmac-secret" m) as [v|]; cbn [given]; [|rewrite G1, H1; reflexivity]. destruct G1 as (k & a & b & K1 & _ & _ & _ & S & ->). unfold mc_ext_step in S.
    rewrite K1, (other_key _ _ "credProtect" K1), (other_key _ _ "credBlob" K1), (other_key _ _ "largeBlobKey" K1) in S by discriminate. bnd S x Sx. apply get_bool_inv in Sx. injection S as <-. subst v. destruct x; reflexivity.
  - unfold has. destruct (member "largeBlobKey" m) as [v|]; cbn [given]; [|rewrite G2, H2; reflexivity]. destruct G2 as (k & a & b & K1 & _ & _ & _ & S & ->). unfold mc_ext_step in S.
    rewrite K1, (other_key _ _ "credProtect" K1), (other_key _ _ "credBlob" K1) in S by discriminate. bnd S x Sx. apply get_bool_inv in Sx. destruct x; [|discriminate]. injection S as <-. subst v. reflexivity.
  - destruct (member "credProtect" m) as [v|]; cbn [given]; [|rewrite G3, H3; reflexivity]. destruct G3 as (k & a & b & K1 & _ & _ & _ & S & ->). unfold mc_ext_step in S.
    rewrite K1 in S. bnd S x Sx. apply get_int_inv in Sx. destruct Sx as (-> & _). destruct (_ || _); [discriminate|]. injection S as <-. reflexivity.
  - unfold blob_of, has. destruct (member "credBlob" m) as [v|]; cbn [given].
    + destruct G4 as (k & a & b & K1 & _ & _ & P & S & Eq). unfold mc_ext_step in S. rewrite K1, (other_key _ _ "credProtect" K1) in S by discriminate. bnd S x Sx. apply get_bytes_inv in Sx. subst v. cbv zeta in S.
      rewrite H4 in P. unfold blob_fields in P, Eq. injection P as P1 P2 P3. injection Eq as Q1 Q2 Q3. rewrite Q1, Q2, Q3. destruct (Z.ltb_spec 32 (zlen x)) as [L|L].
      * injection S as <-. eexists. split; [reflexivity|]. exists x. split; [reflexivity|]. split; [lia|]. intros _. cbn [set_z pb pz]. rewrite P3. reflexivity.
      * bnd S st C. injection S as <-. apply copy_ok with (n := 32) in C; [|cbn [set_z pb]; exact P3|lia]. destruct C as (_ & _ & C & C2 & _). eexists. cbn [set_z pz pb]. unfold upd. cbn [String.eqb Ascii.eqb Bool.eqb].
        rewrite C2. cbn [set_z pz pb]. unfold upd. cbn [String.eqb Ascii.eqb Bool.eqb Z.eqb negb opt]. split; [reflexivity|]. exists x. split; [reflexivity|]. split; [|lia]. intros _. rewrite C. unfold padded, zlen. rewrite Nat2Z.id, <- app_assoc.
        rewrite firstn_app, Nat.sub_diag, firstn_all. apply app_nil_r.
    + rewrite H4 in G4. unfold blob_fields in G4. injection G4 as G5 _ _. rewrite G5. reflexivity.
Qed.
Definition hs_b := [(1, ["key"]); (2, ["salt"]); (3, ["auth"])].
Definition hs_z := [(1, ["has_hs_key"]); (2, ["has_hs_salt"; "salt_len"]); (3, ["has_hs_auth"; "auth_len"]); (4, ["hs_proto"])].
Lemma hs_only k v s : post (hs_step k v s) (only (at_key k hs_b) (at_key k hs_z) false s).
Proof.
  unfold hs_step. destruct (Z.eqb_spec k 1) as [->|]; [apply post_bind, post_as; eapply post_mono; [apply cose_only with (fb := at_key 1 hs_b) (fz := at_key 1 hs_z) (ll := false); [apply only_refl|reflexivity]|]; intros; repeat on1|].
  destruct (Z.eqb_spec k 2) as [->|]; [repeat on1|]. destruct (Z.eqb_spec k 3) as [->|]; [repeat on1|]. destruct (Z.eqb_spec k 4) as [->|]; [repeat on1|]. cbn [post]. apply only_refl.
Qed.
Definition hs_fields (s : pst) := (pz s "has_hs", (pb s "key", (pb s "salt", (pz s "salt_len", (pb s "auth", pz s "hs_proto"))))).
Definition hs_of (st : pst) : option hsreq := opt (has "has_hs" st) (mkHs (pb st "key") (firstn (Z.to_nat (pz st "salt_len")) (pb st "salt")) (pb st "auth") (pz st "hs_proto")).
Lemma hs_of_fields s s' : hs_fields s = hs_fields s' -> hs_of s = hs_of s'.
Proof. unfold hs_fields. intros H. injection H as H1 H2 H3 H4 H5 H6. unfold hs_of, has. rewrite H1, H2, H3, H4, H5, H6. reflexivity. Qed.
Ltac tbl2 := unfold at_key, hs_b, hs_z; cbn [find fst]; repeat match goal with |- context [?n =? ?k] => is_var k; destruct (Z.eqb_spec n k); [subst k; first [reflexivity | congruence]|]; cbn [find fst] end; try reflexivity.
Ltac unrelated2 := let k := fresh "k" in let A := fresh in let B := fresh in let C := fresh in intros k ? ? ? (A & B & C); cbv beta; repeat match goal with |- (_, _) = (_, _) => apply (f_equal2 pair) end; first [apply A; tbl2 | apply B; tbl2].
Lemma as_ok {A} (m : pres A) a : as_cbor_error m = POk a -> m = POk a. Proof. destruct m; cbn; congruence. Qed.
Lemma has_true f s : has f s = true -> pz s f <> 0. Proof. unfold has. destruct (Z.eqb_spec (pz s f) 0); [discriminate|auto]. Qed.
Lemma hs_said v s1 s2 k : ga_ext_step k v s1 = POk s2 -> key_is k "hmac-secret" = true -> pb s1 "key" = zeros 64 -> pb s1 "salt" = zeros 80 -> pb s1 "auth" = zeros 32 -> is_some is_hmac v (hs_of s2).
Proof.
  unfold ga_ext_step. intros E Hk Z1 Z2 Z3. rewrite Hk in E. bnd E h Eh. apply get_map_inv in Eh. subst v. bnd E st El. match type of El with int_loop _ _ ?x = _ => set (s0 := x) in * end.
  destruct (has "has_hs_key" st && has "has_hs_salt" st && has "has_hs_auth" st) eqn:Hh; [|discriminate]. cbn [negb] in E. cbv zeta in E. destruct (_ || _) in E; [discriminate|]. destruct (_ || _) in E; [discriminate|]. injection E as <-.
  apply andb_true_iff in Hh. destruct Hh as (Hh & H3). apply andb_true_iff in Hh. destruct Hh as (H1 & H2). apply has_true in H1, H2, H3.
  eexists. split; [reflexivity|]. exists h. split; [reflexivity|]. intros Hd. cbn [hs_key hs_salt hs_auth hs_proto set_z pb pz]. unfold upd. cbn [String.eqb Ascii.eqb Bool.eqb].
  pose proof (by_key hs_step hs_b hs_z (fun _ => false) (fun s => (pb s "key", pz s "has_hs_key")) 1 h s0 st hs_only ltac:(unrelated2) Hd El) as G1.
  pose proof (by_key hs_step hs_b hs_z (fun _ => false) (fun s => (pb s "salt", (pz s "has_hs_salt", pz s "salt_len"))) 2 h s0 st hs_only ltac:(unrelated2) Hd El) as G2.
  pose proof (by_key hs_step hs_b hs_z (fun _ => false) (fun s => (pb s "auth", pz s "has_hs_auth")) 3 h s0 st hs_only ltac:(unrelated2) Hd El) as G3.
  pose proof (by_key hs_step hs_b hs_z (fun _ => false) (fun s => pz s "hs_proto") 4 h s0 st hs_only ltac:(unrelated2) Hd El) as G4. cbv beta in *.
  split; [|split; [|split]].
  - destruct (field 1 h) as [w|]; [|injection G1 as _ G1; elim H1; exact G1]. destruct G1 as (a & b & P & S & Q). injection P as P _. injection Q as Q _. exists w. split; [reflexivity|]. rewrite Q.
    cbn in S. bnd S x Sx. apply as_ok in Sx. injection S as <-. apply (cose_said w a x Sx). rewrite P. exact Z1.
  - destruct (field 2 h) as [w|]; [|injection G2 as _ G2 _; elim H2; exact G2]. destruct G2 as (a & b & P & S & Q). injection P as P _ _. injection Q as Q _ QL. rewrite Q, QL.
    cbn in S. bnd S x Sx. apply get_bytes_inv in Sx. subst w. bnd S y C. injection S as <-. apply copy_ok with (n := 80) in C; [|rewrite P; exact Z2|lia]. destruct C as (_ & _ & C & _). cbn [set_z pb pz]. unfold upd. cbn [String.eqb Ascii.eqb Bool.eqb].
    rewrite C. unfold padded, zlen. rewrite Nat2Z.id. rewrite firstn_app, Nat.sub_diag, firstn_all, app_nil_r. reflexivity.
  - destruct (field 3 h) as [w|]; [|injection G3 as _ G3; elim H3; exact G3]. destruct G3 as (a & b & P & S & Q). injection P as P _. injection Q as Q _. exists w. split; [reflexivity|]. rewrite Q.
    cbn in S. bnd S x Sx. apply get_bytes_inv in Sx. subst w. bnd S y C. injection S as <-. apply copy_ok with (n := 32) in C; [|rewrite P; exact Z3|lia]. destruct C as (C1 & _ & C & _). exists x. split; [reflexivity|]. split; [exact C1|exact C].
  - destruct (field 4 h) as [w|]; cbn [given]; [|exact G4]. destruct G4 as (a & b & _ & S & ->). cbn in S. bnd S x Sx. apply get_int_inv in Sx. destruct Sx as (-> & _). injection S as <-. exists x. split; reflexivity.
Qed.
Lemma ga_ext_frame k v s : post (ga_ext_step k v s) (fun s' => (key_is k "hmac-secret" = false -> hs_fields s' = hs_fields s) /\ (key_is k "credBlob" = false -> pz s' "blob" = pz s "blob")).
Proof.
  unfold ga_ext_step. destruct (key_is k "hmac-secret").
  - destruct (get_map v) as [h| |]; try exact Logic.I. cbn [pbind]. apply post_bind.
    match goal with |- post (int_loop _ _ ?x) _ => set (s0 := x) end. assert (O : only ["key"; "salt"; "auth"] ["has_hs_key"; "has_hs_salt"; "salt_len"; "has_hs_auth"; "auth_len"; "hs_proto"] false s s0) by (unfold s0; ol).
    apply post_mono with (Q := only ["key"; "salt"; "auth"] ["has_hs_key"; "has_hs_salt"; "salt_len"; "has_hs_auth"; "auth_len"; "hs_proto"] false s).
    + apply int_only; [|exact O]. intros z u y Hy. unfold hs_step. destruct (z =? 1); [apply post_bind, post_as; eapply post_mono; [apply cose_only; [exact Hy|reflexivity]|]; intros; repeat on1|]. repeat on1.
    + intros y (_ & Hy & _). cbv beta zeta. destruct (negb _); [exact Logic.I|]. destruct (_ || _); [exact Logic.I|]. destruct (_ || _); [exact Logic.I|]. cbn [post]. split; [discriminate|]. intros _. cbn [set_z pz]. unfold upd. cbn [String.eqb Ascii.eqb Bool.eqb]. apply Hy. reflexivity.
  - destruct (key_is k "credBlob"); [destruct (get_bool v); try exact Logic.I; cbn; split; [intros _; reflexivity|discriminate]|].
    destruct (key_is k "largeBlobKey"); [destruct (get_bool v) as [[]| |]; try exact Logic.I|]; cbn; auto.
Qed.
Lemma ga_ext_said v s1 s2 : parse_ga_extensions v s1 = POk s2 -> hs_fields s1 = (0, (zeros 64, (zeros 80, (0, (zeros 32, 0))))) -> pz s1 "blob" = 0 ->
  ga_extensions (Some v) (hs_of s2) (has "blob" s2).
Proof.
  unfold parse_ga_extensions. intros E H1 H2. bnd E m Em. apply get_map_inv in Em. subst v. exists m. split; [reflexivity|]. intros Ht.
  pose proof (proj2 (txt_key 13 ga_ext_step hs_fields (fun _ => True) "hmac-secret" m s1 s2 Logic.I ltac:(intros; eapply post_mono; [apply ga_ext_frame|]; cbv beta; tauto) Ht E)) as G1.
  pose proof (proj2 (txt_key 13 ga_ext_step (fun s => pz s "blob") (fun _ => True) "credBlob" m s1 s2 Logic.I ltac:(intros; eapply post_mono; [apply ga_ext_frame|]; cbv beta; tauto) Ht E)) as G2. cbv beta in G2. split.
  - destruct (member "hmac-secret" m) as [v|]; cbn [given].
    + destruct G1 as (k & a & b & K1 & _ & _ & P & S & Eq). rewrite H1 in P. unfold hs_fields in P. injection P as P1 P2 P3 P4 P5 P6. rewrite (hs_of_fields _ _ Eq). apply (hs_said v a b k); assumption.
    + rewrite H1 in G1. unfold hs_fields in G1. injection G1 as G1 _ _ _ _ _. unfold hs_of, has. rewrite G1. reflexivity.
  - unfold has. destruct (member "credBlob" m) as [v|]; cbn [given]; [|rewrite G2, H2; reflexivity]. destruct G2 as (k & a & b & K1 & _ & _ & _ & S & ->). unfold ga_ext_step in S.
    rewrite K1, (other_key _ _ "hmac-secret" K1) in S by discriminate. bnd S x Sx. apply get_bool_inv in Sx. injection S as <-. subst v. destruct x; reflexivity.
Qed.
(** The parameters of credential management *)
Definition cmp_b := [(1, ["rphash"]); (2, ["id"]); (3, ["user"])].
Definition cmp_z := [(1, ["has_rp"]); (2, ["has_id"]); (3, ["has_user"])].
Lemma cmp_only k v s : post (cm_param_step k v s) (only (at_key k cmp_b) (at_key k cmp_z) false s).
Proof.
  unfold cm_param_step. destruct (Z.eqb_spec k 1) as [->|]; [repeat on1|]. destruct (Z.eqb_spec k 2) as [->|].
  - apply post_bind, post_as. apply post_bind. destruct (descriptor_id v) as [i| |]; try exact Logic.I. cbn [post]. apply post_bind. apply post_mono with (Q := only (at_key 2 cmp_b) (at_key 2 cmp_z) false s); [apply copy_only; [apply only_refl|reflexivity]|]. intros y Hy.
    apply post_bind. destruct (descriptor_type v); try exact Logic.I. cbn [post]. ol.
  - destruct (Z.eqb_spec k 3) as [->|]; [|cbn [post]; apply only_refl]. apply post_bind, post_as. eapply post_mono; [apply user_only with (fb := at_key 3 cmp_b) (fz := at_key 3 cmp_z) (ll := false); [apply only_refl|reflexivity]|]. intros y Hy. cbn [post]. ol.
Qed.
Ltac tbl3 := unfold at_key, cmp_b, cmp_z; cbn [find fst]; repeat match goal with |- context [?n =? ?k] => is_var k; destruct (Z.eqb_spec n k); [subst k; first [reflexivity | congruence]|]; cbn [find fst] end; try reflexivity.
Ltac unrelated3 := let k := fresh "k" in let A := fresh in let B := fresh in let C := fresh in intros k ? ? ? (A & B & C); first [apply A; tbl3 | apply B; tbl3].
Lemma cmp_said v s1 s2 : parse_cm_params v s1 = POk s2 -> pb s1 "rphash" = zeros 32 -> pb s1 "id" = zeros 70 -> pb s1 "user" = zeros 195 ->
  cm_params (Some v) (enc v) (pb s2 "rphash") (pb s2 "id") (pb s2 "user").
Proof.
  unfold parse_cm_params. intros E H1 H2 H3. bnd E m Em. apply get_map_inv in Em. subst v. split; [reflexivity|]. exists m. split; [reflexivity|]. intros Hd.
  pose proof (by_key cm_param_step cmp_b cmp_z (fun _ => false) (fun s => pb s "rphash") 1 m s1 s2 cmp_only ltac:(unrelated3) Hd E) as G1.
  pose proof (by_key cm_param_step cmp_b cmp_z (fun _ => false) (fun s => pb s "id") 2 m s1 s2 cmp_only ltac:(unrelated3) Hd E) as G2.
  pose proof (by_key cm_param_step cmp_b cmp_z (fun _ => false) (fun s => pb s "user") 3 m s1 s2 cmp_only ltac:(unrelated3) Hd E) as G3. cbv beta in *.
  split; [|split].
  - destruct (field 1 m) as [w|]; cbn [given]; [|congruence]. destruct G1 as (a & b & P & S & ->). cbn in S. bnd S x Sx. apply get_bytes_inv in Sx. subst w. destruct (Z.eqb_spec (zlen x) 32) as [L|]; [|discriminate]. cbn [negb] in S.
    bnd S y C. injection S as <-. apply copy_ok with (n := 32) in C; [|congruence|lia]. destruct C as (_ & _ & C & _). unfold is_bytes. cbn [set_z pb]. rewrite C, padded_full by exact L. reflexivity.
  - destruct (field 2 m) as [w|]; cbn [given]; [|congruence]. destruct G2 as (a & b & P & S & ->). cbn in S. bnd S x Sx. apply as_ok in Sx. injection S as <-. bnd Sx i Ei. bnd Sx y C. bnd Sx t Et. injection Sx as <-.
    apply copy_ok with (n := 70) in C; [|congruence|lia]. destruct C as (C1 & _ & C & _). exists i. split; [|split; [exact C1|exact C]].
    unfold descriptor_id, descriptor_type in *. bnd Ei mm Em. apply get_map_inv in Em. subst w. cbn [get_map pbind] in Et. rewrite member_find in *. exists mm. split; [reflexivity|].
    destruct (member "id" mm) as [[| | | | | |]|]; try discriminate. injection Ei as ->. split; [reflexivity|]. destruct (member "type" mm) as [[| | | | | |]|]; try discriminate. eexists. reflexivity.
  - destruct (field 3 m) as [w|]; cbn [given]; [|congruence]. destruct G3 as (a & b & P & S & ->). cbn in S. bnd S x Sx. apply as_ok in Sx. injection S as <-. apply (user_said w a x Sx). congruence.
Qed.

(** ** Theorems *)
Section T.
Variable K : fcrypto.
Variable sm2 : bytes.
Lemma parsed_ok {A} (f : Z + A -> creq) (m : pres A) q : (forall x y, f x = f y -> x = y) -> parsed f m = Some (f (inr q)) -> m = POk q.
Proof. intros Hf. unfold parsed. destruct m as [a| |]; intros E; try discriminate; injection E as E; apply Hf in E; congruence. Qed.
Ltac start E st El := apply parsed_ok in E; [|intros ? ? X; injection X; auto]; cbn [get_map pbind] in E; bnd E st El.
(** Registrations *)
Theorem C85_make_credential l q : distinct l -> parse_request K sm2 CTAP_MAKE_CREDENTIAL (CMap l) = Some (RMake (inr q)) ->
  field 1 l = Some (CBytes (mc_cdh q)) /\
  (exists v, field 2 l = Some v /\ is_rp K v (mc_rphash q) (mc_rp q)) /\
  (exists v, field 3 l = Some v /\ is_user v (mc_user q)) /\
  (exists v, field 4 l = Some v /\ is_choice sm2 v (mc_alg q)) /\
  given (field 5 l) [] is_list (mc_excl q) /\
  extensions (field 6 l) (mc_hs q) (mc_lbk q) (mc_cp q) (mc_blob q) /\
  options (field 7 l) (mc_rk q) (mc_uvopt q) (mc_upopt q) /\
  given (field 8 l) None (is_some is_auth) (mc_param q) /\
  given (field 9 l) None (is_some is_int) (mc_proto q).
Proof.
  intros Hd E. change (parse_request K sm2 CTAP_MAKE_CREDENTIAL (CMap l)) with (parsed RMake (parse_make_credential K sm2 (CMap l))) in E. unfold parse_make_credential in E. start E st El.
  destruct (has "has_cdh" st && has "has_rp" st && has "has_user" st && has "has_alg" st) eqn:Hh; [|discriminate]. injection E as <-. rewrite !andb_true_iff in Hh. destruct Hh as (((Hh1 & Hh2) & Hh3) & Hh4). apply has_true in Hh1, Hh2, Hh3, Hh4.
  pose proof (fun Y (proj : pst -> Y) k0 H => by_key (mc_step K sm2) mc_b mc_z (fun k => k =? 5) proj k0 l pst0 st (mc_only K sm2) H Hd El) as B.
  pose proof (B _ (fun s => (pz s "has_cdh", pb s "cdh")) 1 ltac:(unrelated)) as G1. pose proof (B _ (fun s => (pz s "has_rp", (pz s "rp_len", (pb s "rp", pb s "rphash")))) 2 ltac:(unrelated)) as G2.
  pose proof (B _ (fun s => (pz s "has_user", pb s "user")) 3 ltac:(unrelated)) as G3. pose proof (B _ (fun s => (pz s "has_alg", pz s "alg")) 4 ltac:(unrelated)) as G4. pose proof (B _ (fun s => pl s) 5 ltac:(unrelated)) as G5.
  pose proof (B _ (fun s => (pz s "hs", (pz s "lbk", (pz s "cp", (pz s "has_blob", (pz s "blob_len", pb s "blob")))))) 6 ltac:(unrelated)) as G6. pose proof (B _ (fun s => (pz s "rk", (pz s "uv", pz s "up"))) 7 ltac:(unrelated)) as G7.
  pose proof (B _ (fun s => (pz s "has_param", (pz s "param_len", pb s "param"))) 8 ltac:(unrelated)) as G8. pose proof (B _ (fun s => (pz s "has_proto", pz s "proto")) 9 ltac:(unrelated)) as G9. clear B. cbv beta in *.
  unfold mc_of_pst. cbn [mc_cdh mc_rphash mc_rp mc_user mc_alg mc_excl mc_hs mc_lbk mc_cp mc_blob mc_rk mc_uvopt mc_upopt mc_param mc_proto].
  split; [|split; [|split; [|split; [|split; [|split; [|split; [|split]]]]]]].
  - destruct (field 1 l) as [v|]; [|injection G1 as G1 _; elim Hh1; exact G1]. destruct G1 as (a & b & P & S & Q). injection P as _ P. injection Q as _ ->. f_equal. exact (proj1 (cdh_said v a b S P)).
  - destruct (field 2 l) as [v|]; [|injection G2 as G2 _ _ _; elim Hh2; exact G2]. destruct G2 as (a & b & P & S & Q). injection P as _ _ P _. injection Q as _ -> -> ->. exists v. split; [reflexivity|]. exact (rp_said K v a b S P).
  - destruct (field 3 l) as [v|]; [|injection G3 as G3 _; elim Hh3; exact G3]. destruct G3 as (a & b & P & S & Q). injection P as _ P. injection Q as _ ->. exists v. split; [reflexivity|]. cbn in S. bnd S x Sx. injection S as <-. exact (user_said v a x Sx P).
  - destruct (field 4 l) as [v|]; [|injection G4 as G4 _; elim Hh4; exact G4]. destruct G4 as (a & b & P & S & Q). injection Q as _ ->. exists v. split; [reflexivity|]. cbn in S. bnd S x Sx. injection S as <-. exact (alg_said sm2 v a x Sx).
  - destruct (field 5 l) as [v|]; cbn [given]; [|exact G5]. destruct G5 as (a & b & _ & S & ->). exact (list_said v a b S).
  - destruct (field 6 l) as [v|].
    + destruct G6 as (a & b & P & S & Q). injection P as P1 P2 P3 P4 P5 P6. injection Q as Q1 Q2 Q3 Q4 Q5 Q6. pose proof (mc_ext_said v a b S P1 P2 P3) as G. unfold blob_fields, blob_of, has in *. rewrite Q1, Q2, Q3, Q4, Q5, Q6. apply G. rewrite P4, P5, P6. reflexivity.
    + unfold has. injection G6 as -> -> -> -> _ _. repeat split.
  - destruct (field 7 l) as [v|]; [|injection G7 as -> -> ->; repeat split]. destruct G7 as (a & b & P & S & Q). injection P as P1 P2 P3. injection Q as -> -> ->. exact (options_said v a b S P1 P2 P3).
  - unfold param_of, has. destruct (field 8 l) as [v|]; cbn [given].
    + destruct G8 as (a & b & P & S & Q). injection P as _ _ P. injection Q as -> -> ->. exact (long_said v a b S P).
    + injection G8 as -> _ _. reflexivity.
  - unfold has. destruct (field 9 l) as [v|]; cbn [given].
    + destruct G9 as (a & b & P & S & Q). injection Q as -> ->. destruct (proto_said v a b S) as (H1 & H2). unfold has in H1. rewrite H1. exists (pz b "proto"). split; [reflexivity|exact H2].
    + injection G9 as -> _. reflexivity.
Qed.
(** Assertions; an RP ID of 254 bytes is another matter (below) *)
Theorem C85_get_assertion l q : distinct l -> parse_request K sm2 CTAP_GET_ASSERTION (CMap l) = Some (RGet (inr q)) ->
  (exists id, field 1 l = Some (CText id) /\ zlen id <= 254 /\ (zlen id < 254 -> ga_rphash q = f_sha K id)) /\
  field 2 l = Some (CBytes (ga_cdh q)) /\
  given (field 3 l) [] is_list (ga_allow q) /\
  ga_extensions (field 4 l) (ga_hs q) (ga_blob q) /\
  options (field 5 l) (ga_rk q) (ga_uvopt q) (ga_upopt q) /\
  given (field 6 l) None (is_some is_auth) (ga_param q) /\
  given (field 7 l) None (is_some is_int) (ga_proto q).
Proof.
  intros Hd E. change (parse_request K sm2 CTAP_GET_ASSERTION (CMap l)) with (parsed RGet (parse_get_assertion K (CMap l))) in E. unfold parse_get_assertion in E. start E st El.
  destruct (has "has_cdh" st && has "has_rp" st) eqn:Hh; [|discriminate]. injection E as <-. rewrite !andb_true_iff in Hh. destruct Hh as (Hh1 & Hh2). apply has_true in Hh1, Hh2.
  pose proof (fun Y (proj : pst -> Y) k0 H => by_key (ga_step K) ga_b ga_z (fun k => k =? 3) proj k0 l pst0 st (ga_only K) H Hd El) as B.
  pose proof (B _ (fun s => (pz s "has_rp", pb s "rphash")) 1 ltac:(unrelated)) as G1. pose proof (B _ (fun s => (pz s "has_cdh", pb s "cdh")) 2 ltac:(unrelated)) as G2. pose proof (B _ (fun s => pl s) 3 ltac:(unrelated)) as G3.
  pose proof (B _ (fun s => (pz s "blob", (pz s "has_hs", (pb s "key", (pb s "salt", (pz s "salt_len", (pb s "auth", pz s "hs_proto"))))))) 4 ltac:(unrelated)) as G4. pose proof (B _ (fun s => (pz s "rk", (pz s "uv", pz s "up"))) 5 ltac:(unrelated)) as G5.
  pose proof (B _ (fun s => (pz s "has_param", (pz s "param_len", pb s "param"))) 6 ltac:(unrelated)) as G6. pose proof (B _ (fun s => (pz s "has_proto", pz s "proto")) 7 ltac:(unrelated)) as G7. clear B. cbv beta in *.
  unfold ga_of_pst. cbn [ga_rphash ga_cdh ga_allow ga_hs ga_blob ga_rk ga_uvopt ga_upopt ga_param ga_proto].
  split; [|split; [|split; [|split; [|split; [|split]]]]].
  - destruct (field 1 l) as [v|]; [|injection G1 as G1 _; elim Hh2; exact G1]. destruct G1 as (a & b & P & S & Q). injection Q as _ ->. unfold ga_step in S. cbn [Z.eqb Pos.eqb] in S. bnd S s Es. apply get_text_inv in Es. subst v. exists s. split; [reflexivity|].
    unfold cut_domain, DOMAIN_NAME_MAX_SIZE in S. destruct (Z.ltb_spec 254 (zlen s)); [discriminate|]. split; [lia|]. intros L. injection S as <-. destruct (Z.eqb_spec (zlen s) 254); [lia|]. reflexivity.
  - destruct (field 2 l) as [v|]; [|injection G2 as G2 _; elim Hh1; exact G2]. destruct G2 as (a & b & P & S & Q). injection P as _ P. injection Q as _ ->. f_equal. exact (proj1 (cdh_said v a b S P)).
  - destruct (field 3 l) as [v|]; cbn [given]; [|exact G3]. destruct G3 as (a & b & _ & S & ->). exact (list_said v a b S).
  - change (opt (has "has_hs" st) _) with (hs_of st). destruct (field 4 l) as [v|].
    + destruct G4 as (a & b & P & S & Q). injection P as P1 P2 P3 P4 P5 P6 P7. injection Q as Q1 Q2 Q3 Q4 Q5 Q6 Q7. assert (Ef : hs_fields st = hs_fields b) by (unfold hs_fields; congruence). rewrite (hs_of_fields _ _ Ef). unfold has. rewrite Q1.
      apply (ga_ext_said v a b S); [|exact P1]. unfold hs_fields. rewrite P2, P3, P4, P5, P6, P7. reflexivity.
    + injection G4 as G4 G4' _ _ _ _ _. unfold hs_of, has. rewrite G4, G4'. split; reflexivity.
  - destruct (field 5 l) as [v|]; [|injection G5 as -> -> ->; repeat split]. destruct G5 as (a & b & P & S & Q). injection P as P1 P2 P3. injection Q as -> -> ->. exact (options_said v a b S P1 P2 P3).
  - unfold param_of, has. destruct (field 6 l) as [v|]; cbn [given].
    + destruct G6 as (a & b & P & S & Q). injection P as _ _ P. injection Q as -> -> ->. exact (long_said v a b S P).
    + injection G6 as -> _ _. reflexivity.
  - unfold has. destruct (field 7 l) as [v|]; cbn [given].
    + destruct G7 as (a & b & P & S & Q). injection Q as -> ->. destruct (proto_said v a b S) as (H1 & H2). unfold has in H1. rewrite H1. exists (pz b "proto"). split; [reflexivity|exact H2].
    + injection G7 as -> _. reflexivity.
Qed.
(** clientPIN; sub-commands and permissions are taken modulo 256 *)
Lemma enc_said f room n1 n2 v s1 s2 n : enc_field f room n1 n2 v s1 = POk s2 -> pb s1 f = zeros n -> room = n -> in_buffer n v (pb s2 f).
Proof.
  unfold enc_field. intros E Hz ->. bnd E s Es. apply get_bytes_inv in Es. subst v. destruct (_ || _) in E; [discriminate|]. apply copy_ok with (n := n) in E; [|exact Hz|lia]. destruct E as (_ & E1 & E2 & _). exists s. auto.
Qed.
Theorem C85_client_pin l q : distinct l -> parse_request K sm2 CTAP_CLIENT_PIN (CMap l) = Some (RPin (inr q)) ->
  given (field 1 l) 0 is_int (cp_proto q) /\
  (exists v, field 2 l = Some v /\ is_byte_number v (cp_sub q)) /\
  given (field 3 l) (zeros 64) is_point (cp_key q) /\
  given (field 4 l) (zeros 32) (in_buffer 32) (cp_param q) /\
  given (field 5 l) (zeros 80) (in_buffer 80) (cp_new q) /\
  given (field 6 l) (zeros 32) (in_buffer 32) (cp_hash q) /\
  given (field 9 l) 0 is_byte_number (cp_perm q) /\
  given (field 10 l) None (fun v o => exists id, v = CText id /\ o = Some (f_sha K id)) (cp_rp q).
Proof.
  intros Hd E. change (parse_request K sm2 CTAP_CLIENT_PIN (CMap l)) with (parsed RPin (parse_client_pin K (CMap l))) in E. unfold parse_client_pin in E. start E st El.
  destruct (has "has_sub" st) eqn:Hh; [|discriminate]. cbn [negb] in E. destruct (cp_missing st); [discriminate|]. destruct (_ && _) in E; [discriminate|]. destruct (_ && _) in E; [discriminate|]. injection E as <-. apply has_true in Hh.
  pose proof (fun Y (proj : pst -> Y) k0 H => by_key (cp_step K) cp_b cp_z (fun _ => false) proj k0 l pst0 st (cp_only K) H Hd El) as B.
  pose proof (B _ (fun s => pz s "proto") 1 ltac:(unrelated)) as G1. pose proof (B _ (fun s => (pz s "has_sub", pz s "sub")) 2 ltac:(unrelated)) as G2. pose proof (B _ (fun s => pb s "key") 3 ltac:(unrelated)) as G3. pose proof (B _ (fun s => pb s "param") 4 ltac:(unrelated)) as G4.
  pose proof (B _ (fun s => pb s "new") 5 ltac:(unrelated)) as G5. pose proof (B _ (fun s => pb s "hash") 6 ltac:(unrelated)) as G6. pose proof (B _ (fun s => pz s "perm") 9 ltac:(unrelated)) as G9. pose proof (B _ (fun s => (pz s "has_rp", pb s "rphash")) 10 ltac:(unrelated)) as G10. clear B. cbv beta in *.
  unfold cp_of_pst. cbn [cp_proto cp_sub cp_key cp_param cp_new cp_hash cp_perm cp_rp]. split; [|split; [|split; [|split; [|split; [|split; [|split]]]]]].
  - destruct (field 1 l) as [v|]; cbn [given]; [|exact G1]. destruct G1 as (a & b & _ & S & ->). exact (proj2 (proto_said v a b S)).
  - destruct (field 2 l) as [v|]; [|injection G2 as G2 _; elim Hh; exact G2]. destruct G2 as (a & b & _ & S & Q). injection Q as _ ->. exists v. split; [reflexivity|]. cbn in S. bnd S x Sx. apply get_int_inv in Sx. destruct Sx as (-> & _). injection S as <-. exists x. split; reflexivity.
  - destruct (field 3 l) as [v|]; cbn [given]; [|exact G3]. destruct G3 as (a & b & P & S & ->). unfold cp_step in S. cbn [Z.eqb Pos.eqb] in S. bnd S x Sx. injection S as <-. exact (cose_said v a x Sx P).
  - destruct (field 4 l) as [v|]; cbn [given]; [|exact G4]. destruct G4 as (a & b & P & S & ->). exact (proj2 (short_said v a b S P)).
  - destruct (field 5 l) as [v|]; cbn [given]; [|exact G5]. destruct G5 as (a & b & P & S & ->). unfold cp_step in S. cbn [Z.eqb Pos.eqb] in S. bnd S x Sx. injection S as <-. exact (enc_said "new" 80 64 80 v a x 80 Sx P eq_refl).
  - destruct (field 6 l) as [v|]; cbn [given]; [|exact G6]. destruct G6 as (a & b & P & S & ->). unfold cp_step in S. cbn [Z.eqb Pos.eqb] in S. bnd S x Sx. injection S as <-. exact (enc_said "hash" 32 16 32 v a x 32 Sx P eq_refl).
  - destruct (field 9 l) as [v|]; cbn [given]; [|exact G9]. destruct G9 as (a & b & P & S & ->). unfold cp_step in S. cbn [Z.eqb Pos.eqb] in S. bnd S x Sx. apply get_int_inv in Sx. destruct Sx as (-> & _). destruct (u8 x =? 0); [discriminate|]. destruct (negb _); [discriminate|]. injection S as <-.
    exists x. split; reflexivity.
  - unfold has. destruct (field 10 l) as [v|]; cbn [given]; [|injection G10 as -> _; reflexivity]. destruct G10 as (a & b & P & S & Q). injection Q as -> ->. unfold cp_step in S. cbn [Z.eqb Pos.eqb] in S. bnd S x Sx. apply get_text_inv in Sx. subst v.
    destruct (_ <? _); [discriminate|]. injection S as <-. exists x. split; reflexivity.
Qed.
(** Credential management, under both of its command codes *)
Theorem C85_credential_management l q : distinct l ->
  (parse_request K sm2 CTAP_CREDENTIAL_MANAGEMENT (CMap l) = Some (RCm (inr q)) \/ parse_request K sm2 CTAP_CRED_MANAGE_LEGACY (CMap l) = Some (RCm (inr q))) ->
  (exists v, field 1 l = Some v /\ is_byte_number v (cm_sub q)) /\
  cm_params (field 2 l) (cm_raw q) (cm_rphash q) (cm_id q) (cm_user q) /\
  given (field 3 l) 0 is_int (cm_proto q) /\
  given (field 4 l) (zeros 32) (in_buffer 32) (cm_param q).
Proof.
  intros Hd E0. assert (E : parsed RCm (parse_credential_management (CMap l)) = Some (RCm (inr q))) by (destruct E0; assumption). clear E0. unfold parse_credential_management in E. start E st El.
  destruct (has "has_sub" st) eqn:Hh; [|discriminate]. cbn [negb] in E. cbv zeta in E. repeat (destruct (_ && _) in E; [discriminate|]). injection E as <-. apply has_true in Hh.
  pose proof (fun Y (proj : pst -> Y) k0 H => by_key cm_step cm_b cm_z (fun _ => false) proj k0 l pst0 st cm_only H Hd El) as B.
  pose proof (B _ (fun s => (pz s "has_sub", pz s "sub")) 1 ltac:(unrelated)) as G1. pose proof (B _ (fun s => (pb s "raw", (pb s "rphash", (pb s "id", pb s "user")))) 2 ltac:(unrelated)) as G2. pose proof (B _ (fun s => pz s "proto") 3 ltac:(unrelated)) as G3.
  pose proof (B _ (fun s => pb s "param") 4 ltac:(unrelated)) as G4. clear B. cbv beta in *.
  unfold cm_of_pst. cbn [cm_sub cm_raw cm_rphash cm_id cm_user cm_proto cm_param]. split; [|split; [|split]].
  - destruct (field 1 l) as [v|]; [|injection G1 as G1 _; elim Hh; exact G1]. destruct G1 as (a & b & _ & S & Q). injection Q as _ ->. exists v. split; [reflexivity|]. cbn in S. bnd S x Sx. apply get_int_inv in Sx. destruct Sx as (-> & _). injection S as <-. exists x. split; reflexivity.
  - destruct (field 2 l) as [v|]; [|injection G2 as -> -> -> ->; repeat split]. destruct G2 as (a & b & P & S & Q). injection P as _ P1 P2 P3. injection Q as -> -> -> ->. unfold cm_step in S. cbn [Z.eqb Pos.eqb] in S. bnd S x Sx. apply as_ok in Sx. injection S as <-. exact (cmp_said v a x Sx P1 P2 P3).
  - destruct (field 3 l) as [v|]; cbn [given]; [|exact G3]. destruct G3 as (a & b & _ & S & ->). exact (proj2 (proto_said v a b S)).
  - destruct (field 4 l) as [v|]; cbn [given]; [|exact G4]. destruct G4 as (a & b & P & S & ->). exact (proj2 (short_said v a b S P)).
Qed.
(** Large blobs *)
Lemma unsigned_said f v s1 s2 : unsigned f v s1 = POk s2 -> String.eqb ("has_" ++ f) f = false -> pz s2 ("has_" ++ f) = 1 /\ is_16bit v (pz s2 f).
Proof.
  unfold unsigned. intros E D. bnd E x Ex. apply get_int_inv in Ex. destruct Ex as (-> & _). destruct (Z.ltb_spec x 0); [discriminate|]. injection E as <-. unfold set_z. cbn [pz]. unfold upd. cbn [append] in *. rewrite D, !String.eqb_refl.
  split; [reflexivity|]. exists x. split; [reflexivity|]. unfold cap16. destruct (Z.ltb_spec 65535 x); lia.
Qed.
Theorem C85_large_blobs l q : distinct l -> parse_request K sm2 CTAP_LARGE_BLOBS (CMap l) = Some (RLarge (inr q)) ->
  given (field 1 l) None (is_some is_16bit) (lb_get q) /\
  given (field 2 l) [] is_bytes (lb_set q) /\
  (exists v, field 3 l = Some v /\ is_16bit v (lb_off q)) /\
  given (field 4 l) 0 is_16bit (lb_len q) /\
  given (field 5 l) None (is_some (in_buffer 32)) (lb_param q) /\
  given (field 6 l) None (is_some is_int) (lb_proto q).
Proof.
  intros Hd E. change (parse_request K sm2 CTAP_LARGE_BLOBS (CMap l)) with (parsed RLarge (parse_large_blobs (CMap l))) in E. unfold parse_large_blobs in E. start E st El.
  destruct (has "has_offset" st) eqn:Hh; [|discriminate]. cbn [negb] in E. destruct (negb (_ || _)); [discriminate|]. repeat match type of E with (if ?b then PErr _ else _) = _ => destruct b; [discriminate|] end. injection E as <-. apply has_true in Hh.
  pose proof (fun Y (proj : pst -> Y) k0 H => by_key lb_step lb_b lb_z (fun _ => false) proj k0 l pst0 st lb_only H Hd El) as B.
  pose proof (B _ (fun s => (pz s "has_get", pz s "get")) 1 ltac:(unrelated)) as G1. pose proof (B _ (fun s => pb s "set") 2 ltac:(unrelated)) as G2. pose proof (B _ (fun s => (pz s "has_offset", pz s "offset")) 3 ltac:(unrelated)) as G3.
  pose proof (B _ (fun s => pz s "length") 4 ltac:(unrelated)) as G4. pose proof (B _ (fun s => (pz s "has_param", pb s "param")) 5 ltac:(unrelated)) as G5. pose proof (B _ (fun s => (pz s "has_proto", pz s "proto")) 6 ltac:(unrelated)) as G6. clear B. cbv beta in *.
  unfold lb_of_pst. cbn [lb_get lb_set lb_off lb_len lb_param lb_proto]. unfold has in *. split; [|split; [|split; [|split; [|split]]]].
  - destruct (field 1 l) as [v|]; cbn [given]; [|injection G1 as -> _; reflexivity]. destruct G1 as (a & b & _ & S & Q). injection Q as -> ->. apply (unsigned_said "get" v a b) in S; [|reflexivity]. cbn [append] in S. destruct S as (-> & S). eexists. split; [reflexivity|exact S].
  - destruct (field 2 l) as [v|]; cbn [given]; [|exact G2]. destruct G2 as (a & b & _ & S & ->). cbn in S. bnd S x Sx. apply get_bytes_inv in Sx. subst v. injection S as <-. reflexivity.
  - destruct (field 3 l) as [v|]; [|injection G3 as G3 _; elim Hh; exact G3]. destruct G3 as (a & b & _ & S & Q). injection Q as _ ->. apply (unsigned_said "offset" v a b) in S; [|reflexivity]. exists v. split; [reflexivity|apply S].
  - destruct (field 4 l) as [v|]; cbn [given]; [|exact G4]. destruct G4 as (a & b & _ & S & ->). apply (unsigned_said "length" v a b) in S; [|reflexivity]. apply S.
  - destruct (field 5 l) as [v|]; cbn [given]; [|injection G5 as -> _; reflexivity]. destruct G5 as (a & b & P & S & Q). injection P as _ P. injection Q as -> ->. destruct (short_said v a b S P) as (H1 & H2). unfold has in H1. rewrite H1. eexists. split; [reflexivity|exact H2].
  - destruct (field 6 l) as [v|]; cbn [given]; [|injection G6 as -> _; reflexivity]. destruct G6 as (a & b & P & S & Q). injection Q as -> ->. destruct (proto_said v a b S) as (H1 & H2). unfold has in H1. rewrite H1. eexists. split; [reflexivity|exact H2].
Qed.
(** Findings.  A relying party without an id is accepted: the credential belongs to the hash of 32 zeros, which belongs to nobody. *)
Theorem C85_no_rp_id_refuted : exists q, parse_request K sm2 CTAP_MAKE_CREDENTIAL (CMap [
    (CInt 1, CBytes (repeat 1 32)); (CInt 2, CMap []); (CInt 3, CMap [(txt "id", CBytes [1])]); (CInt 4, CArr [CMap [(txt "alg", CInt (-7)); (txt "type", txt "public-key")]])]) = Some (RMake (inr q)) /\
  mc_rphash q = zeros 32.
Proof. eexists. split; [vm_compute; reflexivity|]. reflexivity. Qed.
(** An RP ID of 254 bytes: an assertion takes it for another one, which ends with a NUL, but a registration does not. *)
Theorem C85_long_rp_id_refuted : let id := repeat 97 254 in
  (exists q, parse_request K sm2 CTAP_GET_ASSERTION (CMap [(CInt 1, CText id); (CInt 2, CBytes (repeat 1 32))]) = Some (RGet (inr q)) /\ ga_rphash q = f_sha K (firstn 253 id ++ [0])) /\
  (exists q, parse_request K sm2 CTAP_MAKE_CREDENTIAL (CMap [(CInt 1, CBytes (repeat 1 32)); (CInt 2, CMap [(txt "id", CText id)]); (CInt 3, CMap []);
     (CInt 4, CArr [CMap [(txt "alg", CInt (-7)); (txt "type", txt "public-key")]])]) = Some (RMake (inr q)) /\ mc_rphash q = f_sha K id).
Proof. cbv zeta. split; (eexists; split; [vm_compute; reflexivity|]); reflexivity. Qed.
(** Names are compared as C strings: "id" followed by a NUL and anything counts as "id". *)
Theorem C85_nul_name_refuted : exists q, parse_request K sm2 CTAP_MAKE_CREDENTIAL (CMap [
    (CInt 1, CBytes (repeat 1 32)); (CInt 2, CMap [(txt "id", txt "bank.example"); (CText (chars "id" ++ [0; 33]), txt "evil.example")]);
    (CInt 3, CMap [(txt "id", CBytes [1])]); (CInt 4, CArr [CMap [(txt "alg", CInt (-7)); (txt "type", txt "public-key")]])]) = Some (RMake (inr q)) /\
  mc_rphash q = f_sha K (chars "evil.example").
Proof. eexists. split; [vm_compute; reflexivity|]. reflexivity. Qed.
End T.
(** The messages of C83 meet the hypotheses, and so do the maps within them *)
Definition tidyb (m : entries) : bool := forallb (fun e => match fst e with CText k => negb (existsb (Z.eqb 0) k) | _ => true end) m.
Lemma tidyb_ok m : distinct m -> tidyb m = true -> tidy m.
Proof.
  intros Hd H. split; [exact Hd|]. intros k v Hk H0. unfold tidyb in H. rewrite forallb_forall in H. specialize (H _ Hk). cbn [fst] in H. apply negb_true_iff in H.
  assert (X : existsb (Z.eqb 0) k = true) by (apply existsb_exists; exists 0; split; [exact H0|reflexivity]). congruence.
Qed.
Ltac nodup := repeat constructor; cbn [map fst In]; intros X; repeat match goal with H : _ \/ _ |- _ => destruct H end; try discriminate; try contradiction.
Definition parts (v : cbor) : entries := match v with CMap l => l | _ => [] end.
Definition inner (v : cbor) (k : Z) : entries := match field k (parts v) with Some w => parts w | None => [] end.
Example C85_case :
  distinct (parts msg_make) /\ distinct (parts msg_get) /\ distinct (parts msg_pin) /\ distinct (parts msg_delete) /\ distinct (parts msg_blob) /\ distinct (parts cose) /\
  tidy (inner msg_make 2) /\ tidy (inner msg_make 3) /\ tidy (inner msg_make 6) /\ tidy (inner msg_make 7) /\ tidy (inner msg_get 4) /\
  Forall (fun c => parse_request toyf (zeros 9) (fst c) (snd c) <> None) [(1, msg_make); (2, msg_get); (6, msg_pin); (10, msg_delete); (12, msg_blob)].
Proof.
  repeat match goal with |- _ /\ _ => split end; try (apply tidyb_ok; [|reflexivity]); try match goal with |- distinct _ => unfold distinct; cbn; nodup end.
  repeat constructor; vm_compute; discriminate.
Qed.
Print Assumptions C85_make_credential.
Print Assumptions C85_get_assertion.
Print Assumptions C85_client_pin.
Print Assumptions C85_credential_management.
Print Assumptions C85_large_blobs.
Print Assumptions C85_no_rp_id_refuted.
Print Assumptions C85_long_rp_id_refuted.
Print Assumptions C85_nul_name_refuted.
