(** C31, C32: PIV data objects, read and written in pieces. *)
From Verif Require Import Sys Apdu Applet Frame Pin Tlv Key PropKey Piv PivSpec PropPivGa PivFrame PropPivAuth.
Open Scope string_scope. Open Scope list_scope. Open Scope Z_scope.

(** ** C31: reading *)
Definition object_file (tag : Z) : option path :=
  match tag with
  | 0x05 => Some "piv-pauc" | 0x0A => Some "piv-sigc" | 0x0B => Some "piv-mntc" | 0x01 => Some "piv-cauc" | 0x0D => Some "piv-82c"
  | 0x0E => Some "piv-83c" | 0x02 => Some "piv-chu" | 0x07 => Some "piv-ccc" | 0x09 => Some "piv-pi" | 0x03 => Some "piv-fig"
  | 0x08 => Some "piv-face" | _ => None
  end.
Definition get_data (tag le : Z) : capdu := mkC 0 0xCB 0x3F 0xFF [0x5C; 3; 0x5F; 0xC1; tag] le.
Definition get_response (p1 p2 : Z) (d : bytes) (le : Z) : capdu := mkC 0 0xC0 p1 p2 d le.
(** What the host gets for the given values of Le: the object piece by piece; status 61xx with the number of bytes left (at most FF), or 9000
    with the last piece; then nothing more. *)
Fixpoint pieces (obj : bytes) (les : list Z) : list rapdu :=
  match les with
  | [] => []
  | le :: les =>
      let rest := skipn (Z.to_nat le) obj in
      if (length rest =? 0)%nat then mkR (firstn (Z.to_nat le) obj) 0x9000 :: map (fun _ => mkR [] 0x6985) les
      else mkR (firstn (Z.to_nat le) obj) (0x6100 + Z.min 255 (zlen rest)) :: pieces rest les
  end.
Lemma pieces_all les : forall obj, obj <> [] -> Forall (fun le => 0 <= le) les ->
  concat (map r_data (pieces obj les)) = firstn (Z.to_nat (fold_right Z.add 0 les)) obj.
Proof.
  induction les as [|le les IH]; intros obj Ho Hl; [reflexivity|]. inversion Hl; subst. cbn [pieces fold_right].
  assert (Hs : 0 <= fold_right Z.add 0 les) by (clear - H2; induction H2; cbn; lia).
  destruct (Nat.eqb_spec (length (skipn (Z.to_nat le) obj)) 0) as [E|E]; cbn [map concat r_data].
  - assert (concat (map r_data (map (fun _ : Z => mkR [] 0x6985) les)) = []) as -> by (clear; induction les; auto).
    rewrite app_nil_r. rewrite skipn_length in E. rewrite !firstn_all2 by lia. reflexivity.
  - rewrite IH; [|intros W; rewrite W in E; contradiction|assumption].
    rewrite Z2Nat.inj_add by lia. generalize (Z.to_nat le), (Z.to_nat (fold_right Z.add 0 les)). clear.
    intros n m. revert obj. induction n; intros obj; [reflexivity|]. destruct obj; cbn; [rewrite firstn_nil; reflexivity|]. f_equal. apply IHn.
Qed.

Section Read.
Variable K : crypto.
Definition quiet (x : cmd) (c : capdu) : Prop := x_apdu x = c /\ x_flt x = [].

Lemma object_file_eq tag : get_object_path_by_tag tag = object_file tag.
Proof.
  unfold get_object_path_by_tag, object_file.
  repeat match goal with |- context [tag =? ?n] => destruct (Z.eqb_spec tag n) as [->|]; [reflexivity|] end.
  destruct tag as [|p|p]; try reflexivity. repeat (destruct p as [p|p|]; try reflexivity; try contradiction).
Qed.
Lemma sw_more_min n : 0 < n -> sw_more n = 0x6100 + Z.min 255 n.
Proof. intros H. unfold sw_more, u16. destruct (n >? 0xFF) eqn:E; [replace (Z.min 255 n) with 255 by lia; reflexivity|]. rewrite Z.mod_small; lia. Qed.

(** one GET RESPONSE *)
Lemma response_step d x p1 p2 dd le D off p : quiet x (get_response p1 p2 dd le) -> 0 <= le ->
  v_read (d_ram d) = off -> 0 <= off -> off < zlen D -> v_path (d_ram d) = p -> p <> "" -> fdata (d_fs d) p = Some D ->
  exists s', step K d (Do x) = Some (Some (hd (mkR [] 0) (pieces (skipn (Z.to_nat off) D) [le])), mkD s' (d_fs d)) /\
    if (length (skipn (Z.to_nat (off + le)) D) =? 0)%nat then v_read s' = -1 else v_read s' = off + le /\ v_path s' = p.
Proof.
  intros [Hc Hf] Hle Hr H0 Hlt Hp Hn HD. cbn [step]. unfold exec. rewrite Hc, Hf. unfold run_apdu, start. cbn [e_fs e_log e_flt e_rnd e_tch].
  unfold piv_body, get_response. cbn [c_ins c_cla c_p1 c_p2 c_data c_le Z.eqb Pos.eqb orb]. unfold guard at 1. rewrite bind_ret.
  erewrite bind_eq by reflexivity. rewrite bind_ret. unfold piv_get_data_response.
  erewrite bind_eq by reflexivity. cbn [v_read v_path set_write]. rewrite Hr, Hp.
  replace (off =? -1) with false by lia. cbn [negb]. unfold guard. rewrite bind_ret.
  destruct (String.eqb_spec p ""); [contradiction|]. unfold got.
  assert (Hsz : fsize (d_fs d) p = Some (zlen D)) by (unfold fsize, fdata in *; destruct (d_fs d p); [injection HD as ->; reflexivity|discriminate]).
  assert (Hrd : forall n, fread (d_fs d) p off n = Some (slice off n D)).
  { intros k. unfold fread, fdata in *. destruct (d_fs d p); [injection HD as ->|discriminate]. replace (off <? 0) with false by lia. reflexivity. }
  rewrite bind_assoc. erewrite bind_eq by (apply run_get_file_size). rewrite Hsz, bind_ret.
  rewrite bind_assoc. erewrite bind_eq by (apply run_read_file). cbn [c_le]. rewrite Hrd, bind_ret.
  erewrite bind_eq by reflexivity. cbn [e_fs e_log e_flt e_rnd e_tch]. erewrite bind_eq by reflexivity. cbv zeta.
  assert (Hsl : slice off le D = firstn (Z.to_nat le) (skipn (Z.to_nat off) D)) by reflexivity.
  assert (Hsk : skipn (Z.to_nat le) (skipn (Z.to_nat off) D) = skipn (Z.to_nat (off + le)) D).
  { rewrite skipn_skipn. f_equal. lia. }
  assert (Hrem : zlen D - (off + zlen (slice off le D)) = zlen (skipn (Z.to_nat (off + le)) D)).
  { rewrite Hsl. unfold zlen in *. rewrite firstn_length, !skipn_length. lia. }
  rewrite Hrem. cbn [pieces hd]. rewrite Hsk.
  destruct (Nat.eqb_spec (length (skipn (Z.to_nat (off + le)) D)) 0) as [E|E].
  - replace (zlen _ =? 0) with true by (unfold zlen; rewrite E; reflexivity). erewrite bind_eq by reflexivity.
    eexists. split; [rewrite Hsl; reflexivity|reflexivity].
  - replace (zlen (skipn (Z.to_nat (off + le)) D) =? 0) with false by (unfold zlen; lia). rewrite sw_more_min by (unfold zlen; lia).
    eexists. split; [rewrite Hsl; reflexivity|]. split; [|cbn; exact Hp]. unfold set_read, set_write. cbn [v_read]. rewrite ?Hsl. unfold zlen in *. rewrite firstn_length, skipn_length.
    rewrite skipn_length in E. lia.
Qed.
(** a GET RESPONSE when there is nothing left *)
Lemma response_none d x p1 p2 dd le : quiet x (get_response p1 p2 dd le) -> v_read (d_ram d) = -1 ->
  exists s', step K d (Do x) = Some (Some (mkR [] 0x6985), mkD s' (d_fs d)) /\ v_read s' = -1.
Proof.
  intros [Hc Hf] Hr. cbn [step]. unfold exec. rewrite Hc, Hf. unfold run_apdu, start. cbn [e_fs e_log e_flt e_rnd e_tch].
  unfold piv_body, get_response. cbn [c_ins c_cla c_p1 c_p2 c_data c_le Z.eqb Pos.eqb orb]. unfold guard at 1. rewrite bind_ret.
  erewrite bind_eq by reflexivity. rewrite bind_ret. unfold piv_get_data_response.
  erewrite bind_eq by reflexivity. cbn [v_read set_write]. rewrite Hr. cbn [Z.eqb negb]. eexists. split; [reflexivity|exact Hr].
Qed.

(** the answers to a list of commands *)
Fixpoint answers_to (d : dev) (l : list cmd) : option (list rapdu * dev) :=
  match l with
  | [] => Some ([], d)
  | x :: l => match step K d (Do x) with
              | Some (Some r, d') => match answers_to d' l with Some (rs, d'') => Some (r :: rs, d'') | None => None end
              | _ => None
              end
  end.
Definition is_response (x : cmd) (le : Z) : Prop := exists p1 p2 dd, quiet x (get_response p1 p2 dd le).

Lemma none_rest l : forall d les, Forall2 is_response l les -> v_read (d_ram d) = -1 ->
  exists d', answers_to d l = Some (map (fun _ => mkR [] 0x6985) les, d') /\ d_fs d' = d_fs d.
Proof.
  induction l as [|x l IH]; intros d les Hl Hr; inversion Hl as [|x' le l' les' (p1 & p2 & dd & Hq) Hl']; subst; cbn [answers_to map].
  - exists d. auto.
  - destruct (response_none d x p1 p2 dd le Hq Hr) as (s' & -> & Hs'). destruct (IH (mkD s' (d_fs d)) les' Hl' Hs') as (d' & -> & E). exists d'. auto.
Qed.
Lemma responses l : forall d les D off p, Forall2 is_response l les -> Forall (fun le => 0 <= le) les ->
  v_read (d_ram d) = off -> 0 <= off -> off < zlen D -> v_path (d_ram d) = p -> p <> "" -> fdata (d_fs d) p = Some D ->
  exists d', answers_to d l = Some (pieces (skipn (Z.to_nat off) D) les, d') /\ d_fs d' = d_fs d.
Proof.
  induction l as [|x l IH]; intros d les D off p Hl Hle Hr H0 Hlt Hp Hn HD; inversion Hl as [|x' le l' les' (p1 & p2 & dd & Hq) Hl']; subst; cbn [answers_to pieces].
  - exists d. auto.
  - inversion Hle; subst.
    destruct (response_step d x p1 p2 dd le D (v_read (d_ram d)) (v_path (d_ram d))) as (s' & E & Hs'); auto. rewrite E. cbn [pieces hd].
    assert (Hsk : skipn (Z.to_nat le) (skipn (Z.to_nat (v_read (d_ram d))) D) = skipn (Z.to_nat (v_read (d_ram d) + le)) D).
    { rewrite skipn_skipn. f_equal. lia. }
    rewrite Hsk. destruct (Nat.eqb_spec (length (skipn (Z.to_nat (v_read (d_ram d) + le)) D)) 0) as [E0|E0].
    + destruct (none_rest l (mkD s' (d_fs d)) les' Hl' Hs') as (d' & -> & Ed). exists d'. auto.
    + destruct Hs' as [S1 S2]. rewrite skipn_length in E0.
      destruct (IH (mkD s' (d_fs d)) les' D (v_read (d_ram d) + le) (v_path (d_ram d))) as (d' & -> & Ed); auto; try lia; [unfold zlen; lia|].
      exists d'. auto.
Qed.

Lemma get_step d x tag le p D : quiet x (get_data tag le) -> object_file tag = Some p -> 0 <= le ->
  (In tag [0x09; 0x03; 0x08] -> v_pin (d_ram d) = true) -> fdata (d_fs d) p = Some D -> D <> [] ->
  exists s', step K d (Do x) = Some (Some (hd (mkR [] 0) (pieces D [le])), mkD s' (d_fs d)) /\
    if (length (skipn (Z.to_nat le) D) =? 0)%nat then v_read s' = -1 else v_read s' = le /\ v_path s' = p.
Proof.
  intros [Hc Hf] Ho Hle Hpin HD HD0. cbn [step]. unfold exec. rewrite Hc, Hf. unfold run_apdu, start. cbn [e_fs e_log e_flt e_rnd e_tch].
  unfold piv_body, get_data. cbn [c_ins c_cla c_p1 c_p2 c_data c_le Z.eqb Pos.eqb orb]. unfold guard at 1. rewrite bind_ret.
  erewrite bind_eq by reflexivity. erewrite bind_eq by reflexivity. unfold piv_get_data. cbn [c_ins c_cla c_p1 c_p2 c_data c_le Z.eqb Pos.eqb andb].
  unfold guard at 1. rewrite bind_ret. change (c_lc _ <? 2) with false. cbn [negb]. unfold guard at 1. rewrite bind_ret.
  erewrite bind_eq by reflexivity. cbn [Z.eqb Pos.eqb]. unfold guard at 1. rewrite bind_ret.
  erewrite bind_eq by reflexivity. change (3 + 2 =? c_lc _) with true. unfold guard at 1. rewrite bind_ret. cbn [Z.eqb Pos.eqb].
  erewrite bind_eq by reflexivity. erewrite bind_eq by reflexivity. change (c_lc _ =? 5) with true. cbn [Z.eqb Pos.eqb andb]. unfold guard at 1. rewrite bind_ret.
  erewrite bind_eq by reflexivity. erewrite bind_eq by reflexivity. cbn [v_pin set_read set_write].
  replace (negb (((tag =? 0x09) || (tag =? 0x03) || (tag =? 0x08)) && negb (v_pin (d_ram d)))) with true.
  2: { destruct (v_pin (d_ram d)) eqn:E; [destruct (_ || _); reflexivity|]. destruct (((tag =? 0x09) || (tag =? 0x03) || (tag =? 0x08))) eqn:E1; [|reflexivity].
       exfalso. assert (In tag [0x09; 0x03; 0x08]) as W by (cbn; lia). specialize (Hpin W). discriminate. }
  unfold guard at 1. rewrite bind_ret. rewrite object_file_eq, Ho. unfold got.
  assert (Hsz : fsize (d_fs d) p = Some (zlen D)) by (unfold fsize, fdata in *; destruct (d_fs d p); [injection HD as ->; reflexivity|discriminate]).
  assert (Hrd : forall n, fread (d_fs d) p 0 n = Some (slice 0 n D)).
  { intros k. unfold fread, fdata in *. destruct (d_fs d p); [injection HD as ->|discriminate]. reflexivity. }
  assert (Hz : 0 < zlen D) by (destruct D; [contradiction|rewrite zlen_cons; pose proof (zlen_nonneg D); lia]).
  rewrite bind_assoc. erewrite bind_eq by (apply run_get_file_size). rewrite Hsz, bind_ret.
  replace (zlen D =? 0) with false by lia. cbn [negb]. unfold guard. rewrite bind_ret. unfold piv_get_large_data, got. cbn [c_le].
  rewrite bind_assoc. erewrite bind_eq by (apply run_read_file). rewrite Hrd, bind_ret.
  erewrite bind_eq by reflexivity. cbn [e_fs e_log e_flt e_rnd e_tch]. cbv zeta.
  assert (Hsl : slice 0 le D = firstn (Z.to_nat le) D) by reflexivity.
  assert (Hrem : zlen D - zlen (slice 0 le D) = zlen (skipn (Z.to_nat le) D)).
  { rewrite Hsl. unfold zlen in *. rewrite firstn_length, !skipn_length. lia. }
  rewrite Hrem. cbn [pieces hd].
  destruct (Nat.eqb_spec (length (skipn (Z.to_nat le) D)) 0) as [E|E].
  - replace (zlen _ =? 0) with true by (unfold zlen; rewrite E; reflexivity).
    eexists. split; [rewrite Hsl; reflexivity|reflexivity].
  - replace (zlen (skipn (Z.to_nat le) D) =? 0) with false by (unfold zlen; lia). rewrite sw_more_min by (unfold zlen; lia).
    eexists. split; [rewrite Hsl; reflexivity|]. split; [|reflexivity]. unfold set_read, set_write, set_path. cbn [v_read]. rewrite ?Hsl. unfold zlen in *. rewrite firstn_length.
    rewrite skipn_length in E. lia.
Qed.
End Read.

(** GET DATA of a stored object, then GET RESPONSE as often as the host likes, with any values of Le: the host gets the object.
    No storage errors; the PIN verified for the three protected objects. *)
Theorem C31_get_data : forall K d tag p obj x xs le les,
  object_file tag = Some p -> fdata (d_fs d) p = Some obj -> obj <> [] ->
  (In tag [0x09; 0x03; 0x08] -> v_pin (d_ram d) = true) ->
  quiet x (get_data tag le) -> Forall2 is_response xs les -> Forall (fun le => 0 <= le) (le :: les) ->
  exists d', answers_to K d (x :: xs) = Some (pieces obj (le :: les), d') /\ d_fs d' = d_fs d /\
    concat (map r_data (pieces obj (le :: les))) = firstn (Z.to_nat (fold_right Z.add 0 (le :: les))) obj.
Proof.
  intros K d tag p obj x xs le les Ho HD HD0 Hpin Hq Hl Hle. inversion Hle; subst.
  assert (Hc : concat (map r_data (pieces obj (le :: les))) = firstn (Z.to_nat (fold_right Z.add 0 (le :: les))) obj) by (apply pieces_all; assumption).
  destruct (get_step K d x tag le p obj Hq Ho) as (s' & E & Hs'); auto.
  cbn [answers_to pieces] in *. rewrite E. cbn [pieces hd] in *.
  destruct (Nat.eqb_spec (length (skipn (Z.to_nat le) obj)) 0) as [E0|E0].
  - destruct (none_rest K xs (mkD s' (d_fs d)) les Hl Hs') as (d' & -> & Ed). exists d'. auto.
  - destruct Hs' as [S1 S2]. rewrite skipn_length in E0.
    destruct (responses K xs (mkD s' (d_fs d)) les obj le p) as (d' & -> & Ed); auto; try (unfold zlen; lia).
    { intros ->. clear - Ho. revert Ho. unfold object_file. destruct tag as [|q|q]; try discriminate. repeat (destruct q as [q|q|]; try discriminate). }
    exists d'. auto.
Qed.
Print Assumptions C31_get_data.

Example C31_ex : exists tr d, since_boot toy tr d /\ fdata (d_fs d) "piv-ccc" <> None /\
  option_map (fun rs => map (fun r => (zlen (r_data r), r_sw r)) (fst rs)) (answers_to toy d
    [plain (get_data 0x07 20); plain (get_response 0 0 [] 30); plain (get_response 0 0 [] 30); plain (get_response 0 0 [] 30)]) = Some [(20, 0x6121); (30, 0x6103); (3, 0x9000); (0, 0x6985)].
Proof.
  exists [], (boot fs_empty [] []). split; [exists fs_empty, [], []; constructor|]. split; [vm_compute; discriminate|]. vm_compute. reflexivity.
Qed.

(** ** C32: writing *)
(** the greatest sizes of the objects *)
Definition capacity (tag : Z) : Z :=
  match tag with
  | 0x05 | 0x0A | 0x0B | 0x01 | 0x0D | 0x0E => 3000 | 0x02 => 2916 | 0x07 => 287 | 0x09 => 245 | 0x03 | 0x08 => 512 | _ => 0
  end.
Lemma capacity_eq tag : get_capacity_by_tag tag = capacity tag.
Proof.
  unfold get_capacity_by_tag, capacity.
  repeat match goal with |- context [tag =? ?n] => destruct (Z.eqb_spec tag n) as [->|]; [reflexivity|] end.
  destruct tag as [|p|p]; try reflexivity. repeat (destruct p as [p|p|]; try reflexivity; try contradiction).
Qed.
(** PUT DATA: the last block of a chain, or another one *)
Definition put_block (x : cmd) (last : bool) (d : bytes) : Prop :=
  c_ins (x_apdu x) = 0xDB /\ c_cla (x_apdu x) = (if last then 0 else 0x10) /\ c_data (x_apdu x) = d.
Fixpoint put_blocks (xs : list cmd) (bs : list bytes) : Prop :=
  match xs, bs with
  | [x], [b] => put_block x true b
  | x :: xs, b :: bs => put_block x false b /\ put_blocks xs bs
  | _, _ => False
  end.
Lemma put_blocks_inv x xs b bs : put_blocks (x :: xs) (b :: bs) ->
  put_block x (match xs with [] => true | _ => false end) b /\ (xs = [] -> bs = []) /\ (xs <> [] -> put_blocks xs bs).
Proof.
  destruct xs as [|x2 xs].
  - destruct bs; cbn; intros H; [split; [exact H|split; [reflexivity|intros W; contradiction]]|]. destruct H as [_ []].
  - intros [H1 H2]. split; [exact H1|]. split; [discriminate|]. intros _. exact H2.
Qed.
(** No chain of PUT DATA commands is open *)
Definition no_put_open (d : dev) : Prop := v_write (d_ram d) = -1.
(** The storage differs in the contents of one file only. *)
Definition stores (F : fs) (p : path) (obj : bytes) (F' : fs) : Prop := fdata F' p = Some obj /\ forall q, q <> p -> F' q = F q.

Section Write.
Variable K : crypto.

Lemma wp_append {S} p d (Q : out bool -> S -> env -> Prop) (s : S) F L X R T O f : F p = Some f ->
  (forall L' X', (X = [] -> X' = []) -> Q (Ret true) s (mkE (fset F p (Some (mkF (f_data f ++ d) (f_attr f)))) L' X' R T O)) ->
  (X <> [] -> forall X', Q (Ret false) s (mkE F L X' R T O)) ->
  wp (append_file p d) Q s (mkE F L X R T O).
Proof.
  intros Hf H1 H2. unfold wp, append_file, pop_fault, commit in *. cbn.
  destruct X as [|[] X]; cbn; rewrite ?Hf; cbn; rewrite ?Hf; first [apply H1; (discriminate || auto) | apply H2; discriminate].
Qed.

Lemma nth_hdr (l : bytes) : 5 <= zlen l -> l = [nth 0 l 0; nth 1 l 0; nth 2 l 0; nth 3 l 0; nth 4 l 0] ++ drop 5 l.
Proof. unfold drop, zlen. intros H. do 5 (destruct l as [|? l]; [cbn in H; lia|]). reflexivity. Qed.

Definition hdr (tag : Z) : bytes := [0x5C; 3; 0x5F; 0xC1; tag].
Lemma put_first d x last dat : put_block x last dat -> no_put_open d ->
  let '(r, s', e') := exec K d x in
  exists w, r = Some (mkR [] w) /\
  (w = 0x9000 -> v_admin (d_ram d) = true /\ exists tag p b, object_file tag = Some p /\ dat = hdr tag ++ b /\ zlen b <= capacity tag /\
     stores (d_fs d) p b (e_fs e') /\ v_admin s' = true /\
     if negb last && (zlen b <? capacity tag) then v_write s' = capacity tag - zlen b /\ v_path s' = p else v_write s' = -1) /\
  (x_flt x = [] -> v_admin (d_ram d) = true -> c_p1 (x_apdu x) = 0x3F -> c_p2 (x_apdu x) = 0xFF ->
   forall tag p b, object_file tag = Some p -> dat = hdr tag ++ b -> zlen b <= capacity tag -> w = 0x9000).
Proof.
  intros (Hi & Hc & Hd) Hw. apply exec_wp. unfold piv_body. rewrite Hi, Hc, <- Hd. clear Hd.
  assert (((if last then 0 else 0x10) =? 0) || (((if last then 0 else 0x10) =? 0x10) && (0xDB =? 0xDB)) = true) as -> by (destruct last; reflexivity).
  unfold start. apply wp_bind, wp_guard; [intros _|discriminate]. cbn [Z.eqb Pos.eqb]. apply wp_bind, wp_ret, wp_bind, wp_modify. unfold piv_put_data, admin_only.
  apply wp_bind, wp_bind, wp_get, wp_guard; cbn [v_admin set_read]; intros Ha.
  2: { eexists. split; [reflexivity|]. split; [discriminate|]. intros _ W. exfalso; congruence. }
  apply wp_bind, wp_guard; intros Hp.
  2: { eexists. split; [reflexivity|]. split; [discriminate|]. intros _ _ W1 W2. exfalso. lia. }
  apply wp_bind, wp_get. cbn [v_write set_read]. cbv zeta. unfold no_put_open in Hw. rewrite Hw. cbn [Z.eqb].
  apply wp_bind, wp_guard; intros Hl.
  2: { eexists. split; [reflexivity|]. split; [discriminate|]. intros _ _ _ _ tag p b _ W. exfalso. unfold c_lc in *. rewrite W in Hl. unfold hdr in Hl. rewrite zlen_app in Hl. pose proof (zlen_nonneg b).
       change (zlen [0x5C; 3; 0x5F; 0xC1; tag]) with 5 in Hl. lia. }
  assert (Hl5 : 5 <= zlen (c_data (x_apdu x))) by (unfold c_lc in Hl; lia).
  apply wp_bind, wp_guard; intros Ht.
  2: { eexists. split; [reflexivity|]. split; [discriminate|]. intros _ _ _ _ tag p b _ W. exfalso. rewrite W in Ht. cbn in Ht. lia. }
  apply wp_bind, wp_guard; intros Ht1.
  2: { eexists. split; [reflexivity|]. split; [discriminate|]. intros _ _ _ _ tag p b _ W. exfalso. rewrite W in Ht1. cbn in Ht1. lia. }
  pose proof (nth_hdr _ Hl5) as Hd. set (tag := nth 4 (c_data (x_apdu x)) 0) in *.
  replace (nth 0 (c_data (x_apdu x)) 0) with 0x5C in Hd by lia. replace (nth 1 (c_data (x_apdu x)) 0) with 3 in Hd by lia.
  replace (nth 2 (c_data (x_apdu x)) 0) with 0x5F in Hd by lia. replace (nth 3 (c_data (x_apdu x)) 0) with 0xC1 in Hd by lia.
  fold (hdr tag) in Hd. set (b := drop 5 (c_data (x_apdu x))) in *.
  assert (Hlc : c_lc (x_apdu x) - 5 = zlen b) by (unfold c_lc; rewrite Hd, zlen_app; change (zlen (hdr tag)) with 5; lia).
  rewrite Hlc, capacity_eq, object_file_eq.
  destruct (object_file tag) as [p|] eqn:Ho.
  2: { apply wp_except. eexists. split; [reflexivity|]. split; [discriminate|]. intros _ _ _ _ tag' p b' W1 W2. exfalso.
       rewrite W2 in Hd. unfold hdr in Hd. cbn in Hd. injection Hd as W _. congruence. }
  apply wp_bind, wp_guard; intros Hm.
  2: { eexists. split; [reflexivity|]. split; [discriminate|]. intros _ _ _ _ tag' p' b' W1 W2 W3. exfalso.
       rewrite W2 in Hd. unfold hdr in Hd. cbn in Hd. injection Hd as W4 W5. rewrite W4, W5 in W3. lia. }
  unfold must. apply wp_bind, wp_bind. apply wp_write_file.
  2, 3: intros HX X'; apply wp_fail; eexists; split; [reflexivity|]; split; [discriminate|]; intros W; congruence.
  intros X' HX. apply wp_ret. set (F' := fwrite _ _ _ _ _).
  assert (HF : stores (d_fs d) p b F') by (split; [apply fdata_fwrite_trunc|intros q Hq; apply fwrite_other; exact Hq]).
  assert (Hcl : Z.testbit (if last then 0 else 16) 4 = negb last) by (destruct last; reflexivity). rewrite Hc, Hcl.
  assert (Hend : zlen b <= capacity tag) by lia.
  destruct (negb last && (zlen b <? capacity tag)) eqn:El; apply wp_bind; [apply wp_modify|apply wp_ret]; apply wp_ret;
    (eexists; split; [reflexivity|]; split; [|reflexivity]; intros _; split; [exact Ha|]; exists tag, p, b; repeat (split; [eassumption|]); rewrite El; cbn; auto).
Qed.

Lemma put_next d x last dat p f : put_block x last dat -> v_path (d_ram d) = p -> p <> "" -> d_fs d p = Some f -> 0 <= v_write (d_ram d) ->
  let '(r, s', e') := exec K d x in
  exists w, r = Some (mkR [] w) /\
  (w = 0x9000 -> v_admin (d_ram d) = true /\ zlen dat <= v_write (d_ram d) /\
     stores (d_fs d) p (f_data f ++ dat) (e_fs e') /\ v_admin s' = true /\
     if last then v_write s' = -1 else v_write s' = v_write (d_ram d) - zlen dat /\ v_path s' = p) /\
  (x_flt x = [] -> v_admin (d_ram d) = true -> c_p1 (x_apdu x) = 0x3F -> c_p2 (x_apdu x) = 0xFF -> zlen dat <= v_write (d_ram d) -> w = 0x9000).
Proof.
  intros (Hi & Hc & Hd) Hpa Hne Hf Hw. apply exec_wp. unfold piv_body. rewrite Hi, Hc, <- Hd. clear Hd.
  assert (((if last then 0 else 0x10) =? 0) || (((if last then 0 else 0x10) =? 0x10) && (0xDB =? 0xDB)) = true) as -> by (destruct last; reflexivity).
  unfold start. apply wp_bind, wp_guard; [intros _|discriminate]. cbn [Z.eqb Pos.eqb]. apply wp_bind, wp_ret, wp_bind, wp_modify. unfold piv_put_data, admin_only.
  apply wp_bind, wp_bind, wp_get, wp_guard; cbn [v_admin set_read]; intros Ha.
  2: { eexists. split; [reflexivity|]. split; [discriminate|]. intros _ W. exfalso; congruence. }
  apply wp_bind, wp_guard; intros Hp.
  2: { eexists. split; [reflexivity|]. split; [discriminate|]. intros _ _ W1 W2. exfalso. lia. }
  apply wp_bind, wp_get. cbn [v_write set_read v_path]. cbv zeta. replace (v_write (d_ram d) =? -1) with false by lia.
  rewrite Hpa. destruct (String.eqb_spec p ""); [contradiction|]. unfold c_lc.
  destruct (zlen (c_data (x_apdu x)) >? v_write (d_ram d)) eqn:El.
  { apply wp_bind, wp_modify, wp_except. eexists. split; [reflexivity|]. split; [discriminate|]. intros. lia. }
  apply wp_bind, wp_modify. unfold must. apply wp_bind, wp_bind. eapply wp_append; [exact Hf| |].
  2: intros HX X'; apply wp_fail; eexists; split; [reflexivity|]; split; [discriminate|]; intros W; congruence.
  intros L' X' _. apply wp_ret.
  assert (HF : stores (d_fs d) p (f_data f ++ c_data (x_apdu x)) (fset (d_fs d) p (Some (mkF (f_data f ++ c_data (x_apdu x)) (f_attr f))))).
  { split; [unfold fdata; rewrite fset_same; reflexivity|intros q Hq; apply fset_other; exact Hq]. }
  assert (Hcl : Z.testbit (if last then 0 else 16) 4 = negb last) by (destruct last; reflexivity). rewrite Hc, Hcl.
  assert (Hend : zlen (c_data (x_apdu x)) <= v_write (d_ram d)) by lia.
  destruct last; cbn [negb]; apply wp_bind; [apply wp_modify|apply wp_ret]; apply wp_ret;
    (eexists; split; [reflexivity|]; split; [|reflexivity]; intros _; split; [exact Ha|]; repeat (split; [eassumption|]); cbn; auto).
Qed.

Definition all_ok (rs : list rapdu) : Prop := Forall (fun r => r_sw r = 0x9000) rs.

Lemma put_rest xs : forall d bs p f n rs d', put_blocks xs bs -> v_path (d_ram d) = p -> p <> "" -> d_fs d p = Some f -> 0 <= v_write (d_ram d) ->
  v_write (d_ram d) = n -> answers_to K d xs = Some (rs, d') -> all_ok rs ->
  stores (d_fs d) p (f_data f ++ concat bs) (d_fs d') /\ no_put_open d' /\ zlen (concat bs) <= n /\ v_admin (d_ram d) = true.
Proof.
  induction xs as [|x xs IH]; intros d bs p f n rs d' Hb Hp Hne Hf Hw Hn Ha Hok; [contradiction|].
  destruct bs as [|b bs]; [destruct xs; contradiction|].
  destruct (put_blocks_inv _ _ _ _ Hb) as (Hx & Hx1 & Hx2).
  cbn [answers_to step] in Ha. pose proof (put_next d x _ b p f Hx Hp Hne Hf Hw) as P.
  destruct (exec K d x) as [[r s'] e']. destruct P as (w & -> & P1 & _).
  destruct (answers_to K {| d_ram := s'; d_fs := e_fs e' |} xs) as [[rs' d'']|] eqn:E; [|discriminate]. injection Ha as <- <-.
  inversion Hok as [|? ? Hw9 Hok']; subst. cbn [r_sw] in Hw9. destruct (P1 Hw9) as (A1 & A2 & [A3 A3'] & A4 & A5). clear P1.
  destruct xs as [|x2 xs].
  - rewrite (Hx1 eq_refl). cbn [concat]. rewrite app_nil_r. cbn in E. injection E as <- <-.
    repeat split; auto.
  - destruct A5 as [A5 A6]. unfold fdata in A3. cbn [d_fs] in *. destruct (e_fs e' _) as [f'|] eqn:Ef; [|discriminate]. injection A3 as A3.
    assert (Hlen : 0 <= v_write s') by lia.
    destruct (IH (mkD s' (e_fs e')) bs (v_path (d_ram d)) f' _ rs' d'' (Hx2 ltac:(discriminate)) A6 Hne Ef Hlen eq_refl E Hok') as ([B1 B1'] & B2 & B3 & B4).
    cbn [concat d_ram d_fs] in *. rewrite zlen_app, app_assoc, <- A3.
    repeat split; auto; try lia. intros q Hq. rewrite B1', A3' by assumption. reflexivity.
Qed.

Lemma put_rest_ok xs : forall d bs p f n, put_blocks xs bs -> v_path (d_ram d) = p -> p <> "" -> d_fs d p = Some f ->
  v_write (d_ram d) = n -> zlen (concat bs) <= n -> v_admin (d_ram d) = true ->
  Forall (fun x => x_flt x = [] /\ c_p1 (x_apdu x) = 0x3F /\ c_p2 (x_apdu x) = 0xFF) xs ->
  exists rs d', answers_to K d xs = Some (rs, d') /\ all_ok rs.
Proof.
  induction xs as [|x xs IH]; intros d bs p f n Hb Hp Hne Hf Hn Hz Ha Hx0; [contradiction|].
  destruct bs as [|b bs]; [destruct xs; contradiction|]. inversion Hx0 as [|? ? (Q1 & Q2 & Q3) Hx0']; subst.
  destruct (put_blocks_inv _ _ _ _ Hb) as (Hx & Hx1 & Hx2). cbn [concat] in Hz. rewrite zlen_app in Hz. pose proof (zlen_nonneg b). pose proof (zlen_nonneg (concat bs)).
  cbn [answers_to step]. pose proof (put_next d x _ b _ f Hx eq_refl Hne Hf ltac:(lia)) as P.
  destruct (exec K d x) as [[r s'] e']. destruct P as (w & -> & P1 & P2). specialize (P2 Q1 Ha Q2 Q3 ltac:(lia)).
  destruct (P1 P2) as (A1 & A2 & [A3 A3'] & A4 & A5). clear P1.
  destruct xs as [|x2 xs].
  - cbn. do 2 eexists. split; [reflexivity|]. constructor; [assumption|constructor].
  - destruct A5 as [A5 A6]. unfold fdata in A3. cbn [d_fs] in *. destruct (e_fs e' _) as [f'|] eqn:Ef; [|discriminate].
    destruct (IH (mkD s' (e_fs e')) bs (v_path (d_ram d)) f' _ (Hx2 ltac:(discriminate)) A6 Hne Ef eq_refl ltac:(cbn; lia) A4 Hx0') as (rs & d' & -> & B).
    do 2 eexists. split; [reflexivity|]. constructor; assumption.
Qed.
End Write.

Lemma object_file_ne tag p : object_file tag = Some p -> p <> "".
Proof. intros Ho ->. revert Ho. unfold object_file. destruct tag as [|q|q]; try discriminate. repeat (destruct q as [q|q|]; try discriminate). Qed.

(** A chain of PUT DATA blocks, all answered 9000 (whatever storage errors happen): the object named in the first block holds what was
    sent, and no other file is touched.  The management key is needed for it.
    Missing: a first block that already fills the object and is not the last (see [C32_put_data_refuted]). *)
Theorem C32_put_data_partial : forall K d x xs tag b bs rs d',
  no_put_open d -> put_blocks (x :: xs) ((hdr tag ++ b) :: bs) -> (xs <> [] -> zlen b < capacity tag) ->
  answers_to K d (x :: xs) = Some (rs, d') -> all_ok rs ->
  exists p, object_file tag = Some p /\ stores (d_fs d) p (b ++ concat bs) (d_fs d') /\ zlen (b ++ concat bs) <= capacity tag /\
    no_put_open d' /\ v_admin (d_ram d) = true.
Proof.
  intros K d x xs tag b bs rs d' Hno Hb Hcap Ha Hok.
  destruct (put_blocks_inv _ _ _ _ Hb) as (Hx & Hx1 & Hx2). cbn [answers_to step] in Ha.
  pose proof (put_first K d x _ _ Hx Hno) as P.
  destruct (exec K d x) as [[r s'] e']. destruct P as (w & -> & P1 & _).
  destruct (answers_to K {| d_ram := s'; d_fs := e_fs e' |} xs) as [[rs' d'']|] eqn:E; [|discriminate]. injection Ha as <- <-.
  inversion Hok as [|? ? Hw9 Hok']; subst. cbn [r_sw] in Hw9. destruct (P1 Hw9) as (A1 & tag' & p & b' & A2 & A3 & A4 & [A5 A5'] & A6 & A7). clear P1.
  unfold hdr in A3. cbn in A3. injection A3 as <- <-. exists p. split; [assumption|].
  destruct xs as [|x2 xs].
  - rewrite (Hx1 eq_refl). cbn [concat]. rewrite app_nil_r. cbn in E. injection E as <- <-. repeat split; auto.
  - specialize (Hcap ltac:(discriminate)). replace (zlen b <? capacity tag) with true in A7 by lia. cbn [negb andb] in A7. destruct A7 as [A7 A8].
    unfold fdata in A5. destruct (e_fs e' p) as [f'|] eqn:Ef; [|discriminate]. injection A5 as A5.
    destruct (put_rest K (x2 :: xs) (mkD s' (e_fs e')) bs p f' _ rs' d'' (Hx2 ltac:(discriminate)) A8 (object_file_ne _ _ A2) Ef ltac:(cbn; lia) eq_refl E Hok')
      as ([B1 B1'] & B2 & B3 & B4).
    cbn [d_ram d_fs] in *. rewrite zlen_app, <- A5 in *. repeat split; auto; try lia. intros q Hq. rewrite B1', A5' by assumption. reflexivity.
Qed.
Print Assumptions C32_put_data_partial.

(** With the management key, without storage errors, every object that fits is accepted, cut into blocks in any way
    (the same exception). *)
Theorem C32_put_data_accepted_partial : forall K d x xs tag p b bs,
  no_put_open d -> v_admin (d_ram d) = true -> put_blocks (x :: xs) ((hdr tag ++ b) :: bs) -> (xs <> [] -> zlen b < capacity tag) ->
  Forall (fun x => x_flt x = [] /\ c_p1 (x_apdu x) = 0x3F /\ c_p2 (x_apdu x) = 0xFF) (x :: xs) ->
  object_file tag = Some p -> zlen (b ++ concat bs) <= capacity tag ->
  exists rs d', answers_to K d (x :: xs) = Some (rs, d') /\ all_ok rs.
Proof.
  intros K d x xs tag p b bs Hno Hadm Hb Hcap Hx0 Ho Hz. inversion Hx0 as [|? ? (Q1 & Q2 & Q3) Hx0']; subst.
  destruct (put_blocks_inv _ _ _ _ Hb) as (Hx & Hx1 & Hx2). cbn [answers_to step]. rewrite zlen_app in Hz. pose proof (zlen_nonneg (concat bs)).
  pose proof (put_first K d x _ _ Hx Hno) as P.
  destruct (exec K d x) as [[r s'] e']. destruct P as (w & -> & P1 & P2). specialize (P2 Q1 Hadm Q2 Q3 tag p b Ho eq_refl ltac:(lia)).
  destruct (P1 P2) as (A1 & tag' & p' & b' & A2 & A3 & A4 & [A5 A5'] & A6 & A7). clear P1.
  unfold hdr in A3. cbn in A3. injection A3 as <- <-. assert (p' = p) as -> by congruence.
  destruct xs as [|x2 xs].
  - cbn. do 2 eexists. split; [reflexivity|]. constructor; [assumption|constructor].
  - specialize (Hcap ltac:(discriminate)). replace (zlen b <? capacity tag) with true in A7 by lia. cbn [negb andb] in A7. destruct A7 as [A7 A8].
    unfold fdata in A5. destruct (e_fs e' p) as [f'|] eqn:Ef; [|discriminate].
    destruct (put_rest_ok K (x2 :: xs) (mkD s' (e_fs e')) bs p f' _ (Hx2 ltac:(discriminate)) A8 (object_file_ne _ _ A2) Ef eq_refl ltac:(cbn; lia) A6 Hx0') as (rs & d' & -> & B).
    do 2 eexists. split; [reflexivity|]. constructor; assumption.
Qed.
Print Assumptions C32_put_data_accepted_partial.

(** A chain is open only between PUT DATA commands: any other command (understood by the applet) ends it, whatever its result,
    so that the next PUT DATA starts a new object. *)
Theorem C32_new_chain : forall K d x r d', step K d (Do x) = Some (r, d') -> c_cla (x_apdu x) = 0 -> c_ins (x_apdu x) <> 0xDB -> no_put_open d'.
Proof.
  intros K d x r d' Hs Hc Hi. cbn [step] in Hs.
  assert (P : let '(r, s', e') := exec K d x in v_write s' = -1).
  { apply exec_wp. unfold piv_body. apply wp_bind, wp_guard; [intros _|rewrite Hc; discriminate].
    replace (c_ins (x_apdu x) =? 0xDB) with false by lia.
    apply wp_bind, wp_modify. apply wp_bind.
    assert (E : forall X (Q : out unit -> piv -> env -> Prop) s e, v_write s = -1 -> (forall s', v_write s' = -1 -> Q (Ret tt) s' e) ->
              wp (if c_ins (x_apdu x) =? X then ret tt else modify (set_read (-1))) Q s e).
    { intros X Q s e Hw HQ. destruct (_ =? X); [apply wp_ret|apply wp_modify]; apply HQ; assumption. }
    apply E; [reflexivity|]. clear E. intros s' Hs'.
    apply (wp_mono _ (fun _ s1 _ => v_write s1 = -1)); [|intros o s1 e1 W; destruct o; exact W].
    assert (F : forall A (m : M piv A), frame (fun s => v_write s = -1) (fun _ => True) m -> forall e, wp m (fun _ s1 _ => v_write s1 = -1) s' e)
      by (intros A m Hm e; apply fr_any; assumption).
    apply F. clear F. pose proof anyfs as A. set (c := x_apdu x) in *.
    destruct (c_ins c =? 0xA4); [unfold piv_select; fr A; apply fr_modify; intros ? ?; reflexivity|].
    destruct (c_ins c =? 0xCB); [unfold piv_get_data, piv_get_large_data; piv_unfold; fr A|].
    destruct (c_ins c =? 0xC0); [unfold piv_get_data_response; piv_unfold; fr A|].
    destruct (c_ins c =? 0x20); [unfold piv_verify; piv_unfold; fr A|].
    destruct (c_ins c =? 0x24); [unfold piv_change_reference_data; piv_unfold; destruct (c_p2 c =? 0x80); fr A|].
    destruct (c_ins c =? 0x2C); [unfold piv_reset_retry_counter; piv_unfold; fr A|].
    destruct (c_ins c =? 0x87).
    { unfold piv_general_authenticate, ga_internal, ga_external_request, ga_external_response, ga_mutual_request, ga_mutual_response, ga_ecdh,
        piv_security_status_check, piv_touch; piv_unfold. cbv zeta. repeat first [frame1 | apply fr_modify; first [exact (fun _ H => H)|intros ? ?; reflexivity]]. }
    destruct (c_ins c =? 0x47); [unfold piv_generate, admin_only; piv_unfold; fr A|].
    destruct (c_ins c =? 0xFF); [unfold piv_set_management_key, admin_only; piv_unfold; fr A|].
    destruct (c_ins c =? 0xFB).
    { unfold piv_reset; piv_unfold. repeat first [apply fr_ignore, fr_install_tail; [exact A|reflexivity|exact (fun _ _ H => H)] | frame1 | apply fr_modify; first [exact (fun _ H => H)|intros ? ?; reflexivity]]. }
    destruct (c_ins c =? 0xFE); [unfold piv_import, admin_only; piv_unfold; fr A|].
    destruct (c_ins c =? 0xFD); [unfold piv_get_version; piv_unfold; fr A|].
    destruct (c_ins c =? 0xF8); [unfold piv_get_serial; piv_unfold; fr A|].
    destruct (c_ins c =? 0xF7); [unfold piv_get_metadata; piv_unfold; fr A|].
    destruct (c_ins c =? 0xEE); [unfold piv_algorithm_extension, admin_only; piv_unfold; fr A|].
    apply fr_except. }
  destruct (exec K d x) as [[[r'|] s'] e']; [|discriminate]. injection Hs as <- <-. exact P.
Qed.
Print Assumptions C32_new_chain.

(** An object sent in three blocks *)
Definition put_cmd (cla : Z) (d : bytes) : cmd := plain (mkC cla 0xDB 0x3F 0xFF d 256).
Definition ex_chain : list cmd := [put_cmd 0x10 (hdr 0x05 ++ repeat 0x11 40); put_cmd 0x10 (repeat 0x22 40); put_cmd 0 (repeat 0x33 7)].
Example C32_ex : exists tr d, since_boot toy tr d /\ no_put_open d /\
  put_blocks ex_chain [hdr 0x05 ++ repeat 0x11 40; repeat 0x22 40; repeat 0x33 7] /\ zlen (repeat 0x11 40) < capacity 0x05 /\
  option_map (fun rs => (map r_sw (fst rs), fdata (d_fs (snd rs)) "piv-pauc")) (answers_to toy d ex_chain) =
  Some ([0x9000; 0x9000; 0x9000], Some (repeat 0x11 40 ++ repeat 0x22 40 ++ repeat 0x33 7)).
Proof.
  destruct (sees_ran (run_all toy (boot fs_empty [] []) ex_external)
    (fun _ d => (v_write (d_ram d), option_map (fun rs => (map r_sw (fst rs), fdata (d_fs (snd rs)) "piv-pauc")) (answers_to toy d ex_chain)))
    (-1, Some ([0x9000; 0x9000; 0x9000], Some (repeat 0x11 40 ++ repeat 0x22 40 ++ repeat 0x33 7)))) as (tr & d & E & H); [vm_compute; reflexivity|].
  exists tr, d. split; [eapply run_all_since; [|exact E]; bytes_ok|]. clear E. apply pair_equal_spec in H. destruct H as [H1 H2].
  split; [exact H1|]. split; [|split; [reflexivity|exact H2]]. repeat split.
Qed.

(** The exception: a first block that fills the object and asks for more is stored, but the card does not expect a continuation.  The next
    block is taken for a new PUT DATA: here every block is answered 9000, but the bytes of the second went into another object. *)
Theorem C32_put_data_refuted : exists tr d x xs b bs rs d',
  since_boot toy tr d /\ no_put_open d /\ put_blocks (x :: xs) ((hdr 0x07 ++ b) :: bs) /\ answers_to toy d (x :: xs) = Some (rs, d') /\ all_ok rs /\
  fdata (d_fs d') "piv-ccc" <> Some (b ++ concat bs) /\ fdata (d_fs d') "piv-pauc" <> fdata (d_fs d) "piv-pauc".
Proof.
  set (x := put_cmd 0x10 (hdr 0x07 ++ repeat 0x11 287)). set (x2 := put_cmd 0 (hdr 0x05 ++ [0x53; 0])).
  destruct (sees_ran (run_all toy (boot fs_empty [] []) ex_external)
    (fun _ d => (v_write (d_ram d), fdata (d_fs d) "piv-pauc",
       option_map (fun rs => (map r_sw (fst rs), fdata (d_fs (snd rs)) "piv-ccc", fdata (d_fs (snd rs)) "piv-pauc")) (answers_to toy d [x; x2])))
    (-1, Some [], Some ([0x9000; 0x9000], Some (repeat 0x11 287), Some [0x53; 0]))) as (tr & d & E & H); [vm_compute; reflexivity|].
  apply pair_equal_spec in H. destruct H as [H1 H2]. apply pair_equal_spec in H1. destruct H1 as [H1 H3].
  assert (Ha : exists rs d', answers_to toy d [x; x2] = Some (rs, d')).
  { destruct (answers_to toy d [x; x2]) as [[rs d']|]; [eauto|discriminate H2]. }
  destruct Ha as (rs & d' & Ha). rewrite Ha in H2. cbn [option_map fst snd] in H2.
  apply (f_equal (fun o => match o with Some a => a | None => ([], None, None) end)) in H2. cbv beta iota in H2.
  apply pair_equal_spec in H2. destruct H2 as [H2 H5]. apply pair_equal_spec in H2. destruct H2 as [H2 H4].
  exists tr, d, x, [x2], (repeat 0x11 287), [hdr 0x05 ++ [0x53; 0]], rs, d'.
  split; [eapply run_all_since; [|exact E]; bytes_ok|]. clear E. split; [exact H1|]. split; [repeat split|]. split; [exact Ha|].
  split. { clear - H2. destruct rs as [|r1 [|r2 [|]]]; try discriminate. injection H2 as A B. repeat constructor; assumption. }
  rewrite H4, H3, H5. split; [|discriminate]. intros W. apply (f_equal (fun o => match o with Some l => length l | None => O end)) in W. vm_compute in W. discriminate.
Qed.
Print Assumptions C32_put_data_refuted.
