(** C22, C72: the NDEF tag. *)
From Verif Require Import Sys Apdu Applet Ndef.
Open Scope string_scope. Open Scope list_scope. Open Scope Z_scope.

(** ** Device and histories *)
Record nd_dev := mkNdev { n_ram : ndef; n_fs : fs }.
(** A command of the tag ([buf]: what the response buffer holds before), the administrator's write protection
    command, the factory reset of the tag. *)
Inductive act := Apdu (c : capdu) (buf : bytes) | Protect (c : capdu) | Reset.
(** ... carried out while storage operations fail as [flt] says; or cut by a power loss after [n] storage updates from
    the last, followed by a boot; or the field is left. *)
Inductive event := Do (a : act) (flt : list fault) | Cut (a : act) (flt : list fault) (n : nat) | Off.

Definition getn (s : ndef) : ndef := s.
Definition setn (n s : ndef) : ndef := n.
Definition act_run (a : act) (flt : list fault) (d : nd_dev) : option rapdu * ndef * env :=
  match a with
  | Apdu c buf => run_apdu (ndef_body getn setn buf c) (n_ram d) (start (n_fs d) flt [] [])
  | Protect c => run_apdu (ndef_toggle_read_only getn setn c) (n_ram d) (start (n_fs d) flt [] [])
  | Reset => run_apdu (ok <- ndef_install getn setn true ;; if ok then ret SW_NO_ERROR else fail) (n_ram d) (start (n_fs d) flt [] [])
  end.
Definition nboot (F : fs) : nd_dev :=
  match ndef_install getn setn false ndef_boot (start F [] [] []) with (_, s, e) => mkNdev s (e_fs e) end.
Definition step (d : nd_dev) (ev : event) : option (option rapdu * nd_dev) :=
  match ev with
  | Do a flt => match act_run a flt d with (Some r, s, e) => Some (Some r, mkNdev s (e_fs e)) | _ => None end
  | Cut a flt n => let '(_, _, e) := act_run a flt d in Some (None, nboot (nth n (e_log e) (e_fs e)))
  | Off => Some (None, mkNdev (ndef_poweroff (n_ram d)) (n_fs d))
  end.
Inductive hist : nd_dev -> list (event * option rapdu) -> nd_dev -> Prop :=
| h_nil d : hist d [] d
| h_cons d ev o d1 tr d2 : step d ev = Some (o, d1) -> hist d1 tr d2 -> hist d ((ev, o) :: tr) d2.

(** What the layers below guarantee of a command: header bytes, Le clamped to the buffer *)
Definition cmd_ok (c : capdu) : Prop :=
  0 <= c_p1 c <= 255 /\ 0 <= c_p2 c <= 255 /\ 0 <= c_le c <= 1340 /\ all_bytes (c_data c).
Definition act_ok (a : act) : Prop :=
  match a with Apdu c buf => cmd_ok c /\ zlen buf = 1340 | Protect c => cmd_ok c | Reset => True end.
(** A factory reset is not cut by a power loss, nor disturbed by a storage error (see C72). *)
Definition ev_ok (ev : event) : Prop :=
  match ev with Do Reset flt => flt = [] | Cut Reset _ _ => False | Do a _ | Cut a _ _ => act_ok a | Off => True end.
Definition tr_ok (tr : list (event * option rapdu)) : Prop := Forall (fun x => ev_ok (fst x)) tr.
Definition reach (tr : list (event * option rapdu)) (d : nd_dev) : Prop := tr_ok tr /\ hist (nboot fs_empty) tr d.

(** ** The tag seen from outside *)
Definition contents (d : nd_dev) : bytes := match fdata (n_fs d) "NDEF" with Some m => m | None => [] end.
(** The file selected by the commands so far: 0 none, 1 capability container, 2 NDEF file *)
Definition next_sel (cur : Z) (x : event * option rapdu) : Z :=
  match x with
  | (Do (Apdu c _) _, Some r) =>
    if (c_ins c =? 0xA4) && (c_p1 c =? 0) && (r_sw r =? 0x9000) then
      match c_data c with 0xE1 :: 0x03 :: _ => 1 | 0 :: 1 :: _ => 2 | _ => cur end
    else cur
  | (Do (Protect _) _, _) => cur
  | _ => 0
  end.
Definition selected (tr : list (event * option rapdu)) : Z := fold_left next_sel tr 0.
(** The write protection set by the commands so far *)
Definition next_ro (cur : bool) (x : event * option rapdu) : bool :=
  match x with
  | (Do (Protect c) _, Some r) => if r_sw r =? 0x9000 then c_p1 c =? 1 else cur
  | (Do Reset _, _) => false
  | _ => cur
  end.
Definition protected (tr : list (event * option rapdu)) : bool := fold_left next_ro tr false.
(** The protection commands themselves met no storage error or power loss. *)
Definition calm (x : event * option rapdu) : Prop := match fst x with Do (Protect _) flt => flt = [] | Cut (Protect _) _ _ => False | _ => True end.
(** NFC Forum type 4 tag, capability container of this tag *)
Definition cc (ro : bool) : bytes :=
  [0x00; 0x0F; 0x20; 0x04; 0x00; 0x04; 0x00; 0x04; 0x06; 0x00; 0x01; 0x04; 0x00; 0x00; if ro then 0xFF else 0x00].
(** [d] written at offset [o] *)
Definition patch (m : bytes) (o : Z) (d : bytes) : bytes := firstn (Z.to_nat o) m ++ d ++ skipn (Z.to_nat o + length d) m.
Definition off_of (c : capdu) : Z := c_p1 c * 256 + c_p2 c.

(** ** Proofs *)
Definition tag (F : fs) (m : bytes) (ro : bool) : Prop :=
  fdata F NDEF_FILE = Some m /\ zlen m = 1024 /\ fdata F CC_FILE = Some (cc ro).
Definition inv (d : nd_dev) (m : bytes) (ro ro' : bool) : Prop := tag (n_fs d) m ro /\ nd_cc (n_ram d) = cc ro'.

Lemma zlen_cc ro : zlen (cc ro) = 15. Proof. reflexivity. Qed.
Lemma write_at_in c off d : 0 <= off -> off + zlen d <= zlen c -> write_at c off d = patch c off d.
Proof.
  intros H1 H2. unfold write_at, patch. unfold zeros. replace (Z.to_nat (off - zlen c)) with 0%nat by (pose proof (zlen_nonneg d); lia).
  cbn [repeat]. rewrite app_nil_r. reflexivity.
Qed.
Lemma zlen_patch c off d : 0 <= off -> off + zlen d <= zlen c -> zlen (patch c off d) = zlen c.
Proof. intros H1 H2. unfold patch, zlen in *. rewrite !app_length, firstn_length, skipn_length. lia. Qed.
Lemma patch_nil c off : patch c off [] = c.
Proof. unfold patch. cbn [length app]. rewrite Nat.add_0_r. apply firstn_skipn. Qed.

Lemma fwrite_data F p d off tr c : fdata F p = Some c -> fdata (fwrite F p d off tr) p = Some (if (length d =? 0)%nat then (if tr then [] else c) else write_at (if tr then [] else c) off d).
Proof. unfold fdata, fwrite, fcreate. destruct (F p) as [f|] eqn:E; [|discriminate]. intros H. injection H as <-. rewrite E, fset_same. reflexivity. Qed.
Lemma fwrite_other F p d off tr q : q <> p -> fwrite F p d off tr q = F q.
Proof.
  intros H. unfold fwrite, fcreate. destruct (F p) as [f|] eqn:E.
  - rewrite E. apply fset_other, H.
  - rewrite fset_same. rewrite !fset_other by assumption. reflexivity.
Qed.
Lemma lcreate_some F L p c : fdata F p = Some c -> lcreate F L p = L.
Proof. unfold fdata, lcreate. destruct (F p); [reflexivity|discriminate]. Qed.
Lemma fcreate_some F p c : fdata F p = Some c -> fcreate F p = F.
Proof. unfold fdata, fcreate. destruct (F p); [reflexivity|discriminate]. Qed.

(** The outcomes of a command on a tag with contents [m], selection and protection as in RAM. *)
Inductive nout (c : capdu) (flt : list fault) (d : nd_dev) (m : bytes) (ro ro' : bool) : rapdu -> ndef -> fs -> list fs -> Prop :=
| O_refused r : r_sw r <> 0x9000 -> r_data r = [] ->
    (c_ins c = 0xB0 -> flt = [] -> match nd_sel (n_ram d) with SelNone => True | SelCC => 15 < off_of c + c_le c | SelNDEF => 1024 < off_of c + c_le c end) ->
    (c_ins c = 0xD6 -> flt = [] -> nd_sel (n_ram d) = SelNDEF -> ro' = true \/ 1024 < off_of c + zlen (c_data c)) ->
    nout c flt d m ro ro' r (n_ram d) (n_fs d) [n_fs d]
| O_select r s : c_ins c = 0xA4 -> c_p1 c = 0 -> r = mkR [] 0x9000 -> nd_cc s = nd_cc (n_ram d) ->
    (exists l, c_data c = 0xE1 :: 0x03 :: l /\ nd_sel s = SelCC \/ c_data c = 0 :: 1 :: l /\ nd_sel s = SelNDEF) ->
    nout c flt d m ro ro' r s (n_fs d) [n_fs d]
| O_app : c_ins c = 0xA4 -> c_p1 c <> 0 -> nout c flt d m ro ro' (mkR [] 0x9000) (n_ram d) (n_fs d) [n_fs d]
| O_read_cc : c_ins c = 0xB0 -> nd_sel (n_ram d) = SelCC -> off_of c + c_le c <= 15 ->
    nout c flt d m ro ro' (mkR (slice (off_of c) (c_le c) (cc ro)) 0x9000) (n_ram d) (n_fs d) [n_fs d]
| O_read : c_ins c = 0xB0 -> nd_sel (n_ram d) = SelNDEF -> off_of c + c_le c <= 1024 ->
    nout c flt d m ro ro' (mkR (slice (off_of c) (c_le c) m) 0x9000) (n_ram d) (n_fs d) [n_fs d]
| O_update F' : c_ins c = 0xD6 -> nd_sel (n_ram d) = SelNDEF -> ro' = false -> off_of c + zlen (c_data c) <= 1024 ->
    fdata F' NDEF_FILE = Some (patch m (off_of c) (c_data c)) -> (forall p, p <> NDEF_FILE -> F' p = n_fs d p) ->
    nout c flt d m ro ro' (mkR [] 0x9000) (n_ram d) F' [F'; n_fs d].

Lemma read_full buf (off le : Z) (m : bytes) : 0 <= off -> 0 <= le -> off + le <= zlen m -> slice 0 le (overlay (slice off le m) buf) = slice off le m.
Proof.
  intros H1 H2 H3. assert (length (slice off le m) = Z.to_nat le) as Hl.
  { unfold slice, zlen in *. rewrite firstn_length, skipn_length. lia. }
  unfold overlay. unfold slice at 1. change (Z.to_nat 0) with 0%nat. cbn [skipn]. rewrite firstn_app, Hl, Nat.sub_diag. cbn [firstn]. rewrite app_nil_r.
  apply firstn_all2. lia.
Qed.

Lemma apdu_spec c buf flt d m ro ro' : inv d m ro ro' -> cmd_ok c ->
  match act_run (Apdu c buf) flt d with
  | (Some r, s, e) => nout c flt d m ro ro' r s (e_fs e) (e_log e)
  | _ => False
  end.
Proof.
  intros ((Hm & Hz & Hc) & Hr) (Hp1 & Hp2 & Hle & Hb). unfold act_run, run_apdu.
  cbn [e_fs e_log e_flt e_rnd e_tch start].
  assert (Ho : offset_of c = off_of c) by (unfold offset_of, u16, off_of; apply Z.mod_small; lia).
  assert (0 <= off_of c) as Hoff by (unfold off_of; lia).
  set (Q := fun (o : out Z) (s : ndef) (e : env) => match o with
     | Ret sw => nout c flt d m ro ro' (mkR (e_out e) sw) s (e_fs e) (e_log e)
     | Exc sw => nout c flt d m ro ro' (mkR (e_out e) sw) s (e_fs e) (e_log e)
     | Fail => nout c flt d m ro ro' (mkR (e_out e) SW_UNABLE_TO_PROCESS) s (e_fs e) (e_log e) | UB => False end).
  enough (wp (ndef_body getn setn buf c) Q (n_ram d) (mkE (n_fs d) [n_fs d] flt [] [] [])) as H.
  { unfold wp in H. destruct (ndef_body getn setn buf c _ _) as [[[sw|sw| |] s] e]; exact H. }
  unfold ndef_body.
  destruct (Z.eqb_spec (c_ins c) 0xA4) as [Ei|N1].
  { unfold ndef_select. destruct ((c_p1 c =? 4) && (c_p2 c =? 0)) eqn:E4.
    { apply wp_ret. apply O_app; [assumption|lia]. }
    assert (Href : forall sw, sw <> 0x9000 -> nout c flt d m ro ro' (mkR [] sw) (n_ram d) (n_fs d) [n_fs d]).
    { intros sw Hsw. apply O_refused; [exact Hsw|reflexivity|rewrite Ei; discriminate|rewrite Ei; discriminate]. }
    apply wp_bind, wp_guard; intros Eg; [|apply Href; discriminate].
    apply wp_bind, wp_guard; intros El; [|apply Href; discriminate].
    unfold c_lc in El. destruct (c_data c) as [|a [|b l]] eqn:Ed; [discriminate El..|].
    apply wp_bind, (wp_need _ _ _ _ a); [reflexivity|]. apply wp_bind, (wp_need _ _ _ _ b); [reflexivity|].
    destruct ((a =? 0xE1) && (b =? 3)) eqn:E1; [|destruct ((a =? 0) && (b =? 1)) eqn:E2].
    - apply wp_bind, wp_modify, wp_ret. apply O_select; [assumption|lia|reflexivity|reflexivity|]. exists l. left. split; [rewrite Ed; f_equal; [lia|f_equal; lia]|reflexivity].
    - apply wp_bind, wp_modify, wp_ret. apply O_select; [assumption|lia|reflexivity|reflexivity|]. exists l. right. split; [rewrite Ed; f_equal; [lia|f_equal; lia]|reflexivity].
    - apply wp_except. apply Href. discriminate. }
  destruct (Z.eqb_spec (c_ins c) 0xB0) as [Ei|N2].
  { unfold ndef_read_binary. rewrite Ho. unfold NDEF_FILE_MAX_LENGTH, CC_LENGTH.
    assert (Hrr : forall p x (Hx : fdata (n_fs d) p = Some x), off_of c + c_le c <= zlen x ->
      nout c flt d m ro ro' (mkR (slice (off_of c) (c_le c) x) 0x9000) (n_ram d) (n_fs d) [n_fs d] ->
      wp (read_range buf p (off_of c) (c_le c)) Q (n_ram d) (mkE (n_fs d) [n_fs d] flt [] [] [])).
    { intros p x Hx Hxl Hn. unfold read_range. apply wp_bind, wp_read_file. intros X' r H1 H2. unfold fread in H1, H2. unfold fdata in Hx.
      destruct (n_fs d p) as [f|]; [|discriminate]. injection Hx as Hx. destruct (Z.ltb_spec (off_of c) 0); [lia|]. rewrite Hx in H1, H2.
      destruct H2 as [-> | ->].
      - apply wp_fail. apply O_refused; [discriminate|reflexivity| |rewrite Ei; discriminate]. intros _ Hf. destruct (H1 Hf) as [_ H3]. discriminate H3.
      - apply wp_bind, wp_set_out, wp_ret. unfold Q. cbn [e_out e_fs e_log]. rewrite read_full by lia. exact Hn. }
    assert (Hcase : forall b sw, (b = false -> match nd_sel (n_ram d) with SelNone => True | SelCC => 15 < off_of c + c_le c | SelNDEF => 1024 < off_of c + c_le c end) ->
       sw <> 0x9000 -> b = false -> nout c flt d m ro ro' (mkR [] sw) (n_ram d) (n_fs d) [n_fs d]).
    { intros b sw H Hs Hbf. apply O_refused; [exact Hs|reflexivity|intros; apply H, Hbf|rewrite Ei; discriminate]. }
    apply wp_bind, wp_guard; intros E1; [|eapply Hcase; [|discriminate|exact E1]; intros; destruct (nd_sel (n_ram d)); [exact I|lia|lia]].
    apply wp_bind, wp_guard; intros E2; [|eapply Hcase; [|discriminate|exact E2]; intros; destruct (nd_sel (n_ram d)); [exact I|lia|lia]].
    apply wp_bind, wp_get. unfold getn at 1. destruct (nd_sel (n_ram d)) eqn:Es.
    - apply wp_except. apply (Hcase false); [auto|discriminate|reflexivity].
    - apply wp_bind, wp_guard; intros E3; [|apply (Hcase false); [intros; lia|discriminate|reflexivity]].
      apply (Hrr CC_FILE (cc ro) Hc); [rewrite zlen_cc; lia|]. apply O_read_cc; [assumption|assumption|lia].
    - apply wp_bind, wp_guard; intros E3; [|unfold cc_r, getn in E3; rewrite Hr in E3; discriminate E3].
      apply wp_bind, wp_guard; intros E4; [|apply (Hcase false); [intros; lia|discriminate|reflexivity]].
      apply (Hrr NDEF_FILE m Hm); [lia|]. apply O_read; [assumption|assumption|lia]. }
  destruct (Z.eqb_spec (c_ins c) 0xD6) as [Ei|N3].
  { unfold ndef_update. rewrite Ho. unfold NDEF_FILE_MAX_LENGTH, c_lc.
    assert (Hcase : forall sw, sw <> 0x9000 -> (flt = [] -> nd_sel (n_ram d) = SelNDEF -> ro' = true \/ 1024 < off_of c + zlen (c_data c)) -> nout c flt d m ro ro' (mkR [] sw) (n_ram d) (n_fs d) [n_fs d]).
    { intros sw Hs H. apply O_refused; [exact Hs|reflexivity|rewrite Ei; discriminate|intros _; exact H]. }
    pose proof (zlen_nonneg (c_data c)).
    apply wp_bind, wp_guard; intros E1; [|apply Hcase; [discriminate|]; intros; right; lia].
    apply wp_bind, wp_guard; intros E2; [|apply Hcase; [discriminate|]; intros; right; lia].
    apply wp_bind, wp_get. unfold getn at 1. destruct (nd_sel (n_ram d)) eqn:Es.
    - apply wp_except. apply Hcase; [discriminate|intros _ H1; discriminate H1].
    - apply wp_except. apply Hcase; [discriminate|intros _ H1; discriminate H1].
    - apply wp_bind, wp_guard; intros E3; unfold cc_w, getn in E3; rewrite Hr in E3.
      2: { apply Hcase; [discriminate|]. intros; left. destruct ro'; [reflexivity|discriminate E3]. }
      assert (ro' = false) as Hro by (destruct ro'; [discriminate E3|reflexivity]).
      apply wp_bind, wp_guard; intros E4; [|apply Hcase; [discriminate|]; intros; right; lia].
      apply wp_bind, wp_write_file.
      + intros X' _. apply wp_ret. unfold Q. cbn [e_out e_fs e_log]. rewrite (lcreate_some _ _ _ _ Hm). apply O_update; try assumption; try lia.
        * rewrite (fwrite_data _ _ _ _ _ _ Hm). f_equal. destruct (c_data c) as [|x l]; [symmetry; apply patch_nil|]. apply write_at_in; [assumption|lia].
        * intros p Hp. apply fwrite_other, Hp.
      + intros Hx X'. apply wp_fail. apply Hcase; [discriminate|]. intros; congruence.
      + intros Hx X'. apply wp_fail. unfold Q; cbn [e_out e_fs e_log]. rewrite (lcreate_some _ _ _ _ Hm), (fcreate_some _ _ _ Hm). apply Hcase; [discriminate|]. intros; congruence. }
  apply wp_except. apply O_refused; [discriminate|reflexivity|congruence|congruence].
Qed.

Lemma protect_spec c flt d m ro ro' : inv d m ro ro' ->
  match act_run (Protect c) flt d with
  | (Some r, s, e) => nd_sel s = nd_sel (n_ram d) /\ r_data r = [] /\ (forall p, p <> CC_FILE -> e_fs e p = n_fs d p) /\
      exists ro1 ro2, nd_cc s = cc ro2 /\ fdata (e_fs e) CC_FILE = Some (cc ro1) /\
        (e_log e = [n_fs d] /\ e_fs e = n_fs d /\ r_sw r <> 0x9000 \/ e_log e = [e_fs e; n_fs d]) /\
        (r_sw r = 0x9000 -> ro1 = ro2 /\ ro1 = (c_p1 c =? 1)) /\
        (flt = [] -> r_sw r <> 0x9000 -> ro1 = ro /\ ro2 = ro')
  | _ => False
  end.
Proof.
  intros ((Hm & Hz & Hc) & Hr). unfold act_run, run_apdu. cbn [e_fs e_log e_flt e_rnd e_tch start].
  assert (Hs : forall w, splice (cc ro') 14 [w] = firstn 14 (cc false) ++ [w]) by (intros; reflexivity).
  unfold ndef_toggle_read_only, bind, upd_n, modify, get, getn, setn, ret, except, fail.
  destruct (Z.eqb_spec (c_p1 c) 0) as [E0|N0]; [|destruct (Z.eqb_spec (c_p1 c) 1) as [E1|N1]].
  3: { split; [reflexivity|]. split; [reflexivity|]. split; [reflexivity|]. exists ro, ro'. split; [exact Hr|]. split; [exact Hc|]. split; [left; repeat split; discriminate|]. split; [discriminate|auto]. }
  all: cbn [nd_cc nd_sel]; rewrite Hr, Hs.
  all: match goal with |- context[write_file CC_FILE (_ ++ [?w])] => set (b := negb (w =? 0)); change (firstn 14 (cc false) ++ [w]) with (cc b) end.
  all: match goal with |- context[write_file CC_FILE ?x ?o ?t ?s ?e] => pose proof (wp_write_file CC_FILE x o t (fun oo s' e' => s' = s /\ e_out e' = [] /\ (oo = Ret true /\ e_fs e' = fwrite (n_fs d) CC_FILE x 0 true /\ e_log e' = [e_fs e'; n_fs d] \/
       oo = Ret false /\ flt <> [] /\ e_fs e' = n_fs d /\ e_log e' = [n_fs d])) s (n_fs d) [n_fs d] flt [] [] []) as Hw end.
  all: unfold wp in Hw; destruct (write_file _ _ _ _ _ _) as [[o s'] e'].
  all: destruct Hw as (-> & Eo & Hw); [intros; rewrite (lcreate_some _ _ _ _ Hc); auto 12|intros; cbn [e_out e_fs e_log]; auto 12|intros; rewrite (lcreate_some _ _ _ _ Hc), (fcreate_some _ _ _ Hc); cbn [e_out e_fs e_log]; auto 12|].
  all: destruct Hw as [(-> & Ef & El)|(-> & Hf & Ef & El)]; cbn [r_sw r_data nd_sel nd_cc].
  all: (split; [reflexivity|]); (split; [exact Eo|]).
  1, 3: (split; [intros p Hp; rewrite Ef; apply fwrite_other, Hp|]); exists b, b; (split; [reflexivity|]);
    (split; [rewrite Ef, (fwrite_data _ _ _ _ _ _ Hc); f_equal; change (length (cc b) =? 0)%nat with false; cbv iota; apply write_at_nil|]);
    (split; [right; exact El|]); (split; [intros _; split; [reflexivity|unfold b; rewrite ?E0, ?E1; reflexivity]|intros _ H; exfalso; apply H; reflexivity]).
  all: (split; [intros p Hp; rewrite Ef; reflexivity|]); exists ro, b; (split; [reflexivity|]); (split; [rewrite Ef; exact Hc|]);
    (split; [left; split; [exact El|]; split; [exact Ef|discriminate]|]); (split; [discriminate|intros; contradiction]).
Qed.

Lemma boot_spec F m ro : tag F m ro -> n_fs (nboot F) = F /\ n_ram (nboot F) = mkNd (cc ro) SelNone.
Proof.
  intros (Hm & Hz & Hc). unfold nboot, ndef_install, bind, upd_n, modify, getn, setn, ret, get_file_size, read_file, pop_fault, start. cbn [e_flt e_fs].
  unfold fdata in Hm, Hc. destruct (F CC_FILE) as [f|] eqn:E1; [|discriminate]. injection Hc as Hc. destruct (F NDEF_FILE) as [f2|] eqn:E2; [|discriminate]. injection Hm as Hm.
  rewrite Hc, zlen_cc. change (15 =? CC_LENGTH) with true. cbn [negb e_flt e_fs]. rewrite E2, Hm. cbn [e_flt e_fs].
  destruct (Z.leb_spec (zlen m) 0); [lia|]. cbn [e_flt e_fs]. rewrite E1, Hc. destruct ro; split; reflexivity.
Qed.

Definition init_msg : bytes := init_data ++ zeros 1005.
Lemma reset_spec d : (exists m ro ro', inv d m ro ro') ->
  match act_run Reset [] d with
  | (Some r, s, e) => r = mkR [] 0x9000 /\ inv (mkNdev s (e_fs e)) init_msg false false /\ nd_sel s = SelNone
  | _ => False
  end.
Proof.
  intros (m & ro & ro' & (Hm & Hz & Hc) & Hr). unfold fdata in Hm, Hc.
  unfold act_run, run_apdu, ndef_install, ndef_create_init_ndef, bind, upd_n, modify, getn, setn, ret, get, write_file, truncate_file, pop_fault, start. cbn [e_flt e_fs e_log e_rnd e_tch e_out].
  destruct (n_fs d NDEF_FILE) as [f2|] eqn:E2; [|discriminate]. cbn [e_fs e_flt e_log e_rnd e_tch e_out negb commit]. rewrite E2. cbn [e_fs e_flt e_log e_rnd e_tch e_out negb commit].
  rewrite !fset_same. cbn [e_fs e_flt e_log e_rnd e_tch e_out negb commit nd_cc]. rewrite !fset_same. cbn [e_fs e_flt e_log e_rnd e_tch e_out negb commit].
  rewrite !(fset_other _ _ CC_FILE) by discriminate. destruct (n_fs d CC_FILE) as [f|] eqn:E1; [|discriminate].
  cbn [e_fs e_flt e_log e_rnd e_tch e_out negb commit]. rewrite !(fset_other _ _ CC_FILE), E1 by discriminate. cbn [e_fs e_flt e_log e_rnd e_tch e_out negb commit].
  split; [reflexivity|]. split; [|reflexivity]. split; [|reflexivity]. split; [|split]; [|reflexivity|].
  - cbn [n_fs]. unfold fdata. rewrite fset_other by discriminate. rewrite fset_same. cbn [f_data]. reflexivity.
  - cbn [n_fs]. unfold fdata. rewrite fset_same. reflexivity.
Qed.

Lemma tag_ext F F' m ro : tag F m ro -> F' NDEF_FILE = F NDEF_FILE -> F' CC_FILE = F CC_FILE -> tag F' m ro.
Proof. unfold tag, fdata. intros H E1 E2. rewrite E1, E2. exact H. Qed.

Definition sel_no (s : sel) : Z := match s with SelNone => 0 | SelCC => 1 | SelNDEF => 2 end.

(** One event keeps the tag well formed; RAM selection and protection follow the specification. *)
Lemma step_spec d ev o d' m ro ro' : inv d m ro ro' -> ev_ok ev -> step d ev = Some (o, d') ->
  sel_no (nd_sel (n_ram d')) = next_sel (sel_no (nd_sel (n_ram d))) (ev, o) /\
  exists m1 ro1 ro1', inv d' m1 ro1 ro1' /\
    (calm (ev, o) -> ro = ro' -> ro1 = ro1' /\ ro1 = next_ro ro (ev, o)).
Proof.
  intros Hi He Hs. pose proof Hi as ((Hm & Hz & Hc) & Hr).
  destruct ev as [[c buf|c| ] flt|[c buf|c| ] flt n|]; cbn [step ev_ok act_ok] in *.
  - pose proof (apdu_spec c buf flt d m ro ro' Hi (proj1 He)) as H. destruct (act_run (Apdu c buf) flt d) as [[[r|] s] e]; [|contradiction].
    injection Hs as <- <-. cbn [n_ram]. destruct H as [r H1 H2 _ _|r s H1 H2 -> H3 (l & H4)|H1 H2|H1 H2 H3|H1 H2 H3|F' H1 H2 H3 H4 H5 H6].
    + split; [|exists m, ro, ro'; split; [exact Hi|auto]]. cbn [next_sel]. destruct (Z.eqb_spec (r_sw r) 0x9000); [contradiction|]. rewrite andb_false_r. reflexivity.
    + split.
      * cbn [next_sel r_sw]. rewrite H1, H2. cbn. destruct H4 as [[-> ->]|[-> ->]]; reflexivity.
      * exists m, ro, ro'. split; [split; [exact (proj1 Hi)|cbn [n_ram]; congruence]|auto].
    + split; [|exists m, ro, ro'; split; [exact Hi|auto]]. cbn [next_sel]. destruct (Z.eqb_spec (c_p1 c) 0); [contradiction|]. rewrite andb_false_r. reflexivity.
    + split; [|exists m, ro, ro'; split; [exact Hi|auto]]. cbn [next_sel]. rewrite H1. reflexivity.
    + split; [|exists m, ro, ro'; split; [exact Hi|auto]]. cbn [next_sel]. rewrite H1. reflexivity.
    + split; [cbn [next_sel]; rewrite H1; reflexivity|]. exists (patch m (off_of c) (c_data c)), ro, ro'. split; [|auto].
      split; [|exact Hr]. split; [exact H5|]. split; [rewrite zlen_patch; unfold off_of in *; destruct He as ((? & ? & _) & _); lia|].
      cbn [n_fs]. unfold fdata. rewrite H6 by discriminate. exact Hc.
  - pose proof (protect_spec c flt d m ro ro' Hi) as H. destruct (act_run (Protect c) flt d) as [[[r|] s] e]; [|contradiction].
    injection Hs as <- <-. destruct H as (Hsel & _ & Ho & ro1 & ro2 & Hcc & Hf & _ & H9 & Hn9). split; [cbn [n_ram next_sel]; congruence|].
    exists m, ro1, ro2. split.
    + split; [|exact Hcc]. split; [cbn [n_fs]; unfold fdata; rewrite Ho by discriminate; exact Hm|]. split; [exact Hz|exact Hf].
    + cbn [calm fst next_ro]. intros -> ->. destruct (Z.eqb_spec (r_sw r) 0x9000) as [E|E]; [destruct (H9 E); split; congruence|destruct (Hn9 eq_refl E); split; congruence].
  - subst flt. pose proof (reset_spec d (ex_intro _ m (ex_intro _ ro (ex_intro _ ro' Hi)))) as H.
    destruct (act_run Reset [] d) as [[[r|] s] e]; [|contradiction]. injection Hs as <- <-. destruct H as (-> & H & Hs). cbn [n_ram]. rewrite Hs.
    split; [reflexivity|]. exists init_msg, false, false. split; [exact H|]. auto.
  - pose proof (apdu_spec c buf flt d m ro ro' Hi (proj1 He)) as H. destruct (act_run (Apdu c buf) flt d) as [[[r|] s] e]; [|contradiction].
    injection Hs as <- <-.
    assert (exists m1, tag (nth n (e_log e) (e_fs e)) m1 ro) as (m1 & Ht).
    { assert (tag (n_fs d) m ro) as Hd by (split; [|split]; assumption).
      destruct H as [r H1 H2 _ _|r s H1 H2 -> H3 (l & H4)|H1 H2|H1 H2 H3|H1 H2 H3|F' H1 H2 H3 H4 H5 H6];
        try (exists m; destruct n as [|[|n]]; exact Hd).
      assert (tag F' (patch m (off_of c) (c_data c)) ro) as Hd'.
      { split; [exact H5|]. split; [rewrite zlen_patch; unfold off_of in *; destruct He as ((? & ? & _) & _); lia|]. unfold fdata. rewrite H6 by discriminate. exact Hc. }
      destruct n as [|[|[|n]]]; [exists (patch m (off_of c) (c_data c)); exact Hd'|exists m; exact Hd|exists (patch m (off_of c) (c_data c)); exact Hd'..]. }
    destruct (boot_spec _ _ _ Ht) as [E1 E2]. split; [rewrite E2; reflexivity|]. exists m1, ro, ro. split; [split; [rewrite E1; exact Ht|rewrite E2; reflexivity]|auto].
  - pose proof (protect_spec c flt d m ro ro' Hi) as H. destruct (act_run (Protect c) flt d) as [[[r|] s] e]; [|contradiction].
    injection Hs as <- <-. destruct H as (Hsel & _ & Ho & ro1 & ro2 & Hcc & Hf & Hl & _).
    assert (tag (n_fs d) m ro) as Hd by (split; [|split]; assumption).
    assert (tag (e_fs e) m ro1) as Hd1 by (split; [unfold fdata; rewrite Ho by discriminate; exact Hm|]; split; [exact Hz|exact Hf]).
    assert (exists ro3, tag (nth n (e_log e) (e_fs e)) m ro3) as (ro3 & Ht).
    { destruct Hl as [(-> & -> & _)| ->]; [exists ro; destruct n as [|[|n]]; exact Hd|]. destruct n as [|[|[|n]]]; [exists ro1|exists ro|exists ro1..]; assumption. }
    destruct (boot_spec _ _ _ Ht) as [E1 E2]. split; [rewrite E2; reflexivity|]. exists m, ro3, ro3. split; [split; [rewrite E1; exact Ht|rewrite E2; reflexivity]|].
    cbn [calm fst]. contradiction.
  - contradiction.
  - injection Hs as <- <-. split; [reflexivity|]. exists m, ro, ro'. split; [exact Hi|auto].
Qed.

Lemma boot0_inv : inv (nboot fs_empty) init_msg false false /\ nd_sel (n_ram (nboot fs_empty)) = SelNone.
Proof. vm_compute. repeat split. Qed.

Lemma hist_spec d tr d' : hist d tr d' -> forall m ro ro', inv d m ro ro' -> tr_ok tr ->
  sel_no (nd_sel (n_ram d')) = fold_left next_sel tr (sel_no (nd_sel (n_ram d))) /\
  exists m1 ro1 ro1', inv d' m1 ro1 ro1' /\ (Forall calm tr -> ro = ro' -> ro1 = ro1' /\ ro1 = fold_left next_ro tr ro).
Proof.
  intros H. induction H as [d|d ev o d1 tr d2 Hs H IH]; intros m ro ro' Hi Ht.
  - split; [reflexivity|]. exists m, ro, ro'. split; [exact Hi|auto].
  - apply Forall_cons_iff in Ht as [He Ht]. destruct (step_spec d ev o d1 m ro ro' Hi He Hs) as (Es & m1 & ro1 & ro1' & Hi1 & Hc1).
    destruct (IH m1 ro1 ro1' Hi1 Ht) as (Es2 & m2 & ro2 & ro2' & Hi2 & Hc2). split; [rewrite Es2, Es; reflexivity|].
    exists m2, ro2, ro2'. split; [exact Hi2|]. intros Hcalm E. apply Forall_cons_iff in Hcalm as [Hca Hcalm].
    destruct (Hc1 Hca E) as [E1 E2]. destruct (Hc2 Hcalm E1) as [E3 E4]. split; [exact E3|]. rewrite E4, E2. reflexivity.
Qed.
Lemma reach_spec tr d : reach tr d -> sel_no (nd_sel (n_ram d)) = selected tr /\
  exists m ro ro', inv d m ro ro' /\ (Forall calm tr -> ro = ro' /\ ro = protected tr).
Proof.
  intros [Ht Hh]. destruct boot0_inv as [Hi Hs]. destruct (hist_spec _ _ _ Hh _ _ _ Hi Ht) as (E & m & ro & ro' & H & Hc).
  split; [rewrite E, Hs; reflexivity|]. exists m, ro, ro'. split; [exact H|]. intros Hca. exact (Hc Hca eq_refl).
Qed.
Lemma inv_contents d m ro ro' : inv d m ro ro' -> contents d = m.
Proof. intros ((Hm & _) & _). unfold contents. change "NDEF" with NDEF_FILE. rewrite Hm. reflexivity. Qed.

(** C22.  UPDATE BINARY, after any history and with any storage errors: either it is accepted, which needs the NDEF
    file to be selected and not write protected and the range to be inside, and then exactly the addressed range
    has changed; or it is refused and nothing has changed.  Other files never change. *)
Theorem C22_update_exact : forall tr d c buf flt r d', reach tr d -> cmd_ok c -> zlen buf = 1340 -> c_ins c = 0xD6 ->
  step d (Do (Apdu c buf) flt) = Some (Some r, d') ->
  zlen (contents d) = 1024 /\ r_data r = [] /\ (forall p, p <> "NDEF" -> n_fs d' p = n_fs d p) /\ n_ram d' = n_ram d /\
  (r_sw r = 0x9000 /\ selected tr = 2 /\ (Forall calm tr -> protected tr = false) /\ off_of c + zlen (c_data c) <= 1024 /\
   contents d' = patch (contents d) (off_of c) (c_data c) \/
   r_sw r <> 0x9000 /\ n_fs d' = n_fs d).
Proof.
  intros tr d c buf flt r d' Hr Hc Hz Hi Hs. destruct (reach_spec tr d Hr) as (Es & m & ro & ro' & Hv & Hca).
  pose proof (apdu_spec c buf flt d m ro ro' Hv Hc) as H. cbn [step] in Hs. destruct (act_run (Apdu c buf) flt d) as [[[r1|] s] e]; [|contradiction].
  injection Hs as -> <-. rewrite (inv_contents _ _ _ _ Hv). pose proof Hv as ((Hm & Hzm & Hcc) & Hrm). cbn [n_fs n_ram].
  destruct H as [r H1 H2 _ _|r s H1 H2 -> H3 (l & H4)|H1 H2|H1 H2 H3|H1 H2 H3|F' H1 H2 H3 H4 H5 H6]; try (rewrite Hi in *; discriminate).
  - split; [exact Hzm|]. split; [exact H2|]. split; [reflexivity|]. split; [reflexivity|]. right. split; [exact H1|reflexivity].
  - split; [exact Hzm|]. split; [reflexivity|]. split; [exact H6|]. split; [reflexivity|]. left. split; [reflexivity|].
    split; [rewrite <- Es, H2; reflexivity|]. split; [intros Hcalm; destruct (Hca Hcalm); congruence|]. split; [exact H4|].
    unfold contents. cbn [n_fs]. change "NDEF" with NDEF_FILE. rewrite H5. reflexivity.
Qed.
Theorem C22_update_accepted : forall tr d c buf, reach tr d -> cmd_ok c -> zlen buf = 1340 -> c_ins c = 0xD6 ->
  Forall calm tr -> protected tr = false -> selected tr = 2 -> off_of c + zlen (c_data c) <= 1024 ->
  exists d', step d (Do (Apdu c buf) []) = Some (Some (mkR [] 0x9000), d').
Proof.
  intros tr d c buf Hr Hc Hz Hi Hcalm Hp Hsel Hin. destruct (reach_spec tr d Hr) as (Es & m & ro & ro' & Hv & Hca). destruct (Hca Hcalm) as [E1 E2].
  pose proof (apdu_spec c buf [] d m ro ro' Hv Hc) as H. cbn [step]. destruct (act_run (Apdu c buf) [] d) as [[[r1|] s] e]; [|contradiction].
  assert (nd_sel (n_ram d) = SelNDEF) as Hn by (rewrite Hsel in Es; destruct (nd_sel (n_ram d)); [discriminate..|reflexivity]).
  destruct H as [r H1 H2 _ H3|r s H1 H2 -> H3 (l & H4)|H1 H2|H1 H2 H3|H1 H2 H3|F' H1 H2 H3 H4 H5 H6]; try (rewrite Hi in *; discriminate).
  - exfalso. destruct (H3 Hi eq_refl Hn) as [H|H]; [congruence|lia].
  - eexists. reflexivity.
Qed.
(** C22.  READ BINARY returns exactly the addressed range of the selected file, or refuses; nothing changes. *)
Theorem C22_read_exact : forall tr d c buf flt r d', reach tr d -> cmd_ok c -> zlen buf = 1340 -> c_ins c = 0xB0 ->
  step d (Do (Apdu c buf) flt) = Some (Some r, d') ->
  d' = d /\
  (r_sw r = 0x9000 /\ selected tr = 2 /\ off_of c + c_le c <= 1024 /\ r_data r = slice (off_of c) (c_le c) (contents d) \/
   r_sw r = 0x9000 /\ selected tr = 1 /\ off_of c + c_le c <= 15 /\ (exists ro, r_data r = slice (off_of c) (c_le c) (cc ro) /\ (Forall calm tr -> ro = protected tr)) \/
   r_sw r <> 0x9000 /\ r_data r = [] /\ (flt = [] -> selected tr = 0 \/ selected tr = 1 /\ 15 < off_of c + c_le c \/ selected tr = 2 /\ 1024 < off_of c + c_le c)).
Proof.
  intros tr d c buf flt r d' Hr Hc Hz Hi Hs. destruct (reach_spec tr d Hr) as (Es & m & ro & ro' & Hv & Hca).
  pose proof (apdu_spec c buf flt d m ro ro' Hv Hc) as H. cbn [step] in Hs. destruct (act_run (Apdu c buf) flt d) as [[[r1|] s] e]; [|contradiction].
  injection Hs as -> <-. rewrite (inv_contents _ _ _ _ Hv). rewrite <- Es.
  destruct H as [r H1 H2 H3 _|r s H1 H2 -> H3 (l & H4)|H1 H2|H1 H2 H3|H1 H2 H3|F' H1 H2 H3 H4 H5 H6]; try (rewrite Hi in *; discriminate);
    (split; [destruct d; reflexivity|]).
  - right. right. split; [exact H1|]. split; [exact H2|]. intros Hf. specialize (H3 Hi Hf). destruct (nd_sel (n_ram d)); [left; reflexivity|right; left; auto|right; right; auto].
  - right. left. rewrite H2. split; [reflexivity|]. split; [reflexivity|]. split; [exact H3|]. exists ro. split; [reflexivity|]. intros Hcalm. apply Hca, Hcalm.
  - left. rewrite H2. auto.
Qed.
(** C22.  A power loss during UPDATE BINARY leaves the file as it was or as it was to become. *)
Theorem C22_update_atomic : forall tr d c buf flt n o d', reach tr d -> cmd_ok c -> zlen buf = 1340 -> c_ins c = 0xD6 ->
  step d (Cut (Apdu c buf) flt n) = Some (o, d') ->
  contents d' = contents d \/ contents d' = patch (contents d) (off_of c) (c_data c).
Proof.
  intros tr d c buf flt n o d' Hr Hc Hz Hi Hs. destruct (reach_spec tr d Hr) as (Es & m & ro & ro' & Hv & Hca).
  pose proof (apdu_spec c buf flt d m ro ro' Hv Hc) as H. cbn [step] in Hs. destruct (act_run (Apdu c buf) flt d) as [[[r1|] s] e]; [|contradiction].
  injection Hs as <- <-. rewrite (inv_contents _ _ _ _ Hv). pose proof Hv as ((Hm & Hzm & Hcc) & Hrm).
  assert (tag (n_fs d) m ro) as Hd by (split; [|split]; assumption).
  assert (Hb : forall F m1 ro1, tag F m1 ro1 -> contents (nboot F) = m1).
  { intros F m1 ro1 Ht. destruct (boot_spec _ _ _ Ht) as [E1 E2]. apply (inv_contents _ _ ro1 ro1). split; [rewrite E1; exact Ht|rewrite E2; reflexivity]. }
  destruct H as [r H1 H2 _ _|r s H1 H2 -> H3 (l & H4)|H1 H2|H1 H2 H3|H1 H2 H3|F' H1 H2 H3 H4 H5 H6]; try (rewrite Hi in *; discriminate).
  - left. destruct n as [|[|n]]; apply (Hb _ _ _ Hd).
  - assert (tag F' (patch m (off_of c) (c_data c)) ro) as Hd'.
    { split; [exact H5|]. split; [rewrite zlen_patch; unfold off_of in *; destruct Hc as (? & ? & _); lia|]. unfold fdata. rewrite H6 by discriminate. exact Hcc. }
    destruct n as [|[|[|n]]]; [right; apply (Hb _ _ _ Hd')|left; apply (Hb _ _ _ Hd)|right; apply (Hb _ _ _ Hd')..].
Qed.
(** C22.  Only UPDATE BINARY and the factory reset change the contents; in particular the capability container is never
    changed by a tag command. *)
Theorem C22_contents_kept : forall tr d ev o d', reach tr d -> ev_ok ev -> step d ev = Some (o, d') ->
  match ev with
  | Do (Apdu c _) _ | Cut (Apdu c _) _ _ => c_ins c <> 0xD6 -> contents d' = contents d
  | Do (Protect _) _ | Cut (Protect _) _ _ | Off => contents d' = contents d
  | Do Reset _ => contents d' = init_msg
  | Cut Reset _ _ => True
  end /\
  match ev with Do (Apdu _ _) _ | Cut (Apdu _ _) _ _ | Off => fdata (n_fs d') "E103" = fdata (n_fs d) "E103" | _ => True end.
Proof.
  intros tr d ev o d' Hr He Hs. destruct (reach_spec tr d Hr) as (Es & m & ro & ro' & Hv & Hca).
  pose proof Hv as ((Hm & Hzm & Hcc) & Hrm). rewrite (inv_contents _ _ _ _ Hv). change "E103" with CC_FILE. rewrite Hcc.
  assert (tag (n_fs d) m ro) as Hd by (split; [|split]; assumption).
  assert (Hb : forall F m1 ro1, tag F m1 ro1 -> contents (nboot F) = m1 /\ fdata (n_fs (nboot F)) CC_FILE = Some (cc ro1)).
  { intros F m1 ro1 Ht. destruct (boot_spec _ _ _ Ht) as [E1 E2]. split; [|rewrite E1; apply Ht]. apply (inv_contents _ _ ro1 ro1). split; [rewrite E1; exact Ht|rewrite E2; reflexivity]. }
  destruct ev as [[c buf|c| ] flt|[c buf|c| ] flt n|]; cbn [step ev_ok act_ok] in *.
  - pose proof (apdu_spec c buf flt d m ro ro' Hv (proj1 He)) as H. destruct (act_run (Apdu c buf) flt d) as [[[r|] s] e]; [|contradiction].
    injection Hs as <- <-. destruct H as [r H1 H2 _ _|r s H1 H2 -> H3 (l & H4)|H1 H2|H1 H2 H3|H1 H2 H3|F' H1 H2 H3 H4 H5 H6]; cbn [n_fs];
      try (split; [intros _; unfold contents; cbn [n_fs]; change "NDEF" with NDEF_FILE; rewrite Hm; reflexivity|exact Hcc]).
    split; [intros; contradiction|]. unfold fdata. rewrite H6 by discriminate. exact Hcc.
  - pose proof (protect_spec c flt d m ro ro' Hv) as H. destruct (act_run (Protect c) flt d) as [[[r|] s] e]; [|contradiction].
    injection Hs as <- <-. destruct H as (_ & _ & Ho & _). split; [|exact I]. unfold contents, fdata. cbn [n_fs]. rewrite Ho by discriminate.
    unfold fdata in Hm. change "NDEF" with NDEF_FILE. rewrite Hm. reflexivity.
  - subst flt. pose proof (reset_spec d (ex_intro _ m (ex_intro _ ro (ex_intro _ ro' Hv)))) as H.
    destruct (act_run Reset [] d) as [[[r|] s] e]; [|contradiction]. injection Hs as <- <-. destruct H as (_ & H & _). split; [|exact I]. apply (inv_contents _ _ _ _ H).
  - pose proof (apdu_spec c buf flt d m ro ro' Hv (proj1 He)) as H. destruct (act_run (Apdu c buf) flt d) as [[[r|] s] e]; [|contradiction].
    injection Hs as <- <-.
    destruct H as [r H1 H2 _ _|r s H1 H2 -> H3 (l & H4)|H1 H2|H1 H2 H3|H1 H2 H3|F' H1 H2 H3 H4 H5 H6]; try (destruct n as [|[|n]]; (split; [intros _|]; apply (Hb _ _ _ Hd))).
    assert (tag F' (patch m (off_of c) (c_data c)) ro) as Hd'.
    { split; [exact H5|]. split; [rewrite zlen_patch; unfold off_of in *; destruct He as ((? & ? & _) & _); lia|]. unfold fdata. rewrite H6 by discriminate. exact Hcc. }
    split; [intros; contradiction|]. destruct n as [|[|[|n]]]; first [apply (Hb _ _ _ Hd')|apply (Hb _ _ _ Hd)].
  - pose proof (protect_spec c flt d m ro ro' Hv) as H. destruct (act_run (Protect c) flt d) as [[[r|] s] e]; [|contradiction].
    injection Hs as <- <-. destruct H as (Hsel & _ & Ho & ro1 & ro2 & Hc2 & Hf & Hl & _). split; [|exact I].
    assert (tag (e_fs e) m ro1) as Hd1 by (split; [unfold fdata; rewrite Ho by discriminate; exact Hm|]; split; [exact Hzm|exact Hf]).
    destruct Hl as [(-> & -> & _)| ->]; [destruct n as [|[|n]]; apply (Hb _ _ _ Hd)|]. destruct n as [|[|[|n]]]; first [apply (Hb _ _ _ Hd1)|apply (Hb _ _ _ Hd)].
  - contradiction.
  - injection Hs as <- <-. split; [|exact Hcc]. unfold contents. cbn [n_fs]. change "NDEF" with NDEF_FILE. rewrite Hm. reflexivity.
Qed.

(** C72.  Without the exclusion in [ev_ok] it fails: a factory reset cut by a power loss leaves a file of 19 bytes, and READ
    BINARY then answers 9000 with old bytes of the response buffer. *)
Definition c_sel := mkC 0 0xA4 0 0x0C [0; 1] 0.
Definition c_read := mkC 0 0xB0 0 20 [] 16.
Theorem C72_reset_cut_leaks_refuted : forall secret, zlen secret = 1340 -> exists d1 d2 d3 r2,
  step (nboot fs_empty) (Cut Reset [] 2) = Some (None, d1) /\
  step d1 (Do (Apdu c_sel secret) []) = Some (Some r2, d2) /\
  step d2 (Do (Apdu c_read secret) []) = Some (Some (mkR (slice 0 16 secret) 0x9000), d3).
Proof.
  intros secret Hz. eexists _, _, _, _. split; [vm_compute; reflexivity|]. split; [vm_compute; reflexivity|]. cbn. reflexivity.
Qed.

(** ** Examples *)
Definition c_upd off data := mkC 0 0xD6 (off / 256) (off mod 256) data 0.
Definition c_prot p1 := mkC 0 0x09 p1 0 [] 0.
Definition buf0 := zeros 1340.
Fixpoint exec (d : nd_dev) (evs : list event) : list (option rapdu) * nd_dev :=
  match evs with
  | [] => ([], d)
  | ev :: evs => match step d ev with Some (o, d1) => let '(l, d2) := exec d1 evs in (o :: l, d2) | None => ([], d) end
  end.
Definition hello : bytes := [72; 101; 108; 108; 111].
Example C22_ex : let evs := [Do (Apdu c_sel buf0) []; Do (Apdu (c_upd 1019 hello) buf0) []; Do (Apdu (mkC 0 0xB0 3 0xFA [] 6) buf0) [];
    Do (Apdu (c_upd 1020 hello) buf0) []; Do (Protect (c_prot 1)) []; Do (Apdu (c_upd 0 hello) buf0) []; Off; Do (Apdu (c_upd 0 hello) buf0) []] in
  map (fun o => match o with Some r => (r_data r, r_sw r) | None => ([], 0) end) (fst (exec (nboot fs_empty) evs)) =
  [([], 0x9000); ([], 0x9000); (0 :: hello, 0x9000); ([], 0x6700); ([], 0x9000); ([], 0x6982); ([], 0); ([], 0x6985)].
Proof. vm_compute. reflexivity. Qed.
Example C22_ex_ok : cmd_ok c_sel /\ cmd_ok (c_upd 1019 hello) /\ zlen buf0 = 1340.
Proof. unfold cmd_ok. cbn. repeat split; try lia; try reflexivity; repeat (constructor; [unfold is_byte; lia|]); constructor. Qed.

Print Assumptions C22_update_exact.
Print Assumptions C22_update_accepted.
Print Assumptions C22_read_exact.
Print Assumptions C22_update_atomic.
Print Assumptions C22_contents_kept.
Print Assumptions C72_reset_cut_leaks_refuted.
