(** Concrete devices for the examples beside the OATH theorems: stand-in digests of the right lengths, and an
    executable version of histories. *)
From Verif Require Import Sys Apdu Applet Pass Oath OathSpec.
Open Scope string_scope. Open Scope list_scope. Open Scope Z_scope.

Definition toy (n : nat) (k m : bytes) : bytes := firstn n (map (fun x => x mod 256) (rev m ++ k) ++ zeros (Z.of_nat n)).
Lemma toy_ok n : digest_ok (Z.of_nat n) (toy n).
Proof.
  intros k m. unfold toy. split.
  - unfold zlen. rewrite firstn_length, app_length. unfold zeros. rewrite repeat_length. lia.
  - apply Forall_forall. intros x Hx.
    assert (In x (map (fun x => x mod 256) (rev m ++ k) ++ zeros (Z.of_nat n))) as H.
    { rewrite <- (firstn_skipn n). apply in_or_app. left; exact Hx. }
    apply in_app_or in H as [H|H].
    + apply in_map_iff in H as (y & <- & _). pose proof (Z.mod_pos_bound y 256). unfold is_byte. lia.
    + apply repeat_spec in H as ->. unfold is_byte. lia.
Qed.
Definition h1 := toy 20. Definition h2 := toy 32. Definition h5 := toy 64.
Definition junk0 : bytes := zeros 141.
Lemma h1_ok : digest_ok 20 h1. Proof. exact (toy_ok 20). Qed.
Lemma h2_ok : digest_ok 32 h2. Proof. exact (toy_ok 32). Qed.
Lemma h5_ok : digest_ok 64 h5. Proof. exact (toy_ok 64). Qed.
Lemma junk0_len : zlen junk0 = 141. Proof. reflexivity. Qed.
Definition bytesb (l : bytes) : bool := forallb (fun x => (0 <=? x) && (x <=? 255)) l.
Lemma bytesb_ok l : bytesb l = true -> all_bytes l.
Proof.
  intros H. apply Forall_forall. intros x Hx. unfold bytesb in H. rewrite forallb_forall in H. specialize (H x Hx).
  unfold is_byte. apply andb_prop in H as [H1 H2]. apply Z.leb_le in H1, H2. lia.
Qed.
Lemma junk0_bytes : all_bytes junk0. Proof. apply bytesb_ok. reflexivity. Qed.
Definition evb (ev : event) : bool :=
  match ev with
  | Cmd _ c _ rnd _ | CutCmd _ c _ rnd _ _ => bytesb (c_data c) && bytesb rnd
  | Conf c _ | CutConf c _ _ => bytesb (c_data c)
  | _ => true
  end.
Lemma evb_ok ev : evb ev = true -> ev_ok ev.
Proof.
  destruct ev; cbn [evb ev_ok]; intros H; try exact I; try (apply bytesb_ok; exact H);
    apply andb_prop in H as [H1 H2]; split; apply bytesb_ok; assumption.
Qed.

Fixpoint exec (d : dev) (evs : list event) : option (list (event * obs) * dev) :=
  match evs with
  | [] => Some ([], d)
  | ev :: evs =>
    match step h1 h2 h5 junk0 d ev with
    | None => None
    | Some (o, d) => match exec d evs with None => None | Some (tr, d) => Some ((ev, o) :: tr, d) end
    end
  end.
Definition boot0 : dev := oboot fs_empty [1; 2; 3; 4; 5; 6; 7; 8].
Definition tr_of (d : dev) (evs : list event) : list (event * obs) := match exec d evs with Some (tr, _) => tr | None => [] end.
Definition dev_of (d : dev) (evs : list event) : dev := match exec d evs with Some (_, d) => d | None => boot0 end.
Definition runs (d : dev) (evs : list event) : bool := match exec d evs with Some _ => forallb evb evs | None => false end.
Lemma runs_ok evs : forall d, runs d evs = true -> tr_ok (tr_of d evs) /\ hist h1 h2 h5 junk0 d (tr_of d evs) (dev_of d evs).
Proof.
  induction evs as [|ev evs IH]; intros d H; unfold runs, tr_of, dev_of in *; cbn [exec forallb] in *.
  - split; constructor.
  - destruct (step h1 h2 h5 junk0 d ev) as [[o d1]|] eqn:E; [|discriminate]. specialize (IH d1).
    destruct (exec d1 evs) as [[tr d2]|]; [|discriminate]. apply andb_prop in H as [H1 H2].
    destruct (IH H2) as [G1 G2]. split; [constructor; [apply evb_ok; exact H1|exact G1]|econstructor; [exact E|exact G2]].
Qed.
Definition sws (tr : list (event * obs)) : list Z := map (fun x => match snd x with Resp r => r_sw r | _ => 0 end) tr.
Definition the_records (d : dev) : list bytes :=
  match fdata (d_fs d) "oath" with
  | None => []
  | Some b => map (fun i => slice (141 * Z.of_nat i) 141 b) (seq 0 (length b / 141))
  end.
Definition recsb (d : dev) : bool :=
  match fdata (d_fs d) "oath" with
  | None => false
  | Some b => beqb b (concat (the_records d)) && forallb (fun r => zlen r =? 141) (the_records d)
  end.
Lemma recsb_ok d : recsb d = true -> records (d_fs d) (the_records d).
Proof.
  unfold recsb, records. destruct (fdata (d_fs d) "oath") as [b|]; [|discriminate]. intros H. apply andb_prop in H as [H1 H2]. split.
  - destruct (beqb_spec b (concat (the_records d))) as [E|]; [f_equal; exact E|discriminate].
  - apply Forall_forall. intros r Hr. rewrite forallb_forall in H2. apply Z.eqb_eq, H2, Hr.
Qed.

(** Commands *)
Definition cmd (c : capdu) : event := Cmd false c [] [9; 8; 7; 6; 5; 4; 3; 2] [].
Definition c_select := mkC 0 0xA4 4 0 [0xA0; 0; 0; 5; 0x27; 0x21; 1] 256.
Definition c_put name key tail := mkC 0 1 0 0 ([0x71; zlen name] ++ name ++ [0x73; zlen key] ++ key ++ tail) 0.
Definition c_del name := mkC 0 2 0 0 ([0x71; zlen name] ++ name) 0.
Definition c_ren old new := mkC 0 5 0 0 ([0x71; zlen old] ++ old ++ [0x71; zlen new] ++ new) 0.
Definition c_calc name m := mkC 0 0xA2 0 1 ([0x71; zlen name] ++ name ++ [0x74; zlen m] ++ m) 256.
Definition c_all m := mkC 0 0xA4 0 1 ([0x74; zlen m] ++ m) 256.
Definition c_list := mkC 0 0xA1 0 0 [] 256.
Definition c_code key := mkC 0 3 0 0 ([0x73; zlen key] ++ key ++ [0x74; 3; 1; 2; 3] ++ [0x75; 20] ++ h1 (skipn 1 key) [1; 2; 3]) 0.
Definition c_def slot name := mkC 0 0x55 slot 1 ([0x71; zlen name] ++ name) 0.

Definition nA : bytes := [97; 108]. Definition nB : bytes := [98; 111; 98]. Definition nC : bytes := [99].
Definition kH : bytes := [0x11; 6; 10; 20; 30]. (* HOTP, SHA-1, 6 digits *)
Definition kT : bytes := [0x22; 8; 11; 22; 33]. (* TOTP, SHA-256, 8 digits *)
(** A device with a HOTP credential and a TOTP credential that wants increasing challenges *)
Definition setup : list event := [cmd c_select; cmd (c_put nA kH [0x7A; 4; 0; 0; 0; 5]); cmd (c_put nB kT [0x78; 1])].
Definition dev0 : dev := dev_of boot0 setup.
Definition tr0 := tr_of boot0 setup.
Example setup_sws : sws tr0 = [0x9000; 0x9000; 0x9000].
Proof. vm_compute. reflexivity. Qed.
Definition key16 : bytes := [1; 2; 3; 4; 5; 6; 7; 8; 9; 10; 11; 12; 13; 14; 15; 16].
(** ... on which an access code is then set, and a challenge asked for *)
Definition setup1 : list event := setup ++ [cmd (c_code ([0x21] ++ key16)); cmd c_select].
Definition dev1 : dev := dev_of boot0 setup1.
Definition tr1 := tr_of boot0 setup1.
Definition c_val hc := mkC 0 0xA3 0 0 ([0x75; 20] ++ h1 key16 [9; 8; 7; 6; 5; 4; 3; 2] ++ [0x74; zlen hc] ++ hc) 256.
Ltac by_run := match goal with
  | |- runs _ _ = true => vm_compute; reflexivity
  | |- bytesb _ = true => vm_compute; reflexivity
  end.
Lemma step_of d ev o : map snd (tr_of d [ev]) = [o] -> step h1 h2 h5 junk0 d ev = Some (o, dev_of d [ev]).
Proof.
  unfold tr_of, dev_of. cbn [exec]. destruct (step h1 h2 h5 junk0 d ev) as [[o1 d1]|]; [|discriminate]. cbn [map snd]. intros H. injection H as ->. reflexivity.
Qed.
