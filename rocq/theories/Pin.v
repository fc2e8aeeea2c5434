(** Model of src/pin.c: PINs with a persistent retry counter. *)
From Verif Require Export Sys.
Open Scope Z_scope.

(** include/pin.h:7-12 [pin_t] without the RAM flag [is_validated], which belongs to the applet state:
    the functions below take its setter [setv]. *)
Record pin_t := mkPin { pin_path : path; pin_min : Z; pin_max : Z }.

(** include/pin.h:14-17, src/pin.c:8-9 *)
Definition PIN_IO_FAIL := -1.
Definition PIN_AUTH_FAIL := -2.
Definition PIN_LENGTH_INVALID := -3.
Definition PIN_MAX_LENGTH := 64.
Definition RETRY_ATTR := 0.
Definition DEFAULT_RETRY_ATTR := 1.

(** First byte of an attribute read into a one-byte buffer (littlefs zero-pads). *)
Definition attr1 (v : bytes) : Z := match v with [] => 0 | b :: _ => b end.

(** canokey-crypto [memcmp_s]: 0 when equal; [neq] stands for its value on different inputs (the source
    is in a submodule which is not part of the checkout). *)
Definition memcmp_s (neq : Z) (a b : bytes) : Z := if beqb a b then 0 else neq.

Section Pin.
Context {S : Type}.
Variable p : pin_t.
Variable setv : bool -> S -> S.

(** src/pin.c:11-19 [pin_create] *)
Definition pin_create (buf : bytes) (max_retries : Z) : M S Z :=
  ok <- write_file (pin_path p) buf 0 true ;;
  if negb ok then ret PIN_IO_FAIL else
  ok <- write_attr (pin_path p) RETRY_ATTR [max_retries] ;;
  if negb ok then ret PIN_IO_FAIL else
  ok <- write_attr (pin_path p) DEFAULT_RETRY_ATTR [max_retries] ;;
  if negb ok then ret PIN_IO_FAIL else ret 0.

(** src/pin.c:21-59 [pin_verify].  The result is the return value and what was stored through [retries]
    ([None]: nothing stored).  [junk] is the previous content of the stack buffer [pin_buf]; [neq] see
    [memcmp_s].  [len] is a uint8_t: callers truncate. *)
Definition pin_verify_gen (neq : Z) (junk : bytes) (buf : bytes) (len : Z) : M S (Z * option Z) :=
  modify (setv false) ;;;
  if (len <? pin_min p) || (pin_max p <? len) then ret (PIN_LENGTH_INVALID, None) else
  a <- read_attr (pin_path p) RETRY_ATTR ;;
  match a with
  | None => ret (PIN_IO_FAIL, None)
  | Some v =>
    let ctr := attr1 v in
    if ctr =? 0 then ret (PIN_AUTH_FAIL, Some ctr) else
    r <- read_file (pin_path p) 0 PIN_MAX_LENGTH ;;
    match r with
    | None => ret (PIN_IO_FAIL, Some ctr)
    | Some d =>
      let pin_buf := firstn 64 (d ++ junk ++ zeros 64) in
      x <- need (sub buf 0 len) ;;
      y <- need (sub pin_buf 0 len) ;;
      if negb ((if zlen d =? len then 0 else 1) - memcmp_s neq x y =? 0) then
        let ctr := u8 (ctr - 1) in
        ok <- write_attr (pin_path p) RETRY_ATTR [ctr] ;;
        if negb ok then ret (PIN_IO_FAIL, Some ctr) else ret (PIN_AUTH_FAIL, Some ctr)
      else
        modify (setv true) ;;;
        a <- read_attr (pin_path p) DEFAULT_RETRY_ATTR ;;
        match a with
        | None => ret (PIN_IO_FAIL, Some ctr)
        | Some v => ok <- write_attr (pin_path p) RETRY_ATTR [attr1 v] ;;
                    if negb ok then ret (PIN_IO_FAIL, Some ctr) else ret (0, Some ctr)
        end
    end
  end.
(** The instance used by the applets' models: [memcmp_s] returns -1 on a difference, clean stack.
    Theorem [C09_verify_independent] shows that neither choice matters (unless [memcmp_s] returned 1). *)
Definition pin_verify : bytes -> Z -> M S (Z * option Z) := pin_verify_gen (-1) [].

(** src/pin.c:61-73 [pin_update] *)
Definition pin_update (buf : bytes) (len : Z) : M S Z :=
  if (len <? pin_min p) || (pin_max p <? len) then ret PIN_LENGTH_INVALID else
  modify (setv false) ;;;
  x <- need (sub buf 0 len) ;;
  ok <- write_file (pin_path p) x 0 true ;;
  if negb ok then ret PIN_IO_FAIL else
  a <- read_attr (pin_path p) DEFAULT_RETRY_ATTR ;;
  match a with
  | None => ret PIN_IO_FAIL
  | Some v => ok <- write_attr (pin_path p) RETRY_ATTR [attr1 v] ;;
              if negb ok then ret PIN_IO_FAIL else ret 0
  end.

(** src/pin.c:75 [pin_get_size]: [None] = negative *)
Definition pin_get_size : M S (option Z) := get_file_size (pin_path p).

(** src/pin.c:77-92 [pin_get_retries], [pin_get_default_retries] *)
Definition pin_get_attr (a : Z) : M S Z :=
  sz <- pin_get_size ;;
  match sz with
  | Some 0 => ret 0
  | _ => a <- read_attr (pin_path p) a ;;
         match a with None => ret PIN_IO_FAIL | Some v => ret (attr1 v) end
  end.
Definition pin_get_retries : M S Z := pin_get_attr RETRY_ATTR.
Definition pin_get_default_retries : M S Z := pin_get_attr DEFAULT_RETRY_ATTR.

(** src/pin.c:94-103 [pin_clear] *)
Definition pin_clear : M S Z :=
  ok <- write_file (pin_path p) [] 0 true ;;
  if negb ok then ret PIN_IO_FAIL else
  a <- read_attr (pin_path p) DEFAULT_RETRY_ATTR ;;
  match a with
  | None => ret PIN_IO_FAIL
  | Some v => ok <- write_attr (pin_path p) RETRY_ATTR [attr1 v] ;;
              if negb ok then ret PIN_IO_FAIL else ret 0
  end.
End Pin.

(** ** Histories of one PIN: the RAM state is the validated flag. *)
Inductive pin_ev :=
  | EvVerify (g : bytes)                  (* verification with guess [g] *)
  | EvVerifyCut (g : bytes) (n : nat)     (* the same, power lost when the n-th newest image was current *)
  | EvUpdate (g : bytes)                  (* the PIN is changed to [g] by whoever is entitled to *)
  | EvUpdateCut (g : bytes) (n : nat)
  | EvReboot.

(** What the outside observes: a return code, or nothing because the power was lost. *)
Inductive pin_ans := AnsVerify (code : Z) (retries : option Z) (validated : bool) | AnsUpdate (code : Z) | AnsCut | AnsUB.

Definition setf (b : bool) (_ : bool) : bool := b.

Definition pin_step (p : pin_t) (st : bool * fs) (ev : pin_ev) : pin_ans * (bool * fs) :=
  let '(v, F) := st in
  match ev with
  | EvVerify g =>
      match pin_verify p setf g (zlen g) v (start F [] [] []) with
      | (Ret (c, r), v', e') => (AnsVerify c r v', (v', e_fs e'))
      | (_, v', e') => (AnsUB, (v', e_fs e'))
      end
  | EvVerifyCut g n =>
      let '(_, _, e') := pin_verify p setf g (zlen g) v (start F [] [] []) in
      (AnsCut, (false, nth n (e_log e') F))
  | EvUpdate g =>
      match pin_update p setf g (zlen g) v (start F [] [] []) with
      | (Ret c, v', e') => (AnsUpdate c, (v', e_fs e'))
      | (_, v', e') => (AnsUB, (v', e_fs e'))
      end
  | EvUpdateCut g n =>
      let '(_, _, e') := pin_update p setf g (zlen g) v (start F [] [] []) in
      (AnsCut, (false, nth n (e_log e') F))
  | EvReboot => (AnsCut, (false, F))
  end.

Fixpoint pin_run (p : pin_t) (st : bool * fs) (evs : list pin_ev) : list pin_ans * (bool * fs) :=
  match evs with
  | [] => ([], st)
  | ev :: r => let '(a, st') := pin_step p st ev in let '(l, st'') := pin_run p st' r in (a :: l, st'')
  end.
