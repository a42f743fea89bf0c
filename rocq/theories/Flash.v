(** Flash device and the program monad over its callback interface.

    The device is the RAM simulator src/wh_flash_ramsim.c, at the granularity
    of one whFlashUnit (8 bytes, the smallest programmable unit,
    wolfhsm/wh_flash_unit.h 40-43).  Simplifications: the write lock is open
    (Init unlocks both partitions, src/wh_nvm_flash.c 1041-1043), the page size
    is one unit, the sector size is the partition size, and the 32-bit sums
    [offset + size] do not wrap because a configuration is required to have a
    device smaller than 2^32 bytes ([cfg_ok]). *)
From Verif Require Import Base.

(** Build-time and device configuration. *)
Record cfg := mkCfg {
  c_oc  : nat;   (* WOLFHSM_CFG_NVM_OBJECT_COUNT *)
  c_pu  : nat;   (* partition size in units (PartitionSize / 8) *)
  c_eb  : N;     (* value of an erased byte: whFlashRamsimCfg.erasedByte *)
  c_crc : bool   (* WOLFHSM_CFG_NVM_FLASH_CRC16 *)
}.

(** The value of an erased unit. *)
Definition erased_unit (C : cfg) : N := le_dec (repeat (c_eb C) 8).

Definition flash := nat -> N.

(** Size of the device in units: two partitions. *)
Definition dev_units (C : cfg) : nat := 2 * c_pu C.

Definition read_units (f : flash) (off n : nat) : list N := map f (seq off n).

(** Memory after storing [us] at unit offset [off]. *)
Definition put_units (f : flash) (off : nat) (us : list N) : flash :=
  fun o => if (off <=? o) && (o <? off + length us)
           then nth (o - off) us 0%N else f o.

Definition put_erased (C : cfg) (f : flash) (off n : nat) : flash :=
  fun o => if (off <=? o) && (o <? off + n) then erased_unit C else f o.

Definition blankb (C : cfg) (f : flash) (off n : nat) : bool :=
  forallb (N.eqb (erased_unit C)) (read_units f off n).

Fixpoint list_eqb (a b : list N) : bool :=
  match a, b with
  | [], [] => true
  | x :: a', y :: b' => N.eqb x y && list_eqb a' b'
  | _, _ => false
  end.

(** whFlashCb calls used by the NVM layer: wolfhsm/wh_flash.h. *)
Inductive fcall :=
| FRead (off n : nat)
| FBlank (off n : nat)
| FVerify (off : nat) (us : list N)
| FProgram (off : nat) (us : list N)
| FErase (off n : nat).

Definition is_write (c : fcall) : bool :=
  match c with FProgram _ _ | FErase _ _ => true | _ => false end.

(** One callback: new memory, return code and (for reads) the data.
    whFlashRamsim_Read 124-142, _BlankCheck 190-208, _Verify 167-187,
    _Program 88-122, _Erase 144-165 (line numbers of src/wh_flash_ramsim.c). *)
Definition fstep (C : cfg) (f : flash) (c : fcall) : flash * (Z * list N) :=
  match c with
  | FRead off n =>
      if off + n <=? dev_units C then (f, (OK, read_units f off n))
      else (f, (BADARGS, []))
  | FBlank off n =>
      if off + n <=? dev_units C
      then (f, (if blankb C f off n then OK else NOTBLANK, []))
      else (f, (BADARGS, []))
  | FVerify off us =>
      if off + length us <=? dev_units C
      then (f, (if list_eqb (read_units f off (length us)) us
                then OK else NOTVERIFIED, []))
      else (f, (BADARGS, []))
  | FProgram off us =>
      if off + length us <=? dev_units C
      then if blankb C f off (length us)
           then (put_units f off us, (OK, []))
           else (f, (NOTBLANK, []))
      else (f, (BADARGS, []))
  | FErase off n =>
      if off + n <=? dev_units C
      then if (off mod c_pu C =? 0) && (n mod c_pu C =? 0)
           then (put_erased C f off n, (OK, []))
           else (f, (BADARGS, []))
      else (f, (BADARGS, []))
  end.

(** Programs: sequences of callbacks with control depending on their results. *)
Inductive prog (A : Type) :=
| Ret (a : A)
| Call (c : fcall) (k : Z * list N -> prog A).
Arguments Ret {A} a.
Arguments Call {A} c k.

Fixpoint bind {A B} (p : prog A) (k : A -> prog B) : prog B :=
  match p with
  | Ret a => k a
  | Call c kk => Call c (fun r => bind (kk r) k)
  end.
Notation "'do' x <- p ;; q" := (bind p (fun x => q))
  (at level 200, x name, p at level 100, q at level 200, right associativity).
Notation "'do' ' x <- p ;; q" := (bind p (fun v => match v with x => q end))
  (at level 200, x strict pattern, p at level 100, q at level 200, right associativity).

(** Execution without faults. *)
Fixpoint run {A} (C : cfg) (p : prog A) (f : flash) : A * flash :=
  match p with
  | Ret a => (a, f)
  | Call c k => let (f', r) := fstep C f c in run C (k r) f'
  end.

(** A write interrupted part way: each unit holds its old or its new value. *)
Definition torn (C : cfg) (c : fcall) (f f' : flash) : Prop :=
  forall o, f' o = f o \/ f' o = fst (fstep C f c) o.

(** [exec fl p f a f']: p can return a leaving memory f'.  With [fl = true] any
    program or erase may also fail with a nonzero code after having been
    applied in part. *)
Inductive exec {A} (C : cfg) (fl : bool) : prog A -> flash -> A -> flash -> Prop :=
| exec_ret a f : exec C fl (Ret a) f a f
| exec_ok c k f a f' :
    exec C fl (k (snd (fstep C f c))) (fst (fstep C f c)) a f' ->
    exec C fl (Call c k) f a f'
| exec_fault c k f f1 rc a f' :
    fl = true -> is_write c = true -> torn C c f f1 -> rc <> OK ->
    exec C fl (k (rc, [])) f1 a f' ->
    exec C fl (Call c k) f a f'.

(** [crash fl p f f']: power can be lost while p runs from f, leaving f'. *)
Inductive crash {A} (C : cfg) (fl : bool) : prog A -> flash -> flash -> Prop :=
| crash_now p f : crash C fl p f f
| crash_torn c k f f' :
    is_write c = true -> torn C c f f' -> crash C fl (Call c k) f f'
| crash_next c k f f' :
    crash C fl (k (snd (fstep C f c))) (fst (fstep C f c)) f' ->
    crash C fl (Call c k) f f'
| crash_fault c k f f1 rc f' :
    fl = true -> is_write c = true -> torn C c f f1 -> rc <> OK ->
    crash C fl (k (rc, [])) f1 f' ->
    crash C fl (Call c k) f f'.

(** The callbacks a run issues, for the bounds property. *)
Fixpoint calls {A} (C : cfg) (p : prog A) (f : flash) : list (flash * fcall) :=
  match p with
  | Ret a => []
  | Call c k => (f, c) :: calls C (k (snd (fstep C f c))) (fst (fstep C f c))
  end.

(** * wh_flash_unit.c *)

(** wh_FlashUnit_Read 63-73. *)
Definition fu_read (off n : nat) : prog (Z * list N) := Call (FRead off n) Ret.

(** wh_FlashUnit_BlankCheck 109-118. *)
Definition fu_blank (off n : nat) : prog Z := Call (FBlank off n) (fun r => Ret (fst r)).

(** wh_FlashUnit_Program 76-107: blank check, program, verify. *)
Definition fu_program (off : nat) (us : list N) : prog Z :=
  Call (FBlank off (length us)) (fun r =>
  if is_ok (fst r) then
    Call (FProgram off us) (fun r =>
    if is_ok (fst r) then
      Call (FVerify off us) (fun r => Ret (fst r))
    else Ret (fst r))
  else Ret (fst r)).

(** wh_FlashUnit_Erase 120-142. *)
Definition fu_erase (off n : nat) : prog Z :=
  if n =? 0 then Ret OK else
  Call (FErase off n) (fun r =>
  if is_ok (fst r) then Call (FBlank off n) (fun r => Ret (fst r))
  else Ret (fst r)).

(** wh_FlashUnit_ReadBytes 152-196: unaligned head, aligned units, tail. *)
Definition fu_read_bytes (boff blen : nat) : prog (Z * list N) :=
  let ou := boff / 8 in
  let orem := boff mod 8 in
  do '(rc, head, blen, ou) <-
    (if orem =? 0 then Ret (OK, [], blen, ou)
     else do '(rc, us) <- fu_read ou 1 ;;
          if is_ok rc then
            let this := Nat.min (8 - orem) blen in
            Ret (OK, firstn this (skipn orem (unpack us)), blen - this, S ou)
          else Ret (rc, [], blen, ou)) ;;
  if is_ok rc then
    let du := blen / 8 in
    let dr := blen mod 8 in
    do '(rc, mid, ou) <-
      (if du =? 0 then Ret (OK, [], ou)
       else do '(rc, us) <- fu_read ou du ;;
            Ret (rc, unpack us, ou + du)) ;;
    if is_ok rc then
      if dr =? 0 then Ret (OK, head ++ mid)
      else do '(rc, us) <- fu_read ou 1 ;;
           if is_ok rc then Ret (OK, head ++ mid ++ firstn dr (unpack us))
           else Ret (rc, [])
    else Ret (rc, [])
  else Ret (rc, []).

(** wh_FlashUnit_ProgramBytes 198-234, with [bs] the caller's buffer.  An
    unaligned [boff] skips [boff mod 8] bytes of the buffer, as in the code. *)
Definition fu_program_bytes (boff : nat) (bs : list N) : prog Z :=
  let off := boff / 8 in
  let data := skipn (boff mod 8) bs in
  let bcount := length bs in
  let count := bcount / 8 in
  let rem := bcount mod 8 in
  do rc <- (if count =? 0 then Ret OK
            else fu_program off (pack (firstn (8 * count) data))) ;;
  if is_ok rc && negb (rem =? 0)
  then fu_program (off + count) (pack (firstn rem (skipn (8 * count) data)))
  else Ret rc.
