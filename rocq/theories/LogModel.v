(** The log backend of NVM, src/wh_nvm_flash_log.c, over a flash device seen byte
    by byte.

    Programs are those of Flash.v ([prog]); offsets, lengths and contents of the
    callbacks are in bytes here.  Simplifications: the write lock is open (Init
    unlocks both partitions, 452-463), the device has exactly two partitions that
    are erased as a whole, and its size is that of WH_NVM_FLASH_LOG_PARTITION_SIZE
    (Init refuses other sizes, 446-449).  Null arguments are not modelled. *)
From Verif Require Import Base Flash NvmSpec.

(** Build-time and device configuration. *)
Record lcfg := mkLcfg {
  l_oc : nat;    (* WOLFHSM_CFG_NVM_OBJECT_COUNT *)
  l_psz : nat;   (* WH_NVM_FLASH_LOG_PARTITION_SIZE *)
  l_g : nat;     (* WH_NVM_FLASH_LOG_WRITE_GRANULARITY *)
  l_eb : N;      (* value of an erased byte *)
  l_atom : nat   (* bytes the device programs or erases as one: not known to the code *)
}.

Section Dev.
Variable C : lcfg.

(** One callback, whFlashRamsim_Read, _BlankCheck, _Verify, _Program, _Erase:
    src/wh_flash_ramsim.c 88-208. *)
Definition lblankb (f : flash) (off n : nat) : bool := forallb (N.eqb (l_eb C)) (read_units f off n).
Definition put_blank (f : flash) (off n : nat) : flash :=
  fun o => if (off <=? o) && (o <? off + n) then l_eb C else f o.
Definition lstep (f : flash) (c : fcall) : flash * (Z * list N) :=
  match c with
  | FRead off n => if off + n <=? 2 * l_psz C then (f, (OK, read_units f off n)) else (f, (BADARGS, []))
  | FBlank off n =>
      if off + n <=? 2 * l_psz C then (f, (if lblankb f off n then OK else NOTBLANK, [])) else (f, (BADARGS, []))
  | FVerify off bs =>
      if off + length bs <=? 2 * l_psz C
      then (f, (if list_eqb (read_units f off (length bs)) bs then OK else NOTVERIFIED, [])) else (f, (BADARGS, []))
  | FProgram off bs =>
      if off + length bs <=? 2 * l_psz C
      then if lblankb f off (length bs) then (put_units f off bs, (OK, [])) else (f, (NOTBLANK, []))
      else (f, (BADARGS, []))
  | FErase off n =>
      if off + n <=? 2 * l_psz C
      then if (off mod l_psz C =? 0) && (n mod l_psz C =? 0) then (put_blank f off n, (OK, [])) else (f, (BADARGS, []))
      else (f, (BADARGS, []))
  end.

(** A write interrupted part way: each group of [l_atom] bytes is old or new. *)
Definition ltorn (c : fcall) (f f' : flash) : Prop :=
  exists S1 : nat -> bool, forall o, f' o = if S1 (o / l_atom C) then fst (lstep f c) o else f o.
(** A write that reports a failure: done in part, but a program is then not done
    completely. *)
Definition lfault (c : fcall) (f f' : flash) : Prop :=
  f' = f \/ (ltorn c f f' /\ match c with FProgram _ _ => exists o, f' o <> fst (lstep f c) o | _ => True end).

(** As in Flash.v: results of a program, memories a power loss can leave. *)
Inductive lexec {A} (fl : bool) : prog A -> flash -> A -> flash -> Prop :=
| lexec_ret a f : lexec fl (Ret a) f a f
| lexec_ok c k f a f' : lexec fl (k (snd (lstep f c))) (fst (lstep f c)) a f' -> lexec fl (Call c k) f a f'
| lexec_fault c k f f1 rc a f' :
    fl = true -> is_write c = true -> lfault c f f1 -> rc <> OK ->
    lexec fl (k (rc, [])) f1 a f' -> lexec fl (Call c k) f a f'.
Inductive lcrash {A} (fl : bool) : prog A -> flash -> flash -> Prop :=
| lcrash_now p f : lcrash fl p f f
| lcrash_torn c k f f' : is_write c = true -> ltorn c f f' -> lcrash fl (Call c k) f f'
| lcrash_next c k f f' : lcrash fl (k (snd (lstep f c))) (fst (lstep f c)) f' -> lcrash fl (Call c k) f f'
| lcrash_fault c k f f1 rc f' :
    fl = true -> is_write c = true -> lfault c f f1 -> rc <> OK ->
    lcrash fl (k (rc, [])) f1 f' -> lcrash fl (Call c k) f f'.

(** * wh_nvm_flash_log.c *)
(** PAD_SIZE 87-89 (the granularity is a power of two), sizeof of
    whNvmFlashLogMetadata 91-96; sizeof of whNvmFlashLogPartitionHeader is the
    granularity (wolfhsm/wh_nvm_flash_log.h 41-45). *)
Definition pad_size (n : nat) : nat := (n + l_g C - 1) / l_g C * l_g C.
Definition msz : nat := pad_size 32.

(** whNvmFlashLogContext: active_partition and directory (header and data). *)
Record lctx := mkLx { lx_act : bool; lx_epoch : N; lx_size : N; lx_pad : list N; lx_data : list N }.

(** The bytes of a partition header, and its fields. *)
Definition hdr_bytes (x : lctx) : list N := le_enc 4 (lx_epoch x) ++ le_enc 4 (lx_size x) ++ lx_pad x.
Definition h_epoch (h : list N) : N := le_dec (firstn 4 h).
Definition h_size (h : list N) : N := le_dec (firstn 4 (skipn 4 h)).
Definition lpart (p : bool) : nat := if p then l_psz C else 0.

(** nfl_FlashProgramHelper 99-117, nfl_FlashEraseHelper 120-135. *)
Definition nl_program (off : nat) (bs : list N) : prog Z :=
  Call (FBlank off (length bs)) (fun r =>
  if is_ok (fst r) then
    Call (FProgram off bs) (fun r =>
    if is_ok (fst r) then Call (FVerify off bs) (fun r => Ret (fst r)) else Ret (fst r))
  else Ret (fst r)).
Definition nl_erase (off n : nat) : prog Z :=
  Call (FErase off n) (fun r =>
  if is_ok (fst r) then Call (FBlank off n) (fun r => Ret (fst r)) else Ret (fst r)).

(** The metadata at an offset of the directory's data. *)
Definition meta_at (x : lctx) (off : nat) : meta := meta_of_bytes (firstn 32 (skipn off (lx_data x))).
Definition obj_len (x : lctx) (off : nat) : nat := msz + pad_size (N.to_nat (m_len (meta_at x off))).

(** nfl_ObjNext 137-147. *)
Definition obj_next (x : lctx) (off : nat) : option nat :=
  let next := off + obj_len x off in
  if (N.of_nat next <? lx_size x)%N then Some next else None.

(** nfl_ObjectFindById 275-291; the loop moves on by at least one byte. *)
Fixpoint obj_find_from (x : lctx) (id : N) (fuel off : nat) : option nat :=
  match fuel with
  | 0 => None
  | S k =>
      let i := m_id (meta_at x off) in
      if N.eqb i 0 then None
      else if N.eqb i id then Some off
      else match obj_next x off with Some o => obj_find_from x id k o | None => None end
  end.
Definition obj_find (x : lctx) (id : N) : option nat :=
  if N.eqb id 0 then None else obj_find_from x id (S (l_psz C)) 0.

(** nfl_ObjectCount 317-344: from an offset of the data (0 for NULL). *)
Fixpoint obj_count_from (x : lctx) (fuel off : nat) : nat :=
  match fuel with
  | 0 => 0
  | S k =>
      if N.eqb (m_id (meta_at x off)) 0 then 0
      else S (match obj_next x off with Some o => obj_count_from x k o | None => 0 end)
  end.
Definition obj_count (x : lctx) (off : nat) : nat :=
  if (lx_size x <=? N.of_nat off)%N then 0 else obj_count_from x (S (l_psz C)) off.

(** nfl_ObjectDestroy 293-315.  If the object does not lie inside the used bytes,
    the length [tail] wraps and memmove leaves the buffer; the model then answers
    [OOB] and stops. *)
Definition OOB : Z := (-99999)%Z.
Definition with_data (x : lctx) (size : N) (d : list N) : lctx := mkLx (lx_act x) (lx_epoch x) size (lx_pad x) d.
Definition obj_destroy (x : lctx) (id : N) : Z * lctx :=
  if N.eqb id 0 then (BADARGS, x) else
  match obj_find x id with
  | None => (OK, x)
  | Some off =>
      let len := obj_len x off in
      if (lx_size x <? N.of_nat (off + len))%N then (OOB, x) else
      let size := N.to_nat (lx_size x) in
      (OK, with_data x (lx_size x - N.of_nat len)
             (firstn off (lx_data x) ++ firstn (size - (off + len)) (skipn (off + len) (lx_data x))
              ++ repeat 0%N len ++ skipn size (lx_data x)))
  end.

(** nfl_PartitionErase 149-158, nfl_PartitionWrite 160-182, nfl_PartitionCommit
    184-206. *)
Definition part_erase (p : bool) : prog Z := nl_erase (lpart p) (l_psz C).
Definition part_write (x : lctx) (p : bool) : prog Z :=
  if negb (N.eqb (lx_size x mod N.of_nat (l_g C)) 0) then Ret ABORTED
  else if N.eqb (lx_size x) 0 then Ret OK
  else nl_program (lpart p + l_g C) (firstn (N.to_nat (lx_size x)) (lx_data x)).
Definition part_commit (x : lctx) (p : bool) : prog Z :=
  Call (FBlank (lpart p) (l_g C)) (fun r =>
  if is_ok (fst r) then nl_program (lpart p) (hdr_bytes x) else Ret (fst r)).

(** nfl_PartitionChoose 208-273. *)
Definition with_act (x : lctx) (a : bool) : lctx := mkLx a (lx_epoch x) (lx_size x) (lx_pad x) (lx_data x).
Definition part_choose (x : lctx) : prog (Z * lctx) :=
  Call (FBlank 0 (l_g C)) (fun r0 =>
  if negb (is_ok (fst r0)) && negb (Z.eqb (fst r0) NOTBLANK) then Ret (fst r0, x) else
  Call (FBlank (l_psz C) (l_g C)) (fun r1 =>
  if negb (is_ok (fst r1)) && negb (Z.eqb (fst r1) NOTBLANK) then Ret (fst r1, x) else
  if is_ok (fst r0) && is_ok (fst r1) then
    do rc <- part_erase false ;;
    if is_ok rc then do rc <- part_commit x false ;; Ret (rc, x) else Ret (rc, x)
  else if is_ok (fst r0) then Ret (OK, with_act x true)
  else if is_ok (fst r1) then Ret (OK, with_act x false)
  else
    Call (FRead 0 (l_g C)) (fun h0 =>
    if is_ok (fst h0) then
      Call (FRead (l_psz C) (l_g C)) (fun h1 =>
      if is_ok (fst h1)
      then Ret (OK, with_act x (negb (h_epoch (snd h1) <? h_epoch (snd h0))%N))
      else Ret (fst h1, x))
    else Ret (fst h0, x)))).

(** nfl_PartitionRead 346-377: the header is replaced before its size is
    checked. *)
Definition splice (l : list N) (off : nat) (bs : list N) : list N :=
  firstn off l ++ bs ++ skipn (off + length bs) l.
Definition part_read (x : lctx) : prog (Z * lctx) :=
  let off := lpart (lx_act x) in
  Call (FRead off (l_g C)) (fun h =>
  if is_ok (fst h) then
    let x := mkLx (lx_act x) (h_epoch (snd h)) (h_size (snd h)) (skipn 8 (snd h)) (lx_data x) in
    if (N.of_nat (l_psz C - l_g C) <? lx_size x)%N then Ret (ABORTED, x)
    else if N.eqb (lx_size x) 0 then Ret (OK, x)
    else Call (FRead (off + l_g C) (N.to_nat (lx_size x))) (fun r =>
         if is_ok (fst r) then Ret (OK, with_data x (lx_size x) (splice (lx_data x) 0 (snd r))) else Ret (fst r, x))
  else Ret (fst h, x)).

(** nfl_PartitionNewEpoch 379-400. *)
Definition new_epoch (x : lctx) : prog (Z * lctx) :=
  let next := negb (lx_act x) in
  let x := mkLx (lx_act x) ((lx_epoch x + 1) mod 4294967296) (lx_size x) (lx_pad x) (lx_data x) in
  do rc <- part_erase next ;;
  if is_ok rc then
    do rc <- part_write x next ;;
    if is_ok rc then
      do rc <- part_commit x next ;;
      Ret (if is_ok rc then (OK, with_act x next) else (rc, x))
    else Ret (rc, x)
  else Ret (rc, x).

(** nfl_PartitionNewEpochOrFallback 402-420. *)
Definition new_epoch_or_fallback (x : lctx) : prog (Z * lctx) :=
  do '(rc, x) <- new_epoch x ;;
  do x <- (if is_ok rc then Ret x else do '(_, x) <- part_read x ;; Ret x) ;;
  do _ <- part_erase (negb (lx_act x)) ;;
  Ret (rc, x).

(** wh_NvmFlashLog_Init 423-479, from the cleared context. *)
Definition lx_zero : lctx := mkLx false 0 0 (repeat 0%N (l_g C - 8)) (repeat 0%N (l_psz C)).
Definition lg_init : prog (Z * lctx) :=
  do '(rc, x) <- part_choose lx_zero ;;
  if is_ok rc then
    do '(rc, x) <- part_read x ;;
    if is_ok rc then do rc <- part_erase (negb (lx_act x)) ;; Ret (rc, x) else Ret (rc, x)
  else Ret (rc, x).

(** wh_NvmFlashLog_List 509-549. *)
Definition lg_list (x : lctx) (start : N) : Z * nat * N :=
  let next := if N.eqb start 0 then Some 0
              else match obj_find x start with Some off => obj_next x off | None => None end in
  match next with
  | None => (OK, 0, 0%N)
  | Some off => if N.eqb (m_id (meta_at x off)) 0 then (OK, 0, 0%N)
                else (OK, obj_count x off, m_id (meta_at x off))
  end.

(** wh_NvmFlashLog_GetAvailable 552-582: the count passes through a uint8_t. *)
Definition lg_avail (x : lctx) : nat * nat :=
  (l_psz C - l_g C - N.to_nat (lx_size x), l_oc C - obj_count x 0 mod 256).

(** wh_NvmFlashLog_GetMetadata 585-601. *)
Definition lg_meta (x : lctx) (id : N) : Z * option meta :=
  match obj_find x id with None => (NOTFOUND, None) | Some off => (OK, Some (meta_at x off)) end.

(** wh_NvmFlashLog_AddObject 603-649. *)
Definition lg_add (x : lctx) (m : meta) (data : option (list N)) : prog (Z * lctx) :=
  let d := data_of data in
  let old := obj_find x (m_id m) in
  let space := l_psz C - l_g C - N.to_nat (lx_size x) + match old with Some off => obj_len x off | None => 0 end in
  if space <? pad_size (length d) + msz then Ret (NOSPACE, x)
  (* count -= 1 of an unsigned 0 wraps *)
  else if match old with
          | Some _ => (obj_count x 0 =? 0) || (l_oc C <=? obj_count x 0 - 1)
          | None => l_oc C <=? obj_count x 0
          end then Ret (NOSPACE, x)
  else
    let '(rc, x) := match old with Some _ => obj_destroy x (m_id m) | None => (OK, x) end in
    if is_ok rc then
      let off := N.to_nat (lx_size x) in
      let data := splice (splice (lx_data x) off (meta_bytes (with_len m (N.of_nat (length d))))) (off + msz) d in
      new_epoch_or_fallback (with_data x (lx_size x + N.of_nat (msz + pad_size (length d))) data)
    else Ret (rc, x).

(** wh_NvmFlashLog_DestroyObjects 652-673. *)
Fixpoint destroy_all (x : lctx) (ids : list N) : Z * lctx :=
  match ids with
  | [] => (OK, x)
  | id :: r => let '(rc, x) := obj_destroy x id in if is_ok rc then destroy_all x r else (rc, x)
  end.
Definition lg_destroy (x : lctx) (ids : list N) : prog (Z * lctx) :=
  match ids with
  | [] => Ret (OK, x)
  | _ => let '(rc, x) := destroy_all x ids in if is_ok rc then new_epoch_or_fallback x else Ret (rc, x)
  end.

(** wh_NvmFlashLog_Read 676-697. *)
Definition lg_read (x : lctx) (id : N) (off len : nat) : Z * list N :=
  match obj_find x id with
  | None => (NOTFOUND, [])
  | Some o => if N.to_nat (m_len (meta_at x o)) <? off + len then (BADARGS, [])
              else (OK, firstn len (skipn (o + msz + off) (lx_data x)))
  end.

(** wh_Nvm_AddObjectWithReclaim, src/wh_nvm.c 219-255, over this backend. *)
Definition lg_add_reclaim (x : lctx) (m : meta) (data : option (list N)) : prog (Z * lctx) :=
  let d := length (data_of data) in
  let '(asz, aobj) := lg_avail x in
  do '(rc, x) <-
    (if (asz <? d) || (aobj =? 0) then
       if (d <=? asz + 0) && (0 <? aobj + 0) then lg_destroy x [] else Ret (NOSPACE, x)
     else Ret (OK, x)) ;;
  if is_ok rc then lg_add x m data else Ret (rc, x).

Definition lg_run (x : lctx) (o : nvm_op) : prog (nvm_res * lctx) :=
  match o with
  | OAdd m data => do '(rc, x') <- lg_add x m data ;; Ret (RCode rc, x')
  | OAddR m data => do '(rc, x') <- lg_add_reclaim x m data ;; Ret (RCode rc, x')
  | ODestroy ids => do '(rc, x') <- lg_destroy x ids ;; Ret (RCode rc, x')
  | ORead id off len => Ret (let '(rc, bs) := lg_read x id off len in RData rc bs, x)
  | OMeta id => Ret (let '(rc, m) := lg_meta x id in RMeta rc m, x)
  | OList start => Ret (let '(rc, n, id) := lg_list x start in RList rc n id, x)
  | OAvail => Ret (let '(a, b) := lg_avail x in RAvail OK a b 0 0, x)
  end.
End Dev.
