(** Flash kept in a file: port/posix/posix_flash_file.c.

    A file is the list of its bytes; offsets and sizes are natural numbers (the
    32-bit arguments never wrap: the sums are computed in 64 bits, and
    [end_offset] in Verify and BlankCheck is used only after the check).  How a
    system call ends is an argument: None, it does all of its work; Some k, it
    stops after [k] bytes and says so by a short count or an error. *)
From Verif Require Import Base Flash NvmSpec NvmFlashModel NvmHistory.

(** posixFlashFileContext: posix_flash_file.h 37-42, while the file is open. *)
Record fctx := mkF { f_part : nat; f_eb : N; f_unlocked : bool }.

(** posixFlashFileConfig: posix_flash_file.h 45-49, without the name. *)
Record fcfg := mkFC { fc_part : nat; fc_eb : N }.

(** MAX_OFFSET: posix_flash_file.c 47. *)
Definition max_offset (x : fctx) : nat := 2 * f_part x.

(** pread and pwrite on a regular file (POSIX): reading stops at the end, writing
    behind the end leaves zeros in between. *)
Definition pread (F : list N) (off n : nat) : list N := firstn n (skipn off F).
Definition pwrite (F : list N) (off : nat) (d : list N) : list N :=
  firstn off (F ++ repeat 0%N (off - length F)) ++ d ++ skipn (off + length d) F.
(** ftruncate to a smaller size. *)
Definition truncate (F : list N) (n : nat) : list N := firstn n F.

(** pfill 54-65: one byte at a time; true if all [n] were written. *)
Fixpoint pfill (w : option nat) (F : list N) (c : N) (n off count : nat) : bool * list N :=
  match n with
  | 0 => (true, F)
  | S k =>
      if match w with Some j => count =? j | None => false end then (false, F)
      else pfill w (pwrite F (off + count) [c]) c k off (S count)
  end.

(** posixFlashFile_Init 68-138.  [opened]: open succeeds; [stat]: fstat does;
    [w]: filling up; [trunc]: ftruncate succeeds; [offmax]: the largest off_t.  A
    file that does not exist is created empty.  After a failure the file is
    closed (posixFlashFile_Cleanup 140-154). *)
Definition init (offmax : N) (c : fcfg) (opened stat : bool) (w : option nat) (trunc : bool) (F : list N)
  : Z * option fctx * list N :=
  if negb opened then (ABORTED, None, F) else
  let x := mkF (fc_part c) (fc_eb c) false in
  let max := max_offset x in
  if ((4294967295 <? N.of_nat max) || (offmax <? N.of_nat max))%N then (BADARGS, None, F) else
  if negb stat then (OK, Some x, F) else
  if length F <? max then
    let '(ok, F') := pfill w F (f_eb x) (max - length F) (length F) 0 in
    if ok then (OK, Some x, F') else (ABORTED, None, F')
  else if max <? length F then
    if trunc then (OK, Some x, truncate F max) else (ABORTED, None, F)
  else (OK, Some x, F).

(** posixFlashFile_WriteLock 165-176, posixFlashFile_WriteUnlock 177-189: the range
    is ignored. *)
Definition write_lock (x : fctx) : fctx := mkF (f_part x) (f_eb x) false.
Definition write_unlock (x : fctx) : fctx := mkF (f_part x) (f_eb x) true.

(** posixFlashFile_Read 190-216; [null]: no buffer is given. *)
Definition read (x : fctx) (null : bool) (w : option nat) (F : list N) (off size : nat) : Z * list N :=
  if max_offset x <? off + size then (BADARGS, []) else
  if null || (size =? 0) then (OK, []) else
  let got := match w with None => pread F off size | Some k => pread F off (Nat.min k size) end in
  if length got =? size then (OK, got) else (ABORTED, []).

(** posixFlashFile_Program 218-247; None: no data is given. *)
Definition program (x : fctx) (w : option nat) (F : list N) (off size : nat) (data : option (list N)) : Z * list N :=
  if max_offset x <? off + size then (BADARGS, F) else
  match data with
  | None => (OK, F)
  | Some d =>
      if size =? 0 then (OK, F) else
      if negb (f_unlocked x) then (LOCKED, F) else
      let n := match w with None => size | Some k => Nat.min k size end in
      (if n =? size then OK else ABORTED, pwrite F off (firstn n d))
  end.

(** posixFlashFile_Verify 249-290: pieces of PFF_VERIFY_BUFFER_LEN = 64 bytes.  [ws]
    tells how the reads end. *)
Fixpoint verify_loop (fuel : nat) (x : fctx) (ws : nat -> option nat) (F : list N) (off fin doff : nat) (data : list N) : Z :=
  if off <? fin then
    match fuel with
    | 0 => OUT_OF_FUEL
    | S k =>
        let this := Nat.min 64 (fin - off) in
        let '(rc, b) := read x false (ws k) F off this in
        if negb (is_ok rc) then rc else
        if list_eqb (firstn this (skipn doff data)) b
        then verify_loop k x ws F (off + this) fin (doff + this) data
        else NOTVERIFIED
    end
  else OK.
Definition verify (x : fctx) (ws : nat -> option nat) (F : list N) (off size : nat) (data : option (list N)) : Z :=
  if max_offset x <? off + size then BADARGS else
  match data with
  | None => OK
  | Some d => if size =? 0 then OK else verify_loop size x ws F off (off + size) 0 d
  end.

(** posixFlashFile_Erase 292-320. *)
Definition erase (x : fctx) (w : option nat) (F : list N) (off size : nat) : Z * list N :=
  if max_offset x <? off + size then (BADARGS, F) else
  if size =? 0 then (OK, F) else
  if negb (f_unlocked x) then (LOCKED, F) else
  let '(ok, F') := pfill w F (f_eb x) size off 0 in
  (if ok then OK else ABORTED, F').

(** posixFlashFile_BlankCheck 322-365. *)
Fixpoint blank_loop (fuel : nat) (x : fctx) (ws : nat -> option nat) (F : list N) (off fin : nat) : Z :=
  if off <? fin then
    match fuel with
    | 0 => OUT_OF_FUEL
    | S k =>
        let this := Nat.min 64 (fin - off) in
        let '(rc, b) := read x false (ws k) F off this in
        if negb (is_ok rc) then rc else
        if list_eqb (firstn this (repeat (f_eb x) 64)) b
        then blank_loop k x ws F (off + this) fin
        else NOTBLANK
    end
  else OK.
Definition blank_check (x : fctx) (ws : nat -> option nat) (F : list N) (off size : nat) : Z :=
  if max_offset x <? off + size then BADARGS else
  if size =? 0 then OK else blank_loop size x ws F off (off + size).

(** * Under the NVM layer
    wh_FlashUnit_* (src/wh_flash_unit.c 63-142) turn units into bytes.  The NVM layer
    has unlocked both partitions (src/wh_nvm_flash.c 1041-1043).  [w] is how the
    writing call ends; the reads succeed. *)
Definition dev (x : fctx) (w : option nat) (F : list N) (c : fcall) : list N * (Z * list N) :=
  match c with
  | FRead off n => let '(rc, b) := read x false None F (8 * off) (8 * n) in (F, (rc, pack b))
  | FBlank off n => (F, (blank_check x (fun _ => None) F (8 * off) (8 * n), []))
  | FVerify off us => (F, (verify x (fun _ => None) F (8 * off) (8 * length us) (Some (unpack us)), []))
  | FProgram off us => let '(rc, F') := program x w F (8 * off) (8 * length us) (Some (unpack us)) in (F', (rc, []))
  | FErase off n => let '(rc, F') := erase x w F (8 * off) (8 * n) in (F', (rc, []))
  end.

(** A program of the NVM layer on the file: as [exec] and [crash] of Flash.v.  A
    write may stop early and fail; power may be lost, each unit of the range being
    written or not.  Simplification, as in Flash.v: units of 8 bytes are not torn. *)
Definition unit_at (F : list N) (o : nat) : list N := firstn 8 (skipn (8 * o) F).
Definition cut_write (x : fctx) (c : fcall) (F F' : list N) : Prop :=
  length F' = length F /\
  forall o, 8 * o < length F -> unit_at F' o = unit_at F o \/ unit_at F' o = unit_at (fst (dev x None F c)) o.

Inductive fexec {A} (x : fctx) (fl : bool) : prog A -> list N -> A -> list N -> Prop :=
| fx_ret a F : fexec x fl (Ret a) F a F
| fx_ok c k F a F' :
    fexec x fl (k (snd (dev x None F c))) (fst (dev x None F c)) a F' -> fexec x fl (Call c k) F a F'
| fx_short c k F j a F' :
    fl = true -> is_write c = true ->
    fexec x fl (k (snd (dev x (Some (8 * j)) F c))) (fst (dev x (Some (8 * j)) F c)) a F' -> fexec x fl (Call c k) F a F'.
Inductive fcrash {A} (x : fctx) (fl : bool) : prog A -> list N -> list N -> Prop :=
| fc_now p F : fcrash x fl p F F
| fc_cut c k F F' : is_write c = true -> cut_write x c F F' -> fcrash x fl (Call c k) F F'
| fc_next c k F F' :
    fcrash x fl (k (snd (dev x None F c))) (fst (dev x None F c)) F' -> fcrash x fl (Call c k) F F'
| fc_short c k F j F' :
    fl = true -> is_write c = true ->
    fcrash x fl (k (snd (dev x (Some (8 * j)) F c))) (fst (dev x (Some (8 * j)) F c)) F' -> fcrash x fl (Call c k) F F'.

(** The life of a server whose NVM is a file, as [life] of NvmHistory.v: each start
    opens the file ([init]) and unlocks it before the NVM layer's own
    initialisation.  [C]: the NVM configuration, its erased byte and partition size
    being those of the file. *)
Definition fcfg_of (C : cfg) : fcfg := mkFC (8 * c_pu C) (c_eb C).
Definition ctx_of (C : cfg) : fctx := mkF (8 * c_pu C) (c_eb C) true.
Inductive flife (offmax : N) (C : cfg) (F0 : list N) : list event -> list N -> option ctx -> Prop :=
| fl_new : flife offmax C F0 [] F0 None
| fl_boot evs F x F1 F2 s :
    flife offmax C F0 evs F None -> init offmax (fcfg_of C) true true None true F = (OK, Some x, F1) ->
    fexec (write_unlock (write_unlock x)) false (nf_init C) F1 (OK, s) F2 ->
    flife offmax C F0 (EvBoot :: evs) F2 (Some s)
| fl_boot_init evs F opened w trunc :                     (* opening or sizing the file fails or is cut short *)
    flife offmax C F0 evs F None -> fst (fst (init offmax (fcfg_of C) opened true w trunc F)) <> OK ->
    flife offmax C F0 (EvBootCut :: evs) (snd (init offmax (fcfg_of C) opened true w trunc F)) None
| fl_boot_crash evs F x F1 F2 :
    flife offmax C F0 evs F None -> init offmax (fcfg_of C) true true None true F = (OK, Some x, F1) ->
    fcrash (write_unlock (write_unlock x)) true (nf_init C) F1 F2 ->
    flife offmax C F0 (EvBootCut :: evs) F2 None
| fl_boot_fault evs F x F1 F2 rx :
    flife offmax C F0 evs F None -> init offmax (fcfg_of C) true true None true F = (OK, Some x, F1) ->
    fexec (write_unlock (write_unlock x)) true (nf_init C) F1 rx F2 ->
    flife offmax C F0 (EvBootCut :: evs) F2 None
| fl_op evs F s o r s' F' :
    flife offmax C F0 evs F (Some s) -> op_ok o -> fexec (ctx_of C) false (op_run C s o) F (r, s') F' ->
    flife offmax C F0 (EvOp o r :: evs) F' (Some s')
| fl_crash evs F s o F' :
    flife offmax C F0 evs F (Some s) -> op_ok o -> fcrash (ctx_of C) true (op_run C s o) F F' ->
    flife offmax C F0 (EvCut o :: evs) F' None
| fl_fault evs F s o rx F' :
    flife offmax C F0 evs F (Some s) -> op_ok o -> fexec (ctx_of C) true (op_run C s o) F rx F' ->
    flife offmax C F0 (EvCut o :: evs) F' None
| fl_off evs F os : flife offmax C F0 evs F os -> flife offmax C F0 (EvOff :: evs) F None.
