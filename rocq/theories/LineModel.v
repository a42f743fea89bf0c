(** Shared memory seen through two data caches: the block helpers of
    src/wh_utils.c and one message of the memory transport over them.

    Each processor has its own view of memory (its cache over the memory) and
    the two share one memory.  A write reaches the view of the writer only; it
    reaches the shared memory when its cache line is written back, and the view
    of the reader when the reader drops its own copy of that line. *)
From Coq Require Import List NArith Arith Bool.
Import ListNotations.

(** what one processor reads at each address, or what the memory holds *)
Definition view := nat -> N.

(** memcpy into [a] (src/wh_utils.c 189) *)
Definition put (a : nat) (bs : list N) (v : view) : view :=
  fun x => if (a <=? x) && (x <? a + length bs) then nth (x - a) bs 0%N else v x.

(** memcpy out of [a] (src/wh_utils.c 184) *)
Definition get (a n : nat) (v : view) : list N := map v (seq a n).

(** the lines including the pointers [ps] taken over from [from]:
    XCACHEFLUSH is [lines L [p] cache memory] and XCACHEINVLD is
    [lines L [p] memory cache] (wolfhsm/wh_settings.h 194-206: "the cache line
    including ptr").  [L] is XCACHELINE. *)
Definition lines (L : nat) (ps : list nat) (from to : view) : view :=
  fun x => if existsb (fun p => p / L =? x / L) ps then from x else to x.

(** the pointers the do-while loop visits (src/wh_utils.c 153-159 and 165-171).
    [fuel] bounds the loop; [S n] is enough.  Lengths here have 16 bits, so the
    conversion of the length to int is exact. *)
Fixpoint visit (fuel L p len : nat) : list nat :=
  match fuel with
  | O => []
  | S f => p :: (if L <? len then visit f L (p + L) (len - L) else [])
  end.

(** wh_Utils_CacheFlush and wh_Utils_CacheInvalidate (src/wh_utils.c 151-173) *)
Definition block (L p n : nat) (from to : view) : view :=
  lines L (visit (S n) L p n) from to.

(** wh_Utils_memset_flush (src/wh_utils.c 175-180): the view of the caller and
    the memory afterwards *)
Definition set_flush (L p : nat) (c : N) (n : nat) (v m : view) : view * view :=
  let v := put p (repeat c n) v in
  (v, block L p n v m).

(** wh_Utils_memcpy_flush (src/wh_utils.c 187-192).  [ev] are pointers into the
    lines the cache writes back of its own accord before the flush. *)
Definition copy_flush (L p : nat) (bs : list N) (ev : list nat) (v m : view) : view * view :=
  let v := put p bs v in
  (v, block L p (length bs) v (lines L ev v m)).

(** wh_Utils_memcpy_invalidate (src/wh_utils.c 182-185): the bytes copied and
    the view afterwards.  [rf] are pointers into the lines the cache drops or
    fetches again of its own accord before. *)
Definition copy_invalidate (L p n : nat) (rf : list nat) (v m : view) : list N * view :=
  let v := block L p n m (lines L rf m v) in
  (get p n v, v).

(** the fields of the control word (wolfhsm/wh_transport_mem.h 114-122) on a
    little-endian machine *)
Definition csr_notify (c : list N) : N := (nth 0 c 0 + 256 * nth 1 c 0)%N.
Definition csr_len (c : list N) : nat := N.to_nat (nth 2 c 0 + 256 * nth 3 c 0)%N.

(** writing one message: wh_TransportMem_SendRequest (src/wh_transport_mem.c
    129-140) and wh_TransportMem_SendResponse (229-240), after the checks.  [B]
    is the address of the buffer, [csr] the new control word.  Write-backs of
    the cache's own accord happen before each flush ([ev1], [ev2]). *)
Definition send (L B : nat) (csr data : list N) (ev1 ev2 : list nat) (v m : view) : view * view :=
  let '(v, m) := match data with [] => (v, m) | _ => copy_flush L (B + 8) data ev1 v m end in
  let v := put B csr v in
  (v, lines L [B] v (lines L ev2 v m)).

Inductive recvd := NotReady | Got (len : nat) (data : list N).

(** reading one message: wh_TransportMem_RecvRequest (src/wh_transport_mem.c
    264-297) and wh_TransportMem_RecvResponse (164-196).  [ready] is the test
    of the notify fields, [cap] the capacity of the destination, [size] the
    size of the shared buffer. *)
Definition recv (L B cap size : nat) (ready : N -> bool) (rf1 rf2 : list nat) (v m : view) : recvd :=
  let v := lines L [B] m (lines L rf1 m v) in
  let c := get B 8 v in
  if negb (ready (csr_notify c)) then NotReady else
  match csr_len c with
  | O => Got 0 []
  | n => Got n (fst (copy_invalidate L (B + 8) (Nat.min (Nat.min n cap) (size - 8)) rf2 v m))
  end.

(** one message of a conversation: the control word and data, what the caches do
    of their own accord, the view of the receiver at that time (which may have
    changed in any way since the last message), and its test of the notify
    field *)
Record turn := mkTurn {
  t_csr : list N; t_data : list N; t_ev1 : list nat; t_ev2 : list nat;
  t_rf1 : list nat; t_rf2 : list nat; t_view : view; t_ready : N -> bool }.

(** messages sent one after the other through one buffer, each received before
    the next is sent (src/wh_transport_mem.c 124-127): what the receiver gets *)
Fixpoint talk (L B cap size : nat) (ts : list turn) (v m : view) : list recvd :=
  match ts with
  | [] => []
  | t :: ts =>
      let '(v, m) := send L B (t_csr t) (t_data t) (t_ev1 t) (t_ev2 t) v m in
      recv L B cap size (t_ready t) (t_rf1 t) (t_rf2 t) (t_view t) m :: talk L B cap size ts v m
  end.
