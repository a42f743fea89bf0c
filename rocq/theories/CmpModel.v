(** The memory helpers of src/wh_utils.c: comparison of secrets, test for zero
    and wiping.  Buffers are functions from the index to the byte. *)
From Coq Require Import List NArith ZArith Arith.
Import ListNotations.

(** a comparison in progress: the accumulator, and the indices read so far in
    order *)
Definition cmp_state := (N * list nat)%type.

(** one round of the loop (src/wh_utils.c 144) *)
Definition cmp_step (a b : nat -> N) (s : cmp_state) (i : nat) : cmp_state :=
  (N.lor (fst s) (N.lxor (a i) (b i)), snd s ++ [i]).

(** conversion of a size_t to int as the compilers do it: the low 32 bits, read
    as a signed number (src/wh_utils.c 147) *)
Definition to_int (x : N) : Z :=
  let l := Z.of_N (x mod 4294967296)%N in
  (if l <? 2147483648 then l else l - 4294967296)%Z.

(** wh_Utils_ConstantCompare (src/wh_utils.c 138-148): the result and the
    indices read *)
Definition constant_compare (a b : nat -> N) (n : nat) : Z * list nat :=
  let s := fold_left (cmp_step a b) (seq 0 n) (0%N, []) in
  (to_int (fst s), snd s).

(** wh_Utils_memeqzero (src/wh_utils.c 108-116): from the last byte down *)
Fixpoint memeqzero (buf : nat -> N) (size : nat) : Z :=
  match size with
  | O => 1%Z
  | S k => if N.eqb (buf k) 0 then memeqzero buf k else 0%Z
  end.

(** the writing loop of wh_Utils_ForceZero (src/wh_utils.c 128-133) *)
Fixpoint wipe (p size : nat) (mem : nat -> N) : nat -> N :=
  match size with
  | O => mem
  | S k => wipe (S p) k (fun x => if x =? p then 0%N else mem x)
  end.

(** wh_Utils_ForceZero (src/wh_utils.c 120-134); [None] is NULL *)
Definition force_zero (p : option nat) (size : nat) (mem : nat -> N) : nat -> N :=
  match p with
  | None => mem
  | Some p => if size =? 0 then mem else wipe p size mem
  end.
