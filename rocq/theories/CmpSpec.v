(** What callers of the memory helpers rely on. *)
From Coq Require Import NArith.

(** a buffer of bytes *)
Definition bytes (a : nat -> N) : Prop := forall i, (a i < 256)%N.

(** the first [n] bytes of two buffers are the same *)
Definition same (a b : nat -> N) (n : nat) : Prop := forall i, i < n -> a i = b i.

(** the first [n] bytes of a buffer are zero *)
Definition blank (a : nat -> N) (n : nat) : Prop := forall i, i < n -> a i = 0%N.
