(** What a user of shared memory over caches relies on. *)
From Coq Require Import List NArith Arith.
Import ListNotations.

(** address [x] lies in the [n] bytes from [p] *)
Definition within (p n x : nat) : Prop := p <= x < p + n.

(** [x] and [p] lie in one cache line of [L] bytes *)
Definition one_line (L p x : nat) : Prop := p / L = x / L.

(** the [n] bytes from [p] lie in no more lines than [n] bytes need when they
    start a line (that is, in ceil(n/L) lines) *)
Definition no_extra_line (L p n : nat) : Prop :=
  p mod L + n <= L * ((n + L - 1) / L).

(** the control word lies in one line *)
Definition word_in_line (L B : nat) : Prop := B mod L + 8 <= L.

(** an 8-byte control word that announces [data] *)
Definition announces (notify : list N -> N) (len : list N -> nat) (csr data : list N) (ready : N -> bool) : Prop :=
  length csr = 8 /\ len csr = length data /\ ready (notify csr) = true.
