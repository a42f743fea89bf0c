(** What the random calls mean to their callers: which bytes of the generator's
    output lie where in the caller's memory. *)
From Verif Require Import Base EndianModel KdfModel EndianProof NvcModel NvcSpec RndModel.
From Coq Require Import Sorted.

(** Positions [idx] of the generator's output [g] lie in memory from [at_] on,
    and the rest is as it was. *)
Definition put (g : nat -> N) (at_ : nat) (idx : list nat) (mem : list N) : list N :=
  firstn at_ mem ++ map g idx ++ skipn (at_ + length idx) mem.
(** Positions drawn while the generator went from [p] to [q], none twice. *)
Definition drawn (idx : list nat) (p q : nat) : Prop :=
  StronglySorted lt idx /\ Forall (fun i => p <= i < q) idx /\ p <= q.

Definition rl_ok (e : rlink) : Prop := i32 (r_rng e).
Definition smooth (e : rlink) : Prop := r_send e = OK /\ r_recv e = OK /\ r_rng e = OK.

(** Calls by any clients, by packet and by DMA. *)
Inductive rev :=
| ByPacket (CD : nat) (cb : bool) (aff : N) (size : nat) (E : nat -> rlink)
| ByDma (cb : bool) (aff : N) (addr size : nat) (e : dlink).
Definition rev_ok (v : rev) : Prop :=
  match v with
  | ByPacket CD _ aff size E => (N.of_nat CD < 65536)%N /\ (aff < 4294967296)%N /\ forall k, rl_ok (E k)
  | ByDma _ aff addr size e => (aff < 4294967296)%N /\ (N.of_nat size < 4294967296)%N /\ (N.of_nat addr < 2 ^ 64)%N /\
      rl_ok (d_link e) /\ i32 (d_pre e) /\ i32 (d_post e)
  end.
Definition place (v : rev) : nat := match v with ByPacket _ _ _ _ _ => 0 | ByDma _ _ addr _ _ => addr end.
Definition asked (v : rev) : nat := match v with ByPacket _ _ _ size _ => size | ByDma _ _ _ size _ => size end.
Section Run.
Variable g : nat -> N.
Variable SD : nat.
Variable sb : bool.
Definition rev_step (v : rev) (pos : nat) (mem : list N) : (Z * list N) * nat :=
  match v with
  | ByPacket CD cb aff size E => rng_call g CD SD sb cb aff size E pos mem
  | ByDma cb aff addr size e => let '((rc, _), mem', pos') := rng_dma_call g sb cb aff addr size e pos mem in ((rc, mem'), pos')
  end.
(** Each call has its own memory; the results in order. *)
Fixpoint rev_run (vs : list (rev * list N)) (pos : nat) : list (Z * list N) * nat :=
  match vs with
  | [] => ([], pos)
  | (v, mem) :: r => let '(x, pos') := rev_step v pos mem in let '(xs, q) := rev_run r pos' in (x :: xs, q)
  end.
End Run.
