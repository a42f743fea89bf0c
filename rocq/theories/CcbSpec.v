(** What a custom callback call means. *)
From Verif Require Import Base NvmSpec EndianModel EndianProof NvcModel NvcSpec ServerModel CcbModel.

(** The data of a structure of type [ty], as a machine of byte order [be] reads
    them: four addresses and sizes for the two DMA types, bytes for the types of
    users. *)
Inductive reading := Words (l : list N) | Bytes (l : list N) | Nothing.
Definition read_as (be : bool) (ty : N) (d : list N) : reading :=
  if N.eqb ty 1 then Words (map (fun i => dec be (firstn 4 (skipn (4 * i) d))) [0; 1; 2; 3])
  else if N.eqb ty 2 then Words (map (fun i => dec be (firstn 8 (skipn (8 * i) d))) [0; 1; 2; 3])
  else if (8 <=? ty)%N then Bytes d
  else Nothing.
(** Data that mean the same on both sides. *)
Definition same_data (be be' : bool) (ty : N) (d d' : list N) : Prop := read_as be ty d = read_as be' ty d'.

Definition data_ok (CL : nat) (d : list N) : Prop := length d = CL /\ Forall (fun b => b < 256)%N d.
Definition u32 (v : N) : Prop := (v < 4294967296)%N.
(** Callbacks that keep to their types. *)
Definition tame {St} (CL : nat) (tbl : N -> option (callback St)) : Prop :=
  forall a f q s rc ty d s', tbl a = Some f -> f q s = ((rc, ty, d), s') -> i32 rc /\ u32 ty /\ data_ok CL d.
(** Answers whose type is not mistaken: the orders agree, or the type is a
    user's and stays one when its bytes are reversed. *)
Definition plain (sb cb : bool) (ty : N) : Prop := sb = cb \/ (8 <= ty)%N /\ (8 <= bswap 4 ty)%N.
