(** What C70 asks of flash kept in a file. *)
From Verif Require Import Base Flash NvmFlashModel FileFlashModel.

(** The bytes [off .. off + n) of a file, and a file with some of them replaced. *)
Definition piece (F : list N) (off n : nat) : list N := firstn n (skipn off F).
Definition replaced (F : list N) (off : nat) (d : list N) : list N :=
  firstn off F ++ d ++ skipn (off + length d) F.

(** A file brought to [size] bytes: cut off, or continued with erased bytes. *)
Definition sized (size : nat) (eb : N) (F : list N) : list N := firstn size F ++ repeat eb (size - length F).

(** The device the NVM theorems (C01-C09) are about, with the contents of a file:
    unit by unit, little-endian. *)
Definition flash_of (F : list N) : flash := fun o => le_dec (piece F (8 * o) 8).
