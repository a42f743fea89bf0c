(* AES's modes of operation on whole messages (NIST SP 800-38A), by the block
   function, with no state. *)
From Coq Require Import Arith NArith List.
Import ListNotations.

Notation bytes := (list N) (only parsing).

(* Big-endian value of a block, and the n bytes of a value. *)
Definition value (l : bytes) : N := fold_left (fun a b => a * 256 + b)%N l 0%N.
Fixpoint little (n : nat) (v : N) : bytes :=
  match n with O => [] | S k => (v mod 256)%N :: little k (v / 256)%N end.
Definition big (n : nat) (v : N) : bytes := rev (little n v).

(* The i-th counter block: the initial one plus i, in 16 bytes. *)
Definition counter (iv : bytes) (i : nat) : bytes := big 16 (value iv + N.of_nat i).

(* Byte i of the message is xored with byte i mod 16 of the encryption of counter
   block i / 16. *)
Definition CTR (F : bytes -> bytes) (iv msg : bytes) : bytes :=
  map (fun p => N.lxor (snd p) (nth (fst p mod 16) (F (counter iv (fst p / 16))) 0%N))
      (combine (seq 0 (length msg)) msg).

Definition blocks (msg : bytes) : list bytes :=
  map (fun i => firstn 16 (skipn (16 * i) msg)) (seq 0 (length msg / 16)).

Definition xor (a b : bytes) : bytes := map (fun p => N.lxor (fst p) (snd p)) (combine a b).

Definition ECB (F : bytes -> bytes) (msg : bytes) : bytes := concat (map F (blocks msg)).

Fixpoint cbc_chain (F : bytes -> bytes) (prev : bytes) (l : list bytes) : list bytes :=
  match l with [] => [] | p :: r => let c := F (xor p prev) in c :: cbc_chain F c r end.
Definition CBC_enc (F : bytes -> bytes) (iv msg : bytes) : bytes :=
  concat (cbc_chain F iv (blocks msg)).

Fixpoint cbc_unchain (F : bytes -> bytes) (prev : bytes) (l : list bytes) : list bytes :=
  match l with [] => [] | c :: r => xor (F c) prev :: cbc_unchain F c r end.
Definition CBC_dec (F : bytes -> bytes) (iv msg : bytes) : bytes :=
  concat (cbc_unchain F iv (blocks msg)).
