(* CMAC of a whole message (NIST SP 800-38B), by the block function and the two
   subkeys. *)
From Coq Require Import Arith NArith List.
From Verif Require Import AesSpec.
Import ListNotations.

Definition zero16 : list N := repeat 0%N 16.

Definition CBC_MAC (F : list N -> list N) (l : list (list N)) : list N :=
  fold_left (fun c b => F (xor c b)) l zero16.

(* The last block has 1 to 16 bytes, or none when the message is empty. *)
Definition CMAC (F : list N -> list N) (K1 K2 : list N) (msg : list N) : list N :=
  let pre := firstn (16 * ((length msg - 1) / 16)) msg in
  let last := skipn (16 * ((length msg - 1) / 16)) msg in
  let m := if length last =? 16 then xor last K1
           else xor (last ++ 128%N :: repeat 0%N (15 - length last)) K2 in
  CBC_MAC F (blocks pre ++ [m]).
