(* HKDF (RFC 5869) and the two-step CMAC derivation (NIST SP 800-56C with the
   counter mode of SP 800-108), from the documents, and when the server's answer
   cannot reach the info it still has to read. *)
From Coq Require Import Arith NArith List.
Import ListNotations.

Section KdfSpec.

Variable hmac : N -> list N -> list N -> list N.
Variable cmac : list N -> list N -> list N.

(* RFC 5869, 2.3: T(0) is empty, T(i) = HMAC(PRK, T(i-1) | info | i). *)
Fixpoint T (t : N) (prk info : list N) (i : nat) : list N :=
  match i with
  | O => []
  | S j => hmac t prk (T t prk info j ++ info ++ [N.of_nat i])
  end.

(* OKM is the first L octets of T(1) | T(2) | ... with PRK = HMAC(salt, IKM). *)
Definition HKDF (t : N) (salt ikm info : list N) (L : nat) : list N :=
  firstn L (flat_map (T t (hmac t salt ikm) info) (seq 1 L)).

(* K(i) = CMAC(K, [i] in 32 bits | FixedInfo) with K = CMAC(salt, Z); the first
   L octets. *)
Definition counter (i : nat) : list N :=
  let n := N.of_nat i in
  [(n / 2^24) mod 2^8; (n / 2^16) mod 2^8; (n / 2^8) mod 2^8; n mod 2^8]%N.
Definition TWOSTEP (salt z info : list N) (L : nat) : list N :=
  firstn L (flat_map (fun i => cmac (cmac salt z) (counter i ++ info)) (seq 1 L)).

End KdfSpec.

(* The output begins 48 bytes before the payload.  The last round, with blocks
   of H bytes, reads the info when H * ((L - 1) / H) bytes are written. *)
Definition info_untouched (H L before infoSz : nat) : Prop :=
  infoSz = 0 \/ H * ((L - 1) / H) <= 48 + before.
