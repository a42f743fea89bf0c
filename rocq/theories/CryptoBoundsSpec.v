(* What it means for a crypto request to be served within bounds.  Read with
   the type [use] of CryptoBoundsModel only. *)
From Coq Require Import NArith List.
From Verif Require Import CryptoBoundsModel.
Import ListNotations.
Open Scope N_scope.

(* The buffer sizes a build accepts: the static assertion for the smallest SHA3
   block (wh_message_crypto.h) and 16-bit packet sizes (wh_comm.h:55). *)
Definition settings (DL : N) : Prop := 12 + 208 + 72 <= DL /\ 8 + DL <= 65535.

(* The received request has req_size bytes and the buffer DL bytes. *)
Definition inside (DL req_size : N) (u : use) : Prop :=
  match u with
  | Rd off len => off + len <= req_size
  | Wr off len => off + len <= DL
  | Lib off room _ => off + room <= DL
  | Loc size len => len <= size
  | LocLib size n => n <= size
  end.

(* The same about the bytes the library really used of the room given. *)
Definition touches_inside (DL req_size : N) (u : use) : Prop :=
  match u with
  | Lib off _ n => off + n <= DL
  | u => inside DL req_size u
  end.

(* The library keeps to the room it is given. *)
Definition keeps_room (u : use) : Prop :=
  match u with
  | Lib _ room n => n <= room
  | LocLib size n => n <= size
  | _ => True
  end.

(* What the library wrote lies in the buffer. *)
Definition output_fits (DL : N) (u : use) : Prop :=
  match u with Lib off _ n => off + n <= DL | _ => True end.

(* A byte of the buffer put there by serving this request. *)
Definition put (p : N) (u : use) : Prop :=
  match u with
  | Wr off len => off <= p < off + len
  | Lib off _ n => off <= p < off + n
  | _ => False
  end.

(* The length fields of a request are 32-bit numbers. *)
Definition w32 (n : N) : Prop := n < 4294967296.
Definition fields_ok (q : creq) : Prop :=
  match q with
  | QRsaFn _ a b => w32 a /\ w32 b
  | QRng a => w32 a
  | QHkdf _ _ a b c d => w32 a /\ w32 b /\ w32 c /\ w32 d
  | QCmacKdf _ _ _ a b c d => w32 a /\ w32 b /\ w32 c /\ w32 d
  | QEccSign a => w32 a
  | QEccVerify _ a b => w32 a /\ w32 b
  | QEccCheck a => w32 a
  | QEdSign _ _ a b => w32 a /\ w32 b
  | QEdVerify _ a b c => w32 a /\ w32 b /\ w32 c
  | QAesCtr _ a b c => w32 a /\ w32 b /\ w32 c
  | QAesEcb _ a b => w32 a /\ w32 b
  | QAesCbc _ a b => w32 a /\ w32 b
  | QAesGcm _ _ a b c d f => w32 a /\ w32 b /\ w32 c /\ w32 d /\ w32 f
  | QCmac _ a b c d => w32 a /\ w32 b /\ w32 c /\ w32 d
  | QSha2 _ _ a => w32 a
  | QSha3 _ _ a => w32 a
  | QMldsaSign a b => w32 a /\ w32 b
  | QMldsaVerify a b c => w32 a /\ w32 b /\ w32 c
  | QKemDec _ a => w32 a
  | _ => True
  end.

(* The requests whose handler takes the 12 header bytes into account when it
   computes the room for the output, or gives no room to the library. *)
Definition counts_header (q : creq) : bool :=
  match q with
  | QRsaGen _ | QRsaFn _ _ _ | QEccGen _ | QEcdh _ | QEccSign _
  | QEccVerify true _ _ | QX25519Gen _ | QX25519 _ | QEdGen _
  | QMldsaGen _ _ | QMldsaSign _ _ | QKemGen _ _ | QKemEnc _ | QKemDec _ _ => false
  | _ => true
  end.
