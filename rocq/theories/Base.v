(** Common definitions: error codes, bytes, little-endian words, flash units,
    NVM metadata and the CRC of wh_utils.c. *)
From Coq Require Export List Arith NArith ZArith Lia Bool.
From Coq Require Export ZifyBool ZifyNat ZifyN.
Export ListNotations.
Ltac Zify.zify_post_hook ::= Z.div_mod_to_equations.
Global Arguments N.add : simpl never.
Global Arguments N.mul : simpl never.
Global Arguments N.div : simpl never.
Global Arguments N.modulo : simpl never.
Global Arguments N.pow : simpl never.
Global Arguments N.sub : simpl never.
Global Arguments Nat.div : simpl never.
Global Arguments Nat.modulo : simpl never.

(** Error codes: wolfhsm/wh_error.h 33-100. *)
Definition OK : Z := 0%Z.
Definition BADARGS : Z := (-2000)%Z.
Definition NOTREADY : Z := (-2001)%Z.
Definition ABORTED : Z := (-2002)%Z.
Definition CERT_VERIFY : Z := (-2005)%Z.
Definition BUFFER_SIZE : Z := (-2006)%Z.
Definition NOHANDLER : Z := (-2007)%Z.
Definition NOTIMPL : Z := (-2008)%Z.
Definition USAGE : Z := (-2009)%Z.
Definition TIMEOUT : Z := (-2010)%Z.
Definition REQUEST_PENDING : Z := (-2011)%Z.
Definition LOCKED : Z := (-2100)%Z.
Definition ACCESS : Z := (-2101)%Z.
Definition NOTVERIFIED : Z := (-2102)%Z.
Definition NOTBLANK : Z := (-2103)%Z.
Definition NOTFOUND : Z := (-2104)%Z.
Definition NOSPACE : Z := (-2105)%Z.

Definition is_ok (z : Z) : bool := Z.eqb z OK.

(** * Bytes and little-endian words *)

Definition byte_ok (b : N) : Prop := (b < 256)%N.
Definition bytes_ok (l : list N) : Prop := Forall byte_ok l.

(** Little-endian encoding of an [n]-byte integer (the host of the pinned
    configuration is little endian). *)
Fixpoint le_enc (n : nat) (x : N) : list N :=
  match n with
  | O => []
  | S k => (x mod 256)%N :: le_enc k (x / 256)%N
  end.

Fixpoint le_dec (l : list N) : N :=
  match l with
  | [] => 0%N
  | b :: r => (b + 256 * le_dec r)%N
  end.

(** WHFU_BYTES2UNITS: wolfhsm/wh_flash_unit.h 48-49. *)
Definition units (b : nat) : nat := b / 8 + (if Nat.eqb (b mod 8) 0 then 0 else 1).

(** View of a byte buffer as whFlashUnit words, last one padded with zeros:
    the buffer handling of src/wh_flash_unit.c 187-222 (whFlashUnitBuffer buffer = {0}). *)
Fixpoint pack_fuel (fuel : nat) (l : list N) : list N :=
  match fuel with
  | O => []
  | S k => match l with
           | [] => []
           | _ => le_dec (firstn 8 l) :: pack_fuel k (skipn 8 l)
           end
  end.
Definition pack (l : list N) : list N := pack_fuel (length l) l.

Definition unpack (us : list N) : list N := flat_map (le_enc 8) us.

(** * NVM metadata: wolfhsm/wh_common.h 129-135 (32 bytes). *)
Record meta := mkMeta {
  m_id : N; m_access : N; m_flags : N; m_len : N; m_label : list N }.

Definition meta_ok (m : meta) : Prop :=
  (m_id m < 65536 /\ m_access m < 65536 /\ m_flags m < 65536 /\ m_len m < 65536)%N
  /\ length (m_label m) = 24 /\ bytes_ok (m_label m).

(** In-memory byte image of the struct (little-endian host, no padding). *)
Definition meta_bytes (m : meta) : list N :=
  le_enc 2 (m_id m) ++ le_enc 2 (m_access m) ++ le_enc 2 (m_flags m)
  ++ le_enc 2 (m_len m) ++ m_label m.

Definition meta_of_bytes (l : list N) : meta :=
  mkMeta (le_dec (firstn 2 l)) (le_dec (firstn 2 (skipn 2 l)))
         (le_dec (firstn 2 (skipn 4 l))) (le_dec (firstn 2 (skipn 6 l)))
         (firstn 24 (skipn 8 l)).

Definition meta_units (m : meta) : list N := pack (meta_bytes m).
Definition meta_of_units (us : list N) : meta := meta_of_bytes (unpack us).

(** memset(&metadata, 0, sizeof(metadata)). *)
Definition meta_zero : meta := mkMeta 0 0 0 0 (repeat 0%N 24).

(** meta->len = data_len. *)
Definition with_len (m : meta) (n : N) : meta :=
  mkMeta (m_id m) (m_access m) (m_flags m) n (m_label m).
Definition with_flags (m : meta) (fl : N) : meta :=
  mkMeta (m_id m) (m_access m) fl (m_len m) (m_label m).
Definition with_id (m : meta) (i : N) : meta :=
  mkMeta i (m_access m) (m_flags m) (m_len m) (m_label m).

Definition meta_eq_dec (a b : meta) : {a = b} + {a <> b}.
Proof. decide equality; try apply (list_eq_dec N.eq_dec); apply N.eq_dec. Defined.

(** * CRC-16/CCITT: src/wh_utils.c (wh_Utils_Crc16), one byte at a time,
    most significant bit first, polynomial 0x1021. *)
Fixpoint crc_bits (n : nat) (c : N) : N :=
  match n with
  | O => c
  | S k => crc_bits k
             (if N.testbit c 15
              then N.lxor ((2 * c) mod 65536) 4129
              else (2 * c) mod 65536)%N
  end.
Definition crc_byte (c b : N) : N := crc_bits 8 (N.lxor c (256 * b) mod 65536)%N.
Definition crc16 (c : N) (l : list N) : N := fold_left crc_byte l c.
