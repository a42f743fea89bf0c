(* What C65 asks of the client library. *)
From Coq Require Import NArith List Bool.
From Verif Require Import ClientBoundsModel.
Import ListNotations.
Open Scope N_scope.

(* No store, wipe or use goes past the room there is. *)
Definition in_bounds (l : list eff) : Prop :=
  forall e, In e l ->
    match e with
    | Copied cap bs => N.of_nat (length bs) <= cap
    | Cleared cap len | Used cap len => len <= cap
    | Told _ _ | Value _ | Parsed _ => True
    end.

(* A length told for a buffer is one the buffer has room for. *)
Definition told_room (l : list eff) : Prop := forall cap v, In (Told cap v) l -> v <= cap.

(* Two buffers that hold the same message of [n] bytes. *)
Definition same_message (n : N) (b1 b2 : N -> N) : Prop := forall i, i < n -> b1 i = b2 i.

(* The calls whose function knows the room for everything it stores. *)
Definition knows_room (c : call) : bool :=
  match c with
  | CEcho (Some _) | CNvmRead (Some _) | CAesCtr _ | CAesEcb _ | CAesCbc _ => false
  | _ => true
  end.

(* The calls that look at the size received before they use what was received. *)
Definition looks_first (c : call) : bool :=
  match c with
  | CMakeKey (GX25519 | GMldsa | GMlkem) _ _ => false
  | _ => true
  end.

(* The calls that compare the length they tell with the room. *)
Definition compares_told (c : call) : bool :=
  match c with
  | CKeyExportDma _ _ | CEdSignDma _ | CAesCtr _ | CAesEcb _ | CAesCbc _ => false
  | _ => true
  end.

(* Where the message of an answer with an output of variable length has its
   length (offset, bytes) and its data, how many bytes follow the data, and the
   room the caller has (wolfhsm/wh_message_crypto.h, wh_message_keystore.h,
   wh_message_she.h, wh_message_cert.h). *)
Record layout := { len_at : N; len_size : N; data_at : N; after : N; room : N }.

Definition layout_of (c : call) : option layout :=
  let l a s d f r := Some {| len_at := a; len_size := s; data_at := d; after := f; room := r |} in
  match c with
  | CKeyExport _ _ (Some cap) => l 4 4 36 0 cap
  | CWrap _ cap => l 4 2 8 0 cap
  | CUnwrapExport _ cap => l 4 2 48 0 cap
  | CDataWrap _ cap => l 4 4 12 0 cap
  | CReadTrusted _ cap => l 4 4 8 0 cap
  | CSheCipher cap => l 4 4 8 0 cap
  | CRng cap => l 12 4 16 0 cap
  | CAesCtr cap => l 12 4 32 32 cap
  | CAesEcb cap => l 12 4 28 0 cap
  | CAesCbc cap => l 12 4 28 16 cap
  | CAesGcmDma (Some cap) => l 32 4 36 0 cap
  | CShared _ true (Some cap) => l 12 4 20 0 cap
  | CEccSign true (Some cap) | CRsaFn true (Some cap) | CEdSign true (Some cap)
  | CEccPub cap => l 12 4 16 0 cap
  | CMldsaSign cap => l 12 4 20 0 cap
  | CKdf _ (Some cap) => l 16 4 20 0 cap
  | CDecaps cap => l 12 4 20 0 cap
  | CDecapsDma cap => l 28 4 36 0 cap
  | _ => None
  end.

(* The number stored at [off] in [size] bytes. *)
Definition number (word : list N -> N) (b : N -> N) (off size : N) : N :=
  word (map (fun i => b (off + N.of_nat i)) (seq 0 (N.to_nat size))) mod 2 ^ (8 * size).

(* The answer says that the request was carried out. *)
Definition reports_success (word : list N -> N) (algo : N) (c : call) (b : N -> N) : Prop :=
  match c with
  | CWrap ci _ | CUnwrapExport ci _ => number word b 0 4 = 0 /\ number word b 6 2 = ci
  | CDataWrap ci _ => number word b 0 4 = 0 /\ number word b 8 2 = ci
  | CKeyExport _ _ _ | CReadTrusted _ _ => number word b 0 4 = 0
  | CSheCipher cap => number word b 0 4 = 0 /\ 16 <= cap
  | _ => number word b 0 4 = algo /\ number word b 4 4 = 0
  end.

(* ---- answers of fixed layout ----
   The sizes of the fields of each message in the order of its declaration,
   padding included (wolfhsm/wh_message_comm.h, wh_message_customcb.h,
   wh_message_keystore.h, wh_message_counter.h, wh_message_nvm.h,
   wh_message_cert.h, wh_message_auth.h, wh_message_she.h). *)
Definition struct_of (m : fixed_msg) : list N :=
  match m with
  | MCommInit => [4; 4]
  | MCommInfo => [4; 4; 4; 4; 4; 4; 4; 4; 4; 4; 4; 4; 9; 9; 6]
  | MCommClose => []
  | MCustomCb cb => [4 + 4 + 4 + 4 + cb]
  | MKeyCache | MKeyCacheRandom => [4; 2; 6]
  | MKeyEvict | MKeyCommit | MKeyErase => [4; 4; 4]
  | MKeyRevoke | MCounterDestroy => [4; 4]
  | MKeyCacheDma => [16; 4; 2; 2]
  | MCounterInit | MCounterIncrement | MCounterRead => [4; 4]
  | MNvmInit => [4; 4; 4]
  | MNvmSimple => [4]
  | MNvmAvailable => [4; 4; 4; 2; 2]
  | MNvmList => [4; 2; 2]
  | MCertSimple => [4; 4]
  | MCertVerify => [4; 2; 2]
  | MAuthSimple => [4]
  | MAuthUserAdd => [4; 2; 2]
  | MAuthUserGet flat => [4; 2; flat; (4 - (6 + flat) mod 4) mod 4]
  | MSheSetUid | MSheInitRnd | MSheExtendSeed => [4; 4]
  | MSheGetStatus | MSheVerifyMac => [4; 1; 7]
  | MSheLoadKey => [4; 32; 16]
  | MSheLoadPlainKey => [4]
  | MSheExportRamKey => [4; 16; 32; 16; 32; 16]
  end.

(* The field with the return code of the answers that are only looked at after a
   success, and the fields the caller gets (by position in the message), in the order of
   the function's parameters. *)
Definition code_field (m : fixed_msg) : option nat :=
  match m with
  | MKeyCacheDma => Some 1%nat
  | MKeyCache | MKeyCacheRandom | MKeyEvict | MKeyCommit | MKeyErase | MKeyRevoke
  | MCounterInit | MCounterIncrement | MCounterRead | MCounterDestroy
  | MSheSetUid | MSheGetStatus | MSheLoadKey | MSheLoadPlainKey | MSheExportRamKey
  | MSheInitRnd | MSheExtendSeed | MSheVerifyMac => Some 0%nat
  | _ => None
  end.

Definition handed (m : fixed_msg) : list nat :=
  (match m with
   | MCommInit => [0; 1]
   | MCommInfo => [12; 13; 0; 1; 2; 3; 4; 5; 6; 7; 8; 9; 10; 11]
   | MCustomCb _ => [0]
   | MKeyCache | MKeyCacheRandom => [1]
   | MKeyCacheDma => [2]
   | MCounterInit | MCounterIncrement | MCounterRead => [1]
   | MNvmInit => [0; 2; 1]
   | MNvmSimple => [0]
   | MNvmAvailable => [0; 1; 2; 3; 4]
   | MNvmList => [0; 1; 2]
   | MCertSimple => [0]
   | MCertVerify => [0; 1]
   | MAuthSimple => [0]
   | MAuthUserAdd => [0; 1]
   | MAuthUserGet _ => [0; 1; 2]
   | MSheGetStatus | MSheVerifyMac => [1]
   | MSheLoadKey => [1; 2]
   | MSheExportRamKey => [1; 2; 3; 4; 5]
   | _ => []
   end)%nat.

Definition total (sizes : list N) : N := fold_right N.add 0 sizes.
Definition place (sizes : list N) (i : nat) : N := total (firstn i sizes).
Definition size_of (sizes : list N) (i : nat) : N := nth i sizes 0.

(* The caller gets field [i] of the message. *)
Definition gets (sizes : list N) (b : N -> N) (i : nat) : eff :=
  Copied (size_of sizes i)
    (map (fun k => b (place sizes i + N.of_nat k)) (seq 0 (N.to_nat (size_of sizes i)))).

(* Crypto answers: the generic header, the message, what follows it
   (wolfhsm/wh_message_crypto.h). *)
Definition crypto_struct (m : crypto_msg) : list N :=
  [4; 4; 4] ++
  match m with
  | MRngDma => [16]
  | MAesCtrDma => [16; 4; 4; 16; 16]
  | MAesEcbDma => [16; 4; 4]
  | MAesCbcDma => [16; 4; 4; 16]
  | MRsaGetSize | MEdVerify => [4]
  | MMldsaVerify => [4; 4]
  | MEdVerifyDma | MMldsaVerifyDma | MStatefulGenDma | MStatefulVerifyDma => [16; 4; 4]
  | MStatefulSigsLeft => [4]
  end.

Definition crypto_handed (word : list N -> N) (m : crypto_msg) (b : N -> N) : list eff :=
  let sizes := crypto_struct m in
  match m with
  | MRngDma | MAesEcbDma => []
  | MAesCtrDma => [gets sizes b 5; gets sizes b 6; gets sizes b 7]
  | MAesCbcDma => [gets sizes b 6]
  | MRsaGetSize | MEdVerify | MMldsaVerify => [gets sizes b 3]
  | MEdVerifyDma | MMldsaVerifyDma | MStatefulVerifyDma => [gets sizes b 4]
  | MStatefulGenDma => [Value (number word b (place sizes 4) 4 mod 2 ^ 16)]
  | MStatefulSigsLeft => [Value (if number word b (place sizes 3) 4 =? 0 then 0 else 1)]
  end.

(* SHA-2 and SHA-3 answers: sizes of the fields, positions of the hash type, and
   what the caller gets. *)
Definition sha2_struct (dma : bool) : list N :=
  [4; 4; 4] ++ (if dma then [16; 64; 4; 4; 4; 4] else [4; 4; 64; 4]).
Definition sha3_struct (dma : bool) : list N :=
  [4; 4; 4] ++ (if dma then [200; 16; 64] else [200; 64]).
Definition digest_bytes (h : sha) : N :=
  match h with H224 => 224 / 8 | H256 => 256 / 8 | H384 => 384 / 8 | H512 => 512 / 8 end.
Definition state_bytes (h : sha) : N :=
  match h with H224 | H256 => 256 / 8 | H384 | H512 => 512 / 8 end.

(* The first [k] bytes of field [i]. *)
Definition gets_first (sizes : list N) (b : N -> N) (i : nat) (k : N) : eff :=
  Copied k (map (fun j => b (place sizes i + N.of_nat j)) (seq 0 (N.to_nat k))).

(* The answer says that the request was not carried out: a code other than 0, or,
   in a crypto answer, a negative one or the algorithm of another request. *)
Definition reports_error (word : list N -> N) (algo : N) (c : call) (b : N -> N) : Prop :=
  match c with
  | CFixed m =>
    match code_field m with
    | Some i => number word b (place (struct_of m) i) 4 <> 0
    | None => False
    end
  | CKeyExport _ _ _ | CWrap _ _ | CUnwrapExport _ _ | CUnwrapCache _ | CDataWrap _ _
  | CSheRnd _ | CSheMac _ | CSheCipher _ | CReadTrusted _ _ => number word b 0 4 <> 0
  | CKeyExportDma _ _ => number word b 16 4 <> 0
  | CAuthLogin _ | CCustomQuery | CEcho _ | CNvmMeta _ | CNvmRead _ => False
  | _ => number word b 0 4 <> algo \/ 2 ^ 31 <= number word b 4 4
  end.

(* Nothing was handed to the caller; wiping is allowed. *)
Definition hands_nothing (l : list eff) : Prop :=
  forall e, In e l -> match e with Cleared _ _ => True | _ => False end.
