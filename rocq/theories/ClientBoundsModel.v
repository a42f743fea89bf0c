(* What the client library does with an answer: the part of each function of
   wh_client*.c that follows wh_Client_RecvResponse.

   wh_CommClient_RecvResponse (src/wh_comm.c:159-217) lets a message through
   only when its payload fits the buffer of WOLFHSM_CFG_COMM_DATA_LEN bytes and
   carries the sequence number of the request; wh_Client_RecvResponse
   (src/wh_client.c:256-286) only when its kind is that of the request.  Here
   [n] is the payload size, [b] the content of the buffer: bytes below [n] come
   from the server, those above are left from earlier messages.

   The functions' local copies of a message (cert, auth, NVM) are the same bytes
   as the buffer.  Error codes are not modelled: a call succeeds (returns 0) or
   not. *)
From Coq Require Import NArith List Bool.
Import ListNotations.
Open Scope N_scope.

(* What a call does to memory of its caller, or of its own. *)
Inductive eff : Type :=
| Copied (cap : N) (bs : list N)   (* bytes are stored where the caller has room for [cap] *)
| Cleared (cap len : N)            (* [len] bytes are zeroed where there is room for [cap] *)
| Told (cap v : N)                 (* the caller's length variable for a buffer of [cap] bytes is set *)
| Used (cap len : N)               (* [len] bytes of a local array of [cap] bytes are read *)
| Value (v : N)                    (* a number is handed out *)
| Parsed (bs : list N).            (* bytes are handed to a key decoder *)

Definition outcome := (bool * list eff)%type.
Definition fail : outcome := (false, []).

Definition u16 (n : N) : N := n mod 65536.
Definition u32 (n : N) : N := n mod 4294967296.

(* The bytes [off, off + len) of the buffer. *)
Definition bytes (b : N -> N) (off len : N) : list N :=
  map (fun i => b (off + N.of_nat i)) (seq 0 (N.to_nat len)).

(* A variable of [len] bytes of the caller receives a field of the message. *)
Definition field (b : N -> N) (p : N * N) : eff := Copied (snd p) (bytes b (fst p) (snd p)).

(* wolfhsm/wh_message_crypto.h:82-88 whMessageCrypto_GenericResponseHeader. *)
Definition HDR : N := 12.
(* wolfhsm/wh_common.h WH_NVM_LABEL_LEN and sizeof(whNvmMetadata). *)
Definition LABEL : N := 24.
Definition META : N := 40.
Definition AES_BLOCK : N := 16.

(* Messages without variable part, outside crypto.  [flat] is
   WH_FLAT_PERMISSIONS_LEN, [cb] WOLFHSM_CFG_CUSTOMCB_LEN. *)
Inductive fixed_msg : Type :=
| MCommInit | MCommInfo | MCommClose | MCustomCb (cb : N)
| MKeyCache | MKeyCacheRandom | MKeyEvict | MKeyCommit | MKeyErase | MKeyRevoke | MKeyCacheDma
| MCounterInit | MCounterIncrement | MCounterRead | MCounterDestroy
| MNvmInit | MNvmSimple | MNvmAvailable | MNvmList
| MCertSimple | MCertVerify
| MAuthSimple | MAuthUserAdd | MAuthUserGet (flat : N)
| MSheSetUid | MSheGetStatus | MSheLoadKey | MSheLoadPlainKey | MSheExportRamKey
| MSheInitRnd | MSheExtendSeed | MSheVerifyMac.

(* Whether the size must be exact, the size, where a return code that stops the
   function stands, and the fields handed to the caller as (offset, size).
   A function that receives into a local struct refuses a longer message in
   wh_CommClient_RecvResponse, so its size is exact too.
   src/wh_client.c:312-346 (CommInit), 379-461 (CommInfo), 571-597 (CommClose),
   704-731 (CustomCb), 851-885 (KeyCache), 943-978 (KeyCacheRandom), 1023-1050
   (KeyEvict), 1267-1297 (KeyCommit), 1329-1359 (KeyErase), 1391-1421
   (KeyRevoke), 1455-1488 (CounterInit), 1539-1572 (CounterIncrement), 1605-1638
   (CounterRead), 1671-1701 (CounterDestroy), 1771-1821 (KeyCacheDma);
   src/wh_client_nvm.c:59-95, 131-160, 194-237, 299-328, 374-410, 548-577,
   743-785, 850-896; src/wh_client_cert.c:68-95, 156-184, 227-255, 409-441,
   564-595, 695-719, 759-784, 854-889, 952-993, 1056-1095, 1226-1264, 1384-1411,
   1474-1508; src/wh_client_auth.c:207-239, 324-361, 401-433, 475-517, 563-596,
   689-722; src/wh_client_she.c:92-114, 254-282, 321-352, 385-409, 434-474,
   502-524, 613-637, 1063-1090. *)
Definition row (m : fixed_msg) : bool * N * option N * list (N * N) :=
  match m with
  | MCommInit => (true, 8, None, [(0, 4); (4, 4)])
  | MCommInfo => (true, 72, None,
      [(48, 9); (57, 9); (0, 4); (4, 4); (8, 4); (12, 4); (16, 4); (20, 4);
       (24, 4); (28, 4); (32, 4); (36, 4); (40, 4); (44, 4)])
  | MCommClose => (true, 0, None, [])
  | MCustomCb cb => (true, 16 + cb, None, [(0, 16 + cb)])
  | MKeyCache | MKeyCacheRandom => (false, 12, Some 0, [(4, 2)])
  | MKeyEvict => (true, 12, Some 0, [])
  | MKeyCommit | MKeyErase => (false, 12, Some 0, [])
  | MKeyRevoke => (false, 8, Some 0, [])
  | MKeyCacheDma => (true, 24, Some 16, [(20, 2)])
  | MCounterInit | MCounterIncrement | MCounterRead => (false, 8, Some 0, [(4, 4)])
  | MCounterDestroy => (false, 8, Some 0, [])
  | MNvmInit => (true, 12, None, [(0, 4); (8, 4); (4, 4)])
  | MNvmSimple => (true, 4, None, [(0, 4)])
  | MNvmAvailable => (true, 16, None, [(0, 4); (4, 4); (8, 4); (12, 2); (14, 2)])
  | MNvmList => (true, 8, None, [(0, 4); (4, 2); (6, 2)])
  | MCertSimple => (true, 8, None, [(0, 4)])
  | MCertVerify => (true, 8, None, [(0, 4); (4, 2)])
  | MAuthSimple => (true, 4, None, [(0, 4)])
  | MAuthUserAdd => (true, 8, None, [(0, 4); (4, 2)])
  | MAuthUserGet flat => (true, 4 * ((6 + flat + 3) / 4), None, [(0, 4); (4, 2); (6, flat)])
  | MSheSetUid => (false, 8, Some 0, [])
  | MSheGetStatus => (false, 12, Some 0, [(4, 1)])
  | MSheLoadKey => (false, 52, Some 0, [(4, 32); (36, 16)])
  | MSheLoadPlainKey => (false, 4, Some 0, [])
  | MSheExportRamKey => (false, 116, Some 0, [(4, 16); (20, 32); (52, 16); (68, 32); (100, 16)])
  | MSheInitRnd | MSheExtendSeed => (false, 8, Some 0, [])
  | MSheVerifyMac => (false, 12, Some 0, [(4, 1)])
  end.

(* Crypto answers without variable part. *)
Inductive crypto_msg : Type :=
| MRngDma | MAesCtrDma | MAesEcbDma | MAesCbcDma
| MRsaGetSize | MEdVerify | MEdVerifyDma | MMldsaVerify | MMldsaVerifyDma
| MStatefulGenDma | MStatefulVerifyDma | MStatefulSigsLeft.

(* Whether a positive return code counts as success, the size after the generic
   header, and the fields handed out as they are.  src/wh_client_crypto.c:380-428
   (RngDma), 702-765 (AesCtrDma), 1028-1083 (AesEcbDma), 1375-1433 (AesCbcDma),
   5127-5161 (RsaGetSize), 4209-4225 (Ed25519Verify), 4495-4517
   (Ed25519VerifyDma), 10500-10518 (MlDsaVerify), 11098-11118 (MlDsaVerifyDma),
   12302-12320 and 12781-12803 (LMS and XMSS key generation), 12523-12540 and
   13004-13022 (verification), 12596-12612 and 13077-13094 (signatures left). *)
Definition crypto_row (m : crypto_msg) : bool * N * list (N * N) :=
  match m with
  | MRngDma => (false, 16, [])
  | MAesCtrDma => (false, 24 + 16 + 16, [(32, 4); (36, 16); (52, 16)])
  | MAesEcbDma => (false, 24, [])
  | MAesCbcDma => (false, 24 + 16, [(36, 16)])
  | MRsaGetSize => (true, 4, [(12, 4)])
  | MEdVerify => (true, 4, [(12, 4)])
  | MEdVerifyDma => (true, 24, [(28, 4)])
  | MMldsaVerify => (true, 8, [(12, 4)])
  | MMldsaVerifyDma => (true, 24, [(28, 4)])
  | MStatefulGenDma => (true, 24, [])
  | MStatefulVerifyDma => (true, 24, [(28, 4)])
  | MStatefulSigsLeft => (true, 4, [])
  end.

(* A hash by the bits of its digest: SHA-2, or SHA-3 with the same sizes. *)
Inductive sha : Type := H224 | H256 | H384 | H512.
(* WC_SHA*_DIGEST_SIZE, WC_SHA3_*_DIGEST_SIZE of wolfCrypt. *)
Definition digest_len (h : sha) : N :=
  match h with H224 => 28 | H256 => 32 | H384 => 48 | H512 => 64 end.
(* The intermediate hash a SHA-2 update returns: WC_SHA256_DIGEST_SIZE or
   WC_SHA512_DIGEST_SIZE bytes. *)
Definition state_len (h : sha) : N :=
  match h with H224 | H256 => 32 | H384 | H512 => 64 end.

(* Key generation with an inline answer. *)
Inductive gen : Type := GEcc | GRsa | GEd25519 | GX25519 | GMldsa | GMlkem.

(* A call waiting for its answer.  [cap] is the room the caller has for the
   output, an option where the pointer may be NULL; [id] and [key] say whether
   the caller wants the key id and a key object. *)
Inductive call : Type :=
| CFixed (m : fixed_msg)
| CAuthLogin (want_rc : bool)
| CCustomQuery
| CEcho (data : option N)
| CNvmMeta (label : option N)
| CNvmRead (data : option N)
| CKeyExport (public : bool) (label out : option N)
| CKeyExportDma (label : option N) (cap : N)
| CWrap (cipher cap : N)
| CUnwrapExport (cipher cap : N)
| CUnwrapCache (cipher : N)
| CDataWrap (cipher cap : N)
| CReadTrusted (want_rc : bool) (cap : N)
| CSheRnd (cap : N)
| CSheMac (cap : N)
| CSheCipher (cap : N)
| CCrypto (m : crypto_msg)
| CSha2 (dma last : bool) (h : sha)
| CSha3 (dma last : bool) (h : sha)
| CRng (cap : N)
| CAesCtr (cap : N)
| CAesEcb (cap : N)
| CAesCbc (cap : N)
| CAesGcm (out tag : option N)
| CAesGcmDma (tag : option N)
| CMakeKey (g : gen) (id key : bool)
| CMakeKeyDma (cap : N) (id key : bool)
| CShared (id size : bool) (out : option N)
| CEccSign (size : bool) (out : option N)
| CRsaFn (size : bool) (out : option N)
| CEccVerify (key : bool)
| CEccPub (cap : N)
| CEccCheck
| CEdSign (size : bool) (out : option N)
| CEdSignDma (cap : N)
| CMldsaSign (cap : N)
| CSignDma (cap : N)
| CKdf (id : bool) (out : option N)
| CCmac (dma : bool) (out : option N)
| CEncaps (ct ss : N)
| CDecaps (ss : N)
| CEncapsDma (ct ss : N)
| CDecapsDma (ss : N).

Section Client.

Variable DL : N.                    (* WOLFHSM_CFG_COMM_DATA_LEN *)
Variable word : list N -> N.        (* how this machine reads a number from its bytes *)
Variable parse : list N -> bool.    (* whether a key decoder accepts the bytes *)
Variable algo : N.                  (* the algorithm number of the request *)

Definition f16 (b : N -> N) (off : N) : N := u16 (word (bytes b off 2)).
Definition f32 (b : N -> N) (off : N) : N := u32 (word (bytes b off 4)).

Definition r_fixed (m : fixed_msg) (b : N -> N) (n : N) : outcome :=
  match row m with
  | (exact, size, rc, outs) =>
    if (if exact then negb (n =? size) else n <? size) then fail
    else
      let good := (true, map (field b) outs) in
      match rc with
      | Some off => if f32 b off =? 0 then good else fail
      | None => good
      end
  end.

(* src/wh_client_auth.c:117-167 wh_Client_AuthLoginResponse.  The user id is
   first set to the invalid one. *)
Definition r_auth_login (want_rc : bool) (b : N -> N) (n : N) : outcome :=
  if negb (n =? 8) then
    if (n =? 4) && want_rc && negb (f32 b 0 =? 0)
    then (true, [Value 0; field b (0, 4)]) else (false, [Value 0])
  else (true, [Value 0; field b (0, 4); field b (4, 2)]).

(* src/wh_client.c:749-777 wh_Client_CustomCbCheckRegisteredResponse, with
   WOLFHSM_CFG_CUSTOMCB_LEN 256; WH_ERROR_NOHANDLER is -2007. *)
Definition r_custom_query (b : N -> N) (n : N) : outcome :=
  if negb (n =? 16 + 256) then fail
  else if negb (f32 b 4 =? 0) then fail
  else if negb (f32 b 12 =? 0) && negb (f32 b 12 =? 4294967296 - 2007) then fail
  else (true, [Value (u16 (f32 b 0)); field b (12, 4)]).

Definition copy_if (dst : option N) (bs : list N) : list eff :=
  match dst with Some cap => [Copied cap bs] | None => [] end.

(* src/wh_client.c:638-673 wh_Client_EchoResponse. *)
Definition r_echo (data : option N) (b : N -> N) (n : N) : outcome :=
  (true, Value n :: copy_if data (bytes b 0 n)).

(* A label is cut to the caller's room. *)
Definition label_eff (b : N -> N) (off : N) (label : option N) : list eff :=
  match label with
  | Some cap => [Copied cap (bytes b off (if LABEL <? cap then LABEL else cap))]
  | None => []
  end.

(* src/wh_client_nvm.c:450-500 wh_Client_NvmGetMetadataResponse. *)
Definition r_nvm_meta (label : option N) (b : N -> N) (n : N) : outcome :=
  if negb (n =? 36) then fail
  else (true, map (field b) [(0, 4); (4, 2); (6, 2); (8, 2); (10, 2)] ++ label_eff b 12 label).

(* src/wh_client_nvm.c:619-661 wh_Client_NvmReadResponse. *)
Definition r_nvm_read (data : option N) (b : N -> N) (n : N) : outcome :=
  if (n <? 4) || (DL <? n) || (DL - 4 <? n - 4) then fail
  else (true, field b (0, 4) :: Value (n - 4) :: copy_if data (bytes b 4 (n - 4))).

(* src/wh_client.c:1084-1139 wh_Client_KeyExportResponse and 1176-1232
   wh_Client_KeyExportPublicResponse: the second leaves the label alone when the
   key does not fit, the first does not. *)
Definition r_key_export (public : bool) (label out : option N) (b : N -> N) (n : N) : outcome :=
  let size := 36 in
  if n <? size then fail
  else if negb (f32 b 0 =? 0) then fail
  else
    let len := f32 b 4 in
    if n - size <? len then fail
    else
      match out with
      | None => (true, Value (u16 len) :: label_eff b 8 label)
      | Some cap =>
        if cap <? len then (false, if public then [] else label_eff b 8 label)
        else (true, [Copied cap (bytes b size len); Told cap (u16 len)] ++ label_eff b 8 label)
      end.

(* src/wh_client.c:1881-1943 wh_Client_KeyExportDmaResponse and 2005-2061
   wh_Client_KeyExportPublicDmaResponse; the key itself was stored by the
   server, [cap] is the room named in the request. *)
Definition r_key_export_dma (label : option N) (cap : N) (b : N -> N) (n : N) : outcome :=
  if negb (n =? 48) then fail
  else if negb (f32 b 16 =? 0) then fail
  else (true, Told cap (u16 (f32 b 20)) :: label_eff b 24 label).

(* src/wh_client_keywrap.c:58-106 wh_Client_KeyWrapResponse and 164-212
   wh_Client_KeyWrapExportResponse. *)
Definition r_wrap (cipher cap : N) (b : N -> N) (n : N) : outcome :=
  if n <? 8 then fail
  else if n <? 8 + f16 b 4 then fail
  else if negb (f16 b 6 =? cipher) then fail
  else if negb (f32 b 0 =? 0) then fail
  else if cap <? f16 b 4 then fail
  else (true, [Copied cap (bytes b 8 (f16 b 4)); Told cap (f16 b 4)]).

(* src/wh_client_keywrap.c:282-336 wh_Client_KeyUnwrapAndExportResponse. *)
Definition r_unwrap_export (cipher cap : N) (b : N -> N) (n : N) : outcome :=
  if n <? 8 then fail
  else if n <? 8 + META + f16 b 4 then fail
  else if negb (f16 b 6 =? cipher) then fail
  else if negb (f32 b 0 =? 0) then fail
  else if cap <? f16 b 4 then fail
  else (true, [Copied META (bytes b 8 META); Copied cap (bytes b (8 + META) (f16 b 4));
               Told cap (f16 b 4)]).

(* src/wh_client_keywrap.c:405-447 wh_Client_KeyUnwrapAndCacheResponse. *)
Definition r_unwrap_cache (cipher : N) (b : N -> N) (n : N) : outcome :=
  if n <? 8 then fail
  else if negb (f16 b 6 =? cipher) then fail
  else if negb (f32 b 0 =? 0) then fail
  else (true, [field b (4, 2)]).

(* src/wh_client_keywrap.c:512-560 wh_Client_DataWrapResponse and 628-676
   wh_Client_DataUnwrapResponse.  The sum is of size_t; it is taken to hold more
   than 32 bits. *)
Definition r_data_wrap (cipher cap : N) (b : N -> N) (n : N) : outcome :=
  if n <? 12 then fail
  else if n <? 12 + f32 b 4 then fail
  else if negb (f16 b 8 =? cipher) then fail
  else if negb (f32 b 0 =? 0) then fail
  else if cap <? f32 b 4 then fail
  else (true, [Copied cap (bytes b 12 (f32 b 4)); Told cap (f32 b 4)]).

(* src/wh_client_cert.c:296-351 wh_Client_CertReadTrustedResponse.  The call
   returns 0 with the server's code in *out_rc; it counts as successful here
   when the certificate was delivered.  WH_ERROR_BUFFER_SIZE is -2006. *)
Definition r_read_trusted (want_rc : bool) (cap : N) (b : N -> N) (n : N) : outcome :=
  if n <? 8 then fail
  else
    let rc := f32 b 0 in
    let len := f32 b 4 in
    let told := if want_rc && (rc =? 4294967296 - 2006) then [Told cap len] else [] in
    let rcs := if want_rc then [field b (0, 4)] else [] in
    if negb (rc =? 0) then (false, rcs ++ told)
    else if n - 8 <? len then (false, rcs)
    else if cap <? len then (false, rcs ++ [Told cap len])
    else (true, rcs ++ [Copied cap (bytes b 8 len); Told cap len]).

(* src/wh_client_she.c:548-577 wh_Client_SheRndResponse. *)
Definition r_she_rnd (cap : N) (b : N -> N) (n : N) : outcome :=
  if cap <? 16 then fail
  else if n <? 20 then fail
  else if negb (f32 b 0 =? 0) then fail
  else (true, [Copied cap (bytes b 4 16); Told cap 16]).

(* src/wh_client_she.c:985-1014 wh_Client_SheGenerateMacResponse. *)
Definition r_she_mac (cap : N) (b : N -> N) (n : N) : outcome :=
  if cap <? 16 then fail
  else if n <? 20 then fail
  else if negb (f32 b 0 =? 0) then fail
  else (true, [Copied cap (bytes b 4 16)]).

(* src/wh_client_she.c:675-713, 755-792, 830-867, 909-946: the four SHE cipher
   answers. *)
Definition r_she_cipher (cap : N) (b : N -> N) (n : N) : outcome :=
  if cap <? 16 then fail
  else if n <? 8 then fail
  else if negb (f32 b 0 =? 0) then fail
  else if n - 8 <? f32 b 4 then fail
  else if cap <? f32 b 4 then fail
  else (true, [Copied cap (bytes b 8 (f32 b 4))]).

(* src/wh_client_crypto.c:183-198 _getCryptoResponse followed by the caller's
   test of its result, == 0 or >= 0.  It reads the generic header without
   knowing the size received. *)
Definition header_ok (positive : bool) (b : N -> N) : bool :=
  (f32 b 0 =? algo) &&
  (if positive then f32 b 4 <? 2147483648 else f32 b 4 =? 0).
(* The call's result is the code in the header, 0 or positive. *)
Definition rc0 (b : N -> N) : bool := f32 b 4 =? 0.

Definition r_crypto (m : crypto_msg) (b : N -> N) (n : N) : outcome :=
  match crypto_row m with
  | (positive, size, outs) =>
    if negb (header_ok positive b) then fail
    else if n <? HDR + size then fail
    else
      (* the stateful verification and count answer by their own result *)
      (match m with MStatefulVerifyDma | MStatefulSigsLeft => true | _ => rc0 b end,
       map (field b) outs ++
       match m with
       | MStatefulGenDma => [Value (u16 (f32 b 28))]
       | MStatefulSigsLeft => [Value (if f32 b 12 =? 0 then 0 else 1)]
       | _ => []
       end)
  end.

(* src/wh_client_crypto.c:6723-6761 and 6803-6842 (Sha256), 7324-7363,
   7405-7445 (Sha224), 7910-7949, 7992-8032 (Sha384), 8498-8542, 8585-8650
   (Sha512), and the DMA forms 7025-7076, 7129-7169, 7615-7665, 7715-7754,
   8203-8253, 8304-8343, 8820-8876, 8926-8994. *)
Definition r_sha2 (dma last : bool) (h : sha) (b : N -> N) (n : N) : outcome :=
  if negb (header_ok true b) then fail
  else if n <? HDR + (if dma then 96 else 76) then fail
  else if negb (f32 b (if dma then 100 else 84) =? algo) then fail
  else
    let hash := if dma then 28 else 20 in
    let hi := if dma then 92 else 12 in
    (rc0 b,
     if last then [field b (hash, digest_len h)]
     else [field b (hash, state_len h); field b (hi, 4); field b (hi + 4, 4)]).

(* src/wh_client_crypto.c:9184-9218 _Sha3UpdateResponse, 9262-9302
   _Sha3FinalResponse, 9640-9685 _Sha3DmaUpdateResponse, 9735-9774
   _Sha3DmaFinalResponse. *)
Definition r_sha3 (dma last : bool) (h : sha) (b : N -> N) (n : N) : outcome :=
  if negb (header_ok true b) then fail
  else if n <? HDR + (if dma then 280 else 264) then fail
  else (rc0 b, if last then [field b (if dma then 228 else 212, digest_len h)] else [field b (12, 200)]).

(* src/wh_client_crypto.c:232-279 wh_Client_RngGenerateResponse. *)
Definition r_rng (cap : N) (b : N -> N) (n : N) : outcome :=
  let sz := f32 b 12 in
  if negb (header_ok false b) then fail
  else if n <? HDR + 4 then fail
  else if n - (HDR + 4) <? sz then fail
  else if DL - HDR - 4 <? sz then fail
  else if cap <? sz then fail
  else (true, (if 0 <? sz then [Copied cap (bytes b 16 sz)] else []) ++ [Told cap sz]).

(* src/wh_client_crypto.c:513-564 wh_Client_AesCtrResponse.  [cap] is the room
   at out, which the function is not told. *)
Definition r_aes_ctr (cap : N) (b : N -> N) (n : N) : outcome :=
  let sz := f32 b 12 in
  let hdr := HDR + 20 + 2 * AES_BLOCK in
  if negb (header_ok false b) then fail
  else if n <? hdr then fail
  else if n - hdr <? sz then fail
  else (true, [Copied cap (bytes b 32 sz); field b (16, 4);
               field b (32 + sz, 16); field b (32 + sz + 16, 16); Told cap sz]).

(* src/wh_client_crypto.c:853-896 wh_Client_AesEcbResponse. *)
Definition r_aes_ecb (cap : N) (b : N -> N) (n : N) : outcome :=
  let sz := f32 b 12 in
  let hdr := HDR + 16 in
  if negb (header_ok false b) then fail
  else if n <? hdr then fail
  else if n - hdr <? sz then fail
  else (true, [Copied cap (bytes b 28 sz); Told cap sz]).

(* src/wh_client_crypto.c:1188-1237 wh_Client_AesCbcResponse. *)
Definition r_aes_cbc (cap : N) (b : N -> N) (n : N) : outcome :=
  let sz := f32 b 12 in
  let hdr := HDR + 16 + AES_BLOCK in
  if negb (header_ok false b) then fail
  else if n <? hdr then fail
  else if n - hdr <? sz then fail
  else (true, [Copied cap (bytes b 28 sz); field b (28 + sz, 16); Told cap sz]).

(* src/wh_client_crypto.c:1547-1610 wh_Client_AesGcmResponse. *)
Definition r_aes_gcm (out tag : option N) (b : N -> N) (n : N) : outcome :=
  let sz := f32 b 12 in
  let tsz := f32 b 16 in
  let hdr := HDR + 28 in
  let trailing := u32 (sz + tsz) in
  if negb (header_ok false b) then fail
  else if n <? hdr then fail
  else if trailing <? sz then fail
  else if n - hdr <? trailing then fail
  else
    let first :=
      match out with
      | Some cap => if 0 <? sz then (if cap <? sz then None else Some [Copied cap (bytes b 40 sz); Told cap sz])
                    else Some [Told cap sz]
      | None => Some [Value sz]
      end in
    match first with
    | None => fail
    | Some l =>
      match tag with
      | Some cap => if 0 <? tsz then (if cap <? tsz then (false, l)
                                     else (true, l ++ [Copied cap (bytes b (40 + sz) tsz)]))
                    else (true, l)
      | None => (true, l)
      end
    end.

(* src/wh_client_crypto.c:1780-1857 wh_Client_AesGcmDmaResponse. *)
Definition r_aes_gcm_dma (tag : option N) (b : N -> N) (n : N) : outcome :=
  let tsz := f32 b 32 in
  let hdr := HDR + 24 in
  if negb (header_ok false b) then fail
  else if n <? hdr then fail
  else if n - hdr <? tsz then fail
  else
    match tag with
    | Some cap => if 0 <? tsz then (if cap <? tsz then fail else (true, [Copied cap (bytes b 36 tsz)]))
                  else (true, [])
    | None => (true, [])
    end.

(* Key id to the caller's variable, a cast to 16 bits. *)
Definition id_eff (id : bool) (b : N -> N) (off : N) : list eff :=
  if id then [Value (u16 (f32 b off))] else [].

(* src/wh_client_crypto.c:2035-2102 _EccMakeKeyResponse, 4697-4754
   _RsaMakeKeyResponse, 3873-3902 _Ed25519MakeKey; then 3350-3393 _MakeKey of
   Curve25519, 10118-10169 _MlDsaMakeKey, 11324-11358 _MlKemMakeKey, which use
   the key id and the length before they look at the size received. *)
Definition r_make_key (g : gen) (id key : bool) (b : N -> N) (n : N) : outcome :=
  let len := f32 b 16 in
  let der := bytes b 20 (match g with GRsa => len | _ => u16 len end) in
  if negb (header_ok true b) then fail
  else
    match g with
    | GEcc | GRsa | GEd25519 =>
      if (n <? HDR + 8) || (n - (HDR + 8) <? len) then fail
      else
        let set := match g with GEd25519 => [Value (u16 (f32 b 12))] | _ => [Value 0] end in
        if key then
          if 0 <? len then (parse der, id_eff id b 12 ++ set ++ [Parsed der])
          else (false, id_eff id b 12 ++ match g with GEd25519 => set | _ => [] end)
        else (rc0 b, id_eff id b 12)
    | GX25519 | GMldsa | GMlkem =>
      let set := [Value (u16 (f32 b 12))] in
      if key then
        if match g with GMlkem => len =? 0 | _ => u16 len =? 0 end
        then (false, id_eff id b 12 ++ set)
        else if (n <? HDR + 8) || (n - (HDR + 8) <? len) then (false, id_eff id b 12 ++ set)
        else (parse der, id_eff id b 12 ++ set ++ [Parsed der])
      else (rc0 b, id_eff id b 12)
    end.

(* src/wh_client_crypto.c:10702-10755 _MlDsaMakeKeyDma, 11839-11873
   _MlKemMakeKeyDma; [cap] is the size of the local buffer the server wrote. *)
Definition r_make_key_dma (cap : N) (id key : bool) (b : N -> N) (n : N) : outcome :=
  let len := f32 b 32 in
  if negb (header_ok true b) then fail
  else if n <? HDR + 24 then fail
  else if key then
    let set := [Value (u16 (f32 b 28))] in
    if len =? 0 then (false, id_eff id b 28 ++ set)
    else if cap <? len then (false, id_eff id b 28 ++ set)
    else (true, id_eff id b 28 ++ set ++ [Used cap len])
  else (rc0 b, id_eff id b 28).

(* The part shared by the answers with one output and a length variable:
   [size] says whether the caller gave a length variable; with an output buffer
   it must (the function returns before receiving otherwise). *)
Definition deliver (size : bool) (out : option N) (sz : N) (bs : list N) (r : bool)
    (l : list eff) : outcome :=
  match out with
  | Some cap =>
    if negb size then fail
    else if cap <? sz then (false, l ++ [Told cap (u16 sz)])
    else (r, l ++ Told cap (u16 sz) :: (if 0 <? sz then [Copied cap bs] else []))
  | None => (r, l ++ (if size then [Value (u16 sz)] else []))
  end.

(* src/wh_client_crypto.c:2294-2345 _EccSharedSecretResponse, 3521-3571
   _Curve25519SharedSecretResponse. *)
Definition r_shared (id size : bool) (out : option N) (b : N -> N) (n : N) : outcome :=
  let sz := f32 b 12 in
  if negb (header_ok true b) then fail
  else if (n <? HDR + 8) || (n - (HDR + 8) <? sz) then fail
  else deliver size out sz (bytes b 20 sz) (rc0 b) (id_eff id b 16).

(* src/wh_client_crypto.c:2530-2578 wh_Client_EccSignResponse. *)
Definition r_ecc_sign (size : bool) (out : option N) (b : N -> N) (n : N) : outcome :=
  let sz := f32 b 12 in
  if negb (header_ok true b) then fail
  else if (n <? HDR + 4) || (n - (HDR + 4) <? sz) then fail
  else deliver size out sz (bytes b 16 sz) (rc0 b) [].

(* src/wh_client_crypto.c:4930-4979 wh_Client_RsaFunctionResponse. *)
Definition r_rsa_fn (size : bool) (out : option N) (b : N -> N) (n : N) : outcome :=
  let sz := f32 b 12 in
  if negb (header_ok true b) then fail
  else if (n <? HDR + 4) || (n - (HDR + 4) <? sz) then fail
  else deliver size out sz (bytes b 16 sz) (rc0 b) [].

(* src/wh_client_crypto.c:2733-2774 wh_Client_EccVerifyResponse. *)
Definition r_ecc_verify (key : bool) (b : N -> N) (n : N) : outcome :=
  let sz := f32 b 16 in
  if negb (header_ok true b) then fail
  else if (n <? HDR + 8) || (n - (HDR + 8) <? sz) then fail
  else if key && (0 <? sz)
  then (parse (bytes b 20 (u16 sz)), [field b (12, 4); Parsed (bytes b 20 (u16 sz))])
  else (rc0 b, [field b (12, 4)]).

(* src/wh_client_crypto.c:2907-2946 _EccMakePubResponse. *)
Definition r_ecc_pub (cap : N) (b : N -> N) (n : N) : outcome :=
  let sz := f32 b 12 in
  if negb (header_ok true b) then fail
  else if (n <? HDR + 4) || (n - (HDR + 4) <? sz) then fail
  else if cap <? sz then (false, [Told cap (u16 sz)])
  else (rc0 b, [Copied cap (bytes b 16 sz); Told cap (u16 sz)]).

(* src/wh_client_crypto.c:3043-3076 _EccCheckPubKeyResponse. *)
Definition r_ecc_check (b : N -> N) (n : N) : outcome :=
  if negb (header_ok true b) then fail
  else if (n <? HDR + 4) || (f32 b 12 =? 0) then fail
  else (rc0 b, []).

(* src/wh_client_crypto.c:4068-4093 wh_Client_Ed25519Sign. *)
Definition r_ed_sign (size : bool) (out : option N) (b : N -> N) (n : N) : outcome :=
  let sz := f32 b 12 in
  if negb (header_ok true b) then fail
  else if (n <? HDR + 4) || (n - (HDR + 4) <? sz) then fail
  else
    match out with
    | Some cap =>
      if negb size then fail
      else if cap <? sz then (false, [Told cap sz])
      else (rc0 b, [Copied cap (bytes b 16 sz); Told cap sz])
    | None => (rc0 b, if size then [Value sz] else [])
    end.

(* src/wh_client_crypto.c:4350-4366 wh_Client_Ed25519SignDma; [cap] is the room
   for the signature named in the request. *)
Definition r_ed_sign_dma (cap : N) (b : N -> N) (n : N) : outcome :=
  if negb (header_ok true b) then fail
  else if n <? HDR + 24 then fail
  else (rc0 b, [Told cap (f32 b 28)]).

(* src/wh_client_crypto.c:10351-10376 wh_Client_MlDsaSign. *)
Definition r_mldsa_sign (cap : N) (b : N -> N) (n : N) : outcome :=
  let sz := f32 b 12 in
  if negb (header_ok true b) then fail
  else if (n <? HDR + 8) || (n - (HDR + 8) <? sz) then fail
  else if cap <? sz then (false, [Told cap sz])
  else (rc0 b, [Copied cap (bytes b 20 sz); Told cap sz]).

(* src/wh_client_crypto.c:10940-10962 wh_Client_MlDsaSignDma, 12416-12434
   wh_Client_LmsSignDma, 12896-12917 wh_Client_XmssSignDma. *)
Definition r_sign_dma (cap : N) (b : N -> N) (n : N) : outcome :=
  if negb (header_ok true b) then fail
  else if n <? HDR + 24 then fail
  else if cap <? f32 b 28 then fail
  else (true, [Told cap (f32 b 28)]).

(* src/wh_client_crypto.c:5348-5386 _HkdfMakeKey, 5521-5550 _CmacKdfMakeKey. *)
Definition r_kdf (id : bool) (out : option N) (b : N -> N) (n : N) : outcome :=
  let sz := f32 b 16 in
  if negb (header_ok false b) then fail
  else if (n <? HDR + 8) || (n - (HDR + 8) <? sz) then fail
  else
    match out with
    | Some cap => if sz <=? cap then (true, id_eff id b 12 ++ [Copied cap (bytes b 20 sz)])
                  else (false, id_eff id b 12)
    | None => (true, id_eff id b 12)
    end.

(* src/wh_client_crypto.c:5736-5786 wh_Client_CmacGenerateResponse, 5867-5906
   wh_Client_CmacUpdateResponse (no output), 5964-6013
   wh_Client_CmacFinalResponse, 6215-6267, 6373-6415, 6472-6517 the DMA forms;
   src/wh_crypto.c:968-979 wh_Crypto_CmacAesRestoreStateFromMsg;
   src/wh_client_crypto.c:5656-5663 _CmacValidateTagLen (4 to 16 bytes). *)
Definition r_cmac (dma : bool) (out : option N) (b : N -> N) (n : N) : outcome :=
  let hdr := HDR + (if dma then 64 else 48) in
  let sz := f32 b (if dma then 68 else 52) in
  let st := [field b (12, 16); field b (28, 16); field b (44, 4); field b (48, 4)] in
  if negb (header_ok true b) then fail
  else if n <? hdr then fail
  else
    match out with
    | None => if 16 <? f32 b 44 then fail else (true, st)
    | Some cap =>
      if n - hdr <? sz then fail
      else if 16 <? f32 b 44 then fail
      else if (0 <? cap) && ((cap <? 4) || (16 <? cap)) then (false, st)
      else
        let l := if sz <? cap then sz else cap in
        (true, st ++ [Told cap l; Copied cap (bytes b hdr l)])
    end.

(* src/wh_client_crypto.c:11505-11548 wh_Client_MlKemEncapsulate: a result other
   than 0 clears the shared secret. *)
Definition r_encaps (ct ss : N) (b : N -> N) (n : N) : outcome :=
  let csz := f32 b 12 in
  let ssz := f32 b 16 in
  let bad := (false, [Cleared ss ss]) in
  if negb (header_ok true b) then bad
  else if (n <? HDR + 8) || (n - (HDR + 8) <? csz) || (n - (HDR + 8) - csz <? ssz) then bad
  else if (ct <? csz) || (ss <? ssz) then bad
  else
    let l := [Copied ct (bytes b 20 csz); Copied ss (bytes b (20 + csz) ssz);
              Told ct csz; Told ss ssz] in
    if rc0 b then (true, l) else (false, l ++ [Cleared ss ssz]).

(* src/wh_client_crypto.c:11634-11671 wh_Client_MlKemDecapsulate. *)
Definition r_decaps (ss : N) (b : N -> N) (n : N) : outcome :=
  let ssz := f32 b 12 in
  let bad := (false, [Cleared ss ss]) in
  if negb (header_ok true b) then bad
  else if (n <? HDR + 8) || (n - (HDR + 8) <? ssz) then bad
  else if ss <? ssz then bad
  else
    let l := [Copied ss (bytes b 20 ssz); Told ss ssz] in
    if rc0 b then (true, l) else (false, l ++ [Cleared ss ssz]).

(* src/wh_client_crypto.c:12016-12056 wh_Client_MlKemEncapsulateDma. *)
Definition r_encaps_dma (ct ss : N) (b : N -> N) (n : N) : outcome :=
  let csz := f32 b 28 in
  let ssz := f32 b 32 in
  let bad := (false, [Cleared ss ss]) in
  if negb (header_ok true b) then bad
  else if (n <? HDR + 24) || (n - (HDR + 24) <? ssz) then bad
  else if (ct <? csz) || (ss <? ssz) then bad
  else
    let l := [Copied ss (bytes b 36 ssz); Told ct csz; Told ss ssz] in
    if rc0 b then (true, l) else (false, l ++ [Cleared ss ssz]).

(* src/wh_client_crypto.c:12141-12179 wh_Client_MlKemDecapsulateDma. *)
Definition r_decaps_dma (ss : N) (b : N -> N) (n : N) : outcome :=
  let ssz := f32 b 28 in
  let bad := (false, [Cleared ss ss]) in
  if negb (header_ok true b) then bad
  else if (n <? HDR + 24) || (n - (HDR + 24) <? ssz) then bad
  else if ss <? ssz then bad
  else
    let l := [Copied ss (bytes b 36 ssz); Told ss ssz] in
    if rc0 b then (true, l) else (false, l ++ [Cleared ss ssz]).

(* A call takes an answer of [n] bytes. *)
Definition answer (c : call) (b : N -> N) (n : N) : outcome :=
  match c with
  | CFixed m => r_fixed m b n
  | CAuthLogin w => r_auth_login w b n
  | CCustomQuery => r_custom_query b n
  | CEcho d => r_echo d b n
  | CNvmMeta l => r_nvm_meta l b n
  | CNvmRead d => r_nvm_read d b n
  | CKeyExport p l o => r_key_export p l o b n
  | CKeyExportDma l cap => r_key_export_dma l cap b n
  | CWrap ci cap => r_wrap ci cap b n
  | CUnwrapExport ci cap => r_unwrap_export ci cap b n
  | CUnwrapCache ci => r_unwrap_cache ci b n
  | CDataWrap ci cap => r_data_wrap ci cap b n
  | CReadTrusted w cap => r_read_trusted w cap b n
  | CSheRnd cap => r_she_rnd cap b n
  | CSheMac cap => r_she_mac cap b n
  | CSheCipher cap => r_she_cipher cap b n
  | CCrypto m => r_crypto m b n
  | CSha2 d l h => r_sha2 d l h b n
  | CSha3 d l h => r_sha3 d l h b n
  | CRng cap => r_rng cap b n
  | CAesCtr cap => r_aes_ctr cap b n
  | CAesEcb cap => r_aes_ecb cap b n
  | CAesCbc cap => r_aes_cbc cap b n
  | CAesGcm o t => r_aes_gcm o t b n
  | CAesGcmDma t => r_aes_gcm_dma t b n
  | CMakeKey g id key => r_make_key g id key b n
  | CMakeKeyDma cap id key => r_make_key_dma cap id key b n
  | CShared id size o => r_shared id size o b n
  | CEccSign size o => r_ecc_sign size o b n
  | CRsaFn size o => r_rsa_fn size o b n
  | CEccVerify key => r_ecc_verify key b n
  | CEccPub cap => r_ecc_pub cap b n
  | CEccCheck => r_ecc_check b n
  | CEdSign size o => r_ed_sign size o b n
  | CEdSignDma cap => r_ed_sign_dma cap b n
  | CMldsaSign cap => r_mldsa_sign cap b n
  | CSignDma cap => r_sign_dma cap b n
  | CKdf id o => r_kdf id o b n
  | CCmac d o => r_cmac d o b n
  | CEncaps ct ss => r_encaps ct ss b n
  | CDecaps ss => r_decaps ss b n
  | CEncapsDma ct ss => r_encaps_dma ct ss b n
  | CDecapsDma ss => r_decaps_dma ss b n
  end.

End Client.
