(* The message layout side of the server's crypto handlers: which bytes of the
   communication buffer each handler reads, which it writes, how much room it
   promises to the cryptographic library, and the size of the answer.

   The server passes one buffer of WOLFHSM_CFG_COMM_DATA_LEN bytes both as the
   request and as the response (src/wh_server.c:674-677).  Offsets below are
   offsets in that buffer.  The cryptographic values themselves do not matter
   here; what the keystore and wolfCrypt answer is an argument. *)
From Coq Require Import NArith List Bool.
Import ListNotations.
Open Scope N_scope.

(* One use of memory by a handler. *)
Inductive use : Type :=
| Rd (off len : N)        (* bytes of the request are read *)
| Wr (off len : N)        (* the handler itself writes, or reads back, the response area *)
| Lib (off room n : N)    (* the library is given [room] bytes at [off] and puts [n] there *)
| Loc (size len : N)      (* [len] bytes of a local array of [size] bytes are used *)
| LocLib (size n : N).    (* the library is given a local array and puts [n] bytes there *)

(* wolfhsm/wh_message_crypto.h:74-88: both generic headers have 12 bytes. *)
Definition HDR : N := 12.
(* wolfhsm/wh_common.h WH_NVM_LABEL_LEN. *)
Definition LABEL : N := 24.
Definition AES_BLOCK : N := 16.
Definition AES_256 : N := 32.
(* wolfhsm/wh_settings.h:544-545. *)
Definition KDF_MAX : N := 256.
(* wolfhsm/wh_crypto.h:104,113. *)
Definition MAX_CTX : N := 255.
(* wolfCrypt ED25519_SIG_SIZE. *)
Definition ED_SIG : N := 64.
(* wolfCrypt: 1 + 2 * MAX_ECC_BYTES with MAX_ECC_BYTES = 66. *)
Definition ECC_POINT : N := 133.

Definition u16 (n : N) : N := n mod 65536.
(* uint32_t arithmetic. *)
Definition u32 (n : N) : N := n mod 4294967296.
Definition sub32 (a b : N) : N := (a + 4294967296 - b) mod 4294967296.

(* wolfhsm/wh_message_crypto.h: the SHA2 family layouts (806-818, 861-875) and
   the four SHA3 variants (WH block sizes 144, 136, 104, 72). *)
Inductive sha2 := Sha224 | Sha256 | Sha384 | Sha512.
Inductive sha3 := Sha3_224 | Sha3_256 | Sha3_384 | Sha3_512.

Definition sha2_req (v : sha2) : N :=
  match v with Sha224 | Sha256 => 48 | Sha384 | Sha512 => 84 end.
Definition sha2_block (v : sha2) : N :=
  match v with Sha224 | Sha256 => 64 | Sha384 | Sha512 => 128 end.
Definition sha3_block (v : sha3) : N :=
  match v with Sha3_224 => 144 | Sha3_256 => 136 | Sha3_384 => 104 | Sha3_512 => 72 end.

(* A request, with the length fields its handler looks at.  A field is any
   uint32_t the client chose to send.  [by_id] says that the request names a
   stored key, [eph] that its flags hold WH_NVM_FLAGS_EPHEMERAL. *)
Inductive creq : Type :=
| QRsaGen (eph : bool)
| QRsaFn (op_ok : bool) (inLen outLen : N)
| QRsaSize
| QRng (sz : N)
| QHkdf (by_id eph : bool) (inKeySz saltSz infoSz outSz : N)
| QCmacKdf (salt_id z_id eph : bool) (saltSz zSz infoSz outSz : N)
| QEccGen (eph : bool)
| QEcdh (eph : bool)
| QEccSign (sz : N)
| QEccVerify (export : bool) (sigSz hashSz : N)
| QEccPub
| QEccCheck (pubSz : N)
| QX25519Gen (eph : bool)
| QX25519 (eph : bool)
| QEdGen (eph : bool)
| QEdSign (type_ok plain : bool) (msgSz ctxSz : N)
| QEdVerify (type_ok : bool) (sigSz msgSz ctxSz : N)
| QAesCtr (by_id : bool) (keyLen sz left : N)
| QAesEcb (by_id : bool) (keyLen sz : N)
| QAesCbc (by_id : bool) (keyLen sz : N)
| QAesGcm (by_id enc : bool) (keyLen sz ivSz authInSz authTagSz : N)
| QCmac (by_id : bool) (inSz keySz outSz bufferSz : N)
| QSha2 (v : sha2) (last : bool) (inSz : N)
| QSha3 (v : sha3) (last : bool) (inSz : N)
| QMldsaGen (level_ok eph : bool)
| QMldsaSign (sz ctxSz : N)
| QMldsaVerify (sigSz hashSz ctxSz : N)
| QKemGen (level_ok eph : bool)
| QKemEnc (level_ok : bool)
| QKemDec (level_ok : bool) (ctSz : N)
| QUnknown.

(* What the rest of the server and wolfCrypt answer while a request is served:
   whether the named key can be used and its length, whether the operation
   succeeds, how many bytes it puts at its output (and at a second output),
   whether an id can be allocated and the result cached, whether a key can be
   serialized. *)
Record env : Type := mkEnv {
  e_key : bool;
  e_klen : N;
  e_klen2 : N;
  e_op : bool;
  e_n : N;
  e_n2 : N;
  e_cache : bool;
  e_ser : bool
}.

Definition out := (list use * option N)%type.
Definition refuse : out := ([], None).
Definition after (l : list use) (k : out) : out := (l ++ fst k, snd k).
Definition answer (l : list use) (n : N) : out := (l, Some (u16 n)).

Section Bounds.

Variable DL : N.   (* WOLFHSM_CFG_COMM_DATA_LEN *)

(* The part shared by the key generation handlers: with the ephemeral flag the
   key is serialized into the response, otherwise it is cached and its public
   part is exported when it fits.  [resp] is the size of the response struct,
   [room] what the handler computes as the room after it. *)
Definition gen_tail (resp room : N) (eph : bool) (e : env) : out :=
  if negb (e_op e) then refuse
  else if eph then
    after [Lib (HDR + resp) room (e_n e)]
      (if e_ser e then answer [Wr HDR resp] (resp + u16 (e_n e)) else refuse)
  else if negb (e_cache e) then refuse
  else
    after [Lib (HDR + resp) room (e_n e)]
      (answer [Wr HDR resp] (resp + (if e_ser e then u16 (e_n e) else 0))).

(* src/wh_server_crypto.c:358-468 _HandleRsaKeyGen. *)
Definition h_rsa_gen (inSize : N) (eph : bool) (e : env) : out :=
  let req := 16 + LABEL in let resp := 8 in
  if inSize <? req then refuse
  else after [Rd HDR req] (gen_tail resp (u16 (DL - resp)) eph e).

(* src/wh_server_crypto.c:471-591 _HandleRsaFunction.  The room given to
   wc_RsaFunction is the client's outLen. *)
Definition h_rsa_fn (inSize : N) (op_ok : bool) (inLen outLen : N) (e : env) : out :=
  let req := 20 in let resp := 4 in
  if inSize <? req then refuse
  else after [Rd HDR req]
    (let available := sub32 inSize req in
     if available <? inLen then refuse
     else if negb op_ok then refuse
     else if negb (e_key e) then refuse
     else after [Rd (HDR + req) inLen; Lib (HDR + resp) outLen (e_n e)]
       (if e_op e then answer [Wr HDR resp] (resp + e_n e) else refuse)).

(* src/wh_server_crypto.c:593-651 _HandleRsaGetSize. *)
Definition h_rsa_size (inSize : N) (e : env) : out :=
  if inSize <? 8 then refuse
  else after [Rd HDR 8]
    (if e_key e && e_op e then answer [Wr HDR 4] 4 else refuse).

(* src/wh_server_crypto.c:1992-2042 _HandleRng. *)
Definition h_rng (inSize sz : N) (e : env) : out :=
  if inSize <? 4 then refuse
  else after [Rd HDR 4]
    (let max := DL - HDR - 4 in
     let actual := if sz <? max then sz else max in
     after [Lib (HDR + 4) actual actual]
       (if e_op e then answer [Wr HDR 4] (4 + actual) else refuse)).

(* src/wh_server_crypto.c:2139-2280 _HandleHkdf.  wc_HKDF fills outSz bytes.
   [wh_Server_KeystoreReadKeyEnforce] refuses a key longer than the local
   array it is given (wh_server_keystore.c, WH_ERROR_NOSPACE). *)
Definition h_hkdf (inSize : N) (by_id eph : bool)
    (inKeySz saltSz infoSz outSz : N) (e : env) : out :=
  let req := 32 + LABEL in let resp := 8 in
  if inSize <? req then refuse
  else after [Rd HDR req]
    (let available := sub32 inSize req in
     if available <? inKeySz then refuse
     else if sub32 available inKeySz <? saltSz then refuse
     else if sub32 (sub32 available inKeySz) saltSz <? infoSz then refuse
     else
       let inKey := HDR + req in
       let salt := inKey + inKeySz in
       let info := salt + saltSz in
       let max_size := u16 (DL - HDR - resp) in
       let stored := (inKeySz =? 0) && by_id in
       if stored && negb (e_key e && (e_klen e <=? KDF_MAX)) then refuse
       else if max_size <? outSz then refuse
       else
         after ((if stored then [Loc KDF_MAX (e_klen e)] else [Rd inKey inKeySz])
                ++ [Rd salt saltSz; Rd info infoSz; Lib (HDR + resp) outSz outSz])
           (if negb (e_op e) then refuse
            else if eph then answer [Wr HDR resp] (resp + outSz)
            else if negb (e_cache e) then refuse
            else answer [Wr (HDR + resp) outSz; Wr HDR resp] resp)).

(* src/wh_server_crypto.c:2284-2442 _HandleCmacKdf. *)
Definition h_cmac_kdf (inSize : N) (salt_id z_id eph : bool)
    (saltSz zSz infoSz outSz : N) (e : env) : out :=
  let req := 32 + LABEL in let resp := 8 in
  if inSize <? req then refuse
  else after [Rd HDR req]
    (let available := sub32 inSize req in
     if available <? saltSz then refuse
     else if sub32 available saltSz <? zSz then refuse
     else if sub32 (sub32 available saltSz) zSz <? infoSz then refuse
     else
       let salt := HDR + req in
       let z := salt + saltSz in
       let info := z + zSz in
       let max_size := u16 (DL - HDR - resp) in
       if (saltSz =? 0) && negb (salt_id && e_key e && (e_klen e <=? AES_256)) then refuse
       else if (zSz =? 0) && negb (z_id && e_key e && (e_klen2 e <=? KDF_MAX)) then refuse
       else if outSz =? 0 then refuse
       else if max_size <? outSz then refuse
       else
         after ((if saltSz =? 0 then [Loc AES_256 (e_klen e)] else [Rd salt saltSz])
                ++ (if zSz =? 0 then [Loc KDF_MAX (e_klen2 e)] else [Rd z zSz])
                ++ [Rd info infoSz; Lib (HDR + resp) outSz outSz])
           (if negb (e_op e) then refuse
            else if eph then answer [Wr HDR resp] (resp + outSz)
            else if negb (e_cache e) then refuse
            else answer [Wr (HDR + resp) outSz; Wr HDR resp] resp)).

(* src/wh_server_crypto.c:1395-1500 _HandleEccKeyGen. *)
Definition h_ecc_gen (inSize : N) (eph : bool) (e : env) : out :=
  let req := 20 + LABEL in let resp := 8 in
  if inSize <? req then refuse
  else after [Rd HDR req] (gen_tail resp (u16 (DL - resp)) eph e).

(* The shared secret handlers: the secret goes to the response area; unless it
   is ephemeral it is copied to the cache from there and scrubbed. *)
Definition secret_tail (resp room : N) (eph : bool) (e : env) : out :=
  if negb (e_key e) then refuse
  else after [Lib (HDR + resp) room (e_n e)]
    (if negb (e_op e) then refuse
     else if eph then answer [Wr HDR resp] (resp + u16 (e_n e))
     else after [Wr (HDR + resp) (e_n e)]
            (if e_cache e then answer [Wr HDR resp] resp else refuse)).

(* src/wh_server_crypto.c:1503-1633 _HandleEccSharedSecret. *)
Definition h_ecdh (inSize : N) (eph : bool) (e : env) : out :=
  let req := 20 + LABEL in let resp := 8 in
  if inSize <? req then refuse
  else after [Rd HDR req] (secret_tail resp (DL - resp) eph e).

(* src/wh_server_crypto.c:1637-1710 _HandleEccSign. *)
Definition h_ecc_sign (inSize sz : N) (e : env) : out :=
  let req := 12 in let resp := 4 in
  if inSize <? req then refuse
  else after [Rd HDR req]
    (if inSize - req <? sz then refuse
     else if negb (e_key e) then refuse
     else after [Rd (HDR + req) sz; Lib (HDR + resp) (DL - resp) (e_n e)]
       (if e_op e then answer [Wr HDR resp] (resp + e_n e) else refuse)).

(* src/wh_server_crypto.c:1714-1813 _HandleEccVerify. *)
Definition h_ecc_verify (inSize : N) (export : bool) (sigSz hashSz : N) (e : env) : out :=
  let req := 16 in let resp := 8 in
  if inSize <? req then refuse
  else after [Rd HDR req]
    (let available := sub32 inSize req in
     if available <? sigSz then refuse
     else if sub32 available sigSz <? hashSz then refuse
     else if negb (e_key e) then refuse
     else
       let sig := HDR + req in
       let hash := sig + sigSz in
       after [Rd sig sigSz; Rd hash hashSz]
         (if negb (e_op e) then refuse
          else if export then
            after [Lib (HDR + resp) (DL - resp) (e_n e)]
              (if e_ser e then answer [Wr HDR resp] (resp + e_n e) else refuse)
          else answer [Wr HDR resp] resp)).

(* src/wh_server_crypto.c:1816-1888 _HandleEccMakePub. *)
Definition h_ecc_pub (inSize : N) (e : env) : out :=
  let req := 8 in let resp := 4 in
  if inSize <? req then refuse
  else after [Rd HDR req]
    (if negb (e_key e) then refuse
     else after [Lib (HDR + resp) (DL - HDR - resp) (e_n e)]
       (if e_op e then answer [Wr HDR resp] (resp + e_n e) else refuse)).

(* src/wh_server_crypto.c:1891-1986 _HandleEccCheckPubKey.  [e_n] is the size
   of the resident key's point, exported to a local array. *)
Definition h_ecc_check (inSize pubSz : N) (e : env) : out :=
  let req := 16 in let resp := 4 in
  if inSize <? req then refuse
  else after [Rd HDR req]
    (if inSize - req <? pubSz then refuse
     else if negb (e_key e && e_op e) then refuse
     else if pubSz =? 0 then answer [Wr HDR resp] resp
     else if negb (e_ser e && (e_n e <=? ECC_POINT)) then refuse
     else if negb (e_n e =? pubSz) then refuse
     else after [Loc ECC_POINT (e_n e); Rd (HDR + req) (e_n e)]
            (answer [Wr HDR resp] resp)).

(* src/wh_server_crypto.c:2446-2555 _HandleCurve25519KeyGen. *)
Definition h_x25519_gen (inSize : N) (eph : bool) (e : env) : out :=
  let req := 12 + LABEL in let resp := 8 in
  if inSize <? req then refuse
  else after [Rd HDR req] (gen_tail resp (u16 (DL - resp)) eph e).

(* src/wh_server_crypto.c:2557-2694 _HandleCurve25519SharedSecret. *)
Definition h_x25519 (inSize : N) (eph : bool) (e : env) : out :=
  let req := 24 + LABEL in let resp := 8 in
  if inSize <? req then refuse
  else after [Rd HDR req] (secret_tail resp (u16 (DL - resp)) eph e).

(* src/wh_server_crypto.c:2698-2793 _HandleEd25519KeyGen. *)
Definition h_ed_gen (inSize : N) (eph : bool) (e : env) : out :=
  let req := 12 + LABEL in let resp := 8 in
  if inSize <? req then refuse
  else after [Rd HDR req] (gen_tail resp (u16 (DL - resp)) eph e).

(* src/wh_server_crypto.c:2795-2884 _HandleEd25519Sign.  The signature is made
   in a local array, checked against the room and then copied.  [plain] is
   req.type == Ed25519, which takes no context. *)
Definition h_ed_sign (inSize : N) (type_ok plain : bool) (msgSz ctxSz : N) (e : env) : out :=
  let req := 20 in let resp := 4 in
  if inSize <? req then refuse
  else after [Rd HDR req]
    (let available := sub32 inSize req in
     if available <? msgSz then refuse
     else if MAX_CTX <? ctxSz then refuse
     else if sub32 available msgSz <? ctxSz then refuse
     else if negb type_ok then refuse
     else if plain && negb (ctxSz =? 0) then refuse
     else if negb (e_key e) then refuse
     else after [Rd (HDR + req) msgSz; Rd (HDR + req + msgSz) ctxSz;
                 LocLib ED_SIG (e_n e)]
       (if DL - resp - HDR <? e_n e then refuse
        else if negb (e_op e) then refuse
        else answer [Wr (HDR + resp) (e_n e); Wr HDR resp] (resp + e_n e))).

(* src/wh_server_crypto.c:2886-2967 _HandleEd25519Verify. *)
Definition h_ed_verify (inSize : N) (type_ok : bool) (sigSz msgSz ctxSz : N) (e : env) : out :=
  let req := 24 in let resp := 4 in
  if inSize <? req then refuse
  else after [Rd HDR req]
    (let available := sub32 inSize req in
     if available <? sigSz then refuse
     else
       let available := sub32 available sigSz in
       if available <? msgSz then refuse
       else
         let available := sub32 available msgSz in
         if available <? ctxSz then refuse
         else if MAX_CTX <? ctxSz then refuse
         else if negb type_ok then refuse
         else if negb (e_key e) then refuse
         else
           let sig := HDR + req in
           let msg := sig + sigSz in
           let ctx := msg + msgSz in
           after [Rd sig sigSz; Rd msg msgSz; Rd ctx ctxSz]
             (if e_op e then answer [Wr HDR resp] resp else refuse)).

(* The AES handlers' choice of key: a stored key is read into a local array of
   AES_256_KEY_SIZE bytes and replaces the one in the request; then the length
   must be that of an AES key.  [None] is an error. *)
Definition aes_key (by_id : bool) (off keyLen : N) (e : env) : option (list use) :=
  let ok l := (l =? 16) || (l =? 24) || (l =? 32) in
  if by_id then
    if e_key e && (e_klen e <=? AES_256) && ok (e_klen e)
    then Some [Loc AES_256 (e_klen e)] else None
  else if ok keyLen then Some [Rd off keyLen] else None.

(* src/wh_server_crypto.c:3175-3307 _HandleAesCtr.  The response struct is
   padded to the size of the request struct, so that the data is processed in
   place. *)
Definition h_aes_ctr (inSize : N) (by_id : bool) (keyLen sz left : N) (e : env) : out :=
  let req := 20 in let resp := 20 in
  if inSize <? req then refuse
  else after [Rd HDR req]
    (if negb (req + sz + keyLen + AES_BLOCK + AES_BLOCK =? inSize) then refuse
     else
       let data := HDR + req in
       let key := data + sz in
       let iv := key + keyLen in
       let tmp := iv + AES_BLOCK in
       let dst := HDR + resp in
       let dst_reg := dst + sz in
       let dst_tmp := dst_reg + AES_BLOCK in
       match aes_key by_id key keyLen e with
       | None => refuse
       | Some l =>
         after (l ++ [Rd iv AES_BLOCK])
          (after (if AES_BLOCK <? left then []
                  else [Rd tmp AES_BLOCK; Rd data sz; Lib dst sz sz])
            (after [Wr dst_reg AES_BLOCK; Wr dst_tmp AES_BLOCK]
              (if (AES_BLOCK <? left) || negb (e_op e) then refuse
               else answer [Wr HDR resp] (resp + sz + AES_BLOCK * 2))))
       end).

(* src/wh_server_crypto.c:3511-3621 _HandleAesEcb. *)
Definition h_aes_ecb (inSize : N) (by_id : bool) (keyLen sz : N) (e : env) : out :=
  let req := 16 in let resp := 16 in
  if inSize <? req then refuse
  else after [Rd HDR req]
    (if negb (req + sz + keyLen =? inSize) then refuse
     else
       let data := HDR + req in
       let key := data + sz in
       let dst := HDR + resp in
       match aes_key by_id key keyLen e with
       | None => refuse
       | Some l =>
         after (l ++ [Rd data sz; Lib dst sz sz])
           (if e_op e then answer [Wr HDR resp] (resp + sz) else refuse)
       end).

(* src/wh_server_crypto.c:3796-3912 _HandleAesCbc. *)
Definition h_aes_cbc (inSize : N) (by_id : bool) (keyLen sz : N) (e : env) : out :=
  let req := 16 in let resp := 16 in
  if inSize <? req then refuse
  else after [Rd HDR req]
    (if negb (req + sz + keyLen + AES_BLOCK =? inSize) then refuse
     else
       let data := HDR + req in
       let key := data + sz in
       let iv := key + keyLen in
       let dst := HDR + resp in
       let dst_iv := dst + sz in
       match aes_key by_id key keyLen e with
       | None => refuse
       | Some l =>
         after (l ++ [Rd iv AES_BLOCK; Rd data sz; Lib dst sz sz])
           (if e_op e
            then answer [Wr dst_iv AES_BLOCK; Wr HDR resp] (resp + sz + AES_BLOCK)
            else refuse)
       end).

(* src/wh_server_crypto.c:4093-4248 _HandleAesGcm.  The response size is a
   uint32_t sum that includes the client's authTagSz when encrypting.
   wolfCrypt refuses a tag longer than one block before touching anything; the
   model says so here. *)
Definition h_aes_gcm (inSize : N) (by_id enc : bool)
    (keyLen sz ivSz authInSz authTagSz : N) (e : env) : out :=
  let req := 28 in let resp := 28 in
  if inSize <? req then refuse
  else after [Rd HDR req]
    (if negb (req + sz + keyLen + ivSz + authInSz
              + (if enc then 0 else authTagSz) =? inSize) then refuse
     else
       let data := HDR + req in
       let key := data + sz in
       let iv := key + keyLen in
       let authin := iv + ivSz in
       let tag := authin + authInSz in
       let dst := HDR + resp in
       let dst_tag := dst + sz in
       let res_len := u32 (resp + sz + (if enc then authTagSz else 0)) in
       if DL - HDR <? res_len then refuse
       else
         match aes_key by_id key keyLen e with
         | None => refuse
         | Some l =>
           after l
            (if AES_BLOCK <? authTagSz then refuse
             else
               after ([Rd data sz; Rd iv ivSz; Rd authin authInSz; Lib dst sz sz]
                      ++ (if enc then [Lib dst_tag authTagSz authTagSz]
                          else [Rd tag authTagSz]))
                 (if e_op e then answer [Wr HDR resp] res_len else refuse))
         end).

(* src/wh_server_crypto.c:4455-4499 _CmacResolveKey and 4501-4619 _HandleCmac.
   wolfCrypt refuses an output size above one block.  The resumed state may
   hold at most one block of buffered bytes (src/wh_crypto.c:968-979). *)
Definition h_cmac (inSize : N) (by_id : bool) (inSz keySz outSz bufferSz : N) (e : env) : out :=
  let req := 56 in let resp := 48 in
  if inSize <? req then refuse
  else after [Rd HDR req]
    (let available := sub32 inSize req in
     if available <? inSz then refuse
     else if sub32 available inSz <? keySz then refuse
     else if AES_256 <? keySz then refuse
     else
       let data := HDR + req in
       let key := data + inSz in
       match (if negb (keySz =? 0) then Some [Rd key keySz; Loc AES_256 keySz]
              else if by_id && e_key e && (e_klen e <=? AES_256)
                      && ((e_klen e =? 16) || (e_klen e =? 24) || (e_klen e =? 32))
                   then Some [Loc AES_256 (e_klen e)]
              else None) with
       | None => refuse
       | Some l =>
         after l
          (if negb (inSz =? 0) && negb (outSz =? 0) then
             if AES_BLOCK <? outSz then refuse
             else
               after [Rd data inSz; Lib (HDR + resp) outSz (e_n e)]
                 (if e_op e then answer [Wr HDR resp] (resp + e_n e) else refuse)
           else if AES_BLOCK <? bufferSz then refuse
           else
             after [Loc AES_BLOCK bufferSz; Rd data inSz]
               (if outSz =? 0 then
                  if e_op e then answer [Wr HDR resp] resp else refuse
                else if AES_BLOCK <? outSz then refuse
                else
                  after [Lib (HDR + resp) outSz (e_n e)]
                    (if e_op e then answer [Wr HDR resp] (resp + e_n e) else refuse)))
       end).

(* src/wh_server_crypto.c:4623-5022 _HandleSha256, _HandleSha224,
   _HandleSha384, _HandleSha512: the same checks with the sizes of the
   variant; the response struct has 76 bytes. *)
Definition h_sha2 (inSize : N) (v : sha2) (last : bool) (inSz : N) (e : env) : out :=
  let req := sha2_req v in let resp := 76 in
  if inSize <? req then refuse
  else after [Rd HDR req]
    (if inSize - req <? inSz then refuse
     else if negb last && negb (inSz mod sha2_block v =? 0) then refuse
     else if last && (sha2_block v <=? inSz) then refuse
     else after [Rd (HDR + req) inSz]
            (if e_op e then answer [Wr HDR resp] resp else refuse)).

(* src/wh_server_crypto.c:5080-5155 _HandleSha3. *)
Definition h_sha3 (inSize : N) (v : sha3) (last : bool) (inSz : N) (e : env) : out :=
  let req := 208 in let resp := 264 in
  if inSize <? req then refuse
  else after [Rd HDR req]
    (if inSize - req <? inSz then refuse
     else if negb last && negb (inSz mod sha3_block v =? 0) then refuse
     else if last && (sha3_block v <=? inSz) then refuse
     else after [Rd (HDR + req) inSz]
            (if e_op e then answer [Wr HDR resp] resp else refuse)).

(* src/wh_server_crypto.c:5192-5326 _HandleMlDsaKeyGen. *)
Definition h_mldsa_gen (inSize : N) (level_ok eph : bool) (e : env) : out :=
  let req := 20 + LABEL in let resp := 8 in
  if inSize <? req then refuse
  else after [Rd HDR req]
    (if negb level_ok then refuse
     else gen_tail resp (u16 (DL - resp)) eph e).

(* src/wh_server_crypto.c:5328-5424 _HandleMlDsaSign. *)
Definition h_mldsa_sign (inSize sz ctxSz : N) (e : env) : out :=
  let req := 24 in let resp := 8 in
  if inSize <? req then refuse
  else after [Rd HDR req]
    (let available := sub32 inSize req in
     if available <? sz then refuse
     else if sub32 available sz <? ctxSz then refuse
     else if MAX_CTX <? ctxSz then refuse
     else if negb (e_key e) then refuse
     else after [Rd (HDR + req) sz; Rd (HDR + req + sz) ctxSz;
                 Lib (HDR + resp) (DL - resp) (e_n e)]
       (if e_op e then answer [Wr HDR resp] (resp + e_n e) else refuse)).

(* src/wh_server_crypto.c:5426-5523 _HandleMlDsaVerify. *)
Definition h_mldsa_verify (inSize sigSz hashSz ctxSz : N) (e : env) : out :=
  let req := 32 in let resp := 8 in
  if inSize <? req then refuse
  else after [Rd HDR req]
    (let available := sub32 inSize req in
     if (available <? sigSz) || (available <? hashSz)
        || (sub32 available hashSz <? sigSz) then refuse
     else if sub32 (sub32 available sigSz) hashSz <? ctxSz then refuse
     else if MAX_CTX <? ctxSz then refuse
     else if negb (e_key e) then refuse
     else
       let sig := HDR + req in
       let hash := sig + sigSz in
       after [Rd sig sigSz; Rd hash hashSz; Rd (hash + hashSz) ctxSz]
         (if e_op e then answer [Wr HDR resp] resp else refuse)).

(* src/wh_server_crypto.c:5570-5673 _HandleMlKemKeyGen.  The public key is
   exported only when its size is at most the room computed. *)
Definition h_kem_gen (inSize : N) (level_ok eph : bool) (e : env) : out :=
  let req := 16 + LABEL in let resp := 8 in
  if inSize <? req then refuse
  else after [Rd HDR req]
    (let max_size := u16 (DL - resp) in
     if negb level_ok then refuse
     else if eph || (e_n e <=? max_size) then gen_tail resp max_size eph e
     else if negb (e_op e && e_cache e) then refuse
     else answer [Wr HDR resp] resp).

(* src/wh_server_crypto.c:5675-5776 _HandleMlKemEncaps; [e_n] and [e_n2] are
   the sizes of the ciphertext and of the shared secret at the key's level. *)
Definition h_kem_enc (inSize : N) (level_ok : bool) (e : env) : out :=
  let req := 16 in let resp := 8 in
  if inSize <? req then refuse
  else after [Rd HDR req]
    (if negb level_ok then refuse
     else if negb (e_key e) then refuse
     else
       let ct := HDR + resp in
       let ss := ct + e_n e in
       let max_out := DL - resp in
       if max_out <? e_n e + e_n2 e then refuse
       else
         after [Lib ct (e_n e) (e_n e); Lib ss (e_n2 e) (e_n2 e)]
           (if e_op e then answer [Wr HDR resp] (resp + e_n e + e_n2 e)
            else after [Wr ss (e_n2 e)] refuse)).

(* src/wh_server_crypto.c:5778-5881 _HandleMlKemDecaps. *)
Definition h_kem_dec (inSize : N) (level_ok : bool) (ctSz : N) (e : env) : out :=
  let req := 16 in let resp := 8 in
  if inSize <? req then refuse
  else after [Rd HDR req]
    (if negb level_ok then refuse
     else
       let available := sub32 inSize req in
       if available <? ctSz then refuse
       else if negb (e_key e) then refuse
       else
         let ss := HDR + resp in
         let max_out := DL - resp in
         if max_out <? e_n e then refuse
         else
           after [Rd (HDR + req) ctSz; Lib ss (e_n e) (e_n e)]
             (if e_op e then answer [Wr HDR resp] (resp + e_n e)
              else after [Wr ss (e_n e)] refuse)).

(* src/wh_server_crypto.c:6010-6300: the choice of the handler. *)
Definition handler (inSize : N) (q : creq) (e : env) : out :=
  match q with
  | QRsaGen eph => h_rsa_gen inSize eph e
  | QRsaFn op i o => h_rsa_fn inSize op i o e
  | QRsaSize => h_rsa_size inSize e
  | QRng sz => h_rng inSize sz e
  | QHkdf b eph k s i o => h_hkdf inSize b eph k s i o e
  | QCmacKdf sb zb eph s z i o => h_cmac_kdf inSize sb zb eph s z i o e
  | QEccGen eph => h_ecc_gen inSize eph e
  | QEcdh eph => h_ecdh inSize eph e
  | QEccSign sz => h_ecc_sign inSize sz e
  | QEccVerify x s h => h_ecc_verify inSize x s h e
  | QEccPub => h_ecc_pub inSize e
  | QEccCheck p => h_ecc_check inSize p e
  | QX25519Gen eph => h_x25519_gen inSize eph e
  | QX25519 eph => h_x25519 inSize eph e
  | QEdGen eph => h_ed_gen inSize eph e
  | QEdSign t p m c => h_ed_sign inSize t p m c e
  | QEdVerify t s m c => h_ed_verify inSize t s m c e
  | QAesCtr b k s l => h_aes_ctr inSize b k s l e
  | QAesEcb b k s => h_aes_ecb inSize b k s e
  | QAesCbc b k s => h_aes_cbc inSize b k s e
  | QAesGcm b en k s i a t => h_aes_gcm inSize b en k s i a t e
  | QCmac b i k o f => h_cmac inSize b i k o f e
  | QSha2 v l i => h_sha2 inSize v l i e
  | QSha3 v l i => h_sha3 inSize v l i e
  | QMldsaGen l eph => h_mldsa_gen inSize l eph e
  | QMldsaSign s c => h_mldsa_sign inSize s c e
  | QMldsaVerify s h c => h_mldsa_verify inSize s h c e
  | QKemGen l eph => h_kem_gen inSize l eph e
  | QKemEnc l => h_kem_enc inSize l e
  | QKemDec l c => h_kem_dec inSize l c e
  | QUnknown => refuse
  end.

(* src/wh_server_crypto.c:5975-6324 wh_Server_HandleCryptoRequest: the uses of
   memory and the size of the response.  A request shorter than the generic
   header leaves the size variable, which still holds the request's size
   (src/wh_server.c:674-677). *)
Definition serve (req_size : N) (q : creq) (e : env) : list use * N :=
  if req_size <? HDR then ([], req_size)
  else
    let r := handler (req_size - HDR) q e in
    (Rd 0 HDR :: fst r ++ [Wr 0 HDR],
     match snd r with
     | None => HDR
     | Some n => u16 (HDR + n)
     end).

(* src/wh_comm.c:416-447 wh_CommServer_SendResponse: a response longer than the
   buffer is not sent. *)
Definition sent (size : N) : bool := size <=? DL.

End Bounds.
