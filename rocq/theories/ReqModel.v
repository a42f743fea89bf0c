(** How the client library puts the caller's data into a request.

    Every call of the library whose request carries data of a length the caller
    chooses: src/wh_client.c, src/wh_client_auth.c, src/wh_client_cert.c,
    src/wh_client_keywrap.c, src/wh_client_nvm.c, src/wh_client_she.c and
    src/wh_client_crypto.c (the lines are with each case below).  A request is
    built in the message buffer of the context, which still holds the bytes of
    earlier messages, or in a local buffer of the same size.

    Not modelled here: the value of the fixed fields (their layout is the subject
    of C16) other than a label, the sending (C01-C06), NULL for the context, the
    key object or an output, a request that is still pending, DMA buffers, and the
    hash calls (C61).  Padding is a fixed field here: in the program it keeps what
    the buffer held, unless the function clears the fields first. *)
From Verif Require Import Base.
Local Open Scope N_scope.

Definition len (l : list N) : N := N.of_nat (length l).

(** A pointer with the length that goes with it. *)
Inductive arg := Buf (b : list N) | Null (n : N).
Definition size (a : arg) : N := match a with Buf b => len b | Null n => n end.
Definition given (a : arg) : bool := match a with Buf _ => true | Null _ => false end.

(** wolfhsm/wh_settings.h: WOLFHSM_CFG_COMM_DATA_LEN, the key wrap maxima,
    WOLFHSM_CFG_CERT_MAX_VERIFY_ROOTS; the size of whMessageAuth_UserAddRequest
    depends on the number of groups; [c_sizet] is SIZE_MAX + 1. *)
Record conf := mkConf { c_dl : N; c_kwkey : N; c_kwdata : N; c_roots : N; c_useradd : N; c_sizet : N }.

Inductive call :=
| Echo (d : arg)
| KeyCache (label key : arg)
| KeyCacheRandom (label : arg) (sz : N)
| KeyCacheDma (label : arg)
| KeyWrap (meta key : arg)
| KeyUnwrapExport (w : arg)
| KeyUnwrapCache (w : arg)
| DataWrap (d : arg)
| DataUnwrap (d : arg)
| Login (user cred : arg)
| UserAdd (user cred : arg)
| SetCred (cur new : arg)
| CertAdd (label cert : arg)
| CertVerify (cert : arg)
| CertVerifyRoots (roots cert : arg)
| CertAcert (root : N) (cert : arg)
| NvmAdd (label d : arg)
| SheEcb (d : arg)
| SheCbc (iv d : arg)
| SheMac (d : arg)
| SheVerMac (msg mac : arg)
| SheUid (uid : arg)
| ShePlain (key : arg)
| SheSeed (entropy : arg)
| AesCtr (d : arg) (key iv tmp : list N)
| AesEcb (d : arg) (key : list N)
| AesCbc (d : arg) (key iv : list N)
| AesGcm (enc : bool) (d : arg) (key : list N) (iv aad tag : arg)
| AesCtrDma (named : bool) (key iv tmp : list N)
| AesEcbDma (named : bool) (key : list N)
| AesCbcDma (named : bool) (key iv : list N)
| AesGcmDma (enc named : bool) (key : list N) (iv tag : arg)
| CmacGen (named : bool) (cached : list N) (key d : arg) (tag : N)
| CmacUpd (named : bool) (cached : list N) (key d : arg)
| CmacFin (named : bool) (cached : list N)
| CmacGenDma (named : bool) (cached : list N) (key : arg) (tag : N)
| CmacUpdDma (named : bool) (cached : list N) (key : arg) (input : N)
| CmacFinDma (named : bool) (cached : list N)
| Hkdf (label key salt info : arg)
| CmacKdf (label salt z info : arg) (out : N)
| RsaReq (named : bool) (d : arg)
| RsaFun (d : arg)
| EccSignReq (named : bool) (hash : arg)
| EccSign (hash : arg)
| EccVerifyReq (named : bool) (sig hash : arg)
| EccVerify (sig hash : arg)
| EdSign (dma : bool) (ty : N) (msg ctx : arg)
| EdVerify (dma : bool) (ty : N) (sig msg ctx : arg)
| MlSign (dma : bool) (msg ctx : arg)
| MlVerify (dma : bool) (sig msg ctx : arg)
| KemDecaps (ct : arg).

(** sizeof of the fixed part: wolfhsm/wh_message_*.h; 12 is
    whMessageCrypto_GenericRequestHeader, the second number of a sum the struct
    of the request. *)
Definition fixed (cf : conf) (c : call) : N :=
  match c with
  | Echo _ => 0
  | KeyCache _ _ | KeyCacheRandom _ _ => 40
  | KeyCacheDma _ => 56
  | KeyWrap _ _ => 6
  | KeyUnwrapExport _ | KeyUnwrapCache _ | DataWrap _ | DataUnwrap _ => 8
  | Login _ _ => 36
  | UserAdd _ _ => c_useradd cf
  | SetCred _ _ => 8
  | CertAdd _ _ => 36
  | CertVerify _ => 12
  | CertVerifyRoots _ _ => 16
  | CertAcert _ _ => 8
  | NvmAdd _ _ => 32
  | SheEcb _ | SheMac _ => 8
  | SheCbc _ _ => 24
  | SheVerMac _ _ => 16
  | SheUid _ => 16
  | ShePlain _ | SheSeed _ => 0
  | AesCtr _ _ _ _ => 12 + 20
  | AesEcb _ _ | AesCbc _ _ _ => 12 + 16
  | AesGcm _ _ _ _ _ _ => 12 + 28
  | AesCtrDma _ _ _ _ | AesEcbDma _ _ | AesCbcDma _ _ _ => 12 + 48
  | AesGcmDma _ _ _ _ _ => 12 + 72
  | CmacGen _ _ _ _ _ | CmacUpd _ _ _ _ | CmacFin _ _ => 12 + 56
  | CmacGenDma _ _ _ _ | CmacUpdDma _ _ _ _ | CmacFinDma _ _ => 12 + 72
  | Hkdf _ _ _ _ | CmacKdf _ _ _ _ _ => 12 + 56
  | RsaReq _ _ | RsaFun _ => 12 + 20
  | EccSignReq _ _ | EccSign _ => 12 + 12
  | EccVerifyReq _ _ _ | EccVerify _ _ => 12 + 16
  | EdSign dma _ _ _ => if dma then 12 + 64 else 12 + 20
  | EdVerify dma _ _ _ _ => if dma then 12 + 64 else 12 + 24
  | MlSign dma _ _ => if dma then 12 + 56 else 12 + 24
  | MlVerify dma _ _ _ => if dma then 12 + 56 else 12 + 32
  | KemDecaps _ => 12 + 16
  end.

(** What a function does: it refuses, returns WH_ERROR_OK without a request, or
    writes pieces at offsets of the buffer and passes a size on. *)
Inductive plan := No (rc : Z) | Idle | Go (writes : list (N * list N)) (total : N).

(** memcpy of a pointer, left out for NULL or a length of 0. *)
Definition copy (off : N) (a : arg) : list (N * list N) :=
  match a with Buf [] => [] | Buf b => [(off, b)] | Null _ => [] end.
(** The first [k] bytes of an argument that is at least as long. *)
Definition copy_first (off k : N) (a : arg) : list (N * list N) :=
  match a with Buf b => [(off, firstn (N.to_nat k) b)] | Null _ => [] end.
(** A label of at most WH_NVM_LABEL_LEN = 24 bytes, cut off if it is longer. *)
Definition label (off : N) (a : arg) : list (N * list N) :=
  copy_first off (if 24 <? size a then 24 else size a) a.

Definition missing (a : arg) : bool := negb (given a) && (0 <? size a).
(** src/wh_client_crypto.c 5629-5640 _CmacResolveClientKey. *)
Definition resolve (named : bool) (cached : list N) (key : arg) : arg :=
  if negb (given key) && (size key =? 0) && negb named && (0 <? len cached) then Buf cached else key.
Definition ed_type (ty : N) : bool := (ty =? 255) || (ty =? 0) || (ty =? 1).
(** src/wh_client_crypto.c 3989-3998: the type (byte)Ed25519 = 255 takes no context, another at most 255 bytes. *)
Definition ed_refuses (ty : N) (ctx : arg) : bool :=
  missing ctx || negb (ed_type ty) || ((ty =? 255) && (negb (size ctx =? 0) || given ctx)) || (255 <? size ctx).

Section Prepare.
Variable cf : conf.
(** The fixed fields as they are in the buffer, a label still zero. *)
Variable enc : call -> list N.
Let DL := c_dl cf.
Let ST (x : N) : N := x mod c_sizet cf.
Definition U16 (x : N) : N := x mod 65536.
Definition U32 (x : N) : N := x mod 4294967296.

Definition prepare (c : call) : plan :=
  let H := fixed cf c in
  let h := (0, enc c) in
  match c with
  (* src/wh_client.c 618-636 *)
  | Echo d =>
      if missing d || ((DL <? size d) && given d) then No BADARGS else
      Go (copy 0 d) (size d)
  (* 802-841 *)
  | KeyCache l key =>
      if negb (given key) || (size key =? 0) || (DL <? ST (H + size key)) then No BADARGS else
      Go (h :: label 16 l ++ copy H key) (H + size key)
  (* 907-941 *)
  | KeyCacheRandom l sz =>
      if sz =? 0 then No BADARGS else Go (h :: label 16 l) H
  (* 1717-1769 *)
  | KeyCacheDma l =>
      if missing l then No BADARGS else
      Go (h :: (if (0 <? size l) && given l then label 26 l else [])) H
  (* src/wh_client_keywrap.c 15-56; sizeof(whNvmMetadata) is 32 *)
  | KeyWrap meta key =>
      if negb (given key) || negb (given meta) then No BADARGS else
      if (size key =? 0) || (c_kwkey cf <? size key) || (DL <? ST (H + 32 + size key)) then No BADARGS else
      Go (h :: copy_first H 32 meta ++ copy (H + 32) key) (H + 32 + size key)
  (* 239-280, 365-403 *)
  | KeyUnwrapExport w | KeyUnwrapCache w =>
      if negb (given w) then No BADARGS else
      if (size w =? 0) || (c_kwkey cf <? size w) || (DL <? ST (H + size w)) then No BADARGS else
      Go (h :: copy H w) (H + size w)
  (* 472-510, 587-626 *)
  | DataWrap d | DataUnwrap d =>
      if negb (given d) then No BADARGS else
      if (size d =? 0) || (c_kwdata cf <? size d) || (DL <? ST (H + size d)) then No BADARGS else
      Go (h :: copy H d) (H + size d)
  (* src/wh_client_auth.c 48-58, 61-115: a user name of 1 to 31 bytes *)
  | Login user cred =>
      if negb (given user) || (size user =? 0) || (31 <? size user) then No BADARGS else
      if DL - H <? size cred then No BADARGS else
      if missing cred then No BADARGS else
      if DL <? ST (H + size cred) then No BADARGS else
      Go (h :: copy H cred) (H + size cred)
  (* 261-322; the permissions always fit their field *)
  | UserAdd user cred =>
      if negb (given user) || (size user =? 0) || (31 <? size user) then No BADARGS else
      if missing cred then No BADARGS else
      if DL - H <? size cred then No BUFFER_SIZE else
      if DL <? ST (H + size cred) then No BUFFER_SIZE else
      Go (h :: copy H cred) (H + size cred)
  (* 620-687 *)
  | SetCred cur new =>
      if (DL - H) / 2 <? size cur then No BUFFER_SIZE else
      if (DL - H) / 2 <? size new then No BUFFER_SIZE else
      if missing cur || missing new then No BADARGS else
      if DL <? U16 (H + size cur + size new) then No BUFFER_SIZE else
      Go (h :: copy H cur ++ copy (H + size cur) new) (H + size cur + size new)
  (* src/wh_client_cert.c 119-154 *)
  | CertAdd l cert =>
      if negb (given cert) || (size cert =? 0) || (DL - H <? size cert) then No BADARGS else
      Go (h :: (if given l && (0 <? size l) then label 10 l else []) ++ copy H cert) (H + size cert)
  (* 376-406 *)
  | CertVerify cert =>
      if negb (given cert) || (size cert =? 0) || (DL - H <? size cert) then No BADARGS else
      Go (h :: copy H cert) (H + size cert)
  (* 523-561; the roots are identifiers of two bytes *)
  | CertVerifyRoots roots cert =>
      if negb (given cert) || (size cert =? 0) || negb (given roots) || (size roots =? 0) ||
         (c_roots cf <? size roots / 2) || (DL - H <? size roots) || (DL - H - size roots <? size cert)
      then No BADARGS else
      Go (h :: copy H roots ++ copy (H + size roots) cert) (H + size roots + size cert)
  (* 1357-1382; WH_NVM_ID_INVALID is 0 *)
  | CertAcert root cert =>
      if (root =? 0) || negb (given cert) || (size cert =? 0) || (DL - H <? size cert) then No BADARGS else
      Go (h :: copy H cert) (H + size cert)
  (* src/wh_client_nvm.c 264-297 *)
  | NvmAdd l d =>
      if missing l || (24 <? size l) || missing d || (DL - 32 <? size d) then No BADARGS else
      Go (h :: copy 8 l ++ copy H d) (H + size d)
  (* src/wh_client_she.c 652-673, 807-828 *)
  | SheEcb d =>
      if negb (given d) || (size d <? 16) || (DL <? ST (H + size d)) then No BADARGS else
      Go (h :: copy H d) (H + size d)
  (* 728-753, 882-907: the vector is copied with its own length *)
  | SheCbc iv d =>
      if negb (given d) || (size d <? 16) || negb (given iv) || (size iv <? 16) || (DL <? ST (H + size d))
      then No BADARGS else
      Go (h :: copy 8 iv ++ copy H d) (H + size d)
  (* 961-983 *)
  | SheMac d =>
      if negb (given d) || (size d <? 16) || (DL <? ST (H + size d)) then No BADARGS else
      Go (h :: copy H d) (H + size d)
  (* 1029-1061 *)
  | SheVerMac msg mac =>
      if negb (given msg) || (size msg <? 16) || negb (given mac) || (size mac <? 16) ||
         (DL <? ST (H + size msg + 16)) then No BADARGS else
      Go (h :: copy H msg ++ copy_first (H + size msg) 16 mac) (H + size msg + 16)
  (* 74-90; WH_SHE_UID_SZ is 15, a byte of padding follows *)
  | SheUid uid =>
      if negb (given uid) || (size uid <? 15) then No BADARGS else Go (h :: copy_first 0 15 uid) H
  (* 368-383 *)
  | ShePlain key =>
      if negb (given key) || (size key <? 16) then No BADARGS else Go (copy_first 0 16 key) 16
  (* 591-611 *)
  | SheSeed e =>
      if negb (given e) || negb (size e =? 16) then No BADARGS else Go (copy_first 0 16 e) 16
  (* src/wh_client_crypto.c 447-511 *)
  | AesCtr d key iv tmp =>
      if missing d then No BADARGS else
      if DL <? U32 (H + size d + len key + 16 + 16) then No BADARGS else
      Go (h :: copy H d ++ copy (H + size d) (Buf key) ++ (H + size d + len key, iv)
            :: [(H + size d + len key + 16, tmp)]) (U32 (H + size d + len key + 16 + 16))
  (* 788-851: the number of blocks is a uint16_t *)
  | AesEcb d key =>
      if negb (size d mod 16 =? 0) || missing d then No BADARGS else
      if U16 (size d / 16) =? 0 then Idle else
      if DL <? U32 (H + size d + len key) then No BADARGS else
      Go (h :: copy H d ++ copy (H + size d) (Buf key)) (U32 (H + size d + len key))
  (* 1110-1186 *)
  | AesCbc d key iv =>
      if negb (size d mod 16 =? 0) || negb (given d) then No BADARGS else
      if U16 (size d / 16) =? 0 then Idle else
      if DL <? U32 (H + size d + len key + 16) then No BADARGS else
      Go (h :: copy H d ++ copy (H + size d) (Buf key) ++ [(H + size d + len key, iv)])
         (U32 (H + size d + len key + 16))
  (* 1460-1545 *)
  | AesGcm e d key iv aad tag =>
      if missing d || missing iv || missing aad || (negb e && negb (given tag)) then No BADARGS else
      let total := U32 (H + size d + len key + size iv + size aad + (if e then 0 else size tag)) in
      if DL <? total then No BADARGS else
      Go (h :: copy H d ++ copy (H + size d) (Buf key) ++ copy (H + size d + len key) iv ++
          copy (H + size d + len key + size iv) aad ++
          (if e then [] else copy (H + size d + len key + size iv + size aad) tag)) total
  (* 585-700 *)
  | AesCtrDma named key iv tmp =>
      let total := H + 16 + 16 + (if named then 0 else len key) in
      if DL <? total then No BADARGS else
      Go (h :: (H, iv) :: (H + 16, tmp) :: (if named then [] else copy (H + 32) (Buf key))) total
  (* 921-1026 *)
  | AesEcbDma named key =>
      let total := H + (if named then 0 else len key) in
      if DL <? total then No BADARGS else
      Go (h :: (if named then [] else copy H (Buf key))) total
  (* 1262-1373 *)
  | AesCbcDma named key iv =>
      let total := H + 16 + (if named then 0 else len key) in
      if DL <? total then No BADARGS else
      Go (h :: (H, iv) :: (if named then [] else copy (H + 16) (Buf key))) total
  (* 1632-1778 *)
  | AesGcmDma e named key iv tag =>
      if missing iv || (negb e && negb (given tag)) then No BADARGS else
      let t := if e then 0 else size tag in
      let total := U32 (H + size iv + t + (if named then 0 else len key)) in
      if DL <? total then No BADARGS else
      Go (h :: copy H iv ++ (if e then [] else copy (H + size iv) tag) ++
          (if named then [] else copy (H + size iv + t) (Buf key))) total
  (* 5665-5734; WH_MESSAGE_CRYPTO_CMAC_MAX_INLINE_GENERATE_SZ leaves 32 bytes for a key *)
  | CmacGen named cached key d tag =>
      if negb (given d) || (size d =? 0) || (tag =? 0) || missing key then No BADARGS else
      if (tag <? 4) || (16 <? tag) then No BUFFER_SIZE else
      let k := resolve named cached key in
      if 32 <? size k then No BADARGS else
      if (DL - H - 32 <? size d) || (DL - H - size d <? size k) then No BADARGS else
      Go (h :: copy H d ++ copy (H + size d) k) (H + size d + size k)
  (* 5788-5865 *)
  | CmacUpd named cached key d =>
      if missing d || missing key then No BADARGS else
      let k := resolve named cached key in
      if 32 <? size k then No BADARGS else
      if (size d =? 0) && (size k =? 0) then Idle else
      if (DL - H <? size d) || (DL - H - size d <? size k) then No BADARGS else
      Go (h :: copy H d ++ copy (H + size d) k) (H + size d + size k)
  (* 5908-5962 *)
  | CmacFin named cached =>
      let k := resolve named cached (Null 0) in
      if 32 <? size k then No BADARGS else
      if DL - H <? size k then No BADARGS else
      Go (h :: copy H k) (H + size k)
  (* 6123-6213 *)
  | CmacGenDma named cached key tag =>
      if (tag =? 0) || missing key then No BADARGS else
      if (tag <? 4) || (16 <? tag) then No BUFFER_SIZE else
      let k := resolve named cached key in
      if 32 <? size k then No BADARGS else
      if DL - H <? size k then No BADARGS else
      Go (h :: copy H k) (H + size k)
  (* 6269-6371 *)
  | CmacUpdDma named cached key input =>
      if missing key then No BADARGS else
      let k := resolve named cached key in
      if 32 <? size k then No BADARGS else
      if (input =? 0) && (size k =? 0) then Idle else
      if DL - H <? size k then No BADARGS else
      Go (h :: copy H k) (H + size k)
  (* 6417-6470 *)
  | CmacFinDma named cached =>
      let k := resolve named cached (Null 0) in
      if 32 <? size k then No BADARGS else
      if DL - H <? size k then No BADARGS else
      Go (h :: copy H k) (H + size k)
  (* 5249-5330: what is NULL is not copied and takes no room, but is counted *)
  | Hkdf l key salt info =>
      if missing key then No BADARGS else
      let total := U32 (H + size key + size salt + size info) in
      if DL <? total then No BADARGS else
      let o1 := H + (if given key then size key else 0) in
      let o2 := o1 + (if given salt then size salt else 0) in
      Go (h :: (if given l && (0 <? size l) then label (12 + 32) l else []) ++
          copy H key ++ copy o1 salt ++ copy o2 info) (U16 total)
  (* 5426-5511 *)
  | CmacKdf l salt z info out =>
      if out =? 0 then No BADARGS else
      if missing salt || missing z || missing info then No BADARGS else
      let total := U32 (H + size salt + size z + size info) in
      if DL <? total then No BADARGS else
      Go (h :: (if given l && (0 <? size l) then label (12 + 32) l else []) ++
          copy H salt ++ copy (H + size salt) z ++ copy (H + size salt + size z) info) (U16 total)
  (* 4885-4928 *)
  | RsaReq named d =>
      if missing d || negb named then No BADARGS else
      if DL <? ST (H + size d) then No BADARGS else
      Go (h :: copy H d) (H + size d)
  (* 4981-5068 *)
  | RsaFun d =>
      if missing d then No BADARGS else
      if DL <? ST (H + size d) then No BADARGS else
      Go (h :: copy H d) (H + size d)
  (* 2490-2528 *)
  | EccSignReq named hash =>
      if missing hash || negb named then No BADARGS else
      if DL <? ST (H + size hash) then No BADARGS else
      Go (h :: copy H hash) (H + size hash)
  (* 2580-2662: the sum is a uint16_t *)
  | EccSign hash =>
      if missing hash then No BADARGS else
      if DL <? U16 (H + size hash) then No BADARGS else
      Go (h :: copy H hash) (U16 (H + size hash))
  (* 2687-2731 *)
  | EccVerifyReq named sig hash =>
      if missing sig || missing hash || negb named then No BADARGS else
      if DL <? ST (H + size sig + size hash) then No BADARGS else
      Go (h :: copy H sig ++ copy (H + size sig) hash) (H + size sig + size hash)
  (* 2776-2876: the sum is a uint16_t *)
  | EccVerify sig hash =>
      if missing sig || missing hash then No BADARGS else
      if DL <? U16 (H + size sig + size hash) then No BADARGS else
      Go (h :: copy H sig ++ copy (H + size sig) hash) (U16 (H + size sig + size hash))
  (* 3970-4051, 4241-4333 *)
  | EdSign dma ty msg ctx =>
      if (missing msg || ed_refuses ty ctx) then No BADARGS else
      if dma then
        if DL <? U16 (H + size ctx) then No BADARGS else
        Go (h :: copy H ctx) (U16 (H + size ctx))
      else
        if DL <? U32 (H + size msg + size ctx) then No BADARGS else
        Go (h :: copy H msg ++ copy (H + size msg) ctx) (U16 (U32 (H + size msg + size ctx)))
  (* 4108-4192, 4389-4481 *)
  | EdVerify dma ty sig msg ctx =>
      if negb (given sig) || negb (given msg) || ed_refuses ty ctx then No BADARGS else
      if dma then
        if DL <? U16 (H + size ctx) then No BADARGS else
        Go (h :: copy H ctx) (U16 (H + size ctx))
      else
        if DL <? U32 (H + size sig + size msg + size ctx) then No BADARGS else
        Go (h :: copy H sig ++ copy (H + size sig) msg ++ copy (H + size sig + size msg) ctx)
           (U16 (U32 (H + size sig + size msg + size ctx)))
  (* 10251-10336, 10821-10924; the length of the context is one byte *)
  | MlSign dma msg ctx =>
      if missing msg then No BADARGS else
      if dma then
        if DL <? U16 (H + size ctx) then No BADARGS else
        Go (h :: copy H ctx) (U16 (H + size ctx))
      else
        if DL <? U32 (H + size msg + size ctx) then No BADARGS else
        Go (h :: copy H msg ++ copy (H + size msg) ctx) (U16 (U32 (H + size msg + size ctx)))
  (* 10392-10484, 10984-11078 *)
  | MlVerify dma sig msg ctx =>
      if missing sig || missing msg then No BADARGS else
      if dma then
        if DL <? U16 (H + size ctx) then No BADARGS else
        Go (h :: copy H ctx) (U16 (H + size ctx))
      else
        if DL <? U32 (H + size sig + size msg + size ctx) then No BADARGS else
        Go (h :: copy H sig ++ copy (H + size sig) msg ++ copy (H + size sig + size msg) ctx)
           (U16 (U32 (H + size sig + size msg + size ctx)))
  (* 11553-11620: a uint64_t *)
  | KemDecaps ct =>
      if missing ct then No BADARGS else
      if DL <? H + size ct then No BADARGS else
      Go (h :: copy H ct) (H + size ct)
  end.

(** Writing into a buffer of c_dl bytes. *)
Definition put (buf : list N) (w : N * list N) : option (list N) :=
  let '(o, d) := w in
  if DL <? o + len d then None
  else Some (firstn (N.to_nat o) buf ++ d ++ skipn (N.to_nat o + length d) buf).
Fixpoint puts (buf : list N) (ws : list (N * list N)) : option (list N) :=
  match ws with
  | [] => Some buf
  | w :: r => match put buf w with None => None | Some b => puts b r end
  end.

(** The outcome: a return code, [Quiet] for WH_ERROR_OK without a request, the
    message handed to the transport, or a write outside the buffer.
    src/wh_comm.c 107-151: the size is a uint16_t. *)
Inductive outcome := Refused (rc : Z) | Quiet | Sent (m : list N) | Overrun.
Definition request (buf : list N) (c : call) : outcome :=
  match prepare c with
  | No rc => Refused rc
  | Idle => Quiet
  | Go ws total =>
      match puts buf ws with
      | None => Overrun
      | Some b => if DL <? U16 total then Refused BADARGS else Sent (firstn (N.to_nat (U16 total)) b)
      end
  end.
End Prepare.
