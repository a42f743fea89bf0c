(** A public-key call of the client library, from the call to its result: the
    key is imported when the caller's key object names none on the server, the
    request is built and sent, the server serves it and drops the imported key.

    Client: src/wh_client_crypto.c 2580-2685 (EccSign), 2776-2903 (EccVerify),
    2948-3038 (EccMakePub), 3080-3185 (EccCheckPubKey), 3970-4535 (Ed25519 sign
    and verify, inline and DMA), 4980-5092 (RsaFunction), 5163-5243 (RsaGetSize),
    10251-10532 and 10825-11138 (ML-DSA sign and verify, inline and DMA),
    11427-11672 and 11935-12180 (ML-KEM, inline and DMA); src/wh_client.c
    wh_Client_KeyCache, wh_Client_KeyCacheDma, wh_Client_KeyEvict.
    Server: src/wh_server_crypto.c, the handlers of these requests.

    The bytes on the wire are the subject of C15, C16 and C46, what the client
    does with the output of C65: here a message arrives as it was built, with its
    fields and the bytes that follow them, and a DMA buffer is its content.
    Arguments are not NULL where their length is not 0, and an empty context is a
    NULL pointer. *)
From Verif Require Import Base NvmSpec Flags KeyId Store NvmReqModel KsModel KsReq.
Local Open Scope N_scope.

Definition len (l : list N) : N := N.of_nat (length l).

(** The call, without the key.  [cap] is the room for an output in client memory. *)
Inductive call :=
| RsaFn (ty : N) (input : list N) (cap : N)
| RsaSize
| EccSig (hash : list N)
| EccVer (export : bool) (sig hash : list N)
| EccPub
| EccChk (curve : N) (point : list N)
| EdSig (dma : bool) (ty : N) (msg ctx : list N) (cap : N)
| EdVer (dma : bool) (ty : N) (sig msg ctx : list N)
| MlSig (dma : bool) (level pre : N) (msg ctx : list N) (cap : N)
| MlVer (dma : bool) (level pre : N) (sig msg ctx : list N)
| KemEnc (dma : bool) (level cap : N)
| KemDec (dma : bool) (level : N) (ct : list N).

(** Usage flags the key is imported with: RsaFunction 5009-5027, GetSize 5190,
    EccSign 2615, EccVerify 2806, EccMakePub 2975, EccCheckPubKey 3110, Ed25519
    4009, 4145, 4279, 4428, ML-DSA 10283, 10426, 10862, 11021, ML-KEM 11448,
    11575, 11957, 12083.  RSA_PUBLIC_ENCRYPT is 0, RSA_PUBLIC_DECRYPT 1,
    RSA_PRIVATE_ENCRYPT 2, RSA_PRIVATE_DECRYPT 3. *)
Definition F_ANY : N := 65535.
Definition import_flags (c : call) : N :=
  match c with
  | RsaFn ty _ _ => if N.eqb ty 0 || N.eqb ty 2 then F_USAGE_ENCRYPT
                    else if N.eqb ty 1 || N.eqb ty 3 then F_USAGE_DECRYPT else F_ANY
  | RsaSize | EccPub | EccChk _ _ => 0
  | EccSig _ => F_USAGE_SIGN
  | EccVer _ _ _ => F_USAGE_VERIFY
  | EdSig dma _ _ _ _ => if dma then N.lor F_USAGE_SIGN F_USAGE_VERIFY else F_USAGE_SIGN
  | EdVer dma _ _ _ _ => if dma then N.lor F_USAGE_SIGN F_USAGE_VERIFY else F_USAGE_VERIFY
  | MlSig _ _ _ _ _ _ => F_USAGE_SIGN
  | MlVer _ _ _ _ _ _ => F_USAGE_VERIFY
  | KemEnc _ _ _ | KemDec _ _ _ => F_USAGE_DERIVE
  end.
(** wh_Client_MlDsaImportKeyDma and wh_Client_MlKemImportKeyDma. *)
Definition dma_key (c : call) : bool :=
  match c with
  | MlSig d _ _ _ _ _ | MlVer d _ _ _ _ _ | KemEnc d _ _ | KemDec d _ _ => d
  | _ => false
  end.
Definition is_dma (c : call) : bool :=
  match c with
  | EdSig d _ _ _ _ | EdVer d _ _ _ _ | MlSig d _ _ _ _ _ | MlVer d _ _ _ _ _
  | KemEnc d _ _ | KemDec d _ _ => d
  | _ => false
  end.

(** Size of the request: the generic header, the request struct
    (wolfhsm/wh_message_crypto.h) and the bytes that follow it. *)
Definition body (c : call) : list N :=
  match c with
  | RsaFn _ i _ => i
  | EccSig h => h
  | EccVer _ s h => s ++ h
  | EccChk _ p => p
  | EdSig dma _ m x _ => if dma then x else m ++ x
  | EdVer dma _ s m x => if dma then x else s ++ m ++ x
  | MlSig dma _ _ m x _ => if dma then x else m ++ x
  | MlVer dma _ _ s m x => if dma then x else s ++ m ++ x
  | KemDec dma _ ct => if dma then [] else ct
  | RsaSize | EccPub | KemEnc _ _ _ => []
  end.
Definition fixed (c : call) : N :=
  12 + match c with
  | RsaFn _ _ _ => 20
  | RsaSize | EccPub => 8
  | EccSig _ => 12
  | EccVer _ _ _ | EccChk _ _ => 16
  | EdSig dma _ _ _ _ => if dma then 64 else 20
  | EdVer dma _ _ _ _ => if dma then 64 else 24
  | MlSig dma _ _ _ _ _ => if dma then 56 else 24
  | MlVer dma _ _ _ _ _ => if dma then 56 else 32
  | KemEnc dma _ _ | KemDec dma _ _ => if dma then 32 else 16
  end.
(** The sum is computed in uint16_t (EccSign 2632, EccVerify 2823, the DMA calls
    and those of fixed size), uint32_t (Ed25519, ML-DSA, EccCheckPubKey) or a
    wider type (RSA size_t, ML-KEM decapsulation uint64_t). *)
Definition wrap_at (c : call) : option N :=
  match c with
  | RsaFn _ _ _ => None
  | KemDec dma _ _ => if dma then Some 65536 else None
  | EdSig dma _ _ _ _ | EdVer dma _ _ _ _ => Some (if dma then 65536 else 4294967296)
  | MlSig _ _ _ _ _ _ | MlVer _ _ _ _ _ _ => Some 4294967296
  | EccChk _ _ => Some 4294967296
  | EccSig _ | EccVer _ _ _ | RsaSize | EccPub | KemEnc _ _ _ => Some 65536
  end.
Definition sum (c : call) : N :=
  match wrap_at c with
  | Some w => (fixed c + len (body c)) mod w
  | None => fixed c + len (body c)
  end.

(** What is tested before a key is imported: Ed25519 3985-4003, 4123-4139,
    4261-4276, 4409-4424.  The types are (byte)Ed25519 = 255, Ed25519ctx 0,
    Ed25519ph 1. *)
Definition ed_type (ty : N) : bool := N.eqb ty 255 || N.eqb ty 0 || N.eqb ty 1.
Definition refused_first (DL : N) (c : call) : bool :=
  match c with
  | EdSig _ ty _ ctx _ | EdVer _ ty _ _ ctx =>
      negb (ed_type ty) || (N.eqb ty 255 && negb (N.eqb (len ctx) 0)) || (255 <? len ctx) || (DL <? sum c)
  | _ => false
  end.

(** The request. *)
Inductive fields :=
| QRsa (ty inLen outLen : N)
| QRsaSize
| QEccSign (sz : N)
| QEccVerify (export : bool) (sigSz hashSz : N)
| QEccPub
| QEccCheck (curve pubSz : N)
| QEdSign (msgSz ty ctxSz : N)
| QEdVerify (sigSz msgSz ty ctxSz : N)
| QEdSignDma (msg : list N) (cap ty ctxSz : N)
| QEdVerifyDma (sig msg : list N) (ty ctxSz : N)
| QMlSign (level sz ctxSz pre : N)
| QMlVerify (level sigSz hashSz ctxSz pre : N)
| QMlSignDma (level : N) (msg : list N) (cap ctxSz pre : N)
| QMlVerifyDma (level : N) (sig msg : list N) (ctxSz pre : N)
| QKemEnc (level : N)
| QKemDec (level ctSz : N)
| QKemEncDma (level cap : N)
| QKemDecDma (level : N) (ct : list N).
Record msg := mkMsg { q_key : N; q_evict : bool; q_fields : fields; q_body : list N }.

Definition build (c : call) (key : N) (ev : bool) : msg :=
  mkMsg key ev
    match c with
    | RsaFn ty i cap => QRsa ty (len i) cap
    | RsaSize => QRsaSize
    | EccSig h => QEccSign (len h)
    | EccVer x s h => QEccVerify x (len s) (len h)
    | EccPub => QEccPub
    | EccChk cu p => QEccCheck cu (len p)
    | EdSig false ty m x _ => QEdSign (len m) ty (len x)
    | EdSig true ty m x cap => QEdSignDma m cap ty (len x)
    | EdVer false ty s m x => QEdVerify (len s) (len m) ty (len x)
    | EdVer true ty s m x => QEdVerifyDma s m ty (len x)
    | MlSig false lv pre m x _ => QMlSign lv (len m) (len x) pre
    | MlSig true lv pre m x cap => QMlSignDma lv m cap (len x) pre
    | MlVer false lv pre s m x => QMlVerify lv (len s) (len m) (len x) pre
    | MlVer true lv pre s m x => QMlVerifyDma lv s m (len x) pre
    | KemEnc false lv _ => QKemEnc lv
    | KemEnc true lv cap => QKemEncDma lv cap
    | KemDec false lv ct => QKemDec lv (len ct)
    | KemDec true lv ct => QKemDecDma lv ct
    end (body c).

(** What the handler makes of a request before it touches the key: an answer
    without (Refuse) or with (Clean) the eviction asked for, or the operation. *)
Inductive parsed :=
| Refuse (rc : Z)
| Clean (rc : Z)
| Go (o : cop) (ps : list N) (args : list (list N)).

(** [n] bytes of the body from [off]. *)
Definition slice (b : list N) (off n : N) : list N := firstn (N.to_nat n) (skipn (N.to_nat off) b).
Definition rsa_op (ty : N) : option cop :=
  if N.eqb ty 0 then Some RsaPublicEncrypt else
  if N.eqb ty 1 then Some RsaPublicDecrypt else
  if N.eqb ty 2 then Some RsaPrivateEncrypt else
  if N.eqb ty 3 then Some RsaPrivateDecrypt else None.
Definition bit (b : bool) : N := if b then 1 else 0.
Definition BAD_FUNC_ARG : Z := (-173)%Z.

Section Call.
Variable C : kscfg.
Variable DL : N.                              (* WOLFHSM_CFG_COMM_DATA_LEN *)
Variable level_ok : N -> bool.                (* _IsMlKemLevelSupported *)
(** wolfCrypt: decode the key and do the operation. *)
Variable alg : cop -> list N -> list (list N) -> list N -> Z * list N.

(** The handlers' checks: RsaFunction 496-526, RsaGetSize 593-620, EccSign
    1651-1658, EccVerify 1733-1742, EccMakePub 1815-1840, EccCheckPubKey
    1908-1925, Ed25519 2807-2835, 2900-2926, 2986-3004, 3088-3110, ML-DSA
    5356-5374, 5463-5475, 7081-7100, 7216-7231, ML-KEM 5717-5720, 5823-5832,
    7567-7570, 7699-7702. *)
Definition parse (m : msg) : parsed :=
  let b := q_body m in
  let n := len b in
  match q_fields m with
  | QRsa ty i o =>
      if n <? i then Refuse BADARGS else
      match rsa_op ty with
      | Some op => Go op [o] [slice b 0 i]
      | None => Refuse BAD_FUNC_ARG
      end
  | QRsaSize => Go RsaGetSize [] []
  | QEccSign sz => if n <? sz then Refuse BADARGS else Go EccSign [] [slice b 0 sz]
  | QEccVerify x s h =>
      if n <? s then Refuse BADARGS else
      if n - s <? h then Refuse BADARGS else
      Go EccVerify [bit x] [slice b 0 s; slice b s h]
  | QEccPub => Go EccMakePub [] []
  | QEccCheck _ p => if n <? p then Refuse BADARGS else Go EccCheckPub [] [slice b 0 p]
  | QEdSign m0 ty x =>
      if n <? m0 then Refuse BADARGS else
      if 255 <? x then Refuse BADARGS else
      if n - m0 <? x then Refuse BADARGS else
      if negb (ed_type ty) then Refuse BADARGS else
      if N.eqb ty 255 && negb (N.eqb x 0) then Refuse BADARGS else
      Go Ed25519Sign [ty; 64] [slice b 0 m0; slice b m0 x]
  | QEdVerify s m0 ty x =>
      if n <? s then Refuse BADARGS else
      if n - s <? m0 then Refuse BADARGS else
      if n - s - m0 <? x then Refuse BADARGS else
      if 255 <? x then Refuse BADARGS else
      if negb (ed_type ty) then Refuse BADARGS else
      Go Ed25519Verify [ty] [slice b 0 s; slice b s m0; slice b (s + m0) x]
  | QEdSignDma m0 cap ty x =>
      if n <? x then Refuse BADARGS else
      if 255 <? x then Refuse BADARGS else
      if negb (ed_type ty) then Refuse BADARGS else
      Go Ed25519Sign [ty; cap] [m0; slice b 0 x]
  | QEdVerifyDma s m0 ty x =>
      if n <? x then Refuse BADARGS else
      if 255 <? x then Refuse BADARGS else
      if negb (ed_type ty) then Refuse BADARGS else
      Go Ed25519Verify [ty] [s; m0; slice b 0 x]
  | QMlSign _ sz x pre =>
      if n <? sz then Refuse BADARGS else
      if n - sz <? x then Refuse BADARGS else
      if 255 <? x then Refuse BADARGS else
      Go MldsaSign [pre; DL - 8] [slice b 0 sz; slice b sz x]
  | QMlVerify _ s h x pre =>
      if (n <? s) || (n <? h) || (n - h <? s) then Refuse BADARGS else
      if n - s - h <? x then Refuse BADARGS else
      if 255 <? x then Refuse BADARGS else
      Go MldsaVerify [pre] [slice b 0 s; slice b s h; slice b (s + h) x]
  | QMlSignDma _ m0 cap x pre =>
      if 255 <? x then Refuse BADARGS else
      if (0 <? x) && (n <? x) then Refuse BADARGS else
      Go MldsaSign [pre; cap] [m0; slice b 0 x]
  | QMlVerifyDma _ s m0 x pre =>
      if 255 <? x then Refuse BADARGS else
      if (0 <? x) && (n <? x) then Refuse BADARGS else
      Go MldsaVerify [pre] [s; m0; slice b 0 x]
  | QKemEnc lv => if negb (level_ok lv) then Clean BADARGS else Go MlkemEncaps [lv; DL] []
  | QKemDec lv ct =>
      if negb (level_ok lv) then Clean BADARGS else
      if n <? ct then Clean BADARGS else
      Go MlkemDecaps [lv] [slice b 0 ct]
  | QKemEncDma lv cap => if negb (level_ok lv) then Clean BADARGS else Go MlkemEncaps [lv; cap] []
  | QKemDecDma lv ct => if negb (level_ok lv) then Clean BADARGS else Go MlkemDecaps [lv] [ct]
  end.
(** Client buffers are processed before the key is loaded (Ed25519 DMA, 3012-3028,
    3113-3130) or after it (ML-DSA and ML-KEM DMA). *)
Definition dma_first (m : msg) : bool :=
  match q_fields m with QEdSignDma _ _ _ _ | QEdVerifyDma _ _ _ _ => true | _ => false end.
Definition dma_then (m : msg) : bool :=
  match q_fields m with
  | QMlSignDma _ _ _ _ _ | QMlVerifyDma _ _ _ _ _ | QKemEncDma _ _ | QKemDecDma _ _ => true
  | _ => false
  end.
(** _HandleMlDsaVerifyDma 7233-7237 returns when the key object cannot be set up;
    the others go on to the eviction. *)
Definition init_returns (m : msg) : bool :=
  match q_fields m with QMlVerifyDma _ _ _ _ _ => true | _ => false end.
(** _HandleEccMakePub and _HandleEccCheckPubKey take no lock. *)
Definition lock_free (o : cop) : bool := match o with EccMakePub | EccCheckPub => true | _ => false end.

(** One request and its answer: the client's send, the dispatcher's verdict
    (authorisation, handler present), the NVM lock, the client's receive. *)
Record hop := mkHop { h_send : Z; h_auth : Z; h_lock : Z; h_recv : Z }.

(** Everything else that decides the course of a call: serialisation of the key,
    its label, the exchanges for import, operation and eviction, the client's DMA
    callback for the import and for the operation, the server's, the set-up of the
    key object, the lock for the eviction in the handler, and what the other
    connections do in between: after the import, and between the handler's use of
    the key and its eviction. *)
Record env := mkPk {
  v_ser : Z; v_label : list N; v_imp : hop; v_idma : Z; v_cdma : Z; v_op : hop; v_man : hop;
  v_init : Z; v_sdma : Z; v_elock : Z; v_gap1 : ks -> ks; v_gap2 : ks -> ks
}.

(** The import: wh_Client_*ImportKey, then wh_Client_KeyCacheRequest_ex
    (40 bytes of request before the key) or wh_Client_KeyCacheDmaRequest.
    [kid] is the id in the key object. *)
Definition import (e : env) (client : N) (c : call) (kid : N) (key : list N) (S : ks) : Z * N * ks :=
  if negb (is_ok (v_ser e)) then (v_ser e, kid, S) else
  if dma_key c && negb (is_ok (v_idma e)) then (v_idma e, kid, S) else
  if negb (dma_key c) && (N.eqb (len key) 0 || (DL <? 40 + len key)) then (BADARGS, kid, S) else
  let h := v_imp e in
  if negb (is_ok (h_send h)) then (h_send h, kid, S) else
  let '(r, S1) :=
    if negb (is_ok (h_auth h)) then (rrc (h_auth h), S) else
    if negb (is_ok (h_lock h)) then (rrc (h_lock h), S) else
    if dma_key c
    then h_cache_dma C (mkKenv OK OK OK [] (v_sdma e) key OK [] 0 (mkEnv OK OK OK OK []))
           client kid (import_flags c) (len key) (v_label e) S
    else h_cache C client kid (import_flags c) (v_label e) key S in
  if negb (is_ok (h_recv h)) then (h_recv h, kid, S1) else
  if is_ok (r_rc r) then (OK, r_id r, S1) else (r_rc r, kid, S1).

(** wh_Client_KeyEvict: WH_KEY_EVICT at wh_server_keystore.c 2992-3020. *)
Definition manual_evict (e : env) (client id : N) (S : ks) : ks :=
  let h := v_man e in
  if is_ok (h_send h) && is_ok (h_auth h) && is_ok (h_lock h)
  then snd (evict_checked C S (from_client (kc C) KT_CRYPTO client id)) else S.

(** The key for the operation, with a second attempt for RSA (545-563). *)
Definition load (e : env) (o : cop) (k : N) (S : ks) : Z * ks * list N :=
  if negb (lock_free o) && negb (is_ok (h_lock (v_op e))) then (h_lock (v_op e), S, []) else
  match usages o with
  | [] => (BADARGS, S, [])
  | u :: rest =>
      let '(rc, S1, d) := use_key C S k u in
      match rest with
      | u2 :: _ => if Z.eqb rc USAGE then use_key C S1 k u2 else (rc, S1, d)
      | [] => (rc, S1, d)
      end
  end.

(** _CryptoEvictKeyLocked 242-252; EccMakePub 1870-1873 and EccCheckPubKey
    1968-1971 evict without the lock. *)
Definition drop (e : env) (free : bool) (k : N) (S : ks) : ks :=
  if free || is_ok (v_elock e) then snd (evict_key C S k) else S.

(** A handler. *)
Definition serve (e : env) (client : N) (m : msg) (S : ks) : Z * list N * ks :=
  let k := from_client (kc C) KT_CRYPTO client (q_key m) in
  let fin (free : bool) (rc : Z) (out : list N) (S' : ks) :=
    (rc, if is_ok rc then out else [], if q_evict m then drop e free k (v_gap2 e S') else S') in
  match parse m with
  | Refuse rc => (rc, [], S)
  | Clean rc => fin false rc [] S
  | Go o ps args =>
      let free := lock_free o in
      if dma_first m && negb (is_ok (v_sdma e)) then fin free (v_sdma e) [] S else
      if negb (is_ok (v_init e)) then
        (if init_returns m then (v_init e, [], S) else fin free (v_init e) [] S) else
      let '(rc, S1, d) := load e o k S in
      if negb (is_ok rc) then fin free rc [] S1 else
      if dma_then m && negb (is_ok (v_sdma e)) then fin free (v_sdma e) [] S1 else
      let '(rc, out) := alg o ps args d in fin free rc out S1
  end.

(** The result of a call: its code and output, or a copy past the end of the
    message buffer, after which nothing is known. *)
Inductive result := Done (rc : Z) (out : list N) | Overrun.

(** ASN_PARSE_E is -140; the Ed25519 calls turn it into WH_ERROR_BADARGS
    (4101-4103, 4233-4235, 4382-4384, 4530-4532). *)
Definition ASN_PARSE_E : Z := (-140)%Z.
Definition mapped (c : call) (rc : Z) : Z :=
  match c with
  | EdSig _ _ _ _ _ | EdVer _ _ _ _ _ => if Z.eqb rc ASN_PARSE_E then BADARGS else rc
  | _ => rc
  end.

Definition pk_call (e : env) (client : N) (c : call) (kid : N) (key : list N) (S : ks) : result * ks :=
  if refused_first DL c then (Done BADARGS [], S) else
  let '(rc, id, tmp, S1) :=
    if kid_erased kid
    then let '(rc, id, S1) := import e client c kid key S in (rc, id, is_ok rc, v_gap1 e S1)
    else (OK, kid, false, S) in
  let give_up (rc : Z) := (Done (mapped c rc) [], if tmp then manual_evict e client id S1 else S1) in
  if negb (is_ok rc) then (Done (mapped c rc) [], S1) else
  if DL <? sum c then give_up BADARGS else
  if DL <? fixed c + len (body c) then (Overrun, S1) else
  if is_dma c && negb (is_ok (v_cdma e)) then give_up (v_cdma e) else
  let h := v_op e in
  if negb (is_ok (h_send h)) then give_up (h_send h) else
  let '(rc, out, S2) :=
    if negb (is_ok (h_auth h)) then (h_auth h, [], S1) else serve e client (build c id tmp) S1 in
  if negb (is_ok (h_recv h)) then (Done (mapped c (h_recv h)) [], S2) else
  (Done (mapped c rc) out, S2).
End Call.
