(** The wolfCrypt callback: src/wh_client_cryptocb.c (all line numbers are of that
    file).  What wolfCrypt asks ([info]), which client function is called with which
    arguments ([call]), what is made of its answer.

    Pointers are numbers, 0 is NULL; a pointer to a length is [None] if NULL and else
    holds the length there.  All algorithms are compiled in, with
    WOLFSSL_HASH_FLAGS and WOLFHSM_CFG_DMA.  What the client functions do is the
    subject of other properties: here they answer as they like, depending on the calls
    before.  A length behind a pointer that is handed down as it is ([KHbsSign],
    [KDsaSign], [KCmac]) is stored by the client function itself; one that answers
    "unavailable" is taken not to have changed it. *)
From Verif Require Export Base.
Local Open Scope N_scope.

(** wolfssl/wolfcrypt/error-crypt.h (a dependency). *)
Definition BAD_FUNC_ARG : Z := (-173)%Z.
Definition BUFFER_E : Z := (-132)%Z.
Definition UNAVAILABLE : Z := (-271)%Z.   (* CRYPTOCB_UNAVAILABLE *)

Definition ptr := N.
Definition u16 (x : N) : N := x mod 65536.
Inductive aes_mode := CBC | CTR | ECB.
Inductive hash_alg := SHA224 | SHA256 | SHA384 | SHA512 | SHA3_224 | SHA3_256 | SHA3_384 | SHA3_512.
Inductive hbs := LMS | XMSS.
Definition is_sha3 (h : hash_alg) : bool :=
  match h with SHA3_224 | SHA3_256 | SHA3_384 | SHA3_512 => true | _ => false end.

(** wc_CryptoInfo (wolfssl/wolfcrypt/cryptocb.h, a dependency), as far as it is read.
    aesgcm_enc and aesgcm_dec are members of one union with the same fields, so that
    one record stands for both. *)
Inductive info :=
| IAes (m : aes_mode) (enc : bool) (aes inp : ptr) (len : N) (out : ptr)
| IGcm (enc : bool) (aes inp : ptr) (len : N) (iv : ptr) (ivlen : N) (aad : ptr) (aadlen : N) (tag : ptr) (taglen : N) (out : ptr)
| IRsaGen (key : ptr) (size e : N)
| IRsa (key : ptr) (type : N) (inp : ptr) (inlen : N) (out : ptr) (outlen : option N)
| IRsaSize (key : ptr) (size : ptr)
| IEccGen (key : ptr) (size curve : N)
| IEcdh (priv pub out : ptr) (outlen : option N)
| IEccSign (key inp : ptr) (inlen : N) (out : ptr) (outlen : option N)
| IEccVerify (key sig : ptr) (siglen : N) (hash : ptr) (hashlen : N) (res : ptr)
| IEccPub (key out : ptr) (outlen : option N)
| IEccCheckPub (key pub : ptr) (publen : N) (order priv : bool)
| IEccCheckPriv (key : ptr)
| IX25519Gen (key : ptr) (size : N)
| IX25519 (priv pub : ptr) (endian : N) (out : ptr) (outlen : option N)
| IEdGen (key : ptr)
| IEdSign (key inp : ptr) (inlen : N) (type : N) (cx : ptr) (cxlen : N) (out : ptr) (outlen : option N)
| IEdVerify (key sig : ptr) (siglen : N) (msg : ptr) (msglen : N) (type : N) (cx : ptr) (cxlen : N) (res : ptr)
| IKemGen (kyber : bool) (key : ptr) (level : N)
| IEncaps (kyber : bool) (key ct : ptr) (ctlen : N) (ss : ptr) (sslen : N)
| IDecaps (kyber : bool) (key ct : ptr) (ctlen : N) (ss : ptr) (sslen : N)
| IHbsGen (a : option hbs) (key : ptr)
| IHbsSign (a : option hbs) (key msg : ptr) (msglen : N) (out : ptr) (outlen : option N)
| IHbsVerify (a : option hbs) (key sig : ptr) (siglen : N) (msg : ptr) (msglen : N) (res : ptr)
| IHbsLeft (a : option hbs) (key left_ : ptr)
| IDsaGen (mldsa : bool) (key : ptr) (level size : N)
| IDsaSign (mldsa : bool) (key inp : ptr) (inlen : N) (out : ptr) (outlen : option N) (cx : ptr) (cxlen prehash : N)
| IDsaVerify (mldsa : bool) (key sig : ptr) (siglen : N) (msg : ptr) (msglen : N) (res : ptr) (cx : ptr) (cxlen prehash : N)
| IDsaCheck (mldsa : bool) (key pub : ptr) (publen : N)
| IRng (out : ptr) (size : N)
| ISeed (out : ptr) (size : N)
| ICmac (cmac : ptr) (type : N) (key : ptr) (keylen : N) (inp : ptr) (inlen : N) (out : ptr) (outlen : option N)
| IHash (h : hash_alg) (keccak : bool) (sha inp : ptr) (len : N) (digest : ptr)
| IHkdf (hash : N) (key : ptr) (keylen : N) (salt : ptr) (saltlen : N) (inf : ptr) (inflen : N) (out : ptr) (outlen : N)
| ICmacKdf (salt : ptr) (saltlen : N) (z : ptr) (zlen : N) (fixed : ptr) (fixedlen : N) (out : ptr) (outlen : N)
| IOther.

(** The client functions (wolfhsm/wh_client_crypto.h), arguments in their order without
    the context; [dma]: the variant whose name ends in Dma. *)
Inductive call :=
| KAes (dma : bool) (m : aes_mode) (aes : ptr) (enc : bool) (inp : ptr) (len : N) (out : ptr)
| KGcm (dma : bool) (aes : ptr) (enc : bool) (inp : ptr) (len : N) (iv : ptr) (ivlen : N) (aad : ptr) (aadlen : N)
       (dec_tag enc_tag : ptr) (taglen : N) (out : ptr)
| KRsaGen (size e : N) (key : ptr)
| KRsa (key : ptr) (type : N) (inp : ptr) (inlen : N) (out : ptr) (outlen : N)
| KRsaSize (key size : ptr)
| KEccGen (size curve : N) (key : ptr)
| KEcdh (priv pub out : ptr) (outlen : N)
| KEccSign (key hash : ptr) (hashlen : N) (sig : ptr) (siglen : N)
| KEccVerify (key sig : ptr) (siglen : N) (hash : ptr) (hashlen : N) (res : ptr)
| KEccPub (key out : ptr) (outlen : N)
| KEccCheckPub (key pub : ptr) (publen : N) (order priv : bool)
| KX25519Gen (size : N) (key : ptr)
| KX25519 (priv pub : ptr) (endian : N) (out : ptr) (outlen : N)
| KEdGen (key : ptr)
| KEdSign (dma : bool) (key msg : ptr) (msglen type : N) (cx : ptr) (cxlen : N) (sig : ptr) (siglen : N)
| KEdVerify (dma : bool) (key sig : ptr) (siglen : N) (msg : ptr) (msglen type : N) (cx : ptr) (cxlen : N) (res : ptr)
| KKemGen (dma : bool) (level : N) (key : ptr)
| KEncaps (dma : bool) (key ct : ptr) (ctlen : N) (ss : ptr) (sslen : N)
| KDecaps (dma : bool) (key ct : ptr) (ctlen : N) (ss : ptr) (sslen : N)
| KHbsGen (a : hbs) (key : ptr)
| KHbsSign (a : hbs) (msg : ptr) (msglen : N) (sig : ptr) (siglen : option N) (key : ptr)
| KHbsVerify (a : hbs) (sig : ptr) (siglen : N) (msg : ptr) (msglen : N) (res key : ptr)
| KHbsLeft (a : hbs) (key : ptr)
| KDsaGen (dma : bool) (level size : N) (key : ptr)
| KDsaSign (dma : bool) (inp : ptr) (inlen : N) (out : ptr) (outlen : option N) (key cx : ptr) (cxlen prehash : N)
| KDsaVerify (dma : bool) (sig : ptr) (siglen : N) (msg : ptr) (msglen : N) (res key cx : ptr) (cxlen prehash : N)
| KDsaCheck (dma : bool) (key pub : ptr) (publen : N)
| KRng (dma : bool) (out : ptr) (size : N)
| KCmac (dma : bool) (cmac : ptr) (type : N) (key : ptr) (keylen : N) (inp : ptr) (inlen : N) (out : ptr) (outlen : option N)
| KHash (dma : bool) (h : hash_alg) (sha inp : ptr) (len : N) (out : ptr)
| KHkdf (hash : N) (keyid : N) (key : ptr) (keylen : N) (salt : ptr) (saltlen : N) (inf : ptr) (inflen : N) (out : ptr) (outlen : N)
| KCmacKdf (saltid : N) (salt : ptr) (saltlen : N) (zid : N) (z : ptr) (zlen : N) (fixed : ptr) (fixedlen : N) (out : ptr) (outlen : N).

(** What a client function answers: its result and the lengths it leaves (the second
    only for encapsulation). *)
Record answer := mkAns { a_rc : Z; a_len : N; a_len2 : N }.

(** What wolfCrypt gets: the result, the calls made, the lengths stored. *)
Inductive slot := OutLen | CtLen | SsLen | SigsLeft.
Record outcome := mkOut { r_ret : Z; r_calls : list call; r_stores : list (slot * N) }.
Definition unavailable : outcome := mkOut UNAVAILABLE [] [].

(** WH_KEYID_ERASED: wolfhsm/wh_keyid.h. *)
Definition KEYID_ERASED : N := 0.

Definition len_of (o : option N) : N := match o with Some n => n | None => 0 end.
(** "if (((ret == WH_ERROR_OK) || (ret == WH_ERROR_BUFFER_SIZE)) && (out_len != NULL))":
    278-283 and after the other calls with a length. *)
Definition put_len (a : answer) (o : option N) : list (slot * N) :=
  if ((a_rc a =? OK)%Z || (a_rc a =? BUFFER_SIZE)%Z) && match o with Some _ => true | None => false end
  then [(OutLen, a_len a)] else [].
Definition fix_badargs (rc : Z) : Z := if (rc =? BADARGS)%Z then BAD_FUNC_ARG else rc.
Definition fix_notimpl (rc : Z) : Z :=
  if (rc =? BADARGS)%Z then BAD_FUNC_ARG else if (rc =? NOTIMPL)%Z then UNAVAILABLE else rc.

Section Callback.
Variable ask : call -> answer.

Definition simple (c : call) : outcome := mkOut (a_rc (ask c)) [c] [].
Definition with_len (c : call) (o : option N) : outcome := mkOut (a_rc (ask c)) [c] (put_len (ask c) o).
Definition map_ret (f : Z -> Z) (o : outcome) : outcome := mkOut (f (r_ret o)) (r_calls o) (r_stores o).

(** _handlePqcKemKeyGen 793-838. *)
Definition kem_gen (dma kyber : bool) (key : ptr) (level : N) : outcome :=
  if kyber then map_ret fix_notimpl (simple (KKemGen dma level key)) else unavailable.
(** _handlePqcEncaps 841-894. *)
Definition encaps (dma kyber : bool) (key ct : ptr) (ctlen : N) (ss : ptr) (sslen : N) : outcome :=
  if kyber then
    let c := KEncaps dma key ct ctlen ss sslen in
    let a := ask c in
    map_ret fix_notimpl (mkOut (a_rc a) [c] (if (a_rc a =? OK)%Z then [(CtLen, a_len a); (SsLen, a_len2 a)] else []))
  else unavailable.
(** _handlePqcDecaps 897-950. *)
Definition decaps (dma kyber : bool) (key ct : ptr) (ctlen : N) (ss : ptr) (sslen : N) : outcome :=
  if kyber then
    let c := KDecaps dma key ct ctlen ss sslen in
    let a := ask c in
    map_ret fix_notimpl (mkOut (a_rc a) [c] (if (a_rc a =? OK)%Z then [(SsLen, a_len a)] else []))
  else unavailable.
(** _handlePqcStatefulSigKeyGen 954-1015: only by DMA. *)
Definition hbs_gen (dma : bool) (a : option hbs) (key : ptr) : outcome :=
  match a with Some x => if dma then map_ret fix_notimpl (simple (KHbsGen x key)) else unavailable | None => unavailable end.
(** _handlePqcStatefulSigSign 1017-1086. *)
Definition hbs_sign (dma : bool) (a : option hbs) (key msg : ptr) (msglen : N) (out : ptr) (outlen : option N) : outcome :=
  match a with
  | Some x => if dma then map_ret fix_notimpl (simple (KHbsSign x msg msglen out outlen key)) else unavailable
  | None => unavailable end.
(** _handlePqcStatefulSigVerify 1088-1156. *)
Definition hbs_verify (dma : bool) (a : option hbs) (key sig : ptr) (siglen : N) (msg : ptr) (msglen : N) (res : ptr) : outcome :=
  match a with
  | Some x => if dma then map_ret fix_notimpl (simple (KHbsVerify x sig siglen msg msglen res key)) else unavailable
  | None => unavailable end.
(** _handlePqcStatefulSigSigsLeft 1158-1229: the answer is an error or a number. *)
Definition hbs_left (dma : bool) (a : option hbs) (key : ptr) : outcome :=
  match a with
  | Some x =>
      if dma then
        let c := KHbsLeft x key in
        let rc := a_rc (ask c) in
        if (0 <=? rc)%Z then mkOut OK [c] [(SigsLeft, Z.to_N rc)] else map_ret fix_notimpl (simple c)
      else unavailable
  | None => unavailable end.
(** _handlePqcSigKeyGen 1233-1274; the DMA function has no size. *)
Definition dsa_gen (dma mldsa : bool) (key : ptr) (level size : N) : outcome :=
  if mldsa then simple (KDsaGen dma level (if dma then 0 else size) key) else unavailable.
(** _handlePqcSign 1276-1324. *)
Definition dsa_sign (dma mldsa : bool) (key inp : ptr) (inlen : N) (out : ptr) (outlen : option N) (cx : ptr) (cxlen prehash : N) : outcome :=
  if mldsa then simple (KDsaSign dma inp inlen out outlen key cx cxlen prehash) else unavailable.
(** _handlePqcVerify 1326-1377. *)
Definition dsa_verify (dma mldsa : bool) (key sig : ptr) (siglen : N) (msg : ptr) (msglen : N) (res cx : ptr) (cxlen prehash : N) : outcome :=
  if mldsa then simple (KDsaVerify dma sig siglen msg msglen res key cx cxlen prehash) else unavailable.
(** _handlePqcSigCheckPrivKey 1379-1421. *)
Definition dsa_check (dma mldsa : bool) (key pub : ptr) (publen : N) : outcome :=
  if mldsa then simple (KDsaCheck dma key pub publen) else unavailable.

(** wh_Client_CryptoCbStd 129-789, before the codes are fixed up (776-782). *)
Definition std_raw (i : info) : outcome :=
  match i with
  | IAes m enc aes inp len out => simple (KAes false m aes enc inp len out)
  | IGcm enc aes inp len iv ivl aad aadl tag tagl out =>
      simple (KGcm false aes enc inp len iv ivl aad aadl tag tag tagl out)
  | IRsaGen key size e => simple (KRsaGen size e key)
  | IRsa key type inp inlen out ol => with_len (KRsa key type inp (u16 inlen) out (u16 (len_of ol))) ol
  | IRsaSize key size => simple (KRsaSize key size)
  | IEccGen key size curve => simple (KEccGen size curve key)
  | IEcdh priv pub out ol => with_len (KEcdh priv pub out (u16 (len_of ol))) ol
  | IEccSign key inp inlen out ol => with_len (KEccSign key inp (u16 inlen) out (u16 (len_of ol))) ol
  | IEccVerify key sig sl hash hl res => simple (KEccVerify key sig (u16 sl) hash (u16 hl) res)
  | IEccPub key out ol =>
      let o := with_len (KEccPub key out (N.min (len_of ol) 65535)) ol in
      map_ret (fun rc => if (rc =? BADARGS)%Z then BAD_FUNC_ARG else if (rc =? BUFFER_SIZE)%Z then BUFFER_E else rc) o
  | IEccCheckPub key pub publen order priv =>
      if 65535 <? publen then mkOut BAD_FUNC_ARG [] []
      else map_ret fix_badargs (simple (KEccCheckPub key pub (u16 publen) order priv))
  | IEccCheckPriv _ => unavailable
  | IX25519Gen key size => simple (KX25519Gen (u16 size) key)
  | IX25519 priv pub endian out ol => with_len (KX25519 priv pub endian out (u16 (len_of ol))) ol
  | IEdGen key => map_ret fix_badargs (simple (KEdGen key))
  | IEdSign key inp inlen type cx cxl out ol =>
      map_ret fix_notimpl (with_len (KEdSign false key inp inlen type cx cxl out (len_of ol)) ol)
  | IEdVerify key sig sl msg ml type cx cxl res =>
      map_ret fix_notimpl (simple (KEdVerify false key sig sl msg ml type cx cxl res))
  | IKemGen k key level => kem_gen false k key level
  | IEncaps k key ct ctl ss ssl => encaps false k key ct ctl ss ssl
  | IDecaps k key ct ctl ss ssl => decaps false k key ct ctl ss ssl
  | IHbsGen a key => hbs_gen false a key
  | IHbsSign a key msg ml out ol => hbs_sign false a key msg ml out ol
  | IHbsVerify a key sig sl msg ml res => hbs_verify false a key sig sl msg ml res
  | IHbsLeft a key _ => hbs_left false a key
  | IDsaGen d key level size => dsa_gen false d key level size
  | IDsaSign d key inp il out ol cx cxl ph => dsa_sign false d key inp il out ol cx cxl ph
  | IDsaVerify d key sig sl msg ml res cx cxl ph => dsa_verify false d key sig sl msg ml res cx cxl ph
  | IDsaCheck d key pub pl => dsa_check false d key pub pl
  | IRng out size | ISeed out size => simple (KRng false out size)
  | ICmac cmac type key kl inp il out ol =>
      simple (KCmac false cmac type key (if key =? 0 then 0 else kl) inp (if inp =? 0 then 0 else il) out ol)
  | IHash h keccak sha inp len digest =>
      if is_sha3 h && negb (sha =? 0) && keccak then unavailable else simple (KHash false h sha inp len digest)
  | IHkdf h key kl salt sl inf il out ol => simple (KHkdf h KEYID_ERASED key kl salt sl inf il out ol)
  | ICmacKdf salt sl z zl fixed fl out ol => simple (KCmacKdf KEYID_ERASED salt sl KEYID_ERASED z zl fixed fl out ol)
  | IOther => unavailable
  end.
(** 776-782. *)
Definition std (i : info) : outcome :=
  map_ret (fun rc => if (rc =? BADARGS)%Z then BAD_FUNC_ARG else if (rc =? BUFFER_SIZE)%Z then BUFFER_E else rc) (std_raw i).

(** wh_Client_CryptoCbDma 1426-1767. *)
Definition dma (i : info) : outcome :=
  match i with
  | IHash h keccak sha inp len digest =>
      if is_sha3 h && negb (sha =? 0) && keccak then unavailable else simple (KHash true h sha inp len digest)
  | IKemGen k key level => kem_gen true k key level
  | IEncaps k key ct ctl ss ssl => encaps true k key ct ctl ss ssl
  | IDecaps k key ct ctl ss ssl => decaps true k key ct ctl ss ssl
  | IHbsGen a key => hbs_gen true a key
  | IHbsSign a key msg ml out ol => hbs_sign true a key msg ml out ol
  | IHbsVerify a key sig sl msg ml res => hbs_verify true a key sig sl msg ml res
  | IHbsLeft a key _ => hbs_left true a key
  | IDsaGen d key level size => dsa_gen true d key level size
  | IDsaSign d key inp il out ol cx cxl ph => dsa_sign true d key inp il out ol cx cxl ph
  | IDsaVerify d key sig sl msg ml res cx cxl ph => dsa_verify true d key sig sl msg ml res cx cxl ph
  | IDsaCheck d key pub pl => dsa_check true d key pub pl
  | IEdGen key => map_ret fix_badargs (simple (KEdGen key))
  | IEdSign key inp inlen type cx cxl out ol =>
      let c := KEdSign true key inp inlen type cx cxl out (len_of ol) in
      let a := ask c in
      map_ret fix_notimpl
        (mkOut (a_rc a) [c] (match ol with Some _ => if (a_rc a =? OK)%Z then [(OutLen, a_len a)] else [] | None => [] end))
  | IEdVerify key sig sl msg ml type cx cxl res =>
      map_ret fix_notimpl (simple (KEdVerify true key sig sl msg ml type cx cxl res))
  | ICmac cmac type key kl inp il out ol => simple (KCmac true cmac type key kl inp il out ol)
  | IAes m enc aes inp len out => simple (KAes true m aes enc inp len out)
  | IGcm enc aes inp len iv ivl aad aadl tag tagl out =>
      simple (KGcm true aes enc inp len iv ivl aad aadl tag tag tagl out)
  | IRng out size | ISeed out size => simple (KRng true out size)
  | _ => unavailable
  end.

End Callback.

(** wh_Client_CryptoCb 95-127 (its arguments are not NULL); [ask h c] is the answer to
    [c] after the calls [h]. *)
Definition callback (ask : list call -> call -> answer) (prefer_dma : bool) (i : info) : outcome :=
  if prefer_dma then
    let o := dma (ask []) i in
    if (r_ret o =? UNAVAILABLE)%Z
    then let o2 := std (ask (r_calls o)) i in
         mkOut (r_ret o2) (r_calls o ++ r_calls o2) (r_stores o ++ r_stores o2)
    else o
  else std (ask []) i.
