(** Client requests on keys: wh_Server_HandleKeyRequest
    (src/wh_server_keystore.c 2588-3617) and the key handling of the crypto
    requests (src/wh_server_crypto.c).  Each step below runs under one hold of
    the NVM lock.  Message decoding is the subject of C17 and C18 and left out. *)
From Verif Require Import Base NvmSpec Flags KeyId Store NvmReqModel KsModel.
Local Open Scope N_scope.

(** Crypto operations on a key held by the server, with the usage flags the
    handler asks for.  Two entries: tried one after the other (each under its
    own hold of the lock). *)
Inductive cop :=
| RsaPublicEncrypt | RsaPublicDecrypt | RsaPrivateEncrypt | RsaPrivateDecrypt | RsaGetSize
| EccSharedSecret | EccSharedSecretPublic | EccSign | EccVerify | EccMakePub | EccCheckPub
| X25519SharedSecret | X25519SharedSecretPublic
| Ed25519Sign | Ed25519Verify
| AesEncrypt | AesDecrypt | Cmac
| Hkdf | CmacKdf
| MldsaSign | MldsaVerify | MlkemEncaps | MlkemDecaps
| LmsVerify | LmsSigsLeft.
Definition usages (o : cop) : list N :=
  match o with
  | RsaPublicEncrypt => [F_USAGE_ENCRYPT]                          (* wh_server_crypto.c 529-533 *)
  | RsaPrivateEncrypt => [F_USAGE_ENCRYPT; F_USAGE_SIGN]           (* 529-533, 557-562 *)
  | RsaPublicDecrypt => [F_USAGE_DECRYPT; F_USAGE_VERIFY]          (* 534-537, 551-556 *)
  | RsaPrivateDecrypt => [F_USAGE_DECRYPT]                         (* 534-537 *)
  | RsaGetSize => [0]                                              (* 626 *)
  | EccSharedSecret => [F_USAGE_DERIVE]                            (* 1553-1554 *)
  | EccSharedSecretPublic => [0]                                   (* 1557-1558 *)
  | EccSign => [F_USAGE_SIGN]                                      (* 1683 *)
  | EccVerify => [F_USAGE_VERIFY]                                  (* 1771 *)
  | EccMakePub => [0]                                              (* 1849-1855 *)
  | EccCheckPub => [0]                                             (* 1935 *)
  | X25519SharedSecret => [F_USAGE_DERIVE]                         (* 2615-2616 *)
  | X25519SharedSecretPublic => [0]                                (* 2619-2620 *)
  | Ed25519Sign => [F_USAGE_SIGN]                                  (* 2850, 3033 *)
  | Ed25519Verify => [F_USAGE_VERIFY]                              (* 2943, 3135 *)
  | AesEncrypt => [F_USAGE_ENCRYPT]                                (* 3230, 3384, 3562, 3686, 3852, 3983, 4172, 4324 *)
  | AesDecrypt => [F_USAGE_DECRYPT]
  | Cmac => [F_USAGE_SIGN; F_USAGE_VERIFY]                         (* 4476-4481 *)
  | Hkdf => [F_USAGE_DERIVE]                                       (* 2210-2211 *)
  | CmacKdf => [F_USAGE_DERIVE]                                    (* 2359, 2377 *)
  | MldsaSign => [F_USAGE_SIGN]                                    (* 5393, 7112 *)
  | MldsaVerify => [F_USAGE_VERIFY]                                (* 5492, 7250 *)
  | MlkemEncaps => [F_USAGE_DERIVE]                                (* 5726, 7576 *)
  | MlkemDecaps => [F_USAGE_DERIVE]                                (* 5836, 7708 *)
  | LmsVerify => [0]                                               (* 8236, 8727: no check *)
  | LmsSigsLeft => [0]                                             (* 8292-8385, 8781-8866: no check *)
  end.
(** The AES, CMAC and KDF handlers copy the key with
    wh_Server_KeystoreReadKeyEnforce into a buffer of limited size; the others
    freshen it. *)
Definition reads_copy (o : cop) : bool :=
  match o with AesEncrypt | AesDecrypt | Cmac | Hkdf | CmacKdf => true | _ => false end.

(** What the environment decides for one step: the NVM lock, the outcome of the
    NVM write, the RNG (or key generation) and its bytes, DMA and the bytes in
    client memory, the key found in the hardware key store, the size of a key
    copy buffer. *)
Record kenv := mkKenv {
  v_lock : Z; v_nvm : Z; v_rng : Z; v_rngd : list N; v_dma : Z; v_mem : list N;
  v_hw : Z; v_hwd : list N; v_cap : N; v_nvme : nvm_env
}.

Record kresp := mkKr { r_rc : Z; r_id : N; r_meta : option meta; r_data : list N }.
Definition rrc (rc : Z) : kresp := mkKr rc 0 None [].

Inductive kreq :=
| KCache (id flags : N) (label data : list N)
| KCacheRandom (id flags len : N) (label : list N)
| KCacheDma (id flags sz : N) (label : list N)
| KExport (id : N)
| KExportDma (id sz : N)
| KExportPublic (id algo cap : N)
| KEvict (id : N)
| KCommit (id : N)
| KErase (id : N)
| KRevoke (id : N)
(* the crypto handlers *)
| KImport (id flags : N) (label : list N) (slotsz : N)
| KUse (id : N) (o : cop) (alt : nat) (input : list N)
| KCryptoEvict (id : N)
| KSignGen (id flags : N) (label : list N)
| KSign (id : N) (msg : list N) (ev : bool)
(* key wrap *)
| KWrap (kek : N) (m : meta) (key : list N)
| KWrapExport (kek kty id : N)
| KUnwrapExport (kek : N) (blob : list N)
| KUnwrapCache (kek : N) (blob : list N)
| KDataWrap (kek : N) (data : list N)
| KDataUnwrap (kek : N) (blob : list N).

(** [n] bytes of a memory region: a copy of [n] bytes always delivers [n]. *)
Definition exactly (n : nat) (l : list N) : list N := firstn n (l ++ repeat 0 n).

(** whNvmMetadata in memory (wolfhsm/wh_common.h 137-145): id, access, flags,
    len, label. *)
Definition ser_meta (m : meta) : list N :=
  le_enc 2 (m_id m) ++ le_enc 2 (m_access m) ++ le_enc 2 (m_flags m) ++ le_enc 2 (m_len m) ++ m_label m.
Definition META_SZ : nat := 32.
Definition des_meta (b : list N) : meta :=
  mkMeta (le_dec (firstn 2 b)) (le_dec (firstn 2 (skipn 2 b))) (le_dec (firstn 2 (skipn 4 b)))
         (le_dec (firstn 2 (skipn 6 b))) (firstn 24 (skipn 8 b)).

(** Cache requests 2615-2622: the label is cut at 24 bytes and padded. *)
Definition mk_label (l : list N) : list N := firstn 24 (l ++ repeat 0 24).
Definition req_meta (id flags len : N) (label : list N) : meta :=
  mkMeta id 65535 (clear (N.land flags 65535) F_SERVER_ONLY) len (mk_label label).

(** Key wrap sizes: WH_KEYWRAP_AES_GCM_IV_SIZE 12, _TAG_SIZE 16. *)
Definition IV_SZ : nat := 12.
Definition TAG_SZ : nat := 16.
Definition AAD_KEY : N := 0.
Definition AAD_DATA : N := 1.

(** wh_She_Label2Meta (src/wh_she_common.c): the counter is the first four label
    bytes.  Only its being a function of the label matters here. *)
Section Requests.
Variable C : kscfg.
(** wolfCrypt: result and output of an operation on key bytes; public part of a
    key; stateful signature: signature and the next private blob. *)
Variable crypt : cop -> list N -> list N -> Z * list N.
Variable pub : N -> list N -> Z * list N.
Variable ots : list N -> list N -> option (list N * list N).
(** AES-GCM under a KEK: tag and ciphertext, or an error for a bad KEK. *)
Variable gcm_enc : list N -> list N -> N -> list N -> option (list N).
Variable gcm_dec : list N -> list N -> N -> list N -> option (list N).
Variable she_count : list N -> N.

(** _KeywrapResolveKek 1441-1491. *)
Definition resolve_kek (trusted : bool) (e : kenv) (S : ks) (id : N) : Z * ks * list N :=
  if hwkey C id then (v_hw e, S, if is_ok (v_hw e) then v_hwd e else []) else
  let '(rc, S1) := freshen C S id in
  if negb (is_ok rc) then (rc, S1, []) else
  match find_cache C S1 id with
  | None => (NOTFOUND, S1, [])
  | Some s =>
      let fl := m_flags (sl_meta s) in
      let ru := enforce fl F_USAGE_WRAP in
      if negb (is_ok ru) then (ru, S1, []) else
      if trusted && negb (has fl F_TRUSTED) then (ACCESS, S1, []) else
      (OK, S1, sl_buf s)
  end.

(** _AesGcmKeyWrapWithKek 1505-1570 and _AesGcmDataWrapWithKek 1690-1745:
    IV, tag, ciphertext. *)
Definition gcm_wrap (e : kenv) (kek : list N) (aad : N) (pt : list N) : Z * list N :=
  if negb (is_ok (v_rng e)) then (v_rng e, []) else
  let iv := exactly IV_SZ (v_rngd e) in
  match gcm_enc kek iv aad pt with
  | Some tc => (OK, iv ++ tc)
  | None => (ABORTED, [])
  end.
(** _AesGcmKeyUnwrapWithKek 1597-1660, _AesGcmDataUnwrapWithKek 1776-1835. *)
Definition gcm_unwrap (kek : list N) (aad : N) (blob : list N) : Z * list N :=
  match gcm_dec kek (firstn IV_SZ blob) aad (skipn IV_SZ blob) with
  | Some pt => (OK, pt)
  | None => (ABORTED, [])
  end.

(** Ownership of a wrapped key, 2160-2180 and 2318-2336. *)
Definition owner_ok (client id : N) : bool :=
  N.eqb (kid_user id) client || (k_global (kc C) && N.eqb (kid_user id) 0).

(** _HandleKeyWrapRequest 1869-1955. *)
Definition h_wrap (e : kenv) (client : N) (kek : N) (m : meta) (key : list N) (S : ks) : kresp * ks :=
  let klen := N.of_nat (length key) in
  if kw_max C <? klen then (rrc BADARGS, S) else
  if negb (kid_wrapped (m_id m)) then (rrc BADARGS, S) else
  if kw_resp C <? 60 + klen then (rrc BUFFER_SIZE, S) else
  let '(rc, S1, k) := resolve_kek false e S (from_client (kc C) KT_CRYPTO client kek) in
  if negb (is_ok rc) then (rrc rc, S1) else
  let '(rc, b) := gcm_wrap e k AAD_KEY (ser_meta m ++ key) in
  (mkKr rc 0 None b, S1).

(** _HandleKeyWrapExportRequest 1960-2085. *)
Definition wx_target (kty client id : N) : option N :=
  let t := from_client (kc C) kty client id in
  let ty := kid_type t in
  if N.eqb ty KT_CRYPTO || N.eqb ty KT_WRAPPED then Some t else
  if have_she C && N.eqb ty KT_SHE
  then Some (if she_global C then mk_keyid KT_SHE 0 (kid_id t) else t)
  else None.
Definition wx_meta (m : meta) : meta :=
  if N.eqb (kid_type (m_id m)) KT_SHE then m
  else with_id m (mk_keyid KT_WRAPPED (kid_user (m_id m)) (kid_id (m_id m))).
Definition h_wrap_export (e : kenv) (client : N) (kek kty id : N) (S : ks) : kresp * ks :=
  match wx_target kty client id with
  | None => (rrc BADARGS, S)
  | Some t =>
      let '(rc, S1, m, d) := read_key_checked C S t (kw_max C) in
      if negb (is_ok rc) then (rrc rc, S1) else
      if kw_resp C <? 60 + N.of_nat (length d) then (rrc BUFFER_SIZE, S1) else
      let '(rc, S2, k) := resolve_kek true e S1 (from_client (kc C) KT_CRYPTO client kek) in
      if negb (is_ok rc) then (rrc rc, S2) else
      let '(rc, b) := gcm_wrap e k AAD_KEY (ser_meta (wx_meta m) ++ d) in
      (mkKr rc 0 None b, S2)
  end.

(** _HandleKeyUnwrapAndExportRequest 2087-2232. *)
Definition h_unwrap_export (e : kenv) (client : N) (kek : N) (blob : list N) (S : ks) : kresp * ks :=
  if (length blob <? 60)%nat then (rrc BADARGS, S) else
  let klen := (length blob - 60)%nat in
  if kw_resp C <? 32 + N.of_nat klen then (rrc BUFFER_SIZE, S) else
  let '(rc, S1, k) := resolve_kek false e S (from_client (kc C) KT_CRYPTO client kek) in
  if negb (is_ok rc) then (rrc rc, S1) else
  if kw_max C <? N.of_nat klen then (rrc BADARGS, S1) else
  let '(rc, pt) := gcm_unwrap k AAD_KEY blob in
  if negb (is_ok rc) then (rrc rc, S1) else
  let m := des_meta pt in
  let key := exactly klen (skipn META_SZ pt) in
  if kid_unassigned (m_id m) then (rrc BADARGS, S1) else
  if negb (kid_wrapped (m_id m)) then (rrc ABORTED, S1) else
  if has (m_flags m) F_NONEXPORTABLE then (rrc ACCESS, S1) else
  if negb (owner_ok client (m_id m)) then (rrc ACCESS, S1) else
  (mkKr OK 0 (Some m) key, S1).

(** _HandleKeyUnwrapAndCacheRequest 2234-2438. *)
Definition h_unwrap_cache (e : kenv) (client : N) (kek : N) (blob : list N) (S : ks) : kresp * ks :=
  if (length blob <? 60)%nat then (rrc BADARGS, S) else
  let klen := (length blob - 60)%nat in
  let '(rc, S1, k) := resolve_kek true e S (from_client (kc C) KT_CRYPTO client kek) in
  if negb (is_ok rc) then (rrc rc, S1) else
  if kw_max C <? N.of_nat klen then (rrc BADARGS, S1) else
  let '(rc, pt) := gcm_unwrap k AAD_KEY blob in
  if negb (is_ok rc) then (rrc rc, S1) else
  let m0 := des_meta pt in
  let m := with_flags m0 (clear (m_flags m0) F_SERVER_ONLY) in
  let key := exactly klen (skipn META_SZ pt) in
  if negb (N.eqb (N.of_nat klen) (m_len m)) then (rrc BADARGS, S1) else
  if kid_unassigned (m_id m) then (rrc BADARGS, S1) else
  let she := have_she C && N.eqb (kid_type (m_id m)) KT_SHE in
  if negb (kid_wrapped (m_id m)) && negb she then (rrc ABORTED, S1) else
  if negb (owner_ok client (m_id m)) then (rrc ACCESS, S1) else
  if she && negb (she_global C) && k_global (kc C) && N.eqb (kid_user (m_id m)) 0 then (rrc ACCESS, S1) else
  let m := if she && she_global C then with_id m (mk_keyid KT_SHE 0 (kid_id (m_id m))) else m in
  match find_cache C S1 (m_id m) with
  | Some _ => (rrc ABORTED, S1)
  | None =>
      let stale := match sp_find (k_st S1) (m_id m) with
                   | Some (sm, _) => she && (she_count (m_label m) <? she_count (m_label sm))
                   | None => false
                   end in
      if stale then (rrc ACCESS, S1) else
      if have_st C && stateful_blob key then (rrc ACCESS, S1) else
      let '(rc, S2) := cache_key C false S1 m key in
      (mkKr rc (to_client (kc C) (m_id m)) None [], S2)
  end.

(** _HandleDataWrapRequest 2440-2510, _HandleDataUnwrapRequest 2512-2584. *)
Definition h_data_wrap (e : kenv) (client : N) (kek : N) (data : list N) (S : ks) : kresp * ks :=
  let dlen := N.of_nat (length data) in
  if kwd_max C <? dlen then (rrc BADARGS, S) else
  if kwd_resp C <? 28 + dlen then (rrc BUFFER_SIZE, S) else
  let '(rc, S1, k) := resolve_kek false e S (from_client (kc C) KT_CRYPTO client kek) in
  if negb (is_ok rc) then (rrc rc, S1) else
  let '(rc, b) := gcm_wrap e k AAD_DATA data in (mkKr rc 0 None b, S1).
Definition h_data_unwrap (e : kenv) (client : N) (kek : N) (blob : list N) (S : ks) : kresp * ks :=
  if (length blob <? 28)%nat then (rrc BADARGS, S) else
  let dlen := N.of_nat (length blob - 28) in
  if kwd_resp C <? dlen then (rrc BUFFER_SIZE, S) else
  let '(rc, S1, k) := resolve_kek false e S (from_client (kc C) KT_CRYPTO client kek) in
  if negb (is_ok rc) then (rrc rc, S1) else
  if kwd_max C <? dlen then (rrc BADARGS, S1) else
  let '(rc, pt) := gcm_unwrap k AAD_DATA blob in (mkKr rc 0 None pt, S1).

(** "get a new id if one wasn't provided". *)
Definition pick_id (need : bool) (S : ks) (id : N) : Z * N :=
  if need then unique_id C S id else (OK, id).

(** WH_KEY_CACHE 2607-2665. *)
Definition h_cache (client id flags : N) (label data : list N) (S : ks) : kresp * ks :=
  let k0 := from_client (kc C) KT_CRYPTO client id in
  let '(rc, k) := pick_id (kid_unassigned k0) S k0 in
  if negb (is_ok rc) then (rrc rc, S) else
  let '(rc, S1) := cache_key C true S (req_meta k flags (N.of_nat (length data)) label) data in
  (if is_ok rc then mkKr OK (to_client (kc C) k) None [] else rrc rc, S1).
(** WH_KEY_CACHE_RANDOM 2667-2731. *)
Definition h_cache_random (e : kenv) (client id flags len : N) (label : list N) (S : ks) : kresp * ks :=
  let k0 := from_client (kc C) KT_CRYPTO client id in
  let '(rc, k) := pick_id (kid_erased k0) S k0 in
  if negb (is_ok rc) then (rrc rc, S) else
  let '(rc, S1) := cache_random C S (req_meta k flags len label) (v_rng e) (exactly (N.to_nat len) (v_rngd e)) in
  (if is_ok rc then mkKr OK (to_client (kc C) k) None [] else rrc rc, S1).
(** WH_KEY_CACHE_DMA 2735-2799: [meta->len = req.key.sz] keeps 16 bits. *)
Definition h_cache_dma (e : kenv) (client id flags sz : N) (label : list N) (S : ks) : kresp * ks :=
  let k0 := from_client (kc C) KT_CRYPTO client id in
  let '(rc, k) := pick_id (kid_unassigned k0) S k0 in
  if negb (is_ok rc) then (rrc rc, S) else
  let len := N.land sz 65535 in
  let '(rc, S1) := cache_dma C S (req_meta k flags len label) (v_dma e) (exactly (N.to_nat len) (v_mem e)) in
  (if is_ok rc then mkKr OK (to_client (kc C) k) None [] else rrc rc, S1).
(** WH_KEY_EXPORT 3022-3068. *)
Definition h_export (client id : N) (S : ks) : kresp * ks :=
  let '(rc, S1, m, d) := read_key_checked C S (from_client (kc C) KT_CRYPTO client id) (exp_max C) in
  (if is_ok rc then mkKr OK 0 (Some m) d else rrc rc, S1).
(** WH_KEY_EXPORT_DMA 2801-2852, wh_Server_KeystoreExportKeyDma 3678-3716: the
    bytes go to client memory. *)
Definition h_export_dma (e : kenv) (client id sz : N) (S : ks) : kresp * ks :=
  let k := from_client (kc C) KT_CRYPTO client id in
  let rc := check_ks C OpExport S k in
  if negb (is_ok rc) then (rrc rc, S) else
  let '(rc, S1) := freshen C S k in
  if negb (is_ok rc) then (rrc rc, S1) else
  match find_cache C S1 k with
  | None => (rrc NOTFOUND, S1)
  | Some s => if sz <? m_len (sl_meta s) then (rrc NOSPACE, S1)
              else if negb (is_ok (v_dma e)) then (rrc (v_dma e), S1)
              else (mkKr OK 0 (Some (sl_meta s)) (sl_buf s), S1)
  end.
(** WH_KEY_EXPORT_PUBLIC 3070-3185 and its DMA form 2854-2990. *)
Definition h_export_public (client id algo cap : N) (S : ks) : kresp * ks :=
  let k := from_client (kc C) KT_CRYPTO client id in
  let rc := check_ks C OpExportPublic S k in
  if negb (is_ok rc) then (rrc rc, S) else
  let '(rc, S1) := freshen C S k in
  if negb (is_ok rc) then (rrc rc, S1) else
  match find_cache C S1 k with
  | None => (rrc NOTFOUND, S1)
  | Some s => let '(rc, d) := pub algo (sl_buf s) in
              if negb (is_ok rc) then (rrc rc, S1) else
              if cap <? N.of_nat (length d) then (rrc NOSPACE, S1) else
              (mkKr OK 0 (Some (sl_meta s)) d, S1)
  end.

(** Key generation and derivation into the cache, e.g. _HandleEccKeyGen
    1395-1500: the id is chosen and the key imported under one hold of the lock. *)
Definition h_import (e : kenv) (client id flags : N) (label : list N) (slotsz : N) (S : ks) : kresp * ks :=
  let k0 := from_client (kc C) KT_CRYPTO client id in
  let '(rc, k) := pick_id (kid_erased k0) S k0 in
  if negb (is_ok rc) then (rrc rc, S) else
  let d := v_rngd e in
  let '(rc, S1) := import_key C S (req_meta k flags (N.of_nat (length d)) label) slotsz (v_rng e) d in
  (if is_ok rc then mkKr OK (to_client (kc C) k) None [] else rrc rc, S1).

(** Use of a key by a crypto request, one attempt. *)
Definition h_use (e : kenv) (client id : N) (o : cop) (alt : nat) (input : list N) (S : ks) : kresp * ks :=
  match nth_error (usages o) alt with
  | None => (rrc BADARGS, S)
  | Some u =>
      let k := from_client (kc C) KT_CRYPTO client id in
      let '(rc, S1, d) := if reads_copy o then read_key_enforce C S k u (v_cap e) else use_key C S k u in
      if negb (is_ok rc) then (rrc rc, S1) else
      let '(rc, out) := crypt o input d in (mkKr rc 0 None out, S1)
  end.

(** _HandleLmsKeyGenDma 7896-8050 and its XMSS twin 8388-8555: slot, key,
    metadata with non-exportable forced, commit; all under the lock. *)
Definition h_sign_gen (e : kenv) (client id flags : N) (label : list N) (S : ks) : kresp * ks :=
  if has flags F_EPHEMERAL then (rrc BADARGS, S) else
  let k0 := from_client (kc C) KT_CRYPTO client id in
  let '(rc, k) := pick_id (kid_erased k0) S k0 in
  if negb (is_ok rc) then (rrc rc, S) else
  let d := v_rngd e in
  let m0 := req_meta k flags (N.of_nat (length d)) label in
  let m := with_flags m0 (setf (m_flags m0) F_NONEXPORTABLE) in
  let '(rc, S1) := cache_slot_checked C S k (bigsz C) (if is_ok (v_rng e) then mkSlot m d false else slot_zero) in
  if negb (is_ok rc) then (rrc rc, S1) else
  if negb (is_ok (v_rng e)) then (rrc (v_rng e), S1) else
  let '(rc, S2) := commit_key C (v_nvm e) S1 k in
  (if is_ok rc then mkKr OK (to_client (kc C) k) None [] else rrc rc, S2).

(** _HandleLmsSignDma 8054-8188, _LmsSlotWriteCb 1166-1195 and the XMSS twins
    8559-8679, 1219-1250.  wolfCrypt's contract, stated at 8131-8145: the new
    private state is written first; when the write fails no signature is
    returned.  The new blob replaces the old one in the slot either way.  [ots] is
    None also for a slot the handler cannot use; which slots it can use is
    StatefulModel.v's subject (a header claiming no private part is not refused). *)
Definition h_sign (e : kenv) (client id : N) (msg : list N) (ev : bool) (S : ks) : kresp * ks :=
  let k := from_client (kc C) KT_CRYPTO client id in
  if kid_erased k then (rrc BADARGS, S) else
  let fin (x : kresp * ks) := if ev then (fst x, snd (evict_key C (snd x) k)) else x in
  let '(rc, S1) := freshen C S k in
  if negb (is_ok rc) then fin (rrc rc, S1) else
  match find_cache C S1 k with
  | None => fin (rrc NOTFOUND, S1)
  | Some s =>
      if negb (is_ok (v_dma e)) then fin (rrc (v_dma e), S1) else
      match ots (sl_buf s) msg with
      | None => fin (rrc ABORTED, S1)
      | Some (sg, nb) =>
          if bigsz C <? N.of_nat (length nb) then fin (rrc ABORTED, S1) else
          let m' := with_len (sl_meta s) (N.of_nat (length nb)) in
          let S2 := set_ctx C S1 k (cupd k (fun x => mkSlot m' nb (sl_comm x)) (get_ctx C S1 k)) in
          let '(rc, st) := nv_add (v_nvm e) m' nb (k_st S2) in
          if is_ok rc then fin (mkKr OK 0 None sg, set_st S2 st) else fin (rrc ABORTED, S2)
      end
  end.

(** One step of one server, for the client it is connected to. *)
Definition ks_step (e : kenv) (client : N) (q : kreq) (S : ks) : kresp * ks :=
  if negb (is_ok (v_lock e)) then (rrc (v_lock e), S) else
  let fc := from_client (kc C) KT_CRYPTO client in
  let code (x : Z * ks) : kresp * ks := (rrc (fst x), snd x) in
  match q with
  | KCache id fl lb d => h_cache client id fl lb d S
  | KCacheRandom id fl n lb => h_cache_random e client id fl n lb S
  | KCacheDma id fl sz lb => h_cache_dma e client id fl sz lb S
  | KExport id => h_export client id S
  | KExportDma id sz => h_export_dma e client id sz S
  | KExportPublic id algo cap => h_export_public client id algo cap S
  | KEvict id => code (evict_checked C S (fc id))                (* 2992-3020 *)
  | KCommit id => code (commit_checked C (v_nvm e) S (fc id))    (* 3187-3217 *)
  | KErase id => code (erase_checked C (v_nvm e) S (fc id))      (* 3219-3250 *)
  | KRevoke id => code (revoke_key C (v_nvm e) S (fc id))        (* 3252-3281 *)
  | KImport id fl lb sz => h_import e client id fl lb sz S
  | KUse id o alt inp => h_use e client id o alt inp S
  | KCryptoEvict id => (rrc OK, snd (evict_key C S (fc id)))     (* wh_server_crypto.c 242-256 *)
  | KSignGen id fl lb => h_sign_gen e client id fl lb S
  | KSign id msg ev => h_sign e client id msg ev S
  | KWrap kek m key => h_wrap e client kek m key S
  | KWrapExport kek kty id => h_wrap_export e client kek kty id S
  | KUnwrapExport kek b => h_unwrap_export e client kek b S
  | KUnwrapCache kek b => h_unwrap_cache e client kek b S
  | KDataWrap kek d => h_data_wrap e client kek d S
  | KDataUnwrap kek b => h_data_unwrap e client kek b S
  end.
End Requests.
