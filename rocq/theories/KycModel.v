(** Key and key wrap calls of the client, from the caller's arguments to the
    bytes of the two packets and back: src/wh_client.c 802-1433 and 1717-1956,
    src/wh_client_keywrap.c, src/wh_server_keystore.c 1868-2585 (the checks of
    sizes) and 2588-3617, and the structures of wolfhsm/wh_message_keystore.h.
    What the server does with a decoded request is [ks_step] of KsReq.v.

    The server is little endian (key blobs are stored in the server's byte order
    and KsReq.v fixes it); the client has any byte order.

    Left out: NULL checks of contexts, the loops that repeat a call while it says
    NOTREADY (a link says how they end), the group and action of a reply (the
    comm layer pairs replies with requests, C17), authorization (C40, C41), the
    client's DMA callbacks (C73; addresses are offsets in its memory), the DMA
    form of public key export, and ciphers other than AES-GCM. *)
From Verif Require Import Base NvmSpec Flags KeyId Store NvmReqModel EndianModel KdfModel KsModel KsReq KsSys NvcModel.

(** Actions: wh_message.h, enum WH_KEY_ENUM. *)
Inductive kact :=
| ActCache | ActRandom | ActCacheDma | ActExportDma | ActEvict | ActExport | ActExportPublic | ActCommit | ActErase | ActRevoke
| ActWrap | ActWrapExport | ActUnwrapExport | ActUnwrapCache | ActDataWrap | ActDataUnwrap.

(** Request structures: wh_message_keystore.h.  Labels, padding and data are
    cut out by offset. *)
Definition W_CACHE : list nat := [4; 4; 4; 2].        (* flags, sz, labelSz, id; label at 16; 40 bytes *)
Definition W_RANDOM : list nat := [4; 4; 2; 2].       (* flags, labelSz, sz, id; label at 16; 40 bytes *)
Definition W_CACHEDMA : list nat := [8; 8; 4; 4; 2].  (* addr, sz, flags, labelSz, id; label at 26; 56 bytes *)
Definition W_EXPORTDMA : list nat := [8; 8; 2].       (* addr, sz, id; 24 bytes *)
Definition W_ID : list nat := [2].                    (* id; 8 bytes *)
Definition W_PUBLIC : list nat := [2; 2].             (* id, algo; 8 bytes *)
Definition W_WRAP : list nat := [2; 2; 2].            (* keySz, serverKeyId, cipherType; 6 bytes *)
Definition W_WRAPX : list nat := [2; 2; 2; 2].        (* keyId, keyType, serverKeyId, cipherType; 8 bytes *)
Definition W_UNWRAP : list nat := [2; 2; 2].          (* wrappedKeySz, serverKeyId, cipherType; 8 bytes *)
Definition W_DATA : list nat := [4; 2; 2].            (* size, serverKeyId, cipherType; 8 bytes *)
(** whNvmMetadata: id, access, flags, len; label at 8; 32 bytes. *)
Definition W_NVMMETA : list nat := [2; 2; 2; 2].

(** What the head of a handler makes of a packet: refused before the NVM lock is
    taken; refused under the lock, with the cipher type that the answer carries;
    or a request. *)
Inductive parsed := Short | Refuse (rc : Z) (ct : N) | Ask (q : kreq) (ct : N).

(** One exchange: the code of the send, the code with which polling ends, what
    the server's and the client's buffers held before. *)
Record klink := mkKl { l_send : Z; l_recv : Z; l_old : list N; l_pad : list N }.

Definition with_mem (e : kenv) (m : list N) : kenv :=
  mkKenv (v_lock e) (v_nvm e) (v_rng e) (v_rngd e) (v_dma e) m (v_hw e) (v_hwd e) (v_cap e) (v_nvme e).

(** What a call gives back: its code, the number it stores (a key id or a
    length), the bytes it writes to the output buffer, the bytes it writes to
    the label, the metadata it writes. *)
Record kout := mkKo { o_rc : Z; o_num : option N; o_data : option (list N); o_label : list N; o_meta : option meta }.
Definition fails (rc : Z) : kout := mkKo rc None None [] None.

(** The calls with the caller's data.  A label that is NULL is empty; [cap] is
    the size of the output buffer, None if it is NULL; [lcap] the size of the
    label buffer, 0 if it is NULL. *)
Inductive kcall :=
| CCache (flags : N) (label data : list N) (id : N)
| CRandom (flags : N) (label : list N) (sz id : N)
| CCacheDma (flags : N) (label : list N) (addr sz id : N)
| CExportDma (id addr sz : N) (lcap : nat)
| CEvict (id : N) | CCommit (id : N) | CErase (id : N) | CRevoke (id : N)
| CExport (id : N) (lcap : nat) (cap : option nat)
| CExportPublic (id algo : N) (lcap : nat) (cap : option nat)
| CWrap (kek : N) (key : list N) (m : meta) (cap : nat)
| CWrapExport (id kty kek : N) (cap : nat)
| CUnwrapExport (kek : N) (blob : list N) (cap : nat)
| CUnwrapCache (kek : N) (blob : list N)
| CDataWrap (kek : N) (data : list N) (cap : nat)
| CDataUnwrap (kek : N) (blob : list N) (cap : nat).

Definition kaction (c : kcall) : kact :=
  match c with
  | CCache _ _ _ _ => ActCache | CRandom _ _ _ _ => ActRandom | CCacheDma _ _ _ _ _ => ActCacheDma
  | CExportDma _ _ _ _ => ActExportDma | CEvict _ => ActEvict | CCommit _ => ActCommit | CErase _ => ActErase
  | CRevoke _ => ActRevoke | CExport _ _ _ => ActExport | CExportPublic _ _ _ _ => ActExportPublic
  | CWrap _ _ _ _ => ActWrap | CWrapExport _ _ _ _ => ActWrapExport | CUnwrapExport _ _ _ => ActUnwrapExport
  | CUnwrapCache _ _ => ActUnwrapCache | CDataWrap _ _ _ => ActDataWrap | CDataUnwrap _ _ _ => ActDataUnwrap
  end.

Section Kyc.
Variable DL : nat.               (* WOLFHSM_CFG_COMM_DATA_LEN *)
Variable C : kscfg.
Variable crypt : cop -> list N -> list N -> Z * list N.
Variable pub : N -> list N -> Z * list N.
Variable ots : list N -> list N -> option (list N * list N).
Variable gcm_enc : list N -> list N -> N -> list N -> option (list N).
Variable gcm_dec : list N -> list N -> N -> list N -> option (list N).
Variable she_count : list N -> N.
Variable GCM : N.                (* WC_CIPHER_AES_GCM *)
Variable cb : bool.              (* the client is big endian *)

Notation get := (take false cb).
Notation put := (give false cb).

(** ** Server *)
(** wh_server_keystore.c 2606-2638, 2676-2705, 2742-2768, 2808-2823, 2987-2998,
    3020-3037, 3069-3080, 3189-3200, 3224-3235, 3259-3270, 3292-3316 with
    1884-1906, 3344-3366, 3392-3414 with 2110-2112, 3455-3477 with 2259-2261,
    3504-3526 with 2453-2461, 3556-3578 with 2528-2530.  The head of a public
    key export does not check the size of the packet. *)
Definition kparse (a : kact) (n : nat) (buf : list N) : parsed :=
  let id := fld 0 (get W_ID buf) in
  let small k q := if n <? k then Short else q in
  let cut (l : list N) (sz : N) := firstn (Nat.min (N.to_nat sz) 24) l in
  match a with
  | ActCache => small 40 (
      let v := get W_CACHE buf in
      if N.of_nat (n - 40) <? fld 1 v then Short else
      Ask (KCache (fld 3 v) (fld 0 v) (cut (rd 16 24 buf) (fld 2 v)) (rd 40 (N.to_nat (fld 1 v)) buf)) 0)%N
  | ActRandom => small 40 (
      let v := get W_RANDOM buf in
      Ask (KCacheRandom (fld 3 v) (fld 0 v) (fld 2 v) (cut (rd 16 24 buf) (fld 1 v))) 0%N)
  | ActCacheDma => small 56 (
      let v := get W_CACHEDMA buf in
      Ask (KCacheDma (fld 4 v) (fld 2 v) (fld 1 v) (cut (rd 26 24 buf) (fld 3 v))) 0%N)
  | ActExportDma => small 24 (let v := get W_EXPORTDMA buf in Ask (KExportDma (fld 2 v) (fld 1 v)) 0%N)
  | ActEvict => small 8 (Ask (KEvict id) 0%N)
  | ActExport => small 8 (Ask (KExport id) 0%N)
  | ActExportPublic => let v := get W_PUBLIC buf in Ask (KExportPublic (fld 0 v) (fld 1 v) (N.of_nat (DL - 36))) 0%N
  | ActCommit => small 8 (Ask (KCommit id) 0%N)
  | ActErase => small 8 (Ask (KErase id) 0%N)
  | ActRevoke => small 8 (Ask (KRevoke id) 0%N)
  | ActWrap => small 6 (
      let v := get W_WRAP buf in
      let w := get W_NVMMETA (skipn 6 buf) in
      if (kw_max C <? fld 0 v)%N then Refuse BADARGS 0 else
      if n - 6 <? 32 + N.to_nat (fld 0 v) then Refuse BUFFER_SIZE (fld 2 v) else
      Ask (KWrap (fld 1 v) (mkMeta (fld 0 w) (fld 1 w) (fld 2 w) (fld 3 w) (rd 14 24 buf))
                 (rd 38 (N.to_nat (fld 0 v)) buf)) (fld 2 v))
  | ActWrapExport => small 8 (let v := get W_WRAPX buf in Ask (KWrapExport (fld 2 v) (fld 1 v) (fld 0 v)) (fld 3 v))
  | ActUnwrapExport => small 8 (
      let v := get W_UNWRAP buf in
      if n - 8 <? N.to_nat (fld 0 v) then Refuse BUFFER_SIZE 0 else
      Ask (KUnwrapExport (fld 1 v) (rd 8 (N.to_nat (fld 0 v)) buf)) (fld 2 v))
  | ActUnwrapCache => small 8 (
      let v := get W_UNWRAP buf in
      if n - 8 <? N.to_nat (fld 0 v) then Refuse BUFFER_SIZE 0 else
      Ask (KUnwrapCache (fld 1 v) (rd 8 (N.to_nat (fld 0 v)) buf)) (fld 2 v))
  | ActDataWrap => small 8 (
      let v := get W_DATA buf in
      if (kwd_max C <? fld 0 v)%N then Refuse BADARGS 0 else
      if n - 8 <? N.to_nat (fld 0 v) then Refuse BUFFER_SIZE 0 else
      Ask (KDataWrap (fld 1 v) (rd 8 (N.to_nat (fld 0 v)) buf)) (fld 2 v))
  | ActDataUnwrap => small 8 (
      let v := get W_DATA buf in
      if n - 8 <? N.to_nat (fld 0 v) then Refuse BUFFER_SIZE 0 else
      Ask (KDataUnwrap (fld 1 v) (rd 8 (N.to_nat (fld 0 v)) buf)) (fld 2 v))
  end.

(** The response of each case: wh_server_keystore.c 2663-2674, 2727-2738,
    2796-2806, 2843-2855, 3012-3018, 3052-3067, 3172-3187, 3216-3222, 3251-3257,
    3283-3289, 3336-3342, 3384-3390, 3433-3453, 3495-3502, 3548-3554, 3601-3607.
    [jk n]: padding and, in the DMA responses, the bad address, which no call
    of the client reads; here bytes of any value. *)
Definition kreply (a : kact) (r : kresp) (ct : N) (junk : list N) : list N :=
  let rc : nat * N := (4, rc_n (r_rc r)) in
  let jk n := exactly n junk in
  let m := match r_meta r with Some m => m | None => meta_zero end in
  let len := N.of_nat (length (r_data r)) in
  match a with
  | ActCache | ActRandom => put [rc; (2, r_id r)] ++ jk 6
  | ActCacheDma => jk 16 ++ put [rc; (2, r_id r)] ++ jk 2
  | ActExportDma => jk 16 ++ put [rc; (4, m_len m)] ++ exactly 24 (m_label m)
  | ActEvict | ActCommit | ActErase => put [rc; (4, 0%N)] ++ jk 4
  | ActRevoke => put [rc] ++ jk 4
  | ActExport | ActExportPublic => put [rc; (4, len)] ++ exactly 24 (m_label m) ++ jk 4 ++ r_data r
  | ActWrap | ActWrapExport => put [rc; (2, len); (2, ct)] ++ r_data r
  | ActUnwrapExport =>
      put [rc; (2, len); (2, ct)] ++
      put [(2, m_id m); (2, m_access m); (2, m_flags m); (2, m_len m)] ++ exactly 24 (m_label m) ++ r_data r
  | ActUnwrapCache => put [rc; (2, r_id r); (2, ct)]
  | ActDataWrap | ActDataUnwrap => put [rc; (4, len); (2, ct)] ++ jk 2 ++ r_data r
  end.

(** Where a DMA request reads or writes client memory. *)
Definition kaddr (a : kact) (buf : list N) : nat :=
  match a with
  | ActCacheDma => N.to_nat (fld 0 (get W_CACHEDMA buf))
  | ActExportDma => N.to_nat (fld 0 (get W_EXPORTDMA buf))
  | _ => 0
  end.

(** wh_Server_HandleKeyRequest 2588-3617 for the client [client]: the response
    packet, the client's memory and the keys. *)
Definition kserve (a : kact) (n : nat) (buf mem : list N) (client : N) (e : kenv) (S : ks) : list N * list N * ks :=
  let junk := skipn n buf in
  let e := with_mem e (skipn (kaddr a buf) mem) in
  match kparse a n buf with
  | Short => (kreply a (rrc BADARGS) 0 junk, mem, S)
  | Refuse rc ct => if is_ok (v_lock e) then (kreply a (rrc rc) ct junk, mem, S) else (kreply a (rrc (v_lock e)) 0 junk, mem, S)
  | Ask q ct =>
      let '(r, S') := ks_step C crypt pub ots gcm_enc gcm_dec she_count e client q S in
      let mem' := match a with
                  | ActExportDma => if is_ok (r_rc r) then wr (kaddr a buf) (r_data r) mem else mem
                  | _ => mem
                  end in
      (kreply a r (if is_ok (v_lock e) then ct else 0%N) junk, mem', S')
  end.

(** ** Client *)
(** The Request functions: wh_client.c 802-841, 907-941, 1005-1021, 1066-1082,
    1154-1174, 1249-1265, 1311-1327, 1373-1389, 1717-1769, 1838-1879;
    wh_client_keywrap.c 15-56, 134-162, 239-280, 365-403, 472-510, 587-626.
    [None]: refused with BADARGS. *)
Definition by_id (pad : list N) (id : N) : option (list N) :=
  if N.eqb id 0 then None else Some (wire cb [(2, id)] ++ exactly 6 pad).
Definition krequest (pad : list N) (c : kcall) : option (list N) :=
  match c with
  | CCache fl label data id =>
      if (length data =? 0) || (DL <? 40 + length data) then None else
      Some (wire cb [(4, fl); (4, N.of_nat (length data)); (4, N.of_nat (Nat.min (length label) 24)); (2, id)] ++
            repeat 0%N 2 ++ exactly 24 (firstn 24 label) ++ data)
  | CRandom fl label sz id =>
      if N.eqb sz 0 then None else
      Some (wire cb [(4, fl); (4, N.of_nat (Nat.min (length label) 24)); (2, sz); (2, id)] ++
            repeat 0%N 4 ++ exactly 24 (firstn 24 label))
  | CCacheDma fl label addr sz id =>
      Some (wire cb [(8, addr); (8, sz); (4, fl); (4, N.of_nat (Nat.min (length label) 24)); (2, id)] ++
            exactly 24 (firstn 24 label) ++ repeat 0%N 6)
  | CExportDma id addr sz _ =>
      if N.eqb id 0 then None else Some (wire cb [(8, addr); (8, sz); (2, id)] ++ exactly 6 pad)
  | CEvict id | CCommit id | CErase id | CRevoke id | CExport id _ _ => by_id pad id
  | CExportPublic id algo _ _ => if N.eqb id 0 then None else Some (wire cb [(2, id); (2, algo)] ++ exactly 4 pad)
  | CWrap kek key m _ =>
      if (length key =? 0) || (kw_max C <? N.of_nat (length key))%N || (DL <? 6 + 32 + length key) then None else
      Some (wire cb [(2, N.of_nat (length key)); (2, kek); (2, GCM)] ++
            wire cb [(2, m_id m); (2, m_access m); (2, m_flags m); (2, m_len m)] ++ m_label m ++ key)
  | CWrapExport id kty kek _ => Some (wire cb [(2, id); (2, kty); (2, kek); (2, GCM)])
  | CUnwrapExport kek blob _ | CUnwrapCache kek blob =>
      if (length blob =? 0) || (kw_max C <? N.of_nat (length blob))%N || (DL <? 8 + length blob) then None else
      Some (wire cb [(2, N.of_nat (length blob)); (2, kek); (2, GCM)] ++ exactly 2 pad ++ blob)
  | CDataWrap kek d _ | CDataUnwrap kek d _ =>
      if (length d =? 0) || (kwd_max C <? N.of_nat (length d))%N || (DL <? 8 + length d) then None else
      Some (wire cb [(4, N.of_nat (length d)); (2, kek); (2, GCM)] ++ d)
  end.

(** The Response functions: wh_client.c 851-885, 943-978, 1023-1050, 1084-1139,
    1176-1232, 1267-1297, 1329-1359, 1391-1421, 1771-1821, 1881-1943;
    wh_client_keywrap.c 58-106, 164-212, 282-336, 405-447, 512-560, 628-676.
    [sized k p f]: a reply shorter than the structure is refused.  Lengths are
    below 65536 (the size of a packet), so storing them in 16 bits keeps them. *)
Definition sized (k : nat) (p : list N) (f : kout) : kout := if length p <? k then fails ABORTED else f.
(** An id is stored on success. *)
Definition gives_id (ws : list nat) (p : list N) : kout :=
  let v := unwire cb ws p in
  let rc := n_rc (fld 0 v) in
  if negb (is_ok rc) then fails rc else mkKo OK (Some (fld 1 v)) None [] None.
Definition gives_code (p : list N) : kout := fails (n_rc (fld 0 (unwire cb [4] p))).
(** Exports by packet: [late] is the private export, which writes the label even
    when the caller's buffer is too small. *)
Definition gives_key (late : bool) (lcap : nat) (cap : option nat) (p : list N) : kout :=
  let v := unwire cb [4; 4] p in
  let rc := n_rc (fld 0 v) in
  let len := N.to_nat (fld 1 v) in
  let lb := rd 8 (Nat.min lcap 24) p in
  if negb (is_ok rc) then fails rc else
  if length p - 36 <? len then fails ABORTED else
  match cap with
  | None => mkKo OK (Some (N.of_nat len)) None lb None
  | Some n => if n <? len then mkKo ABORTED None None (if late then lb else []) None
              else mkKo OK (Some (N.of_nat len)) (Some (rd 36 len p)) lb None
  end.
(** Blobs: [w] is the width of the length, [off] where the data begin. *)
Definition gives_blob (w off cap : nat) (p : list N) : kout :=
  let v := unwire cb [4; w; 2] p in
  let rc := n_rc (fld 0 v) in
  let len := N.to_nat (fld 1 v) in
  if (length p <? off + len) || negb (N.eqb (fld 2 v) GCM) then fails ABORTED else
  if negb (is_ok rc) then fails rc else
  if cap <? len then fails BUFFER_SIZE else
  mkKo OK (Some (N.of_nat len)) (Some (rd off len p)) [] None.
Definition kresponse (c : kcall) (p : list N) : kout :=
  match c with
  | CCache _ _ _ _ | CRandom _ _ _ _ => sized 12 p (gives_id [4; 2] p)
  | CCacheDma _ _ _ _ _ => if negb (length p =? 24) then fails ABORTED else gives_id [4; 2] (skipn 16 p)
  | CExportDma _ _ _ lcap =>
      if negb (length p =? 48) then fails ABORTED else
      let v := unwire cb [4; 4] (skipn 16 p) in
      let rc := n_rc (fld 0 v) in
      if negb (is_ok rc) then fails rc else
      mkKo OK (Some (fld 1 v mod 65536)%N) None (rd 24 (Nat.min lcap 24) p) None
  | CEvict _ | CCommit _ | CErase _ => sized 12 p (gives_code p)
  | CRevoke _ => sized 8 p (gives_code p)
  | CExport _ lcap cap => sized 36 p (gives_key true lcap cap p)
  | CExportPublic _ _ lcap cap => sized 36 p (gives_key false lcap cap p)
  | CWrap _ _ _ cap | CWrapExport _ _ _ cap => sized 8 p (gives_blob 2 8 cap p)
  | CUnwrapExport _ _ cap => sized 8 p (
      let o := gives_blob 2 40 cap p in
      let w := unwire cb W_NVMMETA (skipn 8 p) in
      if is_ok (o_rc o)
      then mkKo OK (o_num o) (o_data o) [] (Some (mkMeta (fld 0 w) (fld 1 w) (fld 2 w) (fld 3 w) (rd 16 24 p)))
      else o)
  | CUnwrapCache _ _ => sized 8 p (
      if N.eqb (fld 2 (unwire cb [4; 2; 2] p)) GCM then gives_id [4; 2; 2] p else fails ABORTED)
  | CDataWrap _ _ cap | CDataUnwrap _ _ cap => sized 12 p (gives_blob 4 12 cap p)
  end.

(** The blocking calls: wh_client.c 887-905, 980-1003, 1052-1064, 1141-1152,
    1234-1247, 1299-1309, 1361-1371, 1423-1433, 1823-1836, 1945-1957;
    wh_client_keywrap.c 108-132, 214-237, 338-363, 449-470, 562-585, 677-701. *)
Definition kcall_ks (client : N) (c : kcall) (e : kenv) (L : klink) (mem : list N) (S : ks) : kout * list N * ks :=
  match krequest (l_pad L) c with
  | None => (fails BADARGS, mem, S)
  | Some p =>
      if negb (is_ok (l_send L)) then (fails (l_send L), mem, S) else
      let '(resp, mem', S') := kserve (kaction c) (length p) (p ++ skipn (length p) (l_old L)) mem client e S in
      (if is_ok (l_recv L) then kresponse c resp else fails (l_recv L), mem', S')
  end.
(** The same in the whole system: the client is connected to server context
    [i]. *)
Definition kcall_sys (i : nat) (client : N) (c : kcall) (e : kenv) (L : klink) (mem : list N) (Y : sys) : kout * list N * sys :=
  let '(o, mem', S1) := kcall_ks client c e L mem (ks_of Y i) in (o, mem', put_ks Y i S1).
End Kyc.
