(** The AutoSAR SHE extension: src/wh_server_she.c 60-1986, src/wh_she_common.c
    36-75, src/wh_she_crypto.c 45-258, wolfhsm/wh_she_common.h 36-125,
    wolfhsm/wh_server_she.h.

    Key slots are keys of type SHE in the key store of KsModel.v.  wolfCrypt's
    AES block cipher, CBC mode and CMAC are parameters; the key derivation built
    on the block cipher in wh_she_crypto.c is modelled.  A request is given by
    its fields; a request whose size does not fit its fields is [SBad].  The
    server always has an NVM context.  The response's [status] words repeat what
    the return code says and are left out, except for GET_STATUS and VERIFY_MAC. *)
From Verif Require Import Base NvmSpec Flags KeyId Store NvmReqModel KsModel KsReq.
Local Open Scope N_scope.

(** WH_SHE_ERC_*: wolfhsm/wh_error.h 64-75. *)
Definition SEQUENCE_ERROR : Z := (-2200)%Z.
Definition KEY_NOT_AVAILABLE : Z := (-2201)%Z.
Definition KEY_INVALID : Z := (-2202)%Z.
Definition KEY_EMPTY : Z := (-2203)%Z.
Definition NO_SECURE_BOOT : Z := (-2204)%Z.
Definition WRITE_PROTECTED : Z := (-2205)%Z.
Definition KEY_UPDATE_ERROR : Z := (-2206)%Z.
Definition RNG_SEED : Z := (-2207)%Z.
Definition NO_DEBUGGING : Z := (-2208)%Z.
Definition BUSY : Z := (-2209)%Z.
Definition MEMORY_FAILURE : Z := (-2210)%Z.
Definition GENERAL_ERROR : Z := (-2211)%Z.

(** Key slots: wh_she_common.h 36-41. *)
Definition SLOT_SECRET : N := 0.
Definition SLOT_BOOT_MAC_KEY : N := 2.
Definition SLOT_BOOT_MAC : N := 3.
Definition SLOT_RAM : N := 14.
Definition SLOT_SEED : N := 15.
(** Key flags: wh_she_common.h 100-104. *)
Definition SF_WRITE_PROTECT : N := 1.
Definition SF_WILDCARD : N := 16.
(** WH_SHE_UID_SZ; AES_BLOCK_SIZE. *)
Definition UID_SZ : nat := 15.

(** wh_Utils_ntohl of the 4 bytes at the start of [l], wh_Utils_htonl. *)
Definition be32 (l : list N) : N :=
  N.lor (N.lor (N.shiftl (nth 0 l 0) 24) (N.shiftl (nth 1 l 0) 16)) (N.lor (N.shiftl (nth 2 l 0) 8) (nth 3 l 0)).
Definition to_be32 (x : N) : list N :=
  [N.land (N.shiftr x 24) 255; N.land (N.shiftr x 16) 255; N.land (N.shiftr x 8) 255; N.land x 255].

(** wh_She_Label2Meta, wh_She_Meta2Label: wh_she_common.c 38-75. *)
Definition she_count (label : list N) : N := be32 label.
Definition she_flags (label : list N) : N := be32 (skipn 4 label).
Definition she_label (count flags : N) (label : list N) : list N := to_be32 count ++ to_be32 flags ++ skipn 8 label.

(** _PopAuthId, _PopId, _PopFlags: wh_server_she.c 173-191. *)
Definition pop_auth (m1 : list N) : N := N.land (nth 15 m1 0) 15.
Definition pop_id (m1 : list N) : N := N.shiftr (N.land (nth 15 m1 0) 240) 4.
Definition pop_flags (m2 : list N) : N :=
  N.lor (N.shiftl (N.land (nth 3 m2 0) 15) 4) (N.shiftr (N.land (nth 4 m2 0) 128) 7).

(** WH_SHE_KEY_UPDATE_ENC_C and its siblings: wh_she_common.h 107-122. *)
Definition she_const (x : N) : list N := [1; x; 83; 72; 69; 0; 128; 0; 0; 0; 0; 0; 0; 0; 0; 176].
Definition ENC_C : list N := she_const 1.
Definition MAC_C : list N := she_const 2.
Definition PRNG_C : list N := she_const 4.
Definition PRNG_SEED_C : list N := she_const 5.

Fixpoint xor_bytes (a b : list N) : list N :=
  match a, b with x :: a', y :: b' => N.lxor x y :: xor_bytes a' b' | _, _ => [] end.

(** enum WH_SHE_SB_STATE: wh_server_she.c 63-69. *)
Inductive sbst := SbInit | SbUpdate | SbFinish | SbSuccess | SbFailure.
Definition sb_eqb (a b : sbst) : bool :=
  match a, b with
  | SbInit, SbInit | SbUpdate, SbUpdate | SbFinish, SbFinish | SbSuccess, SbSuccess | SbFailure, SbFailure => true
  | _, _ => false
  end.

(** whServerSheContext: wolfhsm/wh_server_she.h.  The CMAC object is its key and
    the bytes fed so far. *)
Record she := mkShe {
  h_sb : sbst; h_cmk : bool; h_plain : bool; h_uidset : bool; h_size : N; h_recv : N; h_rnd : bool;
  h_ck : list N; h_cd : list N; h_state : list N; h_pkey : list N; h_uid : list N }.
(** As wh_Server_Init leaves it (zeroed context). *)
Definition she_zero_ctx : she :=
  mkShe SbInit false false false 0 0 false [] [] (repeat 0 16) (repeat 0 16) (repeat 0 UID_SZ).
Definition set_sb (h : she) (s : sbst) : she :=
  mkShe s (h_cmk h) (h_plain h) (h_uidset h) (h_size h) (h_recv h) (h_rnd h) (h_ck h) (h_cd h) (h_state h) (h_pkey h) (h_uid h).
Definition set_boot (h : she) (s : sbst) (cmk : bool) (size recv : N) : she :=
  mkShe s cmk (h_plain h) (h_uidset h) size recv (h_rnd h) (h_ck h) (h_cd h) (h_state h) (h_pkey h) (h_uid h).
Definition set_cmac (h : she) (k d : list N) : she :=
  mkShe (h_sb h) (h_cmk h) (h_plain h) (h_uidset h) (h_size h) (h_recv h) (h_rnd h) k d (h_state h) (h_pkey h) (h_uid h).
Definition set_plain (h : she) : she :=
  mkShe (h_sb h) (h_cmk h) true (h_uidset h) (h_size h) (h_recv h) (h_rnd h) (h_ck h) (h_cd h) (h_state h) (h_pkey h) (h_uid h).
Definition set_prng (h : she) (inited : bool) (st k : list N) : she :=
  mkShe (h_sb h) (h_cmk h) (h_plain h) (h_uidset h) (h_size h) (h_recv h) inited (h_ck h) (h_cd h) st k (h_uid h).
Definition set_uid (h : she) (u : list N) : she :=
  mkShe (h_sb h) (h_cmk h) (h_plain h) true (h_size h) (h_recv h) (h_rnd h) (h_ck h) (h_cd h) (h_state h) (h_pkey h) u.

(** Operations with a key: ENC_ECB, DEC_ECB, ENC_CBC, DEC_CBC, GEN_MAC, VERIFY_MAC. *)
Inductive sop := OEncEcb | ODecEcb | OEncCbc (iv : list N) | ODecCbc (iv : list N) | OGenMac | OVerifyMac (mac : list N).

(** Requests: wolfhsm/wh_message.h 80-98, wolfhsm/wh_message_she.h. *)
Inductive action := ASetUid | ABootInit | ABootUpdate | ABootFinish | AStatus | ALoadKey | ALoadPlain | AExportRam
  | AInitRnd | ARnd | AExtendSeed | AUse.
Inductive sreq :=
| SSetUid (uid : list N)
| SBootInit (sz : N)
| SBootUpdate (data : list N)
| SBootFinish
| SStatus
| SLoadKey (m1 m2 m3 : list N)
| SLoadPlain (key : list N)
| SExportRam
| SInitRnd
| SRnd
| SExtendSeed (entropy : list N)
| SUse (op : sop) (slot : N) (data : list N)
| SBad (a : action)        (* the size of the request does not fit *)
| SUnknown.                (* no such action *)
Definition action_of (q : sreq) : option action :=
  match q with
  | SSetUid _ => Some ASetUid | SBootInit _ => Some ABootInit | SBootUpdate _ => Some ABootUpdate
  | SBootFinish => Some ABootFinish | SStatus => Some AStatus | SLoadKey _ _ _ => Some ALoadKey
  | SLoadPlain _ => Some ALoadPlain | SExportRam => Some AExportRam | SInitRnd => Some AInitRnd | SRnd => Some ARnd
  | SExtendSeed _ => Some AExtendSeed | SUse _ _ _ => Some AUse | SBad a => Some a | SUnknown => None
  end.
Definition is_boot (a : option action) : bool :=
  match a with Some ABootInit | Some ABootUpdate | Some ABootFinish => true | _ => false end.

(** What the environment decides: whether the NVM lock is taken, the outcome of
    the [n]th read of NVM metadata and of the NVM write, whether the wolfCrypt
    calls before and after the key is written succeed, and the bytes of an
    uninitialised stack buffer. *)
Record senv := mkSenv {
  se_lock : bool; se_rd : nat -> Z; se_nvm : Z; se_c1 : bool; se_c2 : bool; se_stack : list N }.

(** Answer: return code, status word, output bytes. *)
Record sresp := mkSr { sr_rc : Z; sr_word : N; sr_out : list N }.

(** _TranslateSheReturnCode: wh_server_she.c 133-158. *)
Definition translate (rc : Z) : Z :=
  if existsb (Z.eqb rc) [OK; SEQUENCE_ERROR; KEY_NOT_AVAILABLE; KEY_INVALID; KEY_EMPTY; NO_SECURE_BOOT; WRITE_PROTECTED;
                         KEY_UPDATE_ERROR; RNG_SEED; NO_DEBUGGING; BUSY; MEMORY_FAILURE]
  then rc else GENERAL_ERROR.

(** WH_SHE_BOOT_MAC_PREFIX_LEN zeros, then the size as it lies in memory
    (little-endian): wh_server_she.c 277-289. *)
Definition boot_prefix (sz : N) : list N := repeat 0 12 ++ le_enc 4 sz.

Section She.
Variable C : kscfg.
(** AES-128 of one block; CBC with a zero IV; CMAC; the remaining operations
    ([None]: wolfCrypt reports an error). *)
Variable aes : list N -> list N -> list N.
Variable cbc_enc cbc_dec : list N -> list N -> list N.
Variable cmac : list N -> list N -> list N.
Variable use_op : sop -> list N -> list N -> option (list N).

(** wh_She_AesMp16_ex: wh_she_crypto.c 45-100, the blocks left to do, with the
    previous output as key. *)
Fixpoint mp_blocks (fuel : nat) (prev l : list N) : list N :=
  match fuel with
  | O => prev
  | S f => match l with
           | [] => prev
           | _ => let b := exactly 16 l in
                  mp_blocks f (xor_bytes (xor_bytes (aes prev b) b) prev) (skipn 16 l)
           end
  end.
Definition mp16 (l : list N) : list N := mp_blocks (length l) (repeat 0 16) l.

(** WH_SHE_MAKE_KEYID: wh_she_common.h 43-54. *)
Definition she_user (client : N) : N := if she_global C then 0 else client.
Definition she_id (client slot : N) : N := mk_keyid KT_SHE (she_user client) slot.

(** wh_Server_KeystoreReadKey as these handlers call it, with room for 16 bytes.
    The metadata the caller ends up with, also when the read of the object's
    bytes fails (wh_server_keystore.c 1066-1110); a read of the NVM metadata may
    fail with the code [rd]. *)
Definition meta_read (S : ks) (id : N) : meta :=
  match find_cache C S id with
  | Some s => if 16 <? m_len (sl_meta s) then meta_zero else sl_meta s
  | None => match sp_find (k_st S) id with
            | Some (m, _) => if 16 <? m_len m then meta_zero else m
            | None => if have_she C && N.eqb (kid_id id) SHE_MASTER_ECU
                      then with_len (with_id meta_zero id) (N.of_nat SHE_KEY_SZ) else meta_zero
            end
  end.
Definition she_read (rd : Z) (S : ks) (id : N) : Z * ks * meta * list N :=
  match find_cache C S id with
  | None => if is_ok rd
            then let '(rc, S1, _, d) := read_key C S id 16 in (rc, S1, meta_read S id, d)
            else (rd, S, meta_zero, [])
  | Some _ => let '(rc, S1, _, d) := read_key C S id 16 in (rc, S1, meta_read S id, d)
  end.

(** What a handler returns: its return value, the status word, the output, the
    SHE context and the key store. *)
Definition hres : Type := Z * N * list N * she * ks.
Definition err (rc : Z) (h : she) (S : ks) : hres := (rc, 0, [], h, S).

(** _SetUid: wh_server_she.c 193-222. *)
Definition do_set_uid (uid : list N) (h : she) (S : ks) : hres :=
  if h_uidset h then err SEQUENCE_ERROR h S else (OK, 0, [], set_uid h (exactly UID_SZ uid), S).

(** _SecureBootInit: wh_server_she.c 226-305. *)
Definition do_boot_init (e : senv) (client sz : N) (h : she) (S : ks) : hres :=
  if negb (sb_eqb (h_sb h) SbInit) then err SEQUENCE_ERROR h S else
  let '(rc, S1, _, k) := she_read (se_rd e 0) S (she_id client SLOT_BOOT_MAC_KEY) in
  if negb (is_ok rc) || negb (Nat.eqb (length k) 16)
  then err NO_SECURE_BOOT (set_boot h SbSuccess false sz (h_recv h)) S1
  else if negb (se_c1 e) then err GENERAL_ERROR (set_boot h (h_sb h) true sz (h_recv h)) S1
  else (OK, 0, [], set_cmac (set_boot h SbUpdate true sz (h_recv h)) k (boot_prefix sz), S1).

(** _SecureBootUpdate: wh_server_she.c 309-367; blSizeReceived is a uint32_t. *)
Definition do_boot_update (e : senv) (data : list N) (h : she) (S : ks) : hres :=
  if negb (sb_eqb (h_sb h) SbUpdate) then err SEQUENCE_ERROR h S else
  let recv := (h_recv h + N.of_nat (length data)) mod 2 ^ 32 in
  let h1 := set_boot h (h_sb h) (h_cmk h) (h_size h) recv in
  if h_size h <? recv then err SEQUENCE_ERROR h1 S else
  if negb (se_c1 e) then err GENERAL_ERROR h1 S else
  let h2 := set_cmac h1 (h_ck h1) (h_cd h1 ++ data) in
  (OK, 0, [], (if N.eqb recv (h_size h) then set_sb h2 SbFinish else h2), S).

(** _SecureBootFinish: wh_server_she.c 371-429; 16 bytes are compared whatever
    the length of the stored MAC. *)
Definition do_boot_finish (e : senv) (client : N) (h : she) (S : ks) : hres :=
  if negb (sb_eqb (h_sb h) SbFinish) then err SEQUENCE_ERROR h S else
  if negb (se_c1 e) then err GENERAL_ERROR h S else
  let '(rc, S1, _, mac) := she_read (se_rd e 0) S (she_id client SLOT_BOOT_MAC) in
  if negb (is_ok rc) then err KEY_NOT_AVAILABLE h S1 else
  if list_eq_dec N.eq_dec (exactly 16 (cmac (h_ck h) (h_cd h))) (exactly 16 (mac ++ skipn (length mac) (se_stack e)))
  then (OK, 0, [], set_sb h SbSuccess, S1)
  else err GENERAL_ERROR (set_sb h SbFailure) S1.

(** _GetStatus: wh_server_she.c 433-472. *)
Definition do_status (h : she) (S : ks) : hres :=
  (OK, (if h_cmk h then 2 else 0) +
       (match h_sb h with SbSuccess | SbFailure => 8 | _ => 0 end) +
       (match h_sb h with SbSuccess => 16 | _ => 0 end) +
       (if h_rnd h then 32 else 0), [], h, S).

(** The answer to a key update: M4 and M5 (wh_server_she.c 665-719). *)
Definition m4_of (uid : list N) (id auth count : N) (key : list N) : list N :=
  let k3 := mp16 (key ++ ENC_C) in
  let c := to_be32 (N.land (N.shiftl count 4) (2 ^ 32 - 1)) in
  let block := firstn 3 c ++ [N.lor (nth 3 c 0) 8] ++ repeat 0 12 in
  uid ++ [N.lor (N.shiftl id 4) auth] ++ aes k3 block.
Definition m5_of (key m4 : list N) : list N := cmac (mp16 (key ++ MAC_C)) m4.

(** _LoadKey: wh_server_she.c 476-737. *)
Definition do_load_key (e : senv) (client : N) (m1 m2 m3 : list N) (h : she) (S : ks) : hres :=
  let m1 := exactly 16 m1 in let m2 := exactly 32 m2 in let m3 := exactly 16 m3 in
  let auth := pop_auth m1 in let id := pop_id m1 in let kid := she_id client id in
  (* the authorising key; K2; M3; K1; M2 in clear *)
  let '(rc, S1, _, ak) := she_read (se_rd e 0) S (she_id client auth) in
  if Z.eqb rc NOSPACE || is_ok rc && negb (Nat.eqb (length ak) 16) then err KEY_INVALID h S1 else
  if negb (is_ok rc) then err rc h S1 else
  if negb (se_c1 e) then err GENERAL_ERROR h S1 else
  let k2 := mp16 (ak ++ MAC_C) in
  let h1 := set_cmac h k2 (m1 ++ m2) in
  if negb (if list_eq_dec N.eq_dec m3 (exactly 16 (cmac k2 (m1 ++ m2))) then true else false)
  then err KEY_UPDATE_ERROR h1 S1 else
  let clear := exactly 32 (cbc_dec (mp16 (ak ++ ENC_C)) m2) in
  (* the slot as it is *)
  let '(rt, S2, m, old) := she_read (se_rd e 1) S1 kid in
  if Z.eqb rt NOSPACE || is_ok rt && negb (Nat.eqb (length old) 16) then err KEY_INVALID h1 S2 else
  let count := she_count (m_label m) in let flags := she_flags (m_label m) in
  if negb (Z.eqb rt NOTFOUND) && N.testbit flags 0 then err WRITE_PROTECTED h1 S2 else
  (* unique id or wildcard *)
  if (if list_eq_dec N.eq_dec (firstn UID_SZ m1) (repeat 0 UID_SZ) then negb (N.testbit flags 4)
      else if list_eq_dec N.eq_dec (firstn UID_SZ m1) (h_uid h) then false else true)
  then err KEY_UPDATE_ERROR h1 S2 else
  (* counter *)
  let new_count := N.shiftr (be32 clear) 4 in
  if negb (Z.eqb rt NOTFOUND) && (new_count <=? count) then err KEY_UPDATE_ERROR h1 S2 else
  (* the new key *)
  let key := skipn 16 clear in
  let nm := mkMeta kid (m_access m) (m_flags m) (N.of_nat SHE_KEY_SZ) (she_label new_count (pop_flags clear) (m_label m)) in
  let '(rw, S3, fm, fk) :=
    if N.eqb (kid_id kid) SLOT_RAM
    then let '(rw, S3) := cache_key C false S2 nm key in (rw, S3, nm, key)
    else let '(rw, st) := nv_add (se_nvm e) nm key (k_st S2) in
         let S3 := set_st S2 st in
         if negb (is_ok rw) then (rw, S3, nm, key) else
         let '(rv, S4) := evict_key C S3 kid in
         if negb (is_ok rv) && negb (Z.eqb rv NOTFOUND) then (rv, S4, nm, key) else
         she_read (se_rd e 2) S4 kid in
  if negb (is_ok rw) then err KEY_UPDATE_ERROR h1 S3 else
  if negb (se_c2 e) then err GENERAL_ERROR h1 S3 else
  let m4 := m4_of (h_uid h) id auth (she_count (m_label fm)) fk in
  let h2 := set_cmac h1 (mp16 (fk ++ MAC_C)) m4 in
  (OK, 0, m4 ++ m5_of fk m4, (if N.eqb (kid_id kid) SLOT_RAM then set_plain h2 else h2), S3).

(** _LoadPlainKey: wh_server_she.c 739-773. *)
Definition ram_meta (client : N) : meta := with_len (with_id meta_zero (she_id client SLOT_RAM)) (N.of_nat SHE_KEY_SZ).
Definition do_load_plain (client : N) (key : list N) (h : she) (S : ks) : hres :=
  let '(rc, S1) := cache_key C false S (ram_meta client) (exactly 16 key) in
  if is_ok rc then (OK, 0, [], set_plain h, S1) else err rc h S1.

(** M1, M2 and M3 of an update of slot [id] authorised by slot [auth] (whose key
    is [ak]): wh_server_she.c 815-872, wh_she_crypto.c 128-186.  [field] is the
    word in front: counter and flags. *)
Definition m1_of (uid : list N) (id auth : N) : list N := uid ++ [N.land (N.lor (N.shiftl id 4) auth) 255].
Definition m2_of (ak : list N) (field : N) (key : list N) : list N :=
  cbc_enc (mp16 (ak ++ ENC_C)) (to_be32 field ++ repeat 0 12 ++ key).
Definition m3_of (ak m1 m2 : list N) : list N := cmac (mp16 (ak ++ MAC_C)) (m1 ++ m2).

(** _ExportRamKey: wh_server_she.c 777-938; a SECRET_KEY or RAM key of another
    size than 16 bytes is not modelled (answered as not available). *)
Definition do_export_ram (e : senv) (client : N) (h : she) (S : ks) : hres :=
  if negb (h_plain h) then err KEY_INVALID h S else
  let '(rc, S1, _, ak) := she_read (se_rd e 0) S (she_id client SLOT_SECRET) in
  if negb (is_ok rc) || negb (Nat.eqb (length ak) 16) then err KEY_NOT_AVAILABLE h S1 else
  if negb (se_c1 e) then err GENERAL_ERROR h S1 else
  let '(rr, S2, _, key) := she_read (se_rd e 1) S1 (she_id client SLOT_RAM) in
  if negb (is_ok rr) || negb (Nat.eqb (length key) 16) then err KEY_NOT_AVAILABLE h S2 else
  if negb (se_c2 e) then err GENERAL_ERROR h S2 else
  let m1 := m1_of (h_uid h) SLOT_RAM SLOT_SECRET in
  let m2 := m2_of ak 16 key in
  let m4 := m4_of (h_uid h) SLOT_RAM SLOT_SECRET 1 key in
  (OK, 0, m1 ++ m2 ++ m3_of ak m1 m2 ++ m4 ++ m5_of key m4, set_cmac h (mp16 (key ++ MAC_C)) m4, S2).

(** Writing the seed: wh_server_she.c 1003-1021, 1148-1163; the copy in the
    cache, if any, stays as it was. *)
Definition write_seed (e : senv) (client : N) (m : meta) (seed : list N) (S : ks) : Z * ks :=
  let nm := mkMeta (she_id client SLOT_SEED) (m_access m) (m_flags m) (N.of_nat SHE_KEY_SZ) (m_label m) in
  let '(rw, st) := nv_add (se_nvm e) nm (exactly 16 seed) (k_st S) in (rw, set_st S st).
(** A 16-byte buffer after a read of [d], which may be shorter. *)
Definition buf16 (e : senv) (d : list N) : list N := exactly 16 (d ++ skipn (length d) (se_stack e)).

(** _InitRnd: wh_server_she.c 942-1052. *)
Definition do_init_rnd (e : senv) (client : N) (h : she) (S : ks) : hres :=
  if h_rnd h then err SEQUENCE_ERROR h S else
  let '(rc, S1, _, sk) := she_read (se_rd e 0) S (she_id client SLOT_SECRET) in
  if negb (is_ok rc) then err KEY_NOT_AVAILABLE h S1 else
  if negb (se_c1 e) then err GENERAL_ERROR h S1 else
  let '(rs, S2, m, seed) := she_read (se_rd e 1) S1 (she_id client SLOT_SEED) in
  if negb (is_ok rs) then err KEY_NOT_AVAILABLE h S2 else
  let new_seed := exactly 16 (cbc_enc (mp16 (buf16 e sk ++ PRNG_SEED_C)) (buf16 e seed)) in
  let '(rw, S3) := write_seed e client m new_seed S2 in
  if negb (is_ok rw) then err KEY_UPDATE_ERROR h S3 else
  if negb (se_c2 e) then err GENERAL_ERROR (set_prng h (h_rnd h) new_seed (h_pkey h)) S3 else
  (OK, 0, [], set_prng h true new_seed (mp16 (buf16 e sk ++ PRNG_C)), S3).

(** _Rnd: wh_server_she.c 1055-1098. *)
Definition do_rnd (e : senv) (h : she) (S : ks) : hres :=
  if negb (h_rnd h) then err RNG_SEED h S else
  if negb (se_c1 e) then err GENERAL_ERROR h S else
  let st := exactly 16 (cbc_enc (h_pkey h) (h_state h)) in
  (OK, 0, st, set_prng h (h_rnd h) st (h_pkey h), S).

(** _ExtendSeed: wh_server_she.c 1100-1179. *)
Definition do_extend_seed (e : senv) (client : N) (entropy : list N) (h : she) (S : ks) : hres :=
  if negb (h_rnd h) then err RNG_SEED h S else
  if negb (se_c1 e) then err GENERAL_ERROR h S else
  let ent := exactly 16 entropy in
  let h1 := set_prng h (h_rnd h) (mp16 (h_state h ++ ent)) (h_pkey h) in
  let '(rs, S1, m, seed) := she_read (se_rd e 0) S (she_id client SLOT_SEED) in
  if negb (is_ok rs) then err KEY_NOT_AVAILABLE h1 S1 else
  if negb (se_c2 e) then err GENERAL_ERROR h1 S1 else
  let '(rw, S2) := write_seed e client m (mp16 (exactly 16 (seed ++ skipn (length seed) (h_state h)) ++ ent)) S1 in
  if negb (is_ok rw) then err KEY_UPDATE_ERROR h1 S2 else (OK, 0, [], h1, S2).

(** _EncEcb, _EncCbc, _DecEcb, _DecCbc, _GenerateMac, _VerifyMac: wh_server_she.c
    1181-1637.  Ciphers work on whole blocks; the MAC operations and _DecCbc insist
    on a 16-byte key, the former use the CMAC object. *)
Definition do_use (op : sop) (client slot : N) (data : list N) (e : senv) (h : she) (S : ks) : hres :=
  let is_mac := match op with OGenMac | OVerifyMac _ => true | _ => false end in
  let inp := if is_mac then data else firstn (length data - length data mod 16) data in
  let strict := match op with ODecCbc _ => true | _ => is_mac end in
  let '(rc, S1, _, k) := she_read (se_rd e 0) S (she_id client slot) in
  if negb (is_ok rc) || strict && negb (Nat.eqb (length k) 16) then err KEY_NOT_AVAILABLE h S1 else
  let h1 := if is_mac then set_cmac h k inp else h in
  let o := if se_c1 e then use_op op k inp else None in
  match op with
  | OVerifyMac _ => (OK, (match o with Some _ => 0 | None => 1 end), [], h1, S1)
  | _ => match o with
         | Some out => (OK, 0, out, h1, S1)
         | None => err GENERAL_ERROR h1 S1
         end
  end.

(** _ReportInvalidSheState: wh_server_she.c 1645-1677.  true: refused. *)
Definition refused (q : sreq) (h : she) : bool :=
  match action_of q with
  | Some AStatus => false
  | Some ASetUid => h_uidset h
  | a => if negb (h_uidset h) then true else negb (is_boot a) && negb (sb_eqb (h_sb h) SbSuccess)
  end.
(** Actions that take the NVM lock: the switch of wh_Server_HandleSheRequest. *)
Definition locks (a : option action) : bool :=
  match a with
  | Some ASetUid | Some ABootUpdate | Some AStatus | Some ARnd | None => false
  | _ => true
  end.
(** wh_Server_HandleSheRequest: wh_server_she.c 1823-1986. *)
Definition she_handle (e : senv) (client : N) (q : sreq) (h : she) (S : ks) : hres :=
  if locks (action_of q) && negb (se_lock e) then err LOCKED h S else
  match q with
  | SSetUid u => do_set_uid u h S
  | SBootInit sz => do_boot_init e client sz h S
  | SBootUpdate d => do_boot_update e d h S
  | SBootFinish => do_boot_finish e client h S
  | SStatus => do_status h S
  | SLoadKey m1 m2 m3 => do_load_key e client m1 m2 m3 h S
  | SLoadPlain k => do_load_plain client k h S
  | SExportRam => do_export_ram e client h S
  | SInitRnd => do_init_rnd e client h S
  | SRnd => do_rnd e h S
  | SExtendSeed x => do_extend_seed e client x h S
  | SUse op slot d => do_use op client slot d e h S
  | SBad _ => err BUFFER_SIZE h S
  | SUnknown => err BADARGS h S
  end.
Definition she_step (e : senv) (client : N) (q : sreq) (h : she) (S : ks) : sresp * she * ks :=
  if refused q h then (mkSr SEQUENCE_ERROR 0 [], h, S) else
  let '(rc, w, out, h1, S1) := she_handle e client q h S in
  let h2 := if is_boot (action_of q) && negb (is_ok rc) && negb (Z.eqb rc NO_SECURE_BOOT)
            then set_boot h1 SbInit false 0 0 else h1 in
  (mkSr (if locks (action_of q) && negb (se_lock e) then rc else translate rc) w out, h2, S1).

(** ** Client side *)
(** wh_She_GenerateLoadableKey: wh_she_crypto.c 109-258. *)
Definition generate_loadable (id auth count flags : N) (uid key ak : list N) : list N * list N * list N * list N * list N :=
  let field := N.land (N.lor (N.shiftl count 4) flags) (2 ^ 32 - 1) in
  let m1 := m1_of uid id auth in
  let m2 := m2_of ak field key in
  let m4 := uid ++ [N.land (N.lor (N.shiftl id 4) auth) 255] ++
            aes (mp16 (key ++ ENC_C)) (to_be32 (N.land (N.lor (N.shiftl count 4) 8) (2 ^ 32 - 1)) ++ repeat 0 12) in
  (m1, m2, m3_of ak m1 m2, m4, m5_of key m4).
End She.
