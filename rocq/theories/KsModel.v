(** The key store of a server: key cache and NVM.  src/wh_server_keystore.c
    72-460, 716-1425, 3620-3740.

    A slot buffer is kept as exactly the [len] bytes the metadata announces.
    The server always has an NVM context (the [server->nvm == NULL] branches are
    not modelled), arguments are never NULL, and reads of NVM do not fail.
    Every function runs under one hold of the NVM lock. *)
From Verif Require Import Base NvmSpec Flags KeyId Store NvmReqModel.
Local Open Scope N_scope.

(** whCacheSlot, whBigCacheSlot, whKeyCacheContext: wolfhsm/wh_keycache.h. *)
Record slot := mkSlot { sl_meta : meta; sl_buf : list N; sl_comm : bool }.
Definition slot_zero : slot := mkSlot meta_zero [] false.
Definition sl_id (s : slot) : N := m_id (sl_meta s).
Record cache := mkCache { c_reg : list slot; c_big : list slot }.

(** The first slot satisfying [p] replaced by its image under [f]. *)
Fixpoint upd (p : slot -> bool) (f : slot -> slot) (l : list slot) : option (list slot) :=
  match l with
  | [] => None
  | x :: r => if p x then Some (f x :: r)
              else match upd p f r with Some r' => Some (x :: r') | None => None end
  end.
Definition is_id (id : N) (s : slot) : bool := N.eqb (sl_id s) id.

(** _FindInKeyCache 272-321: the regular slots first, then the big ones. *)
Definition cfind (c : cache) (id : N) : option slot :=
  match find (is_id id) (c_reg c) with
  | Some s => Some s
  | None => find (is_id id) (c_big c)
  end.
(** The same search, changing the slot found. *)
Definition cupd (id : N) (f : slot -> slot) (c : cache) : cache :=
  match upd (is_id id) f (c_reg c) with
  | Some r => mkCache r (c_big c)
  | None => match upd (is_id id) f (c_big c) with
            | Some b => mkCache (c_reg c) b
            | None => c
            end
  end.

(** _EvictSlot 323-328: the id becomes 0 and the bytes zero; the committed flag
    stays. *)
Definition evict_slot (s : slot) : slot :=
  mkSlot (with_id (sl_meta s) 0) (repeat 0 (length (sl_buf s))) (sl_comm s).
(** _EvictKeyFromCache 427-440. *)
Definition evict (c : cache) (id : N) : cache := cupd id evict_slot c.
(** _MarkKeyCommitted 443-461. *)
Definition mark (b : bool) (id : N) (c : cache) : cache :=
  cupd id (fun s => mkSlot (sl_meta s) (sl_buf s) b) c.

(** Search of _GetKeyCacheSlot in one array: the first empty slot, else the
    first committed one (its key is dropped); the slot is zeroed and the caller
    then fills it, here with [s]. *)
Definition place (s : slot) (l : list slot) : option (list slot) :=
  match upd (is_id 0) (fun _ => s) l with
  | Some l' => Some l'
  | None => upd sl_comm (fun _ => s) l
  end.

(** WOLFHSM_CFG_* of one server: key id options, the two slot sizes,
    LMS or XMSS, SHE extension. *)
Record kscfg := mkKs_cfg {
  kc : kcfg; bufsz : N; bigsz : N; have_st : bool; have_she : bool; she_global : bool;
  exp_max : N;      (* WOLFHSM_CFG_COMM_DATA_LEN - sizeof(whMessageKeystore_ExportResponse) *)
  kw_max : N;       (* WOLFHSM_CFG_KEYWRAP_MAX_KEY_SIZE *)
  kwd_max : N;      (* WOLFHSM_CFG_KEYWRAP_MAX_DATA_SIZE *)
  kw_resp : N;      (* room for data in a key wrap response: WOLFHSM_CFG_COMM_DATA_LEN - 8 *)
  kwd_resp : N      (* room for data in a data wrap response: WOLFHSM_CFG_COMM_DATA_LEN - 12 *)
}.

(** What a request reads and writes: NVM, the global cache (in the NVM
    context), the server's local cache. *)
Record ks := mkKs { k_st : store; k_glob : cache; k_loc : cache }.

Section Keystore.
Variable C : kscfg.

(** _GetKeyCacheSlot 333-421. *)
Definition alloc (sz : N) (s : slot) (c : cache) : option cache :=
  if sz <=? bufsz C
  then option_map (fun r => mkCache r (c_big c)) (place s (c_reg c))
  else option_map (fun b => mkCache (c_reg c) b) (place s (c_big c)).

(** _IsGlobalKey 86-94, _GetCacheContext 105-118. *)
Definition is_global (id : N) : bool := k_global (kc C) && N.eqb (kid_user id) 0.
Definition get_ctx (S : ks) (id : N) : cache := if is_global id then k_glob S else k_loc S.
Definition set_ctx (S : ks) (id : N) (c : cache) : ks :=
  if is_global id then mkKs (k_st S) c (k_loc S) else mkKs (k_st S) (k_glob S) c.
Definition set_st (S : ks) (st : store) : ks := mkKs st (k_glob S) (k_loc S).

Definition hwkey (id : N) : bool := k_hw (kc C) && kid_hw id.

(** _FindInCache 942-949. *)
Definition find_cache (S : ks) (id : N) : option slot := cfind (get_ctx S id) id.

(** _KeyIsCommitted 130-148. *)
Definition committed (S : ks) (id : N) : bool :=
  match find_cache S id with Some s => sl_comm s | None => false end.

(** whKsOp 120-129, _KeystoreCheckPolicy 151-258. *)
Inductive ksop := OpCache | OpCommit | OpEvict | OpExport | OpRevoke | OpExportPublic.
Definition check_ks (op : ksop) (S : ks) (id : N) : Z :=
  if kid_unassigned id then BADARGS else
  if hwkey id then ACCESS else
  let '(rc, m) := match find_cache S id with
                  | Some s => (OK, sl_meta s)
                  | None => nv_meta (k_st S) id
                  end in
  if negb (is_ok rc) then rc else
  let fl := m_flags m in
  if has fl F_TRUSTED then ACCESS else
  match op with
  | OpCache => if has fl F_NONMODIFIABLE then ACCESS else OK
  | OpEvict => if committed S id then OK
               else if has fl (N.lor F_NONMODIFIABLE F_NONDESTROYABLE) then ACCESS else OK
  | OpExport => if has fl F_NONEXPORTABLE then ACCESS else OK
  | OpExportPublic | OpCommit | OpRevoke => OK
  end.

(** wh_Server_KeystoreGetUniqueId 716-782, with [n] ids left to try. *)
Fixpoint unique_from (n : nat) (ty user : N) (S : ks) (ctx : cache) : Z * N :=
  match n with
  | O => (NOSPACE, 0)
  | Datatypes.S n' =>
      let k := mk_keyid ty user (N.of_nat n) in
      match cfind ctx k with
      | Some _ => unique_from n' ty user S ctx
      | None => match sp_find (k_st S) k with
                | None => (OK, k)
                | Some _ => unique_from n' ty user S ctx
                end
      end
  end.
Definition unique_id (S : ks) (key_id : N) : Z * N :=
  if kid_wrapped key_id then (BADARGS, key_id) else
  if hwkey key_id then (BADARGS, key_id) else
  unique_from 255 (kid_type key_id) (kid_user key_id) S (get_ctx S key_id).

(** wh_Server_KeystoreEvictKey 1195-1223. *)
Definition evict_key (S : ks) (id : N) : Z * ks :=
  if kid_unassigned id then (BADARGS, S) else
  if hwkey id then (ACCESS, S) else
  match find_cache S id with
  | None => (NOTFOUND, S)
  | Some _ => (OK, set_ctx S id (evict (get_ctx S id) id))
  end.

(** wh_Server_KeystoreGetCacheSlot 785-822; the caller then writes [s] into the
    slot it obtained. *)
Definition cache_slot (S : ks) (id sz : N) (s : slot) : Z * ks :=
  if (bufsz C <? sz) && (bigsz C <? sz) then (BADARGS, S) else
  if hwkey id then (ACCESS, S) else
  let '(rc, S1) := match find_cache S id with
                   | Some _ => evict_key S id
                   | None => (OK, S)
                   end in
  if negb (is_ok rc) then (rc, S1) else
  match alloc sz s (get_ctx S1 id) with
  | Some c => (OK, set_ctx S1 id c)
  | None => (NOSPACE, S1)
  end.
(** wh_Server_KeystoreGetCacheSlotChecked 824-838. *)
Definition cache_slot_checked (S : ks) (id sz : N) (s : slot) : Z * ks :=
  let rc := check_ks OpCache S id in
  if fatal rc then (rc, S) else cache_slot S id sz s.

(** _KeystoreCacheKey 840-889; _MarkKeyCommitted(…, 0) finds the slot just
    written. *)
Definition too_big (len : N) : bool := (bufsz C <? len) && (bigsz C <? len).
Definition cache_key (checked : bool) (S : ks) (m : meta) (d : list N) : Z * ks :=
  if kid_unassigned (m_id m) || too_big (m_len m) then (BADARGS, S) else
  if have_st C && checked && stateful_blob d then (ACCESS, S) else
  if hwkey (m_id m) then (ACCESS, S) else
  let '(rc, S1) := (if checked then cache_slot_checked else cache_slot) S (m_id m) (m_len m) (mkSlot m d false) in
  if negb (is_ok rc) then (rc, S1)
  else (OK, set_ctx S1 (m_id m) (mark false (m_id m) (get_ctx S1 (m_id m)))).

(** _KeystoreCacheRandomKey 903-940: a failing RNG leaves the slot zeroed. *)
Definition cache_random (S : ks) (m : meta) (rng : Z) (d : list N) : Z * ks :=
  if N.eqb (m_len m) 0 || kid_erased (m_id m) || too_big (m_len m) then (BADARGS, S) else
  let '(rc, S1) := cache_slot_checked S (m_id m) (m_len m)
                     (if is_ok rng then mkSlot m d false else slot_zero) in
  if negb (is_ok rc) then (rc, S1) else
  if negb (is_ok rng) then (rng, S1)
  else (OK, set_ctx S1 (m_id m) (mark false (m_id m) (get_ctx S1 (m_id m)))).

(** _KeystoreCacheKeyDma 3623-3665 (checked): metadata first, then the copy;
    cleared again when the copy fails or brings a stateful private key. *)
Definition cache_dma (S : ks) (m : meta) (dma : Z) (d : list N) : Z * ks :=
  let ret := if negb (is_ok dma) then dma
             else if have_st C && stateful_blob d then ACCESS else OK in
  let '(rc, S1) := cache_slot_checked S (m_id m) (m_len m)
                     (if is_ok ret then mkSlot m d false
                      else mkSlot (with_id m 0) (repeat 0 (N.to_nat (m_len m))) false) in
  if negb (is_ok rc) then (rc, S1) else
  if negb (is_ok ret) then (ret, S1)
  else (OK, set_ctx S1 (m_id m) (mark false (m_id m) (get_ctx S1 (m_id m)))).

(** wh_Server_KeystoreFreshenKey 972-1042.  The key material is the slot found
    afterwards. *)
Definition freshen (S : ks) (id : N) : Z * ks :=
  if kid_unassigned id then (BADARGS, S) else
  if hwkey id then (ACCESS, S) else
  match find_cache S id with
  | Some _ => (OK, S)
  | None =>
      if kid_wrapped id then (NOTFOUND, S) else
      let '(rc, m) := nv_meta (k_st S) id in
      if negb (is_ok rc) then (rc, S) else
      let '(rr, d) := sp_read (k_st S) id 0 (N.to_nat (m_len m)) in
      let '(rc, S1) := cache_slot S id (m_len m) (if is_ok rr then mkSlot m d false else slot_zero) in
      if negb (is_ok rc) then (rc, S1) else
      if negb (is_ok rr) then (rr, S1)
      else (OK, set_ctx S1 id (mark true id (get_ctx S1 id)))
  end.

(** SHE key slots: wolfhsm/wh_she_common.h 36-56. *)
Definition SHE_MASTER_ECU : N := 1.
Definition SHE_KEY_SZ : nat := 16.

(** wh_Server_KeystoreReadKey 1046-1143, with an output buffer of [cap] bytes. *)
Definition read_key (S : ks) (id cap : N) : Z * ks * meta * list N :=
  if kid_unassigned id then (BADARGS, S, meta_zero, []) else
  if hwkey id then (ACCESS, S, meta_zero, []) else
  match find_cache S id with
  | Some s => if cap <? m_len (sl_meta s) then (NOSPACE, S, meta_zero, [])
              else (OK, S, sl_meta s, sl_buf s)
  | None =>
      if kid_wrapped id then (NOTFOUND, S, meta_zero, []) else
      match sp_find (k_st S) id with
      | Some (m, _) =>
          if cap <? m_len m then (NOSPACE, S, meta_zero, []) else
          let '(rr, d) := sp_read (k_st S) id 0 (N.to_nat (m_len m)) in
          if negb (is_ok rr) then (rr, S, meta_zero, []) else
          if N.eqb (kid_type (m_id m)) KT_SHE && kid_erased (m_id m) then (OK, S, m, d) else
          let '(rc, S1) := cache_key false S m d in
          (OK, (if is_ok rc then set_ctx S1 id (mark true id (get_ctx S1 id)) else S1), m, d)
      | None =>
          if have_she C && N.eqb (kid_type id) KT_SHE && N.eqb (kid_id id) SHE_MASTER_ECU
          then (OK, S, with_len (with_id meta_zero id) (N.of_nat SHE_KEY_SZ), repeat 0 SHE_KEY_SZ)
          else (NOTFOUND, S, meta_zero, [])
      end
  end.
(** wh_Server_KeystoreReadKeyChecked 1145-1156. *)
Definition read_key_checked (S : ks) (id cap : N) : Z * ks * meta * list N :=
  let rc := check_ks OpExport S id in
  if is_ok rc then read_key S id cap else (rc, S, meta_zero, []).

(** wh_Server_KeystoreEnforceKeyUsage 3719-3740. *)
Definition enforce (flags required : N) : Z :=
  let r := N.land required F_USAGE_ANY in
  if N.eqb (N.land (N.land flags F_USAGE_ANY) r) r then OK else USAGE.
(** wh_Server_KeystoreReadKeyEnforce 1158-1193. *)
Definition read_key_enforce (S : ks) (id usage cap : N) : Z * ks * list N :=
  let '(rc, S1, m, d) := read_key S id cap in
  if negb (is_ok rc) then (rc, S1, []) else
  let ru := enforce (m_flags m) usage in
  if is_ok ru then (OK, S1, d) else (ru, S1, []).
(** _CacheExportRsaKeyEnforce and its siblings (wh_server_crypto.c 329-355,
    715-742, 801-830, 897-937, 1000-1035, 1093-1121): freshen, check, copy. *)
Definition use_key (S : ks) (id usage : N) : Z * ks * list N :=
  if kid_erased id then (BADARGS, S, []) else
  let '(rc, S1) := freshen S id in
  if negb (is_ok rc) then (rc, S1, []) else
  match find_cache S1 id with
  | None => (NOTFOUND, S1, [])
  | Some s => let ru := enforce (m_flags (sl_meta s)) usage in
              if is_ok ru then (OK, S1, sl_buf s) else (ru, S1, [])
  end.

(** wh_Server_KeystoreEvictKeyChecked 1225-1234. *)
Definition evict_checked (S : ks) (id : N) : Z * ks :=
  let rc := check_ks OpEvict S id in
  if is_ok rc then evict_key S id else (rc, S).

(** wh_Server_KeystoreCommitKey 1236-1275; [r] is the outcome of the NVM write
    (wh_Nvm_AddObjectWithReclaim). *)
Definition commit_key (r : Z) (S : ks) (id : N) : Z * ks :=
  if kid_unassigned id then (BADARGS, S) else
  if kid_wrapped id then (ABORTED, S) else
  if hwkey id then (ACCESS, S) else
  match find_cache S id with
  | None => (NOTFOUND, S)
  | Some s =>
      let '(rc, st) := nv_add r (sl_meta s) (sl_buf s) (k_st S) in
      if is_ok rc then (OK, set_ctx (set_st S st) id (mark true id (get_ctx S id)))
      else (rc, S)
  end.
(** wh_Server_KeystoreCommitKeyChecked 1277-1286. *)
Definition commit_checked (r : Z) (S : ks) (id : N) : Z * ks :=
  let rc := check_ks OpCommit S id in
  if is_ok rc then commit_key r S id else (rc, S).

(** wh_Server_KeystoreEraseKeyChecked 1317-1352. *)
Definition erase_checked (r : Z) (S : ks) (id : N) : Z * ks :=
  if kid_unassigned id then (BADARGS, S) else
  if kid_wrapped id then (ABORTED, S) else
  if hwkey id then (ACCESS, S) else
  let '(rc, S1) := evict_checked S id in
  if fatal rc then (rc, S1) else
  let '(rc, st) := destroy_checked r [id] (k_st S1) in
  (rc, set_st S1 st).

(** _revokeKey, _isKeyRevoked 1354-1372. *)
Definition revoke_flags (fl : N) : N := clear (setf fl F_NONMODIFIABLE) F_USAGE_ANY.
Definition is_revoked (fl : N) : bool := has fl F_NONMODIFIABLE && negb (has fl F_USAGE_ANY).
Definition revoke_slot (s : slot) : slot :=
  mkSlot (with_flags (sl_meta s) (revoke_flags (m_flags (sl_meta s)))) (sl_buf s) (sl_comm s).
(** wh_Server_KeystoreRevokeKey 1374-1422. *)
Definition revoke_key (r : Z) (S : ks) (id : N) : Z * ks :=
  if kid_unassigned id then (BADARGS, S) else
  let rc := check_ks OpRevoke S id in
  if negb (is_ok rc) then (rc, S) else
  let in_nvm := is_ok (fst (nv_meta (k_st S) id)) in
  let '(rc, S1) := freshen S id in
  if negb (is_ok rc) then (rc, S1) else
  match find_cache S1 id with
  | None => (NOTFOUND, S1)
  | Some s =>
      if is_revoked (m_flags (sl_meta s)) && sl_comm s then (OK, S1) else
      let s' := revoke_slot s in
      let S2 := set_ctx S1 id (cupd id revoke_slot (get_ctx S1 id)) in
      if in_nvm then
        let '(rc, st) := nv_add r (sl_meta s') (sl_buf s') (k_st S2) in
        if is_ok rc then (OK, set_ctx (set_st S2 st) id (mark true id (get_ctx S2 id)))
        else (rc, S2)
      else (OK, S2)
  end.

(** Key import of the crypto handlers (wh_server_crypto.c 260-306, 655-692,
    745-781, 834-871, 942-978, 1040-1072, 2045-2078, 2092-2125): a slot for
    [slotsz] bytes, the serialised key, metadata without the server-only flags.
    [imp] is the outcome of the serialisation; on failure the slot stays zeroed. *)
Definition import_key (S : ks) (m : meta) (slotsz : N) (imp : Z) (d : list N) : Z * ks :=
  if kid_erased (m_id m) then (BADARGS, S) else
  let '(rc, S1) := cache_slot_checked S (m_id m) slotsz (if is_ok imp then mkSlot m d false else slot_zero) in
  if negb (is_ok rc) then (rc, S1) else (imp, S1).
End Keystore.
