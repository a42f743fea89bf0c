(** * Servers sharing one NVM: what each request touches, and under which lock

    Models the lock discipline of a WOLFHSM_CFG_THREADSAFE build
    (docs/draft/THREADSAFE.md): several server contexts, each in its own
    thread, share one NVM context, and with it the key cache; every request
    handler brackets its accesses with WH_SERVER_NVM_LOCK /
    WH_SERVER_NVM_UNLOCK (wolfhsm/wh_server.h 490-498, src/wh_server.c
    759-781).

    A request handler is a [prog]: a tree of lock calls, accesses to what the
    servers share, and private decisions.  Simplifications, valid for the whole
    file:
    - everything a handler decides from its own message, from a key it has
      already read, from wolfCrypt or from a DMA callback is an arbitrary
      private choice [Env]; a negative choice stands for the failing branch.
      The theorems hold for every sequence of choices, so they cover the real
      ones;
    - an access to the store answers one number: negative is a WH_ERROR code,
      otherwise success (and, for a cache lookup, the number of the slot whose
      address the C returns);
    - the accesses are those of the keystore and NVM interfaces: find a key in
      the cache, take a slot, read/fill/empty a slot, and the calls of
      wh_nvm.h.  What the NVM back end does inside one call is not split up;
    - all key cache slots count as shared.  In the code only those of global
      keys are (src/wh_server_keystore.c _GetCacheContext); the others are
      private to one server, for which the obligations here are stronger than
      necessary;
    - the server has an NVM context (with none there is nothing to share and
      the lock calls do nothing);
    - the request handlers of the comm, custom and PKCS #11 groups are left
      out: they do not call the keystore or the NVM.  A handler of the auth
      group runs under the lock of the server's own authentication context
      (wh_auth.c), which nobody else waits for, so that lock is left out; its
      user table is private here, its NVM objects are not. *)

From Coq Require Import List ZArith Lia Bool.
From Verif Require Import Base.
Import ListNotations.
Local Open Scope Z_scope.

(** The two locks: the one in the shared NVM context (wolfhsm/wh_nvm.h, field
    [lock]) and the one in the global certificate verify cache
    (src/wh_server_cert.c 69-88, only under
    WOLFHSM_CFG_CERTIFICATE_VERIFY_CACHE_GLOBAL). *)
Inductive lk := Nvm | Vc.

(** Accesses to what the servers share. *)
Inductive acc :=
| KFind      (* src/wh_server_keystore.c 272-321: look a key id up in the cache *)
| KAlloc     (* 333-420: take an empty slot, or one whose key is committed *)
| KGet       (* read a slot's metadata or bytes through its address *)
| KPut       (* write a slot's metadata or bytes through its address *)
| KDrop      (* 323-328: wipe a slot *)
| NMeta      (* src/wh_nvm.c 313-327 wh_Nvm_GetMetadata *)
| NRead      (* 366-379 wh_Nvm_Read *)
| NAdd       (* 257-270 wh_Nvm_AddObject *)
| NDel       (* 329-342 wh_Nvm_DestroyObjects *)
| NList      (* 296-311 wh_Nvm_List *)
| NFree      (* 201-217 wh_Nvm_GetAvailable *)
| VGet       (* read the verify cache (src/wh_server_cert.c 154-187, 399-407) *)
| VPut.      (* change the verify cache (188-330) *)

Inductive prog :=
| Ret (rc : Z)
| Acq (l : lk) (k : Z -> prog)      (* wh_Lock_Acquire; 0 = now held *)
| Rel (l : lk) (k : prog)           (* wh_Lock_Release *)
| Use (a : acc) (arg : Z) (k : Z -> prog)
| Env (k : Z -> prog).

Fixpoint bind (p : prog) (f : Z -> prog) : prog :=
  match p with
  | Ret r => f r
  | Acq l k => Acq l (fun r => bind (k r) f)
  | Rel l k => Rel l (bind k f)
  | Use a g k => Use a g (fun r => bind (k r) f)
  | Env k => Env (fun v => bind (k v) f)
  end.

Notation "'let!' x ':=' p 'in' q" := (bind p (fun x => q))
  (at level 200, x name, p at level 100, q at level 200).

(** An argument or a result is checked; the failing branch returns. *)
Definition check (k : prog) : prog := Env (fun v => if v <? 0 then Ret v else k).
(** A step done only if the request asks for it. *)
Definition maybe (p : prog) : prog := Env (fun v => if v <? 0 then Ret 0 else p).
Definition use (a : acc) (arg : Z) : prog := Use a arg Ret.

(* ------------------------------------------------------------------ *)
(** ** NVM calls made of several back-end calls *)

(** src/wh_nvm.c 44-95 wh_Nvm_CheckPolicy: the metadata, then the flags. *)
Definition nvm_policy (id : Z) : prog :=
  let! m := use NMeta id in
  if m <? 0 then Ret m else Env Ret.

(** 219-255 wh_Nvm_AddObjectWithReclaim: free space, possibly a reclaim
    (destroying nothing), then the add. *)
Definition nvm_add_reclaim (id : Z) : prog :=
  let! r := use NFree id in
  if r <? 0 then Ret r else
  Env (fun full =>
    if full <? 0 then
      check (let! d := use NDel 0 in
             if d <? 0 then Ret d else use NAdd id)
    else use NAdd id).

(** 272-294 wh_Nvm_AddObjectChecked. *)
Definition nvm_add_checked (id : Z) : prog :=
  let! r := nvm_policy id in
  if andb (r <? 0) (negb (r =? NOTFOUND)) then Ret r else use NAdd id.

(** 344-364 wh_Nvm_DestroyObjectsChecked: the policy of every id, then one
    destroy. *)
Fixpoint nvm_del_policies (ids : list Z) (k : prog) : prog :=
  match ids with
  | [] => k
  | i :: rest =>
      let! r := nvm_policy i in
      if andb (r <? 0) (negb (r =? NOTFOUND)) then Ret r
      else nvm_del_policies rest k
  end.
Definition nvm_del_checked (ids : list Z) : prog :=
  nvm_del_policies ids (use NDel (hd 0 ids)).

(** 381-394 wh_Nvm_ReadChecked. *)
Definition nvm_read_checked (id : Z) : prog :=
  let! r := nvm_policy id in
  if r <? 0 then Ret r else use NRead id.

(* ------------------------------------------------------------------ *)
(** ** Keystore functions: none of them locks, except [read_enforce] *)

Definition find (id : Z) : prog := use KFind id.

(** src/wh_server_keystore.c 1195-1222 (427-438 inside). *)
Definition evict (id : Z) : prog :=
  check (let! s := find id in
         if s <? 0 then Ret s else use KDrop s).

(** 444-460 _MarkKeyCommitted. *)
Definition mark (id : Z) : prog :=
  let! s := find id in
  if s <? 0 then Ret s else use KPut s.

(** 151-257 _KeystoreCheckPolicy (any operation; the committed flag is read
    for eviction only, 217-223). *)
Definition policy (id : Z) : prog :=
  check (let! s := find id in
         if 0 <=? s then
           let! f := use KGet s in
           let! c := maybe (let! s2 := find id in
                            if s2 <? 0 then Ret s2 else use KGet s2) in
           Env Ret
         else if negb (s =? NOTFOUND) then Ret s else
         let! m := use NMeta id in
         if m <? 0 then Ret m else Env Ret).

(** 785-823 wh_Server_KeystoreGetCacheSlot. *)
Definition get_slot (id : Z) : prog :=
  check (let! s := find id in
         if 0 <=? s then
           let! r := evict id in
           if r <? 0 then Ret r else use KAlloc id
         else if negb (s =? NOTFOUND) then Ret s
         else use KAlloc id).

(** 826-836 wh_Server_KeystoreGetCacheSlotChecked. *)
Definition get_slot_checked (id : Z) : prog :=
  let! r := policy id in
  if andb (r <? 0) (negb (r =? NOTFOUND)) then Ret r else get_slot id.

(** 716-781 wh_Server_KeystoreGetUniqueId: try ids one after the other; each
    is looked for in the cache, then in NVM.  The number of ids tried is an
    argument; the answer is the id found. *)
Fixpoint unique_id (n : nat) (id : Z) : prog :=
  match n with
  | O => Ret NOSPACE
  | S n' =>
      let! s := find id in
      if 0 <=? s then unique_id n' (id - 1)
      else if negb (s =? NOTFOUND) then Ret s else
      let! m := use NMeta id in
      if m =? NOTFOUND then Ret (Z.abs id)
      else if m <? 0 then Ret m
      else unique_id n' (id - 1)
  end.
(** 255 ids at most (WH_KEYID_IDMAX). *)
Definition pick_id (id : Z) : prog :=
  Env (fun given => if given <? 0 then unique_id 255 id else Ret (Z.abs id)).

(** 840-888 _KeystoreCacheKey, both variants. *)
Definition cache_with (slot : Z -> prog) (id : Z) : prog :=
  check (let! s := slot id in
         if s <? 0 then Ret s else
         let! w := use KPut s in
         let! m := mark id in Ret 0).
Definition cache_key (id : Z) : prog := cache_with get_slot id.
Definition cache_key_checked (id : Z) : prog := cache_with get_slot_checked id.

(** 903-935 _KeystoreCacheRandomKey: the slot is filled by the RNG, then its
    metadata is set. *)
Definition cache_random (id : Z) : prog :=
  check (let! s := get_slot_checked id in
         if s <? 0 then Ret s else
         let! w := use KPut s in
         check (let! w2 := use KPut s in let! m := mark id in Ret 0)).

(** 3621-3663 _KeystoreCacheKeyDma: metadata first, then the DMA copy; on
    failure the slot is cleared. *)
Definition cache_dma (id : Z) : prog :=
  let! s := get_slot_checked id in
  if s <? 0 then Ret s else
  let! w := use KPut s in
  let! b := use KPut s in
  Env (fun e => if e <? 0 then let! c := use KPut s in Ret e
                else let! m := mark id in Ret 0).

(** 972-1041 wh_Server_KeystoreFreshenKey: the slot holding the key. *)
Definition freshen (id : Z) : prog :=
  check (let! s := find id in
         if negb (s =? NOTFOUND) then Ret s else
         check (let! m := use NMeta id in
                if m <? 0 then Ret m else
                let! t := get_slot id in
                if t <? 0 then Ret t else
                let! r := use NRead id in
                if r <? 0 then Ret r else
                let! w := use KPut t in
                let! c := mark id in Ret t)).

(** 1046-1142 wh_Server_KeystoreReadKey.  (1119-1122: a key read from NVM is
    put in the cache if there is room.) *)
Definition read_key (id : Z) : prog :=
  check (let! s := find id in
         if 0 <=? s then
           let! m := use KGet s in
           check (let! b := use KGet s in Ret 0)
         else
         check (let! m := use NMeta id in
                if m <? 0 then Env Ret else
                check (let! r := use NRead id in
                       if r <? 0 then Ret r else
                       let! c := maybe (let! i := cache_key id in
                                        if i <? 0 then Ret i else mark id) in
                       Ret 0))).

(** 1145-1155 wh_Server_KeystoreReadKeyChecked. *)
Definition read_key_checked (id : Z) : prog :=
  let! r := policy id in
  if r <? 0 then Ret r else read_key id.

(** The bracket around every locked section:
    [ret = WH_SERVER_NVM_LOCK(server); if (ret == OK) { ...;
     (void)WH_SERVER_NVM_UNLOCK(server); }]. *)
Definition locked (body : prog) : prog :=
  Acq Nvm (fun r =>
    if r =? 0 then let! x := body in Rel Nvm (Ret x) else Ret r).

(** 1158-1192 wh_Server_KeystoreReadKeyEnforce: takes the lock itself. *)
Definition read_enforce (id : Z) : prog :=
  check (locked (let! r := read_key id in
                 if r <? 0 then Ret r else Env Ret)).

(** 1225-1234 wh_Server_KeystoreEvictKeyChecked. *)
Definition evict_checked (id : Z) : prog :=
  let! r := policy id in
  if r <? 0 then Ret r else evict id.

(** 1236-1274 wh_Server_KeystoreCommitKey. *)
Definition commit (id : Z) : prog :=
  check (let! s := find id in
         if s <? 0 then Ret s else
         let! m := use KGet s in
         let! r := nvm_add_reclaim id in
         if r <? 0 then Ret r else
         let! c := mark id in Ret 0).
Definition commit_checked (id : Z) : prog :=
  let! r := policy id in
  if r <? 0 then Ret r else commit id.

(** 1318-1351 wh_Server_KeystoreEraseKeyChecked. *)
Definition erase_checked (id : Z) : prog :=
  check (let! r := evict_checked id in
         if andb (r <? 0) (negb (r =? NOTFOUND)) then Ret r
         else nvm_del_checked [id]).

(** 1372-1421 wh_Server_KeystoreRevokeKey. *)
Definition revoke (id : Z) : prog :=
  check (let! r := policy id in
         if r <? 0 then Ret r else
         let! m := use NMeta id in
         if andb (m <? 0) (negb (m =? NOTFOUND)) then Ret m else
         let! s := freshen id in
         if s <? 0 then Ret s else
         let! f := use KGet s in
         let! t := find id in
         check (let! w := use KPut s in
                if m <? 0 then Ret 0 else
                let! a := nvm_add_reclaim id in
                if a <? 0 then Ret a else
                let! c := mark id in Ret 0)).

(** 1441-1490 _KeywrapResolveKek (a hardware KEK comes from the hardware
    keystore, which has a lock of its own). *)
Definition resolve_kek (id : Z) : prog :=
  Env (fun hw => if hw <? 0 then Env Ret else
    let! s := freshen id in
    if s <? 0 then Ret s else
    let! f := use KGet s in
    check (use KGet s)).

(** 3677-3701 wh_Server_KeystoreExportKeyDma with its policy check
    (3703-3716). *)
Definition export_dma (id : Z) : prog :=
  let! r := policy id in
  if r <? 0 then Ret r else
  let! s := freshen id in
  if s <? 0 then Ret s else
  let! m := use KGet s in
  check (use KGet s).

(** Freshen a key and deserialise it from its slot: wh_Server_CacheExportRsaKey
    and its siblings (src/wh_server_crypto.c 308-327, 694-713, 783-799, 873-895,
    980-998, 1074-1091, and for LMS / XMSS 1308-1329, 1371-1392). *)
Definition export (id : Z) : prog :=
  let! s := freshen id in
  if s <? 0 then Ret s else
  let! m := use KGet s in
  let! b := use KGet s in Env Ret.

(** Serialise a key into a fresh slot: wh_Server_CacheImportRsaKey and its
    siblings (260-306, 655-692, 745-781, 834-871, 942-978, 1040-1072;
    wh_Server_KeyCacheImportRaw 2045-2078). *)
Definition import (id : Z) : prog :=
  check (let! s := get_slot_checked id in
         if s <? 0 then Ret s else
         let! b := use KPut s in
         check (let! w := use KPut s in Ret 0)).

(* ------------------------------------------------------------------ *)
(** ** NVM requests, src/wh_server_nvm.c 87-523 *)

(** 52-85 _HandleNvmRead. *)
Definition nvm_read (id : Z) : prog :=
  check (let! m := use NMeta id in
         if m <? 0 then Ret m else check (nvm_read_checked id)).

Definition h_nvm_list : prog := check (locked (use NList 0)).          (* 161-168 *)
Definition h_nvm_avail : prog := check (locked (use NFree 0)).         (* 186-194 *)
Definition h_nvm_meta (id : Z) : prog := check (locked (use NMeta id)). (* 217-223 *)
Definition h_nvm_add (id : Z) : prog :=                                (* 273-279 *)
  check (locked (nvm_add_checked id)).
Definition h_nvm_destroy (ids : list Z) : prog :=                      (* 304-311 *)
  check (locked (nvm_del_checked ids)).
Definition h_nvm_read (id : Z) : prog := check (locked (nvm_read id)). (* 342-351 *)
(** 371-423: the DMA copies of metadata and data come first, then the add. *)
Definition h_nvm_add_dma (id : Z) : prog := check (locked (nvm_add_checked id)).
(** 463-507: metadata, the DMA window, the checked read, all in the section. *)
Definition h_nvm_read_dma (id : Z) : prog :=
  check (locked (let! m := use NMeta id in
                 if m <? 0 then Ret m else
                 check (let! r := nvm_read_checked id in
                        Env (fun post => if post <? 0 then Ret post else Ret r)))).

(* ------------------------------------------------------------------ *)
(** ** Counter requests, src/wh_server_counter.c 40-232 *)

Definition h_ctr_init (id : Z) : prog := check (locked (nvm_add_reclaim id)). (* 78-86 *)
Definition h_ctr_incr (id : Z) : prog :=                              (* 112-142 *)
  check (locked (let! m := use NMeta id in
                 if m <? 0 then Ret m else
                 Env (fun saturated =>
                   if saturated <? 0 then Ret 0 else nvm_add_reclaim id))).
Definition h_ctr_read (id : Z) : prog := check (locked (use NMeta id)). (* 167-183 *)
Definition h_ctr_destroy (id : Z) : prog := check (locked (use NDel id)). (* 213-218 *)

(* ------------------------------------------------------------------ *)
(** ** Certificate requests, src/wh_server_cert.c.  [g] = the verify cache is
    the global one (shared, with its own lock); otherwise each server has its
    own and an access to it is private. *)

(** 154-187 Lookup, 188-234 Insert, 235-260 Clear, 261-291 SetEnabled, 292-330
    EvictRoot, 399-407: lock the cache, one access, unlock. *)
Definition vcache (g : bool) (a : acc) (arg : Z) : prog :=
  if g then
    Acq Vc (fun r => if r =? 0 then
                       Use a arg (fun x => Rel Vc (Ret x))
                     else Ret r)
  else Env Ret.

(** 690-719 wh_Server_CertReadTrusted. *)
Definition cert_read (id : Z) : prog :=
  check (let! m := use NMeta id in
         if m <? 0 then Ret m else check (use NRead id)).

(** 597-643 wh_Server_CertAddTrusted. *)
Definition cert_add (g : bool) (id : Z) : prog :=
  check (let! r := nvm_add_checked id in
         if r <? 0 then Ret r else vcache g VPut id).

(** 647-686 wh_Server_CertEraseTrusted. *)
Definition cert_erase (g : bool) (id : Z) : prog :=
  check (let! m := use NMeta id in
         if andb (m <? 0) (negb (m =? NOTFOUND)) then Ret m else
         check (let! r := use NDel id in
                if r <? 0 then Ret r else vcache g VPut id)).

(** 364-568 _verifyChainAgainstCmStore, one certificate per round: is the
    cache on, is the certificate in it; a leaf's key may be put in the key
    cache; a verified CA is put in the verify cache. *)
Definition leaf_key (id : Z) : prog :=
  let! i := pick_id id in
  if i <? 0 then Ret i else
  let! s := get_slot_checked i in
  if s <? 0 then Ret s else
  let! b := use KPut s in
  check (let! w := use KPut s in Ret 0).
Fixpoint chain (g : bool) (n : nat) (id : Z) : prog :=
  match n with
  | O => Env Ret
  | S n' =>
      check
        (let! on := vcache g VGet 0 in
         let! hit := maybe (vcache g VGet id) in
         check
           (let! k := maybe (leaf_key id) in
            if k <? 0 then Ret k else
            let! ins := maybe (vcache g VPut id) in
            chain g n' id))
  end.

(** 723-825 wh_Server_CertVerifyMultiRoot: read every root that is present,
    then walk the chain.  The chain's length is a private choice. *)
Fixpoint roots (ids : list Z) (k : prog) : prog :=
  match ids with
  | [] => k
  | i :: rest =>
      Env (fun dup => if dup <? 0 then roots rest k else
        let! r := cert_read i in
        if r =? NOTFOUND then roots rest k
        else if r <? 0 then Ret r
        else check (roots rest k))
  end.
Definition cert_verify (g : bool) (ids : list Z) (leaf : Z) : prog :=
  check (roots ids (check (Env (fun n => chain g (Z.to_nat n) leaf)))).

(** 840-877 wh_Server_CertVerifyAcert. *)
Definition cert_acert (id : Z) : prog :=
  let! r := cert_read id in
  if r <? 0 then Ret r else Env Ret.

Definition h_cert_add (g : bool) (id : Z) : prog :=       (* 941-948, DMA 1252-1259 *)
  check (locked (cert_add g id)).
Definition h_cert_erase (g : bool) (id : Z) : prog :=     (* 966-971 *)
  check (locked (cert_erase g id)).
(** 1004-1026, DMA 1304-1323: the flags, then the certificate. *)
Definition h_cert_read (id : Z) : prog :=
  check (locked (let! m := use NMeta id in
                 if m <? 0 then Ret m else check (cert_read id))).
(** 1072-1083, 1152-1160, DMA 1368-1380, 1426-1434. *)
Definition h_cert_verify (g : bool) (ids : list Z) (leaf : Z) : prog :=
  check (locked (cert_verify g ids leaf)).
(** 1171-1193, 1195-1222: under the NVM lock if the cache is per client, under
    the cache's own lock otherwise. *)
Definition h_cert_cache (g : bool) : prog :=
  if g then vcache true VPut 0 else locked (vcache false VPut 0).
Definition h_cert_acert (id : Z) : prog := check (locked (cert_acert id)). (* 1482-1488, 1534-1540 *)

(* ------------------------------------------------------------------ *)
(** ** SHE requests, src/wh_server_she.c 1823-1985: the dispatcher locks
    around the whole command. *)

(** A command that only reads one key: SECURE_BOOT_INIT (226-308),
    SECURE_BOOT_FINISH (371-431), ENC/DEC_ECB/CBC (1181-1503), GEN_MAC
    (1505-1563), VERIFY_MAC (1565-1643). *)
Definition she_key (id : Z) : prog := check (let! r := read_key id in Env Ret).
(** 476-736 _LoadKey: the authorising key, the target's old value, the write,
    the eviction of a stale copy and the read back. *)
Definition she_load (auth id : Z) : prog :=
  check
    (let! a := read_key auth in
     if a <? 0 then Ret a else
     check
       (let! o := read_key id in
        check
          (Env (fun ram =>
             if ram <? 0 then cache_key id else
             let! w := use NAdd id in
             if w <? 0 then Ret w else
             let! e := evict id in
             if andb (e <? 0) (negb (e =? NOTFOUND)) then Ret e else
             let! b := read_key id in Env Ret)))).
Definition she_plain (id : Z) : prog := check (cache_key id).     (* 739-773 *)
(** 777-940 _ExportRamKey: the secret key, then the RAM key. *)
Definition she_export (sec ram : Z) : prog :=
  check (let! a := read_key sec in
         if a <? 0 then Ret a else
         check (let! b := read_key ram in Env Ret)).
(** 942-1054 _InitRnd: the secret key, the seed, the new seed. *)
Definition she_initrnd (sec seed : Z) : prog :=
  check (let! a := read_key sec in
         if a <? 0 then Ret a else
         check (let! b := read_key seed in
                if b <? 0 then Ret b else
                check (use NAdd seed))).
(** 1106-1179 _ExtendSeed. *)
Definition she_extend (seed : Z) : prog :=
  check (let! b := read_key seed in
         if b <? 0 then Ret b else check (use NAdd seed)).

(* ------------------------------------------------------------------ *)
(** ** Key requests, src/wh_server_keystore.c 2588-3616 *)

Definition h_key_cache (id : Z) : prog :=                          (* 2647-2661 *)
  check (locked (let! i := pick_id id in
                 if i <? 0 then Ret i else cache_key_checked i)).
Definition h_key_random (id : Z) : prog :=                         (* 2708-2720 *)
  check (locked (let! i := pick_id id in
                 if i <? 0 then Ret i else cache_random i)).
Definition h_key_cache_dma (id : Z) : prog :=                      (* 2772-2793 *)
  check (locked (let! i := pick_id id in
                 if i <? 0 then Ret i else cache_dma i)).
Definition h_key_export_dma (id : Z) : prog := check (locked (export_dma id)). (* 2824-2846 *)
(** 3090-3177, DMA 2881-2974: the policy, the key, the public half (which
    freshens it again, 463-714). *)
Definition h_key_export_pub (id : Z) : prog :=
  check (locked (let! r := policy id in
                 if r <? 0 then Ret r else
                 let! s := freshen id in
                 if s <? 0 then Ret s else
                 let! e := export id in
                 if e <? 0 then Ret e else use KGet s)).
Definition h_key_evict (id : Z) : prog := check (locked (evict_checked id)).   (* 3001-3011 *)
Definition h_key_export (id : Z) : prog := check (locked (read_key_checked id)). (* 3042-3059 *)
Definition h_key_commit (id : Z) : prog := check (locked (commit_checked id)). (* 3204-3214 *)
Definition h_key_erase (id : Z) : prog := check (locked (erase_checked id)).   (* 3239-3249 *)
Definition h_key_revoke (id : Z) : prog := check (locked (revoke id)).         (* 3273-3281 *)
Definition h_key_wrap (kek : Z) : prog :=                          (* 3327-3334, 1870-1990 *)
  check (locked (check (let! r := resolve_kek kek in Env Ret))).
Definition h_key_wrap_export (kek id : Z) : prog :=                (* 3375-3382, 1963-2087 *)
  check (locked (check (let! r := read_key_checked id in
                        if r <? 0 then Ret r else
                        let! k := resolve_kek kek in Env Ret))).
Definition h_key_unwrap_export (kek : Z) : prog :=                 (* 3428-3435, 2090-2233 *)
  check (locked (check (let! r := resolve_kek kek in Env Ret))).
(** 3486-3493, 2236-2435: the KEK, then the id must not be in the cache
    already, then the key is cached. *)
Definition h_key_unwrap_cache (kek id : Z) : prog :=
  check (locked (check (let! r := resolve_kek kek in
                        if r <? 0 then Ret r else
                        check (let! s := find id in
                               if 0 <=? s then Ret ABORTED else
                               check (cache_key id))))).
Definition h_data_wrap (kek : Z) : prog :=                         (* 3539-3546, 2438-2508 *)
  check (locked (check (let! r := resolve_kek kek in Env Ret))).
Definition h_data_unwrap (kek : Z) : prog :=                       (* 3592-3599, 2511-2585 *)
  check (locked (check (let! r := resolve_kek kek in Env Ret))).

(* ------------------------------------------------------------------ *)
(** ** Crypto requests, src/wh_server_crypto.c *)

(** 242-256 _CryptoEvictKeyLocked: a section of its own. *)
Definition evict_locked (id : Z) : prog := locked (evict id).

(** _CacheExportRsaKeyEnforce 329-354, ECC 715-740, Ed25519 801-829,
    Curve25519 897-926, ML-DSA 1000-1029, ML-KEM 1093-1120: freshen, check the
    usage flags, deserialise, in one section. *)
Definition export_enforce (id : Z) : prog :=
  locked (let! s := freshen id in
          if s <? 0 then Ret s else
          let! f := use KGet s in
          check (export id)).

(** Pick an id and import, in one section: 418-431, 1452-1464, 1578-1588,
    2242-2254, 2409-2418, 2504-2516, 2638-2650, 2743-2752, 5270-5283,
    5627-5636, 6965-6982, 7453-7463. *)
Definition store (id : Z) : prog :=
  locked (let! i := pick_id id in
          if i <? 0 then Ret i else import i).

(** Key generation: RSA 358-467, ECC 1395-1500, Curve25519 2446-2554, Ed25519
    2698-2792, ML-DSA 5192-5325, ML-KEM 5570-5672.  An ephemeral key is not
    stored. *)
Definition h_keygen (id : Z) : prog := check (maybe (store id)).
(** ML-DSA 6882-7042, ML-KEM 7385-7519: the public key is then streamed out;
    if that fails the key is evicted again. *)
Definition h_keygen_dma (id : Z) : prog :=
  check (maybe (let! r := store id in
                if r <? 0 then Ret r else
                Env (fun e => if e <? 0 then let! d := evict_locked id in Ret e
                              else Ret 0))).

(** Use a key and, if asked to, evict it: RSA GetSize 593-645, ECC sign and
    verify 1637-1811, Ed25519 2795-3172 (and DMA), ML-DSA 5328-5522, 7045-7315,
    ML-KEM 5675-5882, 7522-7775. *)
Definition h_use (id : Z) : prog :=
  check (let! r := maybe (export_enforce id) in
         let! e := maybe (evict_locked id) in Ret r).
(** 471-590 _HandleRsaFunction: a usage refusal is retried with the other
    flag. *)
Definition h_rsa (id : Z) : prog :=
  check (let! r := maybe (let! a := export_enforce id in
                          if a =? USAGE then maybe (export_enforce id) else Ret a) in
         let! e := maybe (evict_locked id) in Ret r).
(** 1503-1632 _HandleEccSharedSecret, 2557-2693 _HandleCurve25519SharedSecret:
    both keys, the secret possibly stored, both keys possibly evicted. *)
Definition h_ecdh (prv pub out : Z) : prog :=
  check (let! r := check (let! a := export_enforce prv in
                          if a <? 0 then Ret a else
                          let! b := export_enforce pub in
                          if b <? 0 then Ret b else
                          check (maybe (store out))) in
         let! e1 := maybe (evict_locked pub) in
         let! e2 := maybe (evict_locked prv) in Ret r).
(** 1816-1887 _HandleEccMakePub: wh_Server_EccKeyCacheExport (1856) and
    wh_Server_KeystoreEvictKey (1877) with no lock. *)
Definition h_ecc_makepub (id : Z) : prog :=
  check (let! r := export id in
         let! e := maybe (evict id) in Ret r).
(** 1891-1985 _HandleEccCheckPubKey: the same calls at 1938 and 1973. *)
Definition h_ecc_check (id : Z) : prog :=
  check (let! r := export id in
         let! e := maybe (evict id) in Ret r).
(** AES: 3175-4448, eight handlers; the key is in the message or read with
    [read_enforce] (3230, 3384, 3562, 3686, 3852, 3983, 4172, 4324). *)
Definition h_aes (id : Z) : prog :=
  check (let! r := maybe (read_enforce id) in
         if r <? 0 then Ret r else Env Ret).
(** 4455-4498 _CmacResolveKey, used by _HandleCmac 4501-4614 and
    _HandleCmacDma 8944-9130. *)
Definition h_cmac (id : Z) : prog :=
  check (let! r := maybe (let! a := read_enforce id in
                          if a =? USAGE then read_enforce id else Ret a) in
         if r <? 0 then Ret r else Env Ret).
(** 2139-2280 _HandleHkdf. *)
Definition h_hkdf (id out : Z) : prog :=
  check (let! r := maybe (read_enforce id) in
         if r <? 0 then Ret r else check (maybe (store out))).
(** 2284-2440 _HandleCmacKdf: salt and input may both be stored keys. *)
Definition h_cmackdf (salt id out : Z) : prog :=
  check (let! r := maybe (read_enforce salt) in
         if r <? 0 then Ret r else
         let! r2 := maybe (read_enforce id) in
         if r2 <? 0 then Ret r2 else check (maybe (store out))).

(** 7896-8051 _HandleLmsKeyGenDma, 8388-8556 _HandleXmssKeyGenDma: one section
    from choosing the id to the commit (7966-8027, 8463-8532). *)
Definition h_sts_keygen (id : Z) : prog :=
  check (locked (let! i := pick_id id in
                 if i <? 0 then Ret i else
                 let! s := get_slot_checked i in
                 if s <? 0 then Ret s else
                 check (let! b := use KPut s in
                        check (let! w := use KPut s in commit i)))).
(** 8054-8187 _HandleLmsSignDma, 8559-8678 _HandleXmssSignDma: one section from
    loading the key, through the write-back of the advanced state (1164-1196,
    1215-1246), to the eviction (8099-8180, 8602-8671). *)
Definition h_sts_sign (id : Z) : prog :=
  check (locked (let! r := (let! s := freshen id in
                            if s <? 0 then Ret s else
                            let! k := use KGet s in
                            check (let! p := use KGet s in
                                   check (let! w := use KPut s in
                                          let! a := nvm_add_reclaim id in Env Ret))) in
                 let! e := maybe (evict id) in Ret r)).
(** 8190-8289, 8681-8778: load in one section, evict in another. *)
Definition h_sts_verify (id : Z) : prog :=
  check (let! r := maybe (locked (export id)) in
         let! e := maybe (evict_locked id) in Ret r).
(** 8292-8360, 8781-8866. *)
Definition h_sts_left (id : Z) : prog :=
  check (locked (let! r := export id in
                 if r <? 0 then Ret r else maybe (let! s := find id in
                 if s <? 0 then Ret s else use KGet s))).

(* ------------------------------------------------------------------ *)
(** ** Auth requests, src/wh_auth_base.c with an NVM back end: every helper
    takes the NVM lock for itself *)

(** 123-172 wh_Auth_BasePersistIndex, 177-222 wh_Auth_BasePersistCred. *)
Definition auth_persist (id : Z) : prog := locked (nvm_add_reclaim id).
(** 227-267 wh_Auth_BaseLoadCred. *)
Definition auth_load (id : Z) : prog :=
  locked (let! m := use NMeta id in
          if m <? 0 then Ret m else check (use NRead id)).
(** 300-320 wh_Auth_BaseDestroyCred. *)
Definition auth_destroy (id : Z) : prog := locked (use NDel id).

Definition h_auth_login (cred : Z) : prog :=          (* 514-560, 591-624, 627-677 *)
  check (let! r := maybe (auth_load cred) in Env Ret).
(** 706-842 wh_Auth_BaseUserAdd: the credential, then the index; if the index
    cannot be written the credential is destroyed. *)
Definition h_auth_add (idx cred : Z) : prog :=
  check (let! c := maybe (auth_persist cred) in
         if c <? 0 then Ret c else
         let! r := auth_persist idx in
         if r <? 0 then let! d := maybe (auth_destroy cred) in Ret r else Ret 0).
(** 844-894 wh_Auth_BaseUserDelete: the index, then the credential; if that
    cannot be destroyed the index is written back. *)
Definition h_auth_delete (idx cred : Z) : prog :=
  check (let! r := auth_persist idx in
         if r <? 0 then Ret r else
         maybe (let! d := auth_destroy cred in
                if d <? 0 then let! e := auth_persist idx in Ret d else Ret 0)).
Definition h_auth_perm (idx : Z) : prog := check (auth_persist idx). (* 896-945 *)
(** 984-1155 wh_Auth_BaseUserSetCredentials: the old one is read, the new one
    written, or the old one destroyed. *)
Definition h_auth_cred (cred : Z) : prog :=
  check (let! l := maybe (auth_load cred) in
         if l <? 0 then Ret l else
         check (Env (fun v => if v <? 0 then maybe (auth_destroy cred)
                              else auth_persist cred))).

(* ------------------------------------------------------------------ *)
(** ** The requests *)

Inductive req :=
| NvmInit | NvmCleanup | NvmList | NvmAvail | NvmMeta (id : Z) | NvmAdd (id : Z)
| NvmDestroy (ids : list Z) | NvmRead (id : Z) | NvmAddDma (id : Z) | NvmReadDma (id : Z)
| CtrInit (id : Z) | CtrIncr (id : Z) | CtrRead (id : Z) | CtrDestroy (id : Z)
| CertInit | CertAdd (id : Z) | CertErase (id : Z) | CertRead (id : Z)
| CertVerify (id leaf : Z) | CertVerifyMulti (ids : list Z) (leaf : Z)
| CertCacheClear | CertCacheEnable | CertAcert (id : Z)
| SheSetUid | SheBootInit (id : Z) | SheBootUpdate | SheBootFinish (id : Z)
| SheStatus | SheLoadKey (auth id : Z) | SheLoadPlain (id : Z)
| SheExportRam (sec ram : Z) | SheInitRnd (sec seed : Z) | SheRnd
| SheExtendSeed (seed : Z) | SheCipher (id : Z) | SheMac (id : Z)
| KeyCache (id : Z) | KeyRandom (id : Z) | KeyCacheDma (id : Z) | KeyExportDma (id : Z)
| KeyExportPub (id : Z) | KeyExportPubDma (id : Z) | KeyEvict (id : Z) | KeyExport (id : Z)
| KeyCommit (id : Z) | KeyErase (id : Z) | KeyRevoke (id : Z)
| KeyWrap (kek : Z) | KeyWrapExport (kek id : Z) | KeyUnwrapExport (kek : Z)
| KeyUnwrapCache (kek id : Z) | DataWrap (kek : Z) | DataUnwrap (kek : Z)
| KeyGen (id : Z) | KeyGenDma (id : Z) | UseKey (id : Z) | Rsa (id : Z)
| Ecdh (prv pub out : Z) | EccMakePub (id : Z) | EccCheckPub (id : Z)
| AesOp (id : Z) | CmacOp (id : Z) | Hkdf (id out : Z) | CmacKdf (salt id out : Z)
| StsKeyGen (id : Z) | StsSign (id : Z) | StsVerify (id : Z) | StsLeft (id : Z)
| AuthLogin (cred : Z) | AuthOther | AuthAdd (idx cred : Z) | AuthDelete (idx cred : Z)
| AuthPerm (idx : Z) | AuthCred (cred : Z)
| RngHash.   (* random bytes, digests: no stored key (1992-2012, 4623-5187, 6329-6879) *)

(** The dispatchers: wh_Server_HandleNvmRequest, ...CounterRequest,
    ...CertRequest, ...SheRequest, ...KeyRequest, ...CryptoRequest
    (5975-6300), ...CryptoDmaRequest (9200-9420) and ...AuthRequest. *)
Definition handler (g : bool) (q : req) : prog :=
  match q with
  | NvmInit | NvmCleanup => Env Ret                    (* wh_server_nvm.c 96-140 *)
  | NvmList => h_nvm_list
  | NvmAvail => h_nvm_avail
  | NvmMeta id => h_nvm_meta id
  | NvmAdd id => h_nvm_add id
  | NvmDestroy ids => h_nvm_destroy ids
  | NvmRead id => h_nvm_read id
  | NvmAddDma id => h_nvm_add_dma id
  | NvmReadDma id => h_nvm_read_dma id
  | CtrInit id => h_ctr_init id
  | CtrIncr id => h_ctr_incr id
  | CtrRead id => h_ctr_read id
  | CtrDestroy id => h_ctr_destroy id
  | CertInit => Env Ret                                (* wh_server_cert.c 572-593: own cache only *)
  | CertAdd id => h_cert_add g id
  | CertErase id => h_cert_erase g id
  | CertRead id => h_cert_read id
  | CertVerify id leaf => h_cert_verify g [id] leaf
  | CertVerifyMulti ids leaf => h_cert_verify g ids leaf
  | CertCacheClear | CertCacheEnable => h_cert_cache g
  | CertAcert id => h_cert_acert id
  | SheSetUid | SheBootUpdate | SheStatus | SheRnd => Env Ret  (* wh_server_she.c 1838-1986 *)
  | SheBootInit id | SheBootFinish id | SheCipher id | SheMac id => locked (she_key id)
  | SheLoadKey auth id => locked (she_load auth id)
  | SheLoadPlain id => locked (she_plain id)
  | SheExportRam sec ram => locked (she_export sec ram)
  | SheInitRnd sec seed => locked (she_initrnd sec seed)
  | SheExtendSeed seed => locked (she_extend seed)
  | KeyCache id => h_key_cache id
  | KeyRandom id => h_key_random id
  | KeyCacheDma id => h_key_cache_dma id
  | KeyExportDma id => h_key_export_dma id
  | KeyExportPub id | KeyExportPubDma id => h_key_export_pub id
  | KeyEvict id => h_key_evict id
  | KeyExport id => h_key_export id
  | KeyCommit id => h_key_commit id
  | KeyErase id => h_key_erase id
  | KeyRevoke id => h_key_revoke id
  | KeyWrap kek => h_key_wrap kek
  | KeyWrapExport kek id => h_key_wrap_export kek id
  | KeyUnwrapExport kek => h_key_unwrap_export kek
  | KeyUnwrapCache kek id => h_key_unwrap_cache kek id
  | DataWrap kek => h_data_wrap kek
  | DataUnwrap kek => h_data_unwrap kek
  | KeyGen id => h_keygen id
  | KeyGenDma id => h_keygen_dma id
  | UseKey id => h_use id
  | Rsa id => h_rsa id
  | Ecdh prv pub out => h_ecdh prv pub out
  | EccMakePub id => h_ecc_makepub id
  | EccCheckPub id => h_ecc_check id
  | AesOp id => h_aes id
  | CmacOp id => h_cmac id
  | Hkdf id out => h_hkdf id out
  | CmacKdf salt id out => h_cmackdf salt id out
  | StsKeyGen id => h_sts_keygen id
  | StsSign id => h_sts_sign id
  | StsVerify id => h_sts_verify id
  | StsLeft id => h_sts_left id
  | AuthLogin cred => h_auth_login cred
  | AuthOther => Env Ret                               (* wh_auth_base.c 679-703, 948-981 *)
  | AuthAdd idx cred => h_auth_add idx cred
  | AuthDelete idx cred => h_auth_delete idx cred
  | AuthPerm idx => h_auth_perm idx
  | AuthCred cred => h_auth_cred cred
  | RngHash => Env Ret
  end.

(** ** Calls a server application makes itself

    src/wh_server_img_mgr.c 83-180 wh_Server_ImgMgrVerifyImg with the
    certificate-chain method (993-1133): key, signature object, chain, leaf
    key, eviction; no lock inside. *)
Definition img_verify (g : bool) (key sig root leaf : Z) : prog :=
  check
    (let! r := maybe (let! s := freshen key in
                      if s <? 0 then Ret s else use KGet s) in
     if r <? 0 then Ret r else
     let! m := maybe (let! m := use NMeta sig in
                      if m <? 0 then Ret m else check (use NRead sig)) in
     if m <? 0 then Ret m else
     maybe (let! v := cert_verify g [root] leaf in
            if v <? 0 then Ret v else
            let! s := freshen leaf in
            let! k := (if s <? 0 then Ret s else use KGet s) in
            let! e := evict leaf in Ret k)).

(* ------------------------------------------------------------------ *)
(** ** Threads

    Each server handles its requests one after the other; the scheduler picks
    which server moves and, with the same number, the private choice that move
    makes.  [seen] keeps the answers a server has got from the store, [done]
    its replies. *)
Record server := mkSrv {
  todo : list req;
  cur : option prog;
  seen : list Z;
  done : list Z
}.

Record sys (S : Type) := mkSys {
  store_of : S;
  nvm_own : option nat;
  vc_own : option nat;
  srv : nat -> server
}.
Arguments mkSys {S}.
Arguments store_of {S}.
Arguments nvm_own {S}.
Arguments vc_own {S}.
Arguments srv {S}.

Definition own {S} (l : lk) (s : sys S) : option nat :=
  match l with Nvm => nvm_own s | Vc => vc_own s end.
Definition set_own {S} (l : lk) (o : option nat) (s : sys S) : sys S :=
  match l with
  | Nvm => mkSys (store_of s) o (vc_own s) (srv s)
  | Vc => mkSys (store_of s) (nvm_own s) o (srv s)
  end.
Definition upd {A} (f : nat -> A) (i : nat) (x : A) : nat -> A :=
  fun j => if Nat.eqb j i then x else f j.
Definition set_srv {S} (i : nat) (t : server) (s : sys S) : sys S :=
  mkSys (store_of s) (nvm_own s) (vc_own s) (upd (srv s) i t).
Definition set_store {S} (x : S) (s : sys S) : sys S :=
  mkSys x (nvm_own s) (vc_own s) (srv s).

Definition with_cur (t : server) (p : prog) : server :=
  mkSrv (todo t) (Some p) (seen t) (done t).
Definition with_seen (t : server) (r : Z) (p : prog) : server :=
  mkSrv (todo t) (Some p) (seen t ++ [r]) (done t).

(** One move of server [i] with choice [v].  [sem i a arg x] is what access [a]
    by server [i] answers and does.  An acquisition with choice 0 succeeds if
    the lock is free and has to wait otherwise ([None]); with any other choice
    it fails with that code (wh_lock.c 87-105).  Taking a request off the
    transport and answering it are moves too (wh_server.c 557-757). *)
Definition step {S} (sem : nat -> acc -> Z -> S -> Z * S) (g : bool)
    (i : nat) (v : Z) (s : sys S) : option (sys S) :=
  let t := srv s i in
  match cur t with
  | None =>
      match todo t with
      | [] => None
      | q :: r => Some (set_srv i (mkSrv r (Some (handler g q)) (seen t) (done t)) s)
      end
  | Some (Ret rc) =>
      Some (set_srv i (mkSrv (todo t) None (seen t) (done t ++ [rc])) s)
  | Some (Env k) => Some (set_srv i (with_cur t (k v)) s)
  | Some (Acq l k) =>
      if v =? 0 then
        match own l s with
        | None => Some (set_own l (Some i) (set_srv i (with_cur t (k 0)) s))
        | Some _ => None
        end
      else Some (set_srv i (with_cur t (k v)) s)
  | Some (Rel l k) => Some (set_own l None (set_srv i (with_cur t k) s))
  | Some (Use a arg k) =>
      let '(r, x) := sem i a arg (store_of s) in
      Some (set_store x (set_srv i (with_seen t r (k r)) s))
  end.

Fixpoint run {S} (sem : nat -> acc -> Z -> S -> Z * S) (g : bool)
    (sc : list (nat * Z)) (s : sys S) : option (sys S) :=
  match sc with
  | [] => Some s
  | (i, v) :: rest =>
      match step sem g i v s with
      | None => None
      | Some s' => run sem g rest s'
      end
  end.

(** Every server idle, with its queue of requests. *)
Definition start {S} (x : S) (q : nat -> list req) : sys S :=
  mkSys x None None (fun i => mkSrv (q i) None [] []).
