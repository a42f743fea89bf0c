(** Trusted certificates and the verify cache: src/wh_server_cert.c.

    Built with WOLFHSM_CFG_CERTIFICATE_VERIFY_CACHE; [global] is
    WOLFHSM_CFG_CERTIFICATE_VERIFY_CACHE_GLOBAL.  wolfSSL is not part of /repo:
    its certificate manager, parser and hash are parameters.  NULL checks, byte
    order (C18), size checks of the messages and attribute certificates
    (wh_server_cert.c 838-878) are left out.  Caching the public key of a leaf (wh_server_cert.c 473-520) writes only
    to the key cache; here it is the code the environment gives. *)
From Verif Require Import Base NvmSpec Flags Store NvmReqModel.

Definition bytes := list N.
Definition bytes_eqb (a b : bytes) : bool := if list_eq_dec N.eq_dec a b then true else false.

(** WOLFSSL_SUCCESS of wolfssl/ssl.h. *)
Definition SUCCESS : Z := 1%Z.

(** ** The verify cache *)
(** whCertVerifyCacheSlot with committed = 1, whCertVerifyCacheContext:
    wh_server_cert_cache.h 48-78.  A slot with committed = 0 is [None]. *)
Record slot := mkSlot { sl_hash : bytes; sl_roots : list N }.
Record vcache := mkVc { vc_slots : list (option slot); vc_idx : nat; vc_on : bool }.

(** _IsSubsetOf: wh_server_cert.c 92-112. *)
Definition subset (a b : list N) : bool := forallb (fun x => existsb (N.eqb x) b) a.

(** _LookupSubsetUnlocked: wh_server_cert.c 117-132. *)
Definition slot_hit (roots : list N) (h : bytes) (o : option slot) : bool :=
  match o with Some sl => bytes_eqb (sl_hash sl) h && subset (sl_roots sl) roots | None => false end.
(** _HasExactSlotUnlocked: wh_server_cert.c 137-153. *)
Definition slot_same (roots : list N) (h : bytes) (o : option slot) : bool :=
  match o with
  | Some sl => (length (sl_roots sl) =? length roots) && bytes_eqb (sl_hash sl) h && subset (sl_roots sl) roots
  | None => false
  end.

(** wh_Server_CertVerifyCache_Lookup: wh_server_cert.c 155-187; [r] is what
    taking the cache lock returns. *)
Definition vc_lookup (r : Z) (roots : list N) (h : bytes) (C : vcache) : Z :=
  if length roots =? 0 then BADARGS else
  if negb (is_ok r) then r else
  if negb (vc_on C) then NOTFOUND else
  if existsb (slot_hit roots h) (vc_slots C) then OK else NOTFOUND.

Fixpoint put {A} (i : nat) (x : A) (l : list A) : list A :=
  match l, i with
  | [], _ => []
  | _ :: t, O => x :: t
  | a :: t, S j => a :: put j x t
  end.

Section Sizes.
Variable max_roots : nat.  (* WOLFHSM_CFG_CERT_MAX_VERIFY_ROOTS *)

(** wh_Server_CertVerifyCache_Insert: wh_server_cert.c 189-237.  The number of
    slots is WOLFHSM_CFG_CERT_VERIFY_CACHE_COUNT. *)
Definition vc_insert (r : Z) (roots : list N) (h : bytes) (C : vcache) : vcache :=
  if (length roots =? 0) || (max_roots <? length roots) then C else
  if negb (is_ok r) then C else
  if negb (vc_on C) then C else
  if existsb (slot_same roots h) (vc_slots C) then C else
  mkVc (put (vc_idx C) (Some (mkSlot h roots)) (vc_slots C))
       ((vc_idx C + 1) mod length (vc_slots C)) (vc_on C).

(** wh_Server_CertVerifyCache_Clear, _SetEnabled and _EvictRoot:
    wh_server_cert.c 239-264, 266-297, 299-331, with the lock taken. *)
Definition vc_clear (C : vcache) : vcache := mkVc (map (fun _ => None) (vc_slots C)) 0 (vc_on C).
Definition vc_enable (b : bool) (C : vcache) : vcache :=
  let C1 := if b then C else vc_clear C in mkVc (vc_slots C1) (vc_idx C1) b.
Definition vc_evict (id : N) (C : vcache) : vcache :=
  mkVc (map (fun o => match o with
                      | Some sl => if existsb (N.eqb id) (sl_roots sl) then None else o
                      | None => None
                      end) (vc_slots C)) (vc_idx C) (vc_on C).

(** Clear and enable requests that other threads serve while one verifies: with
    the global cache they take only the cache lock (wh_server_cert.c 1170-1222). *)
Inductive toggle := TClear | TEnable (b : bool).
Definition vc_toggle (C : vcache) (t : toggle) : vcache :=
  match t with TClear => vc_clear C | TEnable b => vc_enable b C end.

(** ** What happened, newest first; kept for the specification only *)
(** [LVer k c rs]: wolfSSL verified [c] with the roots [rs] loaded; [LHit k c
    rs]: the cache answered for it; [LRoot k id]: AddTrusted or EraseTrusted
    succeeded for [id]; [LFlush k]: the cache was emptied; [LBoot]: all were.  [k]
    is the cache. *)
Inductive litem :=
| LVer (k : nat) (c : bytes) (rs : list N)
| LHit (k : nat) (c : bytes) (rs : list N)
| LRoot (k : nat) (id : N)
| LFlush (k : nat)
| LBoot.
Definition toggle_log (k : nat) (t : toggle) : list litem :=
  match t with TEnable true => [] | _ => [LFlush k] end.
Definition toggles (k : nat) (ts : list toggle) (x : vcache * list litem) : vcache * list litem :=
  fold_left (fun x t => (vc_toggle (fst x) t, toggle_log k t ++ snd x)) ts x.

(** ** wolfSSL and the environment of a request *)
Section Wolf.
(** What wolfSSL's answers may depend on: clock, revocation lists, the verify
    callback. *)
Variable World : Type.
(** wolfSSL_CertManagerVerifyBuffer and wolfSSL_CertManagerLoadCABuffer with a
    certificate manager holding the given certificates. *)
Variable vrfy load : World -> list bytes -> bytes -> Z.
(** wc_ParseCert: its code and DecodedCert.isCA. *)
Variable parse : bytes -> Z * bool.
(** DerNextSequence, wh_server_cert.c 343-358: an error, or the header length
    less the two bytes it has at least, and the contents length. *)
Variable der : bytes -> Z + (nat * nat).
(** wc_Sha256Hash_ex. *)
Variable digest : bytes -> bytes.

(** [ce_mid i p]: toggles served by other threads at the [p]-th cache access for
    certificate [i]; [ce_snap], [ce_look], [ce_ins], [ce_evict]: codes of taking
    the cache lock. *)
Record cenv := mkCenv {
  ce_lock : Z; ce_nvm : Z; ce_dma : Z; ce_evict : Z; ce_new : bool;
  ce_world : nat -> World;
  ce_snap : nat -> Z; ce_look : nat -> Z; ce_ins : nat -> Z;
  ce_hash : nat -> Z; ce_leaf : nat -> Z;
  ce_mid : nat -> nat -> list toggle }.

Variable global : bool.

(** The memory holding the chain as seen by the [p]-th fetch for certificate
    [i]: 0 length, 1 hash, 2 verification, 3 parsing, 4 loading. *)
Definition view := nat -> nat -> bytes.

Section Walk.
Variable e : cenv.
Variable k : nat.
Variable mem : view.
Variable roots : list N.
Variable leaf : bool.   (* WH_CERT_FLAGS_CACHE_LEAF_PUBKEY *)

Definition others (i p : nat) (x : vcache * list litem) : vcache * list litem :=
  if global then toggles k (ce_mid e i p) x else x.

(** Verification of one certificate with the cache, wh_server_cert.c 405-451:
    an immediate return, or the code and whether it was hashed; and the cache. *)
Definition check_one (i : nat) (cm : list bytes) (hx vx : bytes) (x : vcache * list litem)
  : (Z + Z * bool) * (vcache * list litem) :=
  let plain (hashed : bool) (x : vcache * list litem) :=
    let rc := vrfy (ce_world e i) cm vx in
    (inr (rc, hashed), (fst x, if Z.eqb rc SUCCESS then LVer k vx roots :: snd x else snd x)) in
  let x := others i 0 x in
  if is_ok (ce_snap e i) && vc_on (fst x) then
    if negb (is_ok (ce_hash e i)) then (inl (ce_hash e i), x) else
    let x := others i 1 x in
    if is_ok (vc_lookup (ce_look e i) roots (digest hx) (fst x))
    then (inr (SUCCESS, true), (fst x, LHit k hx roots :: snd x))
    else plain true x
  else plain false x.

(** _verifyChainAgainstCmStore: wh_server_cert.c 363-569, from position [pos]
    with [rem] bytes left and [cm] in the certificate manager. *)
Fixpoint walk (fuel i pos rem : nat) (cm : list bytes) (x : vcache * list litem)
  : Z * (vcache * list litem) :=
  match fuel with
  | O => (OK, x)
  | S fuel =>
    if rem =? 0 then (OK, x) else
    match der (firstn rem (skipn pos (mem i 0))) with
    | inl rc => (rc, x)
    | inr (h, len) =>
      let n := 2 + h + len in
      if rem <? n then (ABORTED, x) else
      let at_ p := firstn n (skipn pos (mem i p)) in
      let '(res, x) := check_one i cm (at_ 1) (at_ 2) x in
      match res with inl rc => (rc, x) | inr (rc, hashed) =>
      if negb (Z.eqb rc SUCCESS) then (rc, x) else
      let '(prc, ca) := parse (at_ 3) in
      if negb (Z.eqb prc 0) then (prc, x) else
      if ca then
        let lrc := load (ce_world e i) cm (at_ 4) in
        if negb (Z.eqb lrc SUCCESS) then (lrc, x) else
        let x := if hashed then let y := others i 2 x in (vc_insert (ce_ins e i) roots (digest (at_ 1)) (fst y), snd y)
                 else x in
        walk fuel (S i) (pos + n) (rem - n) (at_ 4 :: cm) x
      else
        if leaf && negb (is_ok (ce_leaf e i)) then (ce_leaf e i, x) else
        walk fuel (S i) (pos + n) (rem - n) cm x
      end
    end
  end.
End Walk.

Variable max_cert : nat.   (* WOLFHSM_CFG_MAX_CERT_SIZE *)
Variable max_resp : nat.   (* WOLFHSM_CFG_COMM_DATA_LEN - sizeof(whMessageCert_ReadTrustedResponse) *)

(** wh_Server_CertReadTrusted: wh_server_cert.c 690-720. *)
Definition cert_read (s : store) (id : N) (cap : nat) : Z * bytes :=
  if max_cert <? cap then (BADARGS, []) else
  let '(rc, m) := nv_meta s id in
  if negb (is_ok rc) then (rc, []) else
  if cap <? N.to_nat (m_len m) then (BUFFER_SIZE, []) else
  sp_read s id 0 (N.to_nat (m_len m)).

(** Loading the roots, wh_server_cert.c 771-809: the ids loaded and the
    certificate manager, in order of loading, or the error. *)
Fixpoint load_roots (w : World) (s : store) (ids : list N) (got : list N) (cm : list bytes)
  : Z * list N * list bytes :=
  match ids with
  | [] => (OK, got, cm)
  | id :: r =>
    if existsb (N.eqb id) got then load_roots w s r got cm else
    let '(rc, b) := cert_read s id max_cert in
    if Z.eqb rc NOTFOUND then load_roots w s r got cm else
    if negb (is_ok rc) then (rc, got, cm) else
    if negb (Z.eqb (load w cm b) SUCCESS) then (ABORTED, got, cm) else
    load_roots w s r (got ++ [id]) (b :: cm)
  end.

(** wh_Server_CertVerifyMultiRoot: wh_server_cert.c 723-826. *)
Definition cert_verify (e : cenv) (k : nat) (s : store) (mem : view) (len : nat) (roots : list N) (leaf : bool)
    (x : vcache * list litem) : Z * (vcache * list litem) :=
  if (len =? 0) || (length roots =? 0) || (max_roots <? length roots) then (BADARGS, x) else
  if negb (ce_new e) then (ABORTED, x) else
  let '(rc, got, cm) := load_roots (ce_world e 0) s roots [] [] in
  if negb (is_ok rc) then (rc, x) else
  if length got =? 0 then (NOTFOUND, x) else
  let '(rc, x) := walk e k mem got leaf len 0 0 len cm x in
  (if is_ok rc then OK else CERT_VERIFY, x).

(** wh_Server_CertAddTrusted up to the eviction, wh_server_cert.c 597-625.  The
    length is a uint32_t, whNvmSize has 16 bits. *)
Definition nvm_size (n : nat) : nat := N.to_nat (N.of_nat n mod 65536).
Definition cert_add (r : Z) (id acc fl : N) (label cert : bytes) (s : store) : Z * store :=
  if length cert =? 0 then (BADARGS, s) else
  let d := firstn (nvm_size (length cert)) cert in
  let m := mkMeta id acc fl (N.of_nat (length d)) label in
  add_checked r m m d s.
(** wh_Server_CertEraseTrusted up to the eviction, wh_server_cert.c 647-673. *)
Definition cert_erase (r : Z) (id : N) (s : store) : Z * store :=
  let '(rc, m) := nv_meta s id in
  if is_ok rc && has (m_flags m) (N.lor F_SERVER_ONLY F_NONDESTROYABLE) then (ACCESS, s) else
  if fatal rc then (rc, s) else nv_destroy r [id] s.

(** ** The server *)
Record csys := mkCs { cs_nv : store; cs_vc : nat -> vcache; cs_log : list litem }.

(** Requests of whMessageCert; [CNvm] are the client NVM requests, [COther] any
    other change the server makes to one NVM object (keys, counters, users ...),
    [CReboot] the initialisation of the server contexts. *)
Inductive creq :=
| CInit
| CAdd (dma : bool) (id acc fl : N) (label cert : bytes)
| CErase (id : N)
| CRead (id : N)
| CReadDma (id : N) (cap : nat)
| CVerify (dma : bool) (mem : view) (roots : list N) (leaf : bool)   (* [mem 0 0]: the cert_len bytes of the chain *)
| CClear
| CEnable (b : bool)
| CNvm (ne : nvm_env) (q : nvm_request)
| COther (id : N) (o : option (meta * bytes))
| CReboot.

(** _GetVerifyCache: wh_server_cert.c 48-66. *)
Definition cache_of (c : nat) : nat := if global then 0 else c.
Definition vc_set (s : csys) (k : nat) (x : vcache * list litem) : csys :=
  mkCs (cs_nv s) (fun j => if j =? k then fst x else cs_vc s j) (snd x).
Definition set_nv (s : csys) (nv : store) : csys := mkCs nv (cs_vc s) (cs_log s).

(** The eviction that follows a change of a root, wh_server_cert.c 637-643,
    680-685. *)
Definition root_changed (e : cenv) (k : nat) (id : N) (r : Z * store) (s : csys) : Z * csys :=
  let '(rc, nv) := r in
  let s1 := set_nv s nv in
  if negb (is_ok rc) then (rc, s1) else
  if negb (is_ok (ce_evict e)) then (ce_evict e, mkCs nv (cs_vc s) (LRoot k id :: cs_log s)) else
  (OK, vc_set s1 k (vc_evict id (cs_vc s k), LRoot k id :: cs_log s)).

Definition set_obj (id : N) (o : option (meta * bytes)) (s : store) : store :=
  match o with Some (m, d) => sp_destroy [id] s ++ [(mkMeta id (m_access m) (m_flags m) (m_len m) (m_label m), d)]
  | None => sp_destroy [id] s end.

Variable max_read : nat.
Variable have_stateful : bool.

(** wh_Server_HandleCertRequest: wh_server_cert.c 882-1460, for the request of
    the client of server context [c]. *)
Definition cert_handle (e : cenv) (c : nat) (q : creq) (s : csys) : Z * bytes * csys :=
  let k := cache_of c in
  let locked (y : Z * bytes * csys) := if is_ok (ce_lock e) then y else (ce_lock e, [], s) in
  let dma_ok (d : bool) (y : Z * bytes * csys) := if d && negb (is_ok (ce_dma e)) then (ce_dma e, [], s) else y in
  let nodata (y : Z * csys) := (fst y, [], snd y) in
  let flush (b : option bool) :=
    if is_ok (ce_evict e) then
      (OK, vc_set s k (match b with None => vc_clear (cs_vc s k) | Some b => vc_enable b (cs_vc s k) end,
                       toggle_log k (match b with None => TClear | Some b => TEnable b end) ++ cs_log s))
    else (ce_evict e, s) in
  match q with
  | CInit => if global then (OK, [], s) else nodata (flush None)
  | CAdd dma id acc fl label cert =>
      dma_ok dma (locked (nodata (root_changed e k id (cert_add (ce_nvm e) id acc fl label cert (cs_nv s)) s)))
  | CErase id => locked (nodata (root_changed e k id (cert_erase (ce_nvm e) id (cs_nv s)) s))
  | CRead id =>
      locked (let '(rc, m) := nv_meta (cs_nv s) id in
              if negb (is_ok rc) then (rc, [], s) else
              if has (m_flags m) (N.lor F_NONEXPORTABLE F_SERVER_ONLY) then (ACCESS, [], s) else
              let '(rc, b) := cert_read (cs_nv s) id (Nat.min max_cert max_resp) in (rc, b, s))
  | CReadDma id cap =>
      dma_ok true (locked (
              let '(rc, m) := nv_meta (cs_nv s) id in
              if negb (is_ok rc) then (rc, [], s) else
              if has (m_flags m) (N.lor F_NONEXPORTABLE F_SERVER_ONLY) then (ACCESS, [], s) else
              let '(rc, b) := cert_read (cs_nv s) id cap in (rc, b, s)))
  | CVerify dma mem roots leaf =>
      dma_ok dma (locked (
        let '(rc, x) := cert_verify e k (cs_nv s) (if dma then mem else fun _ _ => mem 0 0) (length (mem 0 0)) roots leaf
                          (cs_vc s k, cs_log s) in
        (rc, [], vc_set s k x)))
  | CClear => if global then nodata (flush None) else locked (nodata (flush None))
  | CEnable b => if global then nodata (flush (Some b)) else locked (nodata (flush (Some b)))
  | CNvm ne q => let '(a, nv) := nvm_handle max_read have_stateful ne q (cs_nv s) in (rs_rc a, rs_data a, set_nv s nv)
  | COther id o => (OK, [], set_nv s (set_obj id o (cs_nv s)))
  | CReboot => (OK, [], mkCs (cs_nv s) (fun j => vc_enable true (vc_clear (cs_vc s j))) (LBoot :: cs_log s))
  end.

(** A history: responses, oldest first, and the final state. *)
Fixpoint cert_run (evs : list (cenv * nat * creq)) (s : csys) : list (Z * bytes) * csys :=
  match evs with
  | [] => ([], s)
  | (e, c, q) :: r => let '(rc, b, s1) := cert_handle e c q s in
                      let '(rs, s2) := cert_run r s1 in ((rc, b) :: rs, s2)
  end.
End Wolf.
End Sizes.
