(** Authentication and authorization: src/wh_auth.c (the session of one server
    context), src/wh_auth_base.c (the user database shared by all contexts),
    src/wh_server_auth.c (requests) and the permission words of
    src/wh_message_auth.c 114-219.  The static tables of wh_auth_base.c are one
    state shared by all contexts, and requests are run one after another: that is
    what the auth lock gives when all contexts share one lock.  Requests reach
    the functions through wh_server_auth.c only, so the NULL checks of the C API
    never fail (credential pointers are NULL exactly when their length is 0,
    except in a user-add request, where the pointer is never NULL). *)
From Verif Require Import Base NvmSpec Flags KeyId Store NvmReqModel ServerModel.
Local Open Scope N_scope.

(** ** Permissions: wolfhsm/wh_auth.h 60-137 *)
Definition NGROUPS : nat := 14.           (* WH_NUMBER_OF_GROUPS, wh_message.h 56 *)
Definition AWORDS : nat := 8.             (* WH_AUTH_ACTION_WORDS *)
Definition MAXKEYS : nat := 2.            (* WH_AUTH_MAX_KEY_IDS *)
Record perms := mkP { p_group : list N; p_act : list (list N); p_count : N; p_keys : list N }.
Definition perms_zero : perms :=
  mkP (repeat 0 (S NGROUPS)) (repeat (repeat 0 AWORDS) NGROUPS) 0 (repeat 0 MAXKEYS).
Definition grp (p : perms) (g : nat) : N := nth g (p_group p) 0.
Definition act (p : perms) (g w : nat) : N := nth w (nth g (p_act p) []) 0.
(** WH_AUTH_IS_ADMIN: wh_auth.h 68-69. *)
Definition is_admin (p : perms) : bool := negb (grp p NGROUPS =? 0).
(** The key ids in use: the loops of wh_auth.c 316-322 and 384-396. *)
Definition key_ids (p : perms) : list N := firstn (Nat.min (N.to_nat (p_count p)) MAXKEYS) (p_keys p).

(** wh_MessageAuth_FlattenPermissions: wh_message_auth.c 114-165. *)
Definition pad_to (n : nat) (l : list N) : list N := firstn n (l ++ repeat 0 n).
Definition flatten (p : perms) : list N :=
  map (fun i => grp p i) (seq 0 (S NGROUPS)) ++
  flat_map (fun i => flat_map (fun j => le_enc 4 (act p i j)) (seq 0 AWORDS)) (seq 0 NGROUPS) ++
  le_enc 2 (N.min (p_count p) (N.of_nat MAXKEYS)) ++
  flat_map (le_enc 4) (pad_to MAXKEYS (key_ids p)).
Definition FLAT_LEN : nat := S NGROUPS + 4 * NGROUPS * AWORDS + 2 + 4 * MAXKEYS.
(** wh_MessageAuth_UnflattenPermissions: wh_message_auth.c 168-219. *)
Definition word_at (b : list N) (n : nat) : N := le_dec (firstn 4 (skipn n b)).
Definition unflatten (b : list N) : perms :=
  let a0 := S NGROUPS in
  let c0 := (a0 + 4 * NGROUPS * AWORDS)%nat in
  mkP (firstn (S NGROUPS) b)
      (map (fun i => map (fun j => word_at b (a0 + 4 * (AWORDS * i + j))) (seq 0 AWORDS)) (seq 0 NGROUPS))
      (N.min (le_dec (firstn 2 (skipn c0 b))) (N.of_nat MAXKEYS))
      (map (fun i => word_at b (c0 + 2 + 4 * i)) (seq 0 MAXKEYS)).

(** The clamping of keyIdCount and keyIds: wh_auth_base.c 755-767 and 926-938. *)
Definition clamp (p : perms) : perms :=
  let c := N.min (p_count p) (N.of_nat MAXKEYS) in
  mkP (p_group p) (p_act p) c (pad_to MAXKEYS (firstn (N.to_nat c) (p_keys p))).

(** ** Sessions: whAuthContext.user *)
Record sess := mkSess { u_id : N; u_perm : perms }.
Definition no_sess : sess := mkSess 0 perms_zero.

(** wh_Auth_CheckRequestAuthorization: wh_auth.c 208-286, without an override
    callback.  [lock] is the result of taking the auth lock. *)
Definition ACT_LOGIN : N := 0.
Definition ACT_LOGOUT : N := 1.
Definition check_request (lock : Z) (s : sess) (group action : N) : Z :=
  if negb (is_ok lock) then lock else
  if u_id s =? 0 then
    if (group =? GROUP_COMM) || ((group =? GROUP_AUTH) && (action =? ACT_LOGIN)) then OK else ACCESS
  else
    let gi := N.to_nat (N.land (N.shiftr group 8) 255) in
    if (group =? GROUP_AUTH) && (action =? ACT_LOGOUT) then OK
    else if (NGROUPS <=? gi)%nat then ACCESS
    else if negb (grp (u_perm s) gi =? 0) then
      if action <? 256 then
        let w := N.to_nat (action / 32) in
        let bit := N.shiftl 1 (action mod 32) in
        if (w <? AWORDS)%nat && negb (N.land (act (u_perm s) gi w) bit =? 0) then OK else ACCESS
      else ACCESS
    else ACCESS.
(** The override callback, when there is one, decides (wh_auth.c 279-282). *)
Definition check_override (ovr : option (Z -> N -> N -> N -> Z)) (lock : Z) (s : sess) (group action : N) : Z :=
  if negb (is_ok lock) then lock else
  let rc := check_request lock s group action in
  match ovr with None => rc | Some f => f rc (u_id s) group action end.

(** wh_Auth_CheckKeyAuthorization: wh_auth.c 290-330 (called by nobody). *)
Definition check_key (lock : Z) (s : sess) (key : N) : Z :=
  if negb (is_ok lock) then lock else
  if u_id s =? 0 then ACCESS else if existsb (N.eqb key) (key_ids (u_perm s)) then OK else ACCESS.

(** ** The user database: wh_auth_base.c 45-66 *)
Definition MAX_USERS : nat := 5.
Definition MAX_CRED : N := 2048.
Definition METHOD_NONE : N := 0.
Definition METHOD_PIN : N := 1.
Definition METHOD_CERT : N := 2.
(** whAuthBase_User; the user name is the bytes before the terminating zero. *)
Record urec := mkU { b_id : N; b_name : list N; b_perm : perms; b_active : bool; b_method : N; b_clen : N }.
Definition urec_zero : urec := mkU 0 [] perms_zero false METHOD_NONE 0.
(** users[], s_auth_base_ram_cred[] (used without NVM only; the bytes up to
    credentials_len) and the NVM objects. *)
Record adb := mkDb { a_users : list urec; a_ram : list (list N); a_st : store }.
Definition users_zero : list urec := repeat urec_zero MAX_USERS.
Definition ram_zero : list (list N) := repeat [] MAX_USERS.

Definition slot_of (uid : N) : nat := N.to_nat (uid - 1).
Definition user_at (D : adb) (uid : N) : urec := nth (slot_of uid) (a_users D) urec_zero.
Fixpoint set_nth {A} (n : nat) (x : A) (l : list A) : list A :=
  match l, n with
  | [], _ => []
  | _ :: r, O => x :: r
  | y :: r, S k => y :: set_nth k x r
  end.
Definition set_user (uid : N) (u : urec) (D : adb) : adb :=
  mkDb (set_nth (slot_of uid) u (a_users D)) (a_ram D) (a_st D).
Definition with_perm (u : urec) (p : perms) : urec := mkU (b_id u) (b_name u) p (b_active u) (b_method u) (b_clen u).
Definition with_active (u : urec) (b : bool) : urec := mkU (b_id u) (b_name u) (b_perm u) b (b_method u) (b_clen u).
Definition with_cred (u : urec) (m n : N) : urec := mkU (b_id u) (b_name u) (b_perm u) (b_active u) m n.

(** C strings in the 32-byte user name field of a request, with byte 31 set to
    zero: wh_message_auth.c 68-73, 239-243, 309-313. *)
Fixpoint cstr (l : list N) : list N :=
  match l with [] => [] | b :: r => if b =? 0 then [] else b :: cstr r end.
Definition uname (raw : list N) : list N := cstr (firstn 31 raw).
Fixpoint name_eqb (a b : list N) : bool :=
  match a, b with
  | [], [] => true
  | x :: a', y :: b' => (x =? y) && name_eqb a' b'
  | _, _ => false
  end.

(** What the environment does during a request: the auth lock, reads of
    credential objects, hashing, and up to three NVM writes in order. *)
Record aenv := mkAe { ae_lock : Z; ae_rd : Z; ae_hash : bool; ae_w1 : Z; ae_w2 : Z; ae_w3 : Z }.

(** The index object: magic and five whAuthUser structures of 516 bytes (layout
    of the pinned little-endian configuration; padding is zero here).
    wh_auth_base.c 63-79, 123-173. *)
Definition INDEX_ID : N := 0xFE00.
Definition CRED_BASE : N := 0xFE01.
Definition cred_id (uid : N) : N := CRED_BASE + (uid - 1).
Definition AUTH_MAGIC : N := 0x57484142.
Definition USER_SIZE : nat := 516.
Definition INDEX_SIZE : nat := 4 + USER_SIZE * MAX_USERS.
Definition ser_user (u : urec) : list N :=
  le_enc 2 (b_id u) ++ pad_to 32 (b_name u) ++ [0; 0] ++
  map (fun i => grp (b_perm u) i) (seq 0 (S NGROUPS)) ++ [0] ++
  flat_map (fun i => flat_map (fun j => le_enc 4 (act (b_perm u) i j)) (seq 0 AWORDS)) (seq 0 NGROUPS) ++
  le_enc 2 (p_count (b_perm u)) ++ [0; 0] ++ flat_map (le_enc 4) (pad_to MAXKEYS (p_keys (b_perm u))) ++
  [0] ++ [0; 0; 0].
Definition ser_index (us : list urec) : list N := le_enc 4 AUTH_MAGIC ++ flat_map ser_user us.
Definition des_user (b : list N) : urec :=
  mkU (le_dec (firstn 2 b)) (cstr (firstn 31 (skipn 2 b)))
      (mkP (firstn (S NGROUPS) (skipn 36 b))
           (map (fun i => map (fun j => word_at b (52 + 4 * (AWORDS * i + j))) (seq 0 AWORDS)) (seq 0 NGROUPS))
           (le_dec (firstn 2 (skipn 500 b))) (map (fun i => word_at b (504 + 4 * i)) (seq 0 MAXKEYS)))
      false METHOD_NONE 0.
Definition LABEL_LEN : nat := 24.
Definition cred_label (method : N) : list N :=
  pad_to 23 [97; 117; 116; 104; 95; 99; 114; 101; 100] ++ [method mod 256].
Definition index_label : list N := pad_to LABEL_LEN [97; 117; 116; 104; 95; 117; 115; 101; 114; 95; 105; 100; 120].
Definition auth_flags : N := F_SENSITIVE + F_NONEXPORTABLE + F_NONMODIFIABLE.
Definition index_meta : meta := mkMeta INDEX_ID 0 auth_flags (N.of_nat INDEX_SIZE) index_label.
Definition cred_meta (uid method : N) (len : N) : meta := mkMeta (cred_id uid) 0 auth_flags len (cred_label method).

Section Base.
(** Configuration: whether an NVM context is configured, whether the build has
    crypto (WOLFHSM_CFG_NO_CRYPTO not defined) and the certificate manager. *)
Variables (nvm crypto certs : bool).
(** SHA-256, and the certificate manager's verdict on a certificate under a CA. *)
Variable sha : list N -> list N.
Variable verify : list N -> list N -> bool.
Definition cert_method : bool := certs && crypto.

(** wh_Auth_BasePersistIndex. *)
Definition persist_index (w : Z) (D : adb) : Z * adb :=
  if nvm then
    let '(rc, st) := nv_add w index_meta (ser_index (a_users D)) (a_st D) in (rc, mkDb (a_users D) (a_ram D) st)
  else (OK, D).
(** wh_Auth_BasePersistCred: wh_auth_base.c 177-221. *)
Definition persist_cred (w : Z) (uid method : N) (buf : list N) (D : adb) : Z * adb :=
  if nvm then
    let '(rc, st) := nv_add w (cred_meta uid method (N.of_nat (length buf))) buf (a_st D) in (rc, mkDb (a_users D) (a_ram D) st)
  else (OK, mkDb (a_users D) (set_nth (slot_of uid) buf (a_ram D)) (a_st D)).
(** wh_Auth_BaseLoadCred: wh_auth_base.c 227-268. *)
Definition load_cred (rd : Z) (uid : N) (D : adb) : Z * list N :=
  if nvm then
    if negb (is_ok rd) then (rd, []) else
    match sp_find (a_st D) (cred_id uid) with
    | None => (NOTFOUND, [])
    | Some (m, d) => if (0 <? m_len m) && (m_len m <=? MAX_CRED)
                     then sp_read (a_st D) (cred_id uid) 0 (N.to_nat (m_len m)) else (ABORTED, [])
    end
  else
    let n := b_clen (user_at D uid) in
    if n =? 0 then (NOTFOUND, []) else (OK, firstn (N.to_nat n) (nth (slot_of uid) (a_ram D) [])).
(** wh_Auth_BaseDestroyCred: wh_auth_base.c 300-320. *)
Definition destroy_cred (w : Z) (uid : N) (D : adb) : Z * adb :=
  if nvm then
    let '(rc, st) := nv_destroy w [cred_id uid] (a_st D) in (rc, mkDb (a_users D) (a_ram D) st)
  else (OK, mkDb (a_users D) (set_nth (slot_of uid) [] (a_ram D)) (a_st D)).

(** wh_Auth_BaseLoadCredHeader and the loop of wh_Auth_BaseLoadFromNvm:
    wh_auth_base.c 272-295 and 380-427, for the slots from [i] on. *)
Definition load_slot (st : store) (i : nat) (u : urec) : Z * urec :=
  if b_id u =? 0 then
    match b_name u with [] => (OK, u) | _ => (ABORTED, u) end
  else if negb (b_id u =? N.of_nat (S i)) || (N.of_nat MAXKEYS <? p_count (b_perm u)) then (ABORTED, u)
  else match sp_find st (cred_id (b_id u)) with
       | None => (OK, u)
       | Some (m, _) =>
           let method := nth (LABEL_LEN - 1) (m_label m) 0 in
           if (m_len m =? 0) || (MAX_CRED <? m_len m) || (negb (method =? METHOD_PIN) && negb (method =? METHOD_CERT))
           then (ABORTED, u) else (OK, with_cred u method (m_len m))
       end.
Fixpoint load_slots (st : store) (i n : nat) (b : list N) : Z * list urec :=
  match n with
  | O => (OK, [])
  | S n' =>
      let '(rc, u) := load_slot st i (des_user (firstn USER_SIZE b)) in
      if negb (is_ok rc) then (rc, []) else
      let '(rc, us) := load_slots st (S i) n' (skipn USER_SIZE b) in (rc, u :: us)
  end.
(** wh_Auth_BaseLoadFromNvm: wh_auth_base.c 325-437; reads of NVM do not fail.
    On an error the users are zeroed. *)
Definition load_users (st : store) : Z * list urec :=
  match sp_find st INDEX_ID with
  | None => (OK, users_zero)
  | Some (m, d) =>
      if negb (m_len m =? N.of_nat INDEX_SIZE) then (ABORTED, users_zero) else
      let '(rc, b) := sp_read st INDEX_ID 0 INDEX_SIZE in
      if negb (is_ok rc) then (rc, users_zero) else
      if negb (le_dec (firstn 4 b) =? AUTH_MAGIC) then (ABORTED, users_zero) else
      let '(rc, us) := load_slots st 0 MAX_USERS (skipn 4 b) in
      if is_ok rc then (OK, us) else (rc, users_zero)
  end.
(** wh_Auth_BaseInit: wh_auth_base.c 439-463. *)
Definition base_init (st : store) : Z * adb :=
  if nvm then let '(rc, us) := load_users st in (rc, mkDb us ram_zero st)
  else (OK, mkDb users_zero ram_zero st).

(** wh_Auth_BaseFindUser: wh_auth_base.c 480-490; the user id is the slot's,
    which [load_slot] and [base_add] keep equal to its number. *)
Definition find_user (D : adb) (name : list N) : option nat :=
  find (fun i => name_eqb (b_name (nth i (a_users D) urec_zero)) name) (seq 0 MAX_USERS).

(** wh_Auth_BaseHashPin: wh_auth_base.c 493-511. *)
Definition hash_pin (e : aenv) (pin : list N) : Z * list N :=
  if crypto then if ae_hash e then (OK, sha pin) else (ABORTED, [])
  else if MAX_CRED <? N.of_nat (length pin) then (BUFFER_SIZE, []) else (OK, pin).

(** wh_Auth_BaseCheckPin and wh_Auth_BaseCheckCertificate: wh_auth_base.c
    516-562 and 593-624: the slot that matched, if any. *)
Definition len_of (l : list N) : N := N.of_nat (length l).
Definition check_pin (e : aenv) (name pin : list N) (D : adb) : Z * option nat :=
  let '(rc, h) := hash_pin e pin in
  if negb (is_ok rc) then (rc, None) else
  match find_user D name with
  | None => (OK, None)
  | Some i =>
      let u := nth i (a_users D) urec_zero in
      if (b_method u =? METHOD_PIN) && (b_clen u =? len_of h) then
        let '(rc, d) := load_cred (ae_rd e) (b_id u) D in
        if is_ok rc then (OK, if name_eqb d h then Some i else None)
        else if Z.eqb rc NOTFOUND then (OK, None) else (rc, None)
      else (OK, None)
  end.
Definition check_cert (e : aenv) (name cert : list N) (D : adb) : Z * option nat :=
  match find_user D name with
  | None => (OK, None)
  | Some i =>
      let u := nth i (a_users D) urec_zero in
      if (b_method u =? METHOD_CERT) && (0 <? b_clen u) then
        let '(rc, d) := load_cred (ae_rd e) (b_id u) D in
        if is_ok rc then (OK, if (len_of d =? b_clen u) && verify d cert then Some i else None)
        else if Z.eqb rc NOTFOUND then (OK, None) else (rc, None)
      else (OK, None)
  end.
(** wh_Auth_BaseLogin: wh_auth_base.c 627-677: the code, the database and, when
    logged in, the user id and permissions. *)
Definition base_login (e : aenv) (method : N) (name data : list N) (D : adb) : Z * adb * option (N * perms) :=
  if negb ((method =? METHOD_PIN) || ((method =? METHOD_CERT) && cert_method)) then (BADARGS, D, None) else
  let '(rc, who) := if method =? METHOD_PIN then check_pin e name data D else check_cert e name data D in
  if negb (is_ok rc) then (rc, D, None) else
  match who with
  | None => (OK, D, None)
  | Some i =>
      let u := nth i (a_users D) urec_zero in
      if b_active u then (OK, D, None)
      else (OK, mkDb (set_nth i (with_active u true) (a_users D)) (a_ram D) (a_st D), Some (b_id u, b_perm u))
  end.

(** wh_Auth_BaseLogout: wh_auth_base.c 679-703. *)
Definition base_logout (cur uid : N) (D : adb) : Z * adb :=
  if (cur =? 0) || (uid =? 0) then (BADARGS, D) else
  if (N.of_nat MAX_USERS <? cur) || (N.of_nat MAX_USERS <? uid) then (NOTFOUND, D) else
  if negb (cur =? uid) && negb (is_admin (b_perm (user_at D cur))) then (ACCESS, D) else
  (OK, set_user uid (with_active (user_at D uid) false) D).

(** wh_Auth_BaseUserAdd: wh_auth_base.c 706-842. *)
Definition free_slot (D : adb) : option nat := find (fun i => b_id (nth i (a_users D) urec_zero) =? 0) (seq 0 MAX_USERS).
Definition base_add (e : aenv) (raw : list N) (p : perms) (method : N) (cred : list N) (D : adb) : Z * adb * N :=
  let name := uname raw in
  if (0 <? len_of cred) && negb ((method =? METHOD_PIN) || ((method =? METHOD_CERT) && cert_method)) then (BADARGS, D, 0) else
  match find_user D name with
  | Some _ => (BADARGS, D, 0)
  | None =>
      match free_slot D with
      | None => (BUFFER_SIZE, D, 0)
      | Some i =>
          let uid := N.of_nat (S i) in
          let u := mkU uid name (clamp p) false METHOD_NONE 0 in
          let undo (D : adb) := set_user uid urec_zero D in
          let index (clen : N) (D : adb) :=
            let '(rc, D1) := persist_index (ae_w2 e) D in
            if is_ok rc then (rc, D1, uid)
            else (rc, undo (if 0 <? clen then snd (destroy_cred (ae_w3 e) uid D1) else D1), 0) in
          if 0 <? len_of cred then
            let '(rc, blob) :=
              if method =? METHOD_PIN then hash_pin e cred
              else if MAX_CRED <? len_of cred then (BUFFER_SIZE, []) else (OK, cred) in
            if negb (is_ok rc) then (rc, undo D, 0) else
            let D1 := set_user uid (with_cred u method (len_of blob)) D in
            let '(rc, D2) := persist_cred (ae_w1 e) uid method blob D1 in
            if negb (is_ok rc) then (rc, undo D2, 0) else index (len_of blob) D2
          else index 0 (set_user uid u D)
      end
  end.

(** wh_Auth_BaseUserDelete: wh_auth_base.c 844-894. *)
Definition base_delete (e : aenv) (cur uid : N) (D : adb) : Z * adb :=
  if (uid =? 0) || (N.of_nat MAX_USERS <? uid) then (NOTFOUND, D) else
  if (cur =? 0) || (N.of_nat MAX_USERS <? cur) then (BADARGS, D) else
  if negb (is_admin (b_perm (user_at D cur))) then (ACCESS, D) else
  let u := user_at D uid in
  if b_id u =? 0 then (NOTFOUND, D) else
  let '(rc, D1) := persist_index (ae_w1 e) (set_user uid urec_zero D) in
  if negb (is_ok rc) then (rc, set_user uid u D1)
  else if 0 <? b_clen u then
    let '(rc, D2) := destroy_cred (ae_w2 e) uid D1 in
    if is_ok rc then (rc, D2) else (rc, snd (persist_index (ae_w3 e) (set_user uid u D2)))
  else (rc, D1).

(** wh_Auth_BaseUserSetPermissions: wh_auth_base.c 896-945. *)
Definition base_set_perm (e : aenv) (cur uid : N) (p : perms) (D : adb) : Z * adb :=
  if (uid =? 0) || (N.of_nat MAX_USERS <? uid) then (NOTFOUND, D) else
  if (cur =? 0) || (N.of_nat MAX_USERS <? cur) then (NOTFOUND, D) else
  if negb (is_admin (b_perm (user_at D cur))) then (ACCESS, D) else
  let u := user_at D uid in
  if b_id u =? 0 then (NOTFOUND, D) else
  let '(rc, D1) := persist_index (ae_w1 e) (set_user uid (with_perm u (clamp p)) D) in
  if is_ok rc then (rc, D1) else (rc, set_user uid (with_perm u (b_perm u)) D1).

(** wh_Auth_BaseUserGet: wh_auth_base.c 948-981. *)
Definition base_get (cur : N) (name : list N) (D : adb) : Z * N * perms :=
  if (cur =? 0) || (N.of_nat MAX_USERS <? cur) then (ACCESS, 0, perms_zero) else
  let adm := is_admin (b_perm (user_at D cur)) in
  let miss := (if adm then NOTFOUND else ACCESS, 0, perms_zero) in
  match find_user D name with
  | None => miss
  | Some i =>
      let u := nth i (a_users D) urec_zero in
      if b_id u =? 0 then miss
      else if negb adm && negb (b_id u =? cur) then (ACCESS, 0, perms_zero)
      else (OK, b_id u, b_perm u)
  end.

(** wh_Auth_BaseUserSetCredentials: wh_auth_base.c 984-1155. *)
Definition base_set_cred (e : aenv) (cur uid method : N) (old new : list N) (D : adb) : Z * adb :=
  if (uid =? 0) || (N.of_nat MAX_USERS <? uid) then (BADARGS, D) else
  if (cur =? 0) || (N.of_nat MAX_USERS <? cur) then (BADARGS, D) else
  if negb (cur =? uid) && negb (is_admin (b_perm (user_at D cur))) then (ACCESS, D) else
  if negb ((method =? METHOD_PIN) || ((method =? METHOD_CERT) && cert_method)) then (BADARGS, D) else
  let u := user_at D uid in
  if b_id u =? 0 then (NOTFOUND, D) else
  if MAX_CRED <? len_of new then (BUFFER_SIZE, D) else
  let verified : Z :=
    if 0 <? b_clen u then
      if len_of old =? 0 then ACCESS else
      let '(rc, d) := load_cred (ae_rd e) uid D in
      if negb (is_ok rc) || negb (len_of d =? b_clen u) then ACCESS else
      if (b_method u =? METHOD_PIN) && crypto then
        let '(rc, h) := hash_pin e old in
        if negb (is_ok rc) then rc else
        if negb (b_clen u =? len_of h) || negb (name_eqb d h) then ACCESS else OK
      else if negb (b_clen u =? len_of old) || negb (name_eqb d old) then ACCESS else OK
    else if 0 <? len_of old then BADARGS else OK in
  if negb (is_ok verified) then (verified, D) else
  let '(rc, blob) :=
    if len_of new =? 0 then (OK, [])
    else if (method =? METHOD_PIN) && crypto then hash_pin e new else (OK, new) in
  if negb (is_ok rc) then (rc, D) else
  if 0 <? len_of blob then
    let '(rc, D1) := persist_cred (ae_w1 e) uid method blob D in
    if is_ok rc then (rc, set_user uid (with_cred u method (len_of blob)) D1) else (rc, D1)
  else if 0 <? b_clen u then
    let '(rc, D1) := destroy_cred (ae_w1 e) uid D in
    if is_ok rc then (rc, set_user uid (with_cred u METHOD_NONE 0) D1) else (rc, D1)
  else (OK, D).

(** ** The wrappers of wh_auth.c and the requests of wh_server_auth.c *)
Inductive areq :=
| ALogin (method : N) (raw data : list N)
| ALogout (uid : N)
| AAdd (raw : list N) (p : perms) (method : N) (cred : list N)
| ADelete (uid : N)
| AGet (raw : list N)
| ASetPerm (uid : N) (p : perms)
| ASetCred (uid method : N) (old new : list N).
Definition areq_action (q : areq) : N :=
  match q with
  | ALogin _ _ _ => 0 | ALogout _ => 1 | AAdd _ _ _ _ => 2 | ADelete _ => 3
  | AGet _ => 4 | ASetPerm _ _ => 5 | ASetCred _ _ _ _ => 6
  end.
(** The answer: code, user id, permissions. *)
Record aresp := mkAr { ar_rc : Z; ar_id : N; ar_perm : perms }.
Definition arc (rc : Z) : aresp := mkAr rc 0 perms_zero.

(** The subset check of wh_auth.c 360-416. *)
Definition subset_ok (caller p : perms) : bool :=
  negb (is_admin p) &&
  forallb (fun g => ((grp p g =? 0) || negb (grp caller g =? 0)) &&
                    forallb (fun w => N.ldiff (act p g w) (act caller g w) =? 0) (seq 0 AWORDS)) (seq 0 NGROUPS) &&
  forallb (fun k => existsb (N.eqb k) (key_ids caller)) (key_ids p).

(** wh_Auth_Logout (wh_auth.c 161-184) for session [s]. *)
Definition auth_logout (lock : Z) (uid : N) (s : sess) (D : adb) : Z * sess * adb :=
  if negb (is_ok lock) then (lock, s, D) else
  let '(rc, D1) := base_logout (u_id s) uid D in
  (rc, if is_ok rc && (uid =? u_id s) then no_sess else s, D1).
(** wh_Auth_Reset: wh_auth.c 189-204. *)
Definition auth_reset (lock : Z) (s : sess) : sess := if is_ok lock then no_sess else s.

Definition auth_handle (e : aenv) (q : areq) (s : sess) (D : adb) : aresp * sess * adb :=
  match q with
  | ALogin method raw data =>       (* wh_auth.c 119-158, wh_server_auth.c 68-104 *)
      if negb (is_ok (ae_lock e)) then (arc (ae_lock e), s, D) else
      if negb (u_id s =? 0) then (arc LOGIN_FAILED, s, D) else
      let '(rc, D1, who) := base_login e method (uname raw) data D in
      if negb (is_ok rc) then (arc rc, s, D1) else
      match who with
      | None => (arc LOGIN_FAILED, s, D1)
      | Some (id, p) => (mkAr OK id perms_zero, mkSess id p, D1)
      end
  | ALogout uid => let '(rc, s1, D1) := auth_logout (ae_lock e) uid s D in (arc rc, s1, D1)
  | AAdd raw p method cred =>       (* wh_auth.c 344-437 *)
      if negb (is_ok (ae_lock e)) then (arc (ae_lock e), s, D) else
      if negb (is_admin (u_perm s)) && negb (subset_ok (u_perm s) p) then (arc PERMISSION_ERROR, s, D) else
      if negb (is_admin (u_perm s)) && (len_of cred =? 0) then (arc PERMISSION_ERROR, s, D) else
      let '(rc, D1, id) := base_add e raw p method cred D in (mkAr rc id perms_zero, s, D1)
  | ADelete uid =>                  (* wh_auth.c 440-457 *)
      if negb (is_ok (ae_lock e)) then (arc (ae_lock e), s, D) else
      let '(rc, D1) := base_delete e (u_id s) uid D in (arc rc, s, D1)
  | AGet raw =>                     (* wh_auth.c 489-507 *)
      if negb (is_ok (ae_lock e)) then (arc (ae_lock e), s, D) else
      let '(rc, id, p) := base_get (u_id s) (uname raw) D in
      (if is_ok rc then mkAr rc id p else arc rc, s, D)
  | ASetPerm uid p =>               (* wh_auth.c 460-487 *)
      if negb (is_ok (ae_lock e)) then (arc (ae_lock e), s, D) else
      let '(rc, D1) := base_set_perm e (u_id s) uid p D in
      (arc rc, if is_ok rc && (uid =? u_id s) && negb (u_id s =? 0) then mkSess (u_id s) p else s, D1)
  | ASetCred uid method old new =>  (* wh_auth.c 509-532 *)
      if negb (is_ok (ae_lock e)) then (arc (ae_lock e), s, D) else
      let '(rc, D1) := base_set_cred e (u_id s) uid method old new D in (arc rc, s, D1)
  end.

(** ** The whole system: one database, one session per auth context *)
Record asys := mkAs { as_up : bool; as_db : adb; as_sess : nat -> sess }.
Definition set_sess (f : nat -> sess) (c : nat) (s : sess) : nat -> sess := fun x => if Nat.eqb x c then s else f x.

Variable max_read : nat.
Variable have_st : bool.
Inductive aev :=
| EReq (c : nat) (e : aenv) (q : areq)      (* a request of the auth group *)
| EAdd (e : aenv) (raw : list N) (p : perms) (method : N) (cred : list N)
                                            (* the server's own program calls wh_Auth_BaseUserAdd:
                                               wh_posix_server_cfg.c 757-781 *)
| EDrop (c : nat) (l1 l2 : Z)               (* the connection ends: wh_server.c 205-227 *)
| EInit (c : nat) (l1 l2 : Z)               (* wh_Server_Init with this auth context: wh_server.c 107-130 *)
| ENvm (e : nvm_env) (q : nvm_request)      (* an NVM request of any client *)
| EBoot.                                    (* the device restarts *)

(** Disconnect and server initialization: log the session's user out, then clear
    the session; [l1], [l2] are the results of taking the lock.  (A failed Reset
    aborts wh_Server_Init; the session is then still there.) *)
Definition end_session (l1 l2 : Z) (s : sess) (D : adb) : sess * adb :=
  if u_id s =? 0 then (s, D) else
  let '(_, s1, D1) := auth_logout l1 (u_id s) s D in (auth_reset l2 s1, D1).

(** Requests of the auth group as the request loop serves them: the
    authorization check first (wh_server.c 588-617).  When wh_Auth_Init failed
    the check answers BADARGS, and the client gets WH_AUTH_PERMISSION_ERROR. *)
Definition auth_step (ev : aev) (Y : asys) : option aresp * asys :=
  match ev with
  | EReq c e q =>
      let s := as_sess Y c in
      if negb (as_up Y) then (Some (arc PERMISSION_ERROR), Y) else
      if negb (is_ok (check_request (ae_lock e) s GROUP_AUTH (areq_action q))) then (Some (arc PERMISSION_ERROR), Y) else
      let '(r, s1, D1) := auth_handle e q s (as_db Y) in
      (Some r, mkAs true D1 (set_sess (as_sess Y) c s1))
  | EAdd e raw p m cred =>
      if negb (as_up Y) then (None, Y) else
      let '(rc, D1, id) := base_add e raw p m cred (as_db Y) in (Some (mkAr rc id perms_zero), mkAs true D1 (as_sess Y))
  | EDrop c l1 l2 =>
      if negb (as_up Y) then (None, Y) else
      let '(s1, D1) := end_session l1 l2 (as_sess Y c) (as_db Y) in
      (None, mkAs true D1 (set_sess (as_sess Y) c s1))
  | EInit c l1 l2 =>
      if negb (as_up Y) then (None, Y) else
      let '(s1, D1) := end_session l1 l2 (as_sess Y c) (as_db Y) in
      (None, mkAs true D1 (set_sess (as_sess Y) c (auth_reset l2 s1)))
  | ENvm e q =>
      let D := as_db Y in
      (None, mkAs (as_up Y) (mkDb (a_users D) (a_ram D) (snd (nvm_handle max_read have_st e q (a_st D)))) (as_sess Y))
  | EBoot =>
      let '(rc, D) := base_init (a_st (as_db Y)) in
      (None, mkAs (is_ok rc) D (fun _ => no_sess))
  end.
Fixpoint auth_run (evs : list aev) (Y : asys) : list (option aresp) * asys :=
  match evs with
  | [] => ([], Y)
  | ev :: r => let '(a, Y1) := auth_step ev Y in
               let '(rs, Y2) := auth_run r Y1 in (a :: rs, Y2)
  end.
(** A device started with NVM contents [st]. *)
Definition auth_boot (st : store) : asys := snd (auth_step EBoot (mkAs true (mkDb users_zero ram_zero st) (fun _ => no_sess))).
End Base.
