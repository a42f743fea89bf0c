(** Policy layer of src/wh_nvm.c and the client NVM requests of
    src/wh_server_nvm.c, over the abstract store of NvmSpec.v.

    Byte-order translation is
    the subject of C18 and is left out.  NULL checks on server pointers are not
    modelled. *)
From Verif Require Import Base NvmSpec Flags Store.

(** wh_Nvm_CheckPolicy: wh_nvm.c 44-94. *)
Inductive nvop := NvAdd | NvRead | NvDestroy.
Definition check_policy (op : nvop) (s : store) (id : N) : Z :=
  let '(rc, m) := nv_meta s id in
  if negb (is_ok rc) then rc else
  let fl := m_flags m in
  if has fl F_TRUSTED then ACCESS else
  match op with
  | NvAdd => if has fl F_NONMODIFIABLE then ACCESS else OK
  | NvDestroy => if has fl (N.lor F_NONMODIFIABLE F_NONDESTROYABLE) then ACCESS else OK
  | NvRead => if has fl F_NONEXPORTABLE then ACCESS else OK
  end.

Definition fatal (rc : Z) : bool := negb (is_ok rc) && negb (Z.eqb rc NOTFOUND).

(** wh_Nvm_AddObjectChecked: wh_nvm.c 272-294.  [m1] is the metadata at the
    time of the check, [m2] at the time of the copy; they can differ only when
    the pointer is client memory (the DMA request). *)
Definition add_checked (r : Z) (m1 m2 : meta) (d : list N) (s : store) : Z * store :=
  let rc := check_policy NvAdd s (m_id m1) in
  if fatal rc then (rc, s)
  else nv_add r (with_flags m2 (clear (m_flags m2) F_SERVER_ONLY)) d s.

(** wh_Nvm_DestroyObjectsChecked: wh_nvm.c 344-363. *)
Fixpoint destroy_policy (s : store) (ids : list N) : Z :=
  match ids with
  | [] => OK
  | id :: r => let rc := check_policy NvDestroy s id in
               if fatal rc then rc else destroy_policy s r
  end.
Definition destroy_checked (r : Z) (ids : list N) (s : store) : Z * store :=
  let rc := destroy_policy s ids in
  if is_ok rc then nv_destroy r ids s else (rc, s).

(** wh_Nvm_ReadChecked: wh_nvm.c 381-392. *)
Definition read_checked (s : store) (id : N) (off len : nat) : Z * list N :=
  let rc := check_policy NvRead s id in
  if is_ok rc then sp_read s id off len else (rc, []).

(** wh_NvmFlash_List (wh_nvm_flash.c 1119-1185) on the stored objects. *)
Definition nv_list (s : store) (start : N) : nat * N :=
  if N.eqb start 0 then
    match s with
    | [] => (0, 0%N)
    | o :: r => ((if N.eqb (oid o) 0 then 0 else 1) + length r, oid o)
    end
  else sp_list s start.

(** wh_Crypto_IsStatefulSigPrivBlob: wh_crypto.c 516-534; the header is magic
    (4 bytes), pubLen (2), privLen (2), paramLen (2), reserved (2), and the
    magics are at wh_crypto.c 513-514. *)
Definition MAGIC_LMS : N := 1280135937.   (* 0x4C4D5301 *)
Definition MAGIC_XMSS : N := 1481462529.  (* 0x584D5301 *)
Definition stateful_blob (b : list N) : bool :=
  if length b <? 12 then false else
  let magic := le_dec (firstn 4 b) in
  if N.eqb magic MAGIC_LMS || N.eqb magic MAGIC_XMSS
  then negb (N.eqb (le_dec (firstn 2 (skipn 6 b))) 0) else false.

(** Client NVM requests: wolfhsm/wh_message_nvm.h.  A request whose size does
    not match its structure is [QMalformed]. *)
Inductive nvm_request :=
| QInit | QCleanup | QAvail
| QList (start : N)
| QMeta (id : N)
| QAdd (m : meta) (data : list N)          (* m_len: the len field; data: the bytes after the header *)
| QDestroy (count : nat) (ids : list N)    (* list_count and the 19 list entries *)
| QRead (id : N) (off len : nat)
| QAddDma (m1 m2 : meta) (d1 d2 : list N)  (* client memory at check and at use *)
| QReadDma (id : N) (off len : nat)
| QMalformed.

(** What the environment decides: the NVM lock, the storage, DMA address
    processing and the free-space report. *)
Record nvm_env := mkEnv { e_lock : Z; e_nvm : Z; e_dma1 : Z; e_dma2 : Z; e_avail : list N }.

Record nvm_resp := mkResp { rs_rc : Z; rs_nums : list N; rs_meta : option meta; rs_data : list N }.
Definition resp_rc (rc : Z) : nvm_resp := mkResp rc [] None [].

Section Server.
Variable max_read : nat.      (* WH_MESSAGE_NVM_MAX_READ_LEN *)
Variable have_stateful : bool. (* WOLFSSL_HAVE_LMS or WOLFSSL_HAVE_XMSS *)

(** _HandleNvmRead: wh_server_nvm.c 52-85. *)
Definition handle_read (s : store) (id : N) (off len : nat) : Z * list N :=
  if max_read <? len then (ABORTED, []) else
  let '(rc, m) := nv_meta s id in
  if negb (is_ok rc) then (rc, []) else
  let ml := N.to_nat (m_len m) in
  if ml <=? off then (BADARGS, []) else
  read_checked s id off (Nat.min len (ml - off)).

(** wh_Server_HandleNvmRequest: wh_server_nvm.c 87-523. *)
Definition nvm_handle (e : nvm_env) (q : nvm_request) (s : store) : nvm_resp * store :=
  let locked (k : nvm_resp * store) : nvm_resp * store :=
    if is_ok (e_lock e) then k else (resp_rc (e_lock e), s) in
  match q with
  | QInit => (resp_rc OK, s)
  | QCleanup => (resp_rc OK, s)
  | QMalformed => (resp_rc ABORTED, s)
  | QAvail => locked (mkResp OK (e_avail e) None [], s)
  | QList start =>
      locked (let '(n, id) := nv_list s start in (mkResp OK [N.of_nat n; id] None [], s))
  | QMeta id =>
      locked (let '(rc, m) := nv_meta s id in
              (mkResp rc [] (if is_ok rc then Some m else None) [], s))
  | QAdd m data =>
      if N.eqb (m_len m) (N.of_nat (length data)) then
        if have_stateful && stateful_blob data then (resp_rc ACCESS, s) else
        locked (let '(rc, s') := add_checked (e_nvm e) m m data s in (resp_rc rc, s'))
      else (resp_rc OK, s)
  | QDestroy count ids =>
      if count <=? 19 then
        locked (let '(rc, s') := destroy_checked (e_nvm e) (firstn count ids) s in (resp_rc rc, s'))
      else (resp_rc ABORTED, s)
  | QRead id off len =>
      locked (let '(rc, bs) := handle_read s id off len in (mkResp rc [] None bs, s))
  | QAddDma m1 m2 d1 d2 =>
      if negb (is_ok (e_dma1 e)) then (resp_rc (e_dma1 e), s) else
      if negb (is_ok (e_dma2 e)) then (resp_rc (e_dma2 e), s) else
      if have_stateful && stateful_blob d1 then (resp_rc ACCESS, s) else
      locked (let '(rc, s') := add_checked (e_nvm e) m1 m2 d2 s in (resp_rc rc, s'))
  | QReadDma id off len =>
      locked (
        let '(rc, m) := nv_meta s id in
        if negb (is_ok rc) then (resp_rc rc, s) else
        let ml := N.to_nat (m_len m) in
        if ml <=? off then (resp_rc BADARGS, s) else
        if negb (is_ok (e_dma1 e)) then (resp_rc (e_dma1 e), s) else
        let '(rc, bs) := read_checked s id off (Nat.min len (ml - off)) in
        (mkResp rc [] None bs, s))
  end.

(** A session of client requests, by any clients: responses and final store. *)
Fixpoint nvm_session (qs : list (nvm_env * nvm_request)) (s : store) : list nvm_resp * store :=
  match qs with
  | [] => ([], s)
  | (e, q) :: r => let '(a, s1) := nvm_handle e q s in
                   let '(rs, s2) := nvm_session r s1 in (a :: rs, s2)
  end.
End Server.
