(** Packet layer: src/wh_comm.c 62-470, wolfhsm/wh_comm.h 53-110, 170-215,
    290-330.  The transport is an environment: each call is given what the
    transport does.  [DL] is WOLFHSM_CFG_COMM_DATA_LEN. *)
From Verif Require Import Base EndianModel TimeoutModel.
Local Open Scope N_scope.

Section Comm.
Variable DL : nat.

(** WH_COMM_MTU and the size of the packet buffers: wh_comm.h 55-56, 181, 300. *)
Definition MTU : nat := 8 + DL.
Definition PKT : nat := 8 * ((MTU + 7) / 8).

(** Header fields of a packet (whCommHeader: wh_comm.h 74-81), as the little-endian
    host reads them. *)
Definition pk_magic (p : list N) : N := le_dec (firstn 2 p).
Definition pk_kind (p : list N) : N := translate 2 (pk_magic p) (le_dec (firstn 2 (skipn 2 p))).
Definition pk_seq (p : list N) : N := translate 2 (pk_magic p) (le_dec (firstn 2 (skipn 4 p))).
Definition pk_data (n : nat) (p : list N) : list N := firstn n (skipn 8 p).

(** Filling in a header: wh_comm.c 128-130, 433-435.  The aux field keeps its
    value. *)
Definition put_hdr (magic kind seq : N) (p : list N) : list N :=
  le_enc 2 magic ++ le_enc 2 (translate 2 magic kind) ++ le_enc 2 (translate 2 magic seq) ++ skipn 6 p.
(** Copying data behind the header. *)
Definition put_data (d : list N) (p : list N) : list N :=
  firstn 8 p ++ d ++ skipn (8 + length d) p.

(** Where the data of a send comes from: NULL, the context's own buffer, or a
    buffer of the caller. *)
Inductive src := SNull | SSelf | SBuf (d : list N).
(** Where the data of a receive goes; the capacity is the data_size argument. *)
Inductive dst := DNull | DSelf | DBuf.

(** ** Client *)
Record cctx := mkC { c_init : bool; c_pending : bool; c_seq : N; c_pkt : list N; c_timer : timer }.

(** wh_CommClient_Init: wh_comm.c 64-101; the transport's Init and the connect
    callback succeed. *)
Definition cl_init (tcfg : option N) : cctx :=
  mkC true false 0 (repeat 0 PKT) (timeout_init tcfg).

(** wh_CommClient_SendRequest: wh_comm.c 107-151.  [trc] is the return code of
    the transport's Send and [now] the clock.  Result: return code, *out_seq if
    it is set, the packet handed to the transport. *)
Definition cl_send (trc : Z) (now magic kind : N) (size : nat) (s : src) (c : cctx)
  : (Z * option N * option (list N)) * cctx :=
  if negb (c_init c) then ((BADARGS, None, None), c)
  else if c_pending c then ((REQUEST_PENDING, None, None), c)
  else if (DL <? size)%nat then ((BADARGS, None, None), c)
  else
    let p := put_hdr magic kind ((c_seq c + 1) mod 65536) (c_pkt c) in
    let p := match s with SBuf d => put_data (firstn size d) p | _ => p end in
    if is_ok trc then
      let q := (c_seq c + 1) mod 65536 in
      let '(rc, t) := timeout_start now (c_timer c) in
      ((rc, Some q, Some (firstn (8 + size) p)), mkC true true q p t)
    else ((trc, None, Some (firstn (8 + size) p)), mkC true false (c_seq c) p (c_timer c)).

(** What a receive reports: return code, magic, kind, sequence number and size
    outputs (None when not written), bytes copied into the caller's buffer. *)
Record rres := mkR { r_rc : Z; r_magic : option N; r_kind : option N; r_seq : option N;
                     r_size : option nat; r_copied : list N }.
Definition rfail (rc : Z) : rres := mkR rc None None None None [].

(** wh_CommClient_RecvResponse: wh_comm.c 159-270.  The transport's Recv returns
    [trc], reports [size] and leaves [buf] in the packet buffer. *)
Definition cl_recv (trc : Z) (size : nat) (buf : list N) (app : option (Z * Z * option N)) (now : N)
  (cap : nat) (d : dst) (c : cctx) : rres * cctx :=
  if negb (c_init c) then (rfail BADARGS, c)
  else if negb (c_pending c) then (rfail NOTREADY, c)
  else if is_ok trc then
    let t := snd (timeout_stop (c_timer c)) in
    if ((size <? 8) || (MTU <? size))%nat then
      (rfail ABORTED, mkC true false (c_seq c) buf t)
    else
      let payload := (size - 8)%nat in
      if negb (pk_magic buf =? MAGIC_NATIVE) then
        (mkR ABORTED (Some (pk_magic buf)) (Some 0) (Some 0) None [],
         mkC true true (c_seq c) buf t)
      else if negb (pk_seq buf =? c_seq c) then
        (rfail NOTREADY, mkC true true (c_seq c) buf t)
      else
        let '(rc, copied) :=
          match d with
          | DBuf => if (payload =? 0)%nat then (OK, [])
                    else if (cap <? payload)%nat then (BUFFER_SIZE, [])
                    else (OK, pk_data payload buf)
          | _ => (OK, [])
          end in
        (mkR rc (Some (pk_magic buf)) (Some (pk_kind buf)) (Some (pk_seq buf)) (Some payload) copied,
         mkC true false (c_seq c) buf t)
  else if Z.eqb trc ABORTED then (rfail ABORTED, mkC true false (c_seq c) buf (c_timer c))
  else if Z.eqb trc NOTREADY then
    let '(ex, t) := timeout_expired app now (c_timer c) in
    if Z.ltb 0 ex then (rfail TIMEOUT, mkC true false (c_seq c) buf (snd (timeout_stop t)))
    else if Z.ltb ex 0 then (rfail ex, mkC true true (c_seq c) buf t)
    else (rfail NOTREADY, mkC true true (c_seq c) buf t)
  else (rfail trc, mkC true true (c_seq c) buf (c_timer c)).

(** wh_CommClient_AbortPending: wh_comm.c 319-329. *)
Definition cl_abort (c : cctx) : Z * cctx :=
  if negb (c_init c) then (BADARGS, c)
  else (OK, mkC true false (c_seq c) (c_pkt c) (snd (timeout_stop (c_timer c)))).

(** wh_CommClient_IsRequestPending: wh_comm.c 311-317. *)
Definition cl_pending (c : cctx) : Z :=
  if negb (c_init c) then BADARGS else if c_pending c then 1%Z else 0%Z.

(** wh_CommClient_Cleanup: wh_comm.c 281-307; [trc] is the code of the
    transport's Cleanup.  The timer structure is zeroed. *)
Definition cl_cleanup (trc : Z) (c : cctx) : Z * cctx :=
  (trc, mkC false false (c_seq c) (c_pkt c) (mkT false false 0 0 false)).

(** Calls on a client, with everything the environment does. *)
Inductive ccall :=
| CInit (tcfg : option N)
| CSend (trc : Z) (now magic kind : N) (size : nat) (s : src)
| CRecv (trc : Z) (size : nat) (buf : list N) (app : option (Z * Z * option N)) (now : N)
        (cap : nat) (d : dst)
| CAbort
| CCleanup (trc : Z).
Inductive cout :=
| OInit
| OSend (rc : Z) (seq : option N) (sent : option (list N))
| ORecv (r : rres)
| OAbort (rc : Z)
| OCleanup (rc : Z).
Definition ccall_step (e : ccall) (c : cctx) : cout * cctx :=
  match e with
  | CInit tcfg => (OInit, cl_init tcfg)
  | CSend trc now magic kind size s =>
      let '((rc, q, p), c') := cl_send trc now magic kind size s c in (OSend rc q p, c')
  | CRecv trc size buf app now cap d =>
      let '(r, c') := cl_recv trc size buf app now cap d c in (ORecv r, c')
  | CAbort => let '(rc, c') := cl_abort c in (OAbort rc, c')
  | CCleanup trc => let '(rc, c') := cl_cleanup trc c in (OCleanup rc, c')
  end.
Fixpoint crun (es : list ccall) (c : cctx) : list cout :=
  match es with
  | [] => []
  | e :: es' => let '(o, c') := ccall_step e c in o :: crun es' c'
  end.

(** ** Server side of the packet layer *)
(** wh_CommServer_RecvRequest: wh_comm.c 363-414, on the packet buffer. *)
Definition sv_recv (trc : Z) (size : nat) (buf : list N) (cap : nat) (d : dst) : rres :=
  if is_ok trc then
    if ((size <? 8) || (MTU <? size))%nat then rfail ABORTED
    else
      let n := (size - 8)%nat in
      let '(rc, copied) :=
        match d with
        | DNull => (OK, [])
        | DSelf => if (cap <? n)%nat then (BUFFER_SIZE, []) else (OK, [])
        | DBuf => if (cap <? n)%nat then (BUFFER_SIZE, []) else (OK, pk_data n buf)
        end in
      mkR rc (Some (pk_magic buf)) (Some (pk_kind buf)) (Some (pk_seq buf)) (Some n) copied
  else rfail trc.

(** wh_CommServer_SendResponse: wh_comm.c 416-447: the packet handed to the
    transport, or the error. *)
Definition sv_send (magic kind seq : N) (size : nat) (s : src) (p : list N)
  : Z * option (list N) * list N :=
  if (DL <? size)%nat then (BADARGS, None, p)
  else
    let p := put_hdr magic kind seq p in
    let p := match s with SBuf d => put_data (firstn size d) p | _ => p end in
    (OK, Some (firstn (8 + size) p), p).

End Comm.
