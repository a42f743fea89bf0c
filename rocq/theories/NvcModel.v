(** NVM client calls, from the caller's arguments to the bytes of the two
    packets and back: src/wh_client_nvm.c, src/wh_server_nvm.c 87-523 and the
    structures of wolfhsm/wh_message_nvm.h, for a client and a server of any
    byte order.  What the server does with a decoded request is [nvm_handle] of
    NvmReqModel.v.

    Left out: NULL checks of contexts and output pointers (every output is
    asked for), the loops that repeat a call while it says NOTREADY (a link
    says how they end), the group and action of a reply (the comm layer pairs
    replies with requests, C17), the authorization of a request (C40, C41), and
    the DMA callbacks of the client (addresses are offsets in its memory). *)
From Verif Require Import Base NvmSpec Flags Store NvmReqModel EndianModel KdfModel KsReq.
From Verif Require Import EndianProof.

(** Actions: wh_message_nvm.h 36-47; any other number is [AOther]. *)
Inductive nact := AInit | ACleanup | AAvail | AAdd | AList | AMeta | ADestroy | ARead | AAddDma | AReadDma | AOther.

(** Codes are sent as 32-bit two's complement. *)
Definition rc_n (z : Z) : N := Z.to_N (z mod 4294967296).
Definition n_rc (v : N) : Z := (if Z.of_N v <? 2147483648 then Z.of_N v else Z.of_N v - 4294967296)%Z.

(** ** Structures as bytes *)
(** A structure filled field by field by a machine of byte order [be]: pairs of
    a width and a value.  The structures used have no hidden padding. *)
Definition wire (be : bool) (fs : list (nat * N)) : list N := flat_map (fun f => enc be (fst f) (snd f)) fs.
(** The same structure read back. *)
Fixpoint unwire (be : bool) (ws : list nat) (buf : list N) : list N :=
  match ws with [] => [] | w :: r => dec be (firstn w buf) :: unwire be r (skipn w buf) end.
Definition sum (ws : list nat) : nat := fold_right Nat.add 0 ws.

(** Request structures: wh_message_nvm.h 62-232 (the label and the data come
    after the fields). *)
Definition W_INIT : list nat := [4].
Definition W_ADD : list nat := [2; 2; 2; 2].
Definition W_LIST : list nat := [2; 2; 2].
Definition W_META : list nat := [2].
Definition W_DESTROY : list nat := 2 :: repeat 2 19.
Definition W_READ : list nat := [2; 2; 2].
Definition W_ADDDMA : list nat := [8; 8; 2].
Definition W_READDMA : list nat := [8; 2; 2; 2].
(** Response structures. *)
Definition R_INIT : list nat := [4; 4; 4].
Definition R_AVAIL : list nat := [4; 4; 4; 2; 2].
Definition R_LIST : list nat := [4; 2; 2].
Definition R_META : list nat := [4; 2; 2; 2; 2].

Definition NULLP : nat := 0.

Section Nvc.
Variable DL : nat.               (* WOLFHSM_CFG_COMM_DATA_LEN *)
Variable have_stateful : bool.   (* LMS or XMSS compiled in *)
Variable sb : bool.              (* the server is big endian *)
Variable sid : N.                (* server->comm->server_id *)

(** wh_Crypto_IsStatefulSigPrivBlob (wh_crypto.c 516-534) on a server of either
    byte order. *)
Definition blob (d : list N) : bool :=
  have_stateful && negb (length d <? 12) &&
  (N.eqb (dec sb (rd 0 4 d)) MAGIC_LMS || N.eqb (dec sb (rd 0 4 d)) MAGIC_XMSS) &&
  negb (N.eqb (dec sb (rd 6 2 d)) 0).

Section Peer.
Variable cb : bool.              (* the client is big endian *)

(** The magic the server finds in the header of the request: wh_comm.c. *)
Definition magic : N := dec sb (enc cb 2 MAGIC_NATIVE).

(** ** Server *)
(** The Translate functions of wh_message_nvm.c on a request ... *)
Fixpoint take (ws : list nat) (buf : list N) : list N :=
  match ws with [] => [] | w :: r => translate w magic (dec sb (firstn w buf)) :: take r (skipn w buf) end.
(** ... and on a response. *)
Definition give (fs : list (nat * N)) : list N := wire sb (map (fun f => (fst f, translate (fst f) magic (snd f))) fs).

Definition fld (i : nat) (l : list N) : N := nth i l 0%N.

(** whNvmMetadata read by the server straight from client memory, with no
    translation: wh_server_nvm.c 418-420 passes the pointer on. *)
Definition meta_at (a : nat) (mem : list N) : meta :=
  let v := unwire sb [2; 2; 2; 2] (skipn a mem) in
  mkMeta (fld 0 v) (fld 1 v) (fld 2 v) (fld 3 v) (rd (a + 8) 24 mem).

(** What the handler takes a packet of [n] bytes in [buf] for: the size checks
    and the translation at the head of each case.  The data of an add are the
    bytes that follow the header in the packet. *)
Definition parse (a : nact) (n : nat) (buf mem : list N) : nvm_request :=
  match a with
  | AInit => if n =? 4 then QInit else QMalformed
  | ACleanup => if n =? 0 then QCleanup else QMalformed
  | AAvail => if n =? 0 then QAvail else QMalformed
  | AList => if n =? 6 then QList (fld 2 (take W_LIST buf)) else QMalformed
  | AMeta => if n =? 2 then QMeta (fld 0 (take W_META buf)) else QMalformed
  | AAdd => if n <? 32 then QMalformed else
            let v := take W_ADD buf in
            QAdd (mkMeta (fld 0 v) (fld 1 v) (fld 2 v) (fld 3 v) (rd 8 24 buf)) (rd 32 (n - 32) buf)
  | ADestroy => if n =? 40 then
                  let v := take W_DESTROY buf in QDestroy (N.to_nat (fld 0 v)) (skipn 1 v)
                else QMalformed
  | ARead => if n =? 6 then
               let v := take W_READ buf in QRead (fld 0 v) (N.to_nat (fld 1 v)) (N.to_nat (fld 2 v))
             else QMalformed
  | AAddDma => if n =? 24 then
                 let v := take W_ADDDMA buf in
                 let m := meta_at (N.to_nat (fld 0 v)) mem in
                 let d := rd (N.to_nat (fld 1 v)) (N.to_nat (fld 2 v)) mem in
                 QAddDma m m d d
               else QMalformed
  | AReadDma => if n =? 16 then
                  let v := take W_READDMA buf in
                  QReadDma (fld 1 v) (N.to_nat (fld 2 v)) (N.to_nat (fld 3 v))
                else QMalformed
  | AOther => QMalformed
  end.

(** Refusals before the storage is asked: a stateful private key (wh_server_nvm.c
    263-271, 404-411) and a NULL metadata address (396-402). *)
Definition early (a : nact) (n : nat) (buf mem : list N) (e : nvm_env) : option Z :=
  match parse a n buf mem with
  | QAdd m d => if N.eqb (m_len m) (N.of_nat (length d)) && blob d then Some ACCESS else None
  | QAddDma _ _ d _ =>
      if is_ok (e_dma1 e) && is_ok (e_dma2 e) then
        if Nat.eqb (N.to_nat (fld 0 (take W_ADDDMA buf))) NULLP then Some BADARGS
        else if blob d then Some ACCESS else None
      else None
  | _ => None
  end.

(** The response structure of each case, and its data. *)
Definition reply (a : nact) (n : nat) (buf : list N) (r : nvm_resp) : list N :=
  let rc : nat * N := (4, rc_n (rs_rc r)) in
  let num i := fld i (rs_nums r) in
  match a with
  | AInit => if n =? 4 then give [rc; (4, sid); (4, fld 0 (take W_INIT buf))] else give [rc; (4, 0%N); (4, 0%N)]
  | AAvail => give [rc; (4, num 0); (4, num 2); (2, num 1); (2, num 3)]
  | AList => give [rc; (2, (num 0%nat mod 65536)%N); (2, num 1)]
  | AMeta => let m := match rs_meta r with Some m => m | None => meta_zero end in
             give [rc; (2, m_id m); (2, m_access m); (2, m_flags m); (2, m_len m)] ++ m_label m
  | ARead => give [rc] ++ rs_data r
  | AOther => []
  | _ => give [rc]
  end.

(** wh_Server_HandleNvmRequest: wh_server_nvm.c 87-523.  Result: the response
    packet, the client's memory and the store. *)
Definition serve (a : nact) (n : nat) (buf mem : list N) (e : nvm_env) (s : store) : list N * list N * store :=
  let '(r, s') := match early a n buf mem e with
                  | Some rc => (resp_rc rc, s)
                  | None => nvm_handle (DL - 4) false e (parse a n buf mem) s
                  end in
  let mem' := match a with
              | AReadDma => wr (N.to_nat (fld 0 (take W_READDMA buf))) (rs_data r) mem
              | _ => mem
              end in
  (reply a n buf r, mem', s').

(** ** Client *)
(** The calls of wh_client_nvm.c with the caller's data; a pointer into the
    client's memory is an offset.  [NMeta] carries the size of the caller's
    label buffer. *)
Inductive ncall :=
| NInit | NCleanup | NAvail
| NAdd (id access flags : N) (label data : list N)
| NList (access flags start : N)
| NMeta (id : N) (label_len : nat)
| NDestroy (ids : list N)
| NRead (id : N) (off len : nat)
| NAddDma (meta_ptr data_ptr len : nat)
| NReadDma (id : N) (off len data_ptr : nat).

Definition action (c : ncall) : nact :=
  match c with
  | NInit => AInit | NCleanup => ACleanup | NAvail => AAvail | NAdd _ _ _ _ _ => AAdd | NList _ _ _ => AList
  | NMeta _ _ => AMeta | NDestroy _ => ADestroy | NRead _ _ _ => ARead
  | NAddDma _ _ _ => AAddDma | NReadDma _ _ _ _ => AReadDma
  end.

(** The Request functions: wh_client_nvm.c 44-57, 120-129, 183-192, 264-297,
    356-372, 436-448, 526-546, 602-617, 686-741, 808-848.  [None]: refused with
    BADARGS.  [cid]: c->comm->client_id. *)
Definition request (cid : N) (c : ncall) : option (list N) :=
  match c with
  | NInit => Some (wire cb [(4, cid)])
  | NCleanup => Some []
  | NAvail => Some []
  | NAdd id access flags label data =>
      if (24 <? length label) || (DL - 32 <? length data) then None else
      Some (wire cb [(2, id); (2, access); (2, flags); (2, N.of_nat (length data))] ++ exactly 24 label ++ data)
  | NList access flags start => Some (wire cb [(2, access); (2, flags); (2, start)])
  | NMeta id _ => Some (wire cb [(2, id)])
  | NDestroy ids =>
      if 19 <? length ids then None else
      Some (wire cb ((2, N.of_nat (length ids)) :: map (pair 2) (exactly 19 ids)))
  | NRead id off len => Some (wire cb [(2, id); (2, N.of_nat off); (2, N.of_nat len)])
  | NAddDma mp dp len => Some (wire cb [(8, N.of_nat mp); (8, N.of_nat dp); (2, N.of_nat len)] ++ repeat 0%N 6)
  | NReadDma id off len dp =>
      Some (wire cb [(8, N.of_nat dp); (2, id); (2, N.of_nat off); (2, N.of_nat len)] ++ repeat 0%N 2)
  end.

(** What a call gives back: its own failure, with nothing written to the
    caller's outputs, or success with *out_rc, the numbers in the order of the
    prototype and the bytes. *)
Inductive outcome := Failed (rc : Z) | Answered (rc : Z) (nums data : list N).

(** The Response functions: wh_client_nvm.c 59-95, 131-160, 194-237, 299-328,
    374-410, 450-500, 548-577, 619-661, 743-785, 850-896.  A reply longer than
    the structure is refused too, by wh_Client_RecvResponse. *)
Definition exact (ws : list nat) (extra : nat) (p : list N) (k : list N -> outcome) : outcome :=
  if length p =? sum ws + extra then k (unwire cb ws p) else Failed ABORTED.
Definition response (c : ncall) (p : list N) : outcome :=
  match c with
  | NInit => exact R_INIT 0 p (fun v => Answered (n_rc (fld 0 v)) [fld 2 v; fld 1 v] [])
  | NAvail => exact R_AVAIL 0 p (fun v => Answered (n_rc (fld 0 v)) [fld 1 v; fld 3 v; fld 2 v; fld 4 v] [])
  | NList _ _ _ => exact R_LIST 0 p (fun v => Answered (n_rc (fld 0 v)) [fld 1 v; fld 2 v] [])
  | NMeta _ ll => exact R_META 24 p (fun v =>
      Answered (n_rc (fld 0 v)) [fld 1 v; fld 2 v; fld 3 v; fld 4 v] (rd 12 (Nat.min ll 24) p))
  | NRead _ _ _ =>
      if (length p <? 4) || (DL <? length p) || (DL - 4 <? length p - 4) then Failed ABORTED
      else Answered (n_rc (fld 0 (unwire cb [4] p))) [N.of_nat (length p - 4)] (rd 4 (length p - 4) p)
  | _ => exact [4] 0 p (fun v => Answered (n_rc (fld 0 v)) [] [])
  end.

(** One exchange: the code of the send, the code with which polling ends, and
    what the server's buffer held before. *)
Record nlink := mkNl { k_send : Z; k_recv : Z; k_old : list N }.

(** The blocking calls: wh_client_nvm.c 97-117, 162-180, 239-261, 330-353,
    412-433, 502-523, 579-599, 663-682, 787-806, 898-915. *)
Definition call (cid : N) (c : ncall) (e : nvm_env) (L : nlink) (mem : list N) (s : store) : outcome * list N * store :=
  match request cid c with
  | None => (Failed BADARGS, mem, s)
  | Some p =>
      if negb (is_ok (k_send L)) then (Failed (k_send L), mem, s) else
      let '(resp, mem', s') := serve (action c) (length p) (p ++ skipn (length p) (k_old L)) mem e s in
      (if is_ok (k_recv L) then response c resp else Failed (k_recv L), mem', s')
  end.
End Peer.
End Nvc.
