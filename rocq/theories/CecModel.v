(** Certificate calls of the client, from the caller's arguments to the bytes of
    the two packets and back: src/wh_client_cert.c 57-809, the packet actions of
    src/wh_server_cert.c 882-1223, src/wh_message_cert.c 37-150 and the
    structures of wolfhsm/wh_message_cert.h 54-172, for a client and a server of
    any byte order.

    What the server does with a decoded request is a parameter [srv], taken to be
    [cert_handle] of CertModel.v in the theorems that need it.

    Left out: NULL arguments other than out_rc and label, the loops that repeat a
    call while it says NOTREADY (a link says how they end), the group and action
    of a reply (C17), authorization (C33), the DMA calls and attribute
    certificates.  Sizes have 16 bits, so WOLFHSM_CFG_COMM_DATA_LEN is below
    65536. *)
From Verif Require Import Base NvmSpec Store EndianModel KdfModel KsReq EndianProof NvcModel KeyId.

(** The calls: wh_client_cert.c 97, 186, 257, 353, 487, 512, 647, 674, 721, 786.
    A label of None is NULL; [key] is None for the verify calls without a key,
    and the cached key's flags and id ([*inout_keyId]) for the ones with. *)
Inductive ccall :=
| KInit
| KAdd (id acc fl : N) (label : option (list N)) (cert : list N)
| KErase (id : N)
| KRead (id : N) (cap : nat)
| KVerify (cert : list N) (root : N) (key : option (N * N))
| KMulti (cert : list N) (roots : list N) (key : option (N * N))
| KClear
| KEnable (v : N).
(** What the caller gets: the return code, *out_rc, *inout_keyId, *cert_len and
    the bytes of cert, each None if not written. *)
Record cout := mkCo { co_ret : Z; co_rc : option Z; co_key : option N; co_len : option N; co_cert : option (list N) }.
Definition failed (rc : Z) : cout := mkCo rc None None None None.

(** The functions the handler calls and what they leave: the code, the key id of
    a verification, the length and the bytes of a read.  [SRead] is the check of
    the flags and wh_Server_CertReadTrusted (1006-1023); wh_Server_CertVerify is
    the verification with one root (829-837). *)
Inductive sop :=
| SInit
| SAdd (id acc fl : N) (label cert : list N)
| SErase (id : N)
| SRead (id : N)
| SVerify (cert : list N) (roots : list N) (fl kfl key : N)
| SClear
| SEnable (v : N).
Record sres := mkSr { sr_rc : Z; sr_key : N; sr_len : N; sr_data : list N }.

(** One exchange: the codes of sending, receiving and locking the NVM, and the
    server's packet buffer before it. *)
Record tlink := mkTl { tl_send : Z; tl_recv : Z; tl_lock : Z; tl_buf : list N }.

Section Cec.
Variable DL : nat.               (* WOLFHSM_CFG_COMM_DATA_LEN *)
Variable MAX : nat.              (* WOLFHSM_CFG_CERT_MAX_VERIFY_ROOTS *)
Variable K : kcfg.
Variable global : bool.          (* WOLFHSM_CFG_CERTIFICATE_VERIFY_CACHE_GLOBAL *)
Variable St : Type.
Variable srv : sop -> St -> sres * St.

Section Peers.
Variables sb cb : bool.          (* big endian: server, client *)
Variable cid : N.                (* server->comm->client_id *)

(** ** Server *)
(** The translations write the fields of a response; its padding keeps what the
    packet buffer had: wh_message_cert.c 37-46, 98-108, 125-135. *)
Definition simple (rc : Z) (buf : list N) : list N := give sb cb [(4, rc_n rc)] ++ rd 4 4 buf.
Definition vresp (rc : Z) (key : N) (buf : list N) : list N := give sb cb [(4, rc_n rc); (2, key)] ++ rd 6 2 buf.
Definition rresp (r : sres) (buf : list N) : list N :=
  let len := if is_ok (sr_rc r) || Z.eqb (sr_rc r) BUFFER_SIZE then sr_len r else 0%N in
  give sb cb [(4, rc_n (sr_rc r)); (4, len)] ++
  if is_ok (sr_rc r) then firstn (N.to_nat len) (sr_data r ++ skipn (8 + length (sr_data r)) buf) else [].

(** wh_Server_HandleCertRequest on a packet of [n] bytes in [buf], with the code
    of the NVM lock: wh_server_cert.c 882-1223; an unknown action is answered with
    an empty packet (1574-1576). *)
Definition run (op : sop) (k : sres -> list N) (s : St) : list N * St :=
  let '(r, s') := srv op s in (k r, s').
Definition locked (lock : Z) (no : list N) (op : sop) (k : sres -> list N) (s : St) : list N * St :=
  if is_ok lock then run op k s else (no, s).
Definition verified (lock : Z) (cert roots : list N) (fl kfl key : N) (buf : list N) (s : St) : list N * St :=
  locked lock (vresp lock 0 buf) (SVerify cert roots fl kfl (from_client K KT_CRYPTO cid key))
    (fun r => vresp (sr_rc r) (to_client K (sr_key r)) buf) s.
Definition serve (lock : Z) (a : N) (n : nat) (buf : list N) (s : St) : list N * St :=
  let ok r := simple (sr_rc r) buf in
  let lk := if global then OK else lock in
  if N.eqb a 1 then run SInit ok s
  else if N.eqb a 2 then
    if n <? 36 then (simple BADARGS buf, s) else
    let v := take sb cb [4; 2; 2; 2] buf in
    if (N.of_nat (n - 36) <? fld 0 v)%N then (simple BADARGS buf, s) else
    locked lock (simple lock buf) (SAdd (fld 1 v) (fld 2 v) (fld 3 v) (rd 10 24 buf) (rd 36 (N.to_nat (fld 0 v)) buf)) ok s
  else if N.eqb a 3 then locked lock (simple lock buf) (SErase (fld 0 (take sb cb [2] buf))) ok s
  else if N.eqb a 4 then
    locked lock (rresp (mkSr lock 0 0 []) buf) (SRead (fld 0 (take sb cb [2] buf))) (fun r => rresp r buf) s
  else if N.eqb a 5 then
    if n <? 12 then (vresp ABORTED 0 buf, s) else
    let v := take sb cb [4; 2; 2; 2; 2] buf in
    if (N.of_nat (n - 12) <? fld 0 v)%N then (vresp BADARGS 0 buf, s) else
    verified lock (rd 12 (N.to_nat (fld 0 v)) buf) [fld 1 v] (fld 2 v) (fld 3 v) (fld 4 v) buf s
  else if N.eqb a 6 then
    if n <? 16 then (vresp ABORTED 0 buf, s) else
    let v := take sb cb [4; 2; 2; 2; 2] buf in
    let nr := N.to_nat (fld 1 v) in
    if (nr =? 0) || (MAX <? nr) then (vresp BADARGS 0 buf, s) else
    if (n - 16 <? 2 * nr) || (N.of_nat (n - 16 - 2 * nr) <? fld 0 v)%N then (vresp BADARGS 0 buf, s) else
    verified lock (rd (16 + 2 * nr) (N.to_nat (fld 0 v)) buf) (take sb cb (repeat 2 nr) (skipn 16 buf))
      (fld 2 v) (fld 3 v) (fld 4 v) buf s
  else if N.eqb a 7 then locked lk (simple lock buf) SClear ok s
  else if N.eqb a 8 then
    if negb (n =? 8) then (simple ABORTED buf, s) else
    locked lk (simple lock buf) (SEnable (nth 0 buf 0%N)) ok s
  else ([], s).

(** ** Client *)
Definition USAGE_ANY : N := 2016.  (* wh_common.h 116-120 *)
Definition key_fields (key : option (N * N)) : list (nat * N) :=
  match key with
  | None => [(2, 0%N); (2, USAGE_ANY); (2, 0%N)]
  | Some (kfl, id) => [(2, 1%N); (2, kfl); (2, id)]
  end.
(** The Request halves: the action and the packet, or None for BADARGS; [want]
    says out_rc is not NULL.  wh_client_cert.c 57-66, 119-154, 212-225, 279-294,
    376-406 and 443-453, 523-561 and 598-610, 685-693, 742-757. *)
Definition request (want : bool) (c : ccall) : option (N * list N) :=
  match c with
  | KInit => Some (1%N, [])
  | KAdd id acc fl label cert =>
      if (length cert =? 0) || (DL - 36 <? length cert) then None else
      Some (2%N, wire cb [(4, N.of_nat (length cert)); (2, id); (2, acc); (2, fl)] ++
                 exactly 24 (match label with Some l => l | None => [] end) ++ repeat 0%N 2 ++ cert)
  | KErase id => Some (3%N, wire cb [(2, id)] ++ repeat 0%N 6)
  | KRead id _ => Some (4%N, wire cb [(2, id)] ++ repeat 0%N 6)
  | KVerify cert root key =>
      if negb want || (length cert =? 0) || (DL - 12 <? length cert) then None else
      Some (5%N, wire cb ([(4, N.of_nat (length cert)); (2, root)] ++ key_fields key) ++ cert)
  | KMulti cert roots key =>
      let nr := length roots in
      if negb want || (length cert =? 0) || (nr =? 0) || (MAX <? nr) || (DL - 16 <? 2 * nr) || (DL - 16 - 2 * nr <? length cert)
      then None else
      Some (6%N, wire cb ([(4, N.of_nat (length cert)); (2, N.of_nat nr)] ++ key_fields key) ++ repeat 0%N 4 ++
                 wire cb (map (fun r => (2, r)) roots) ++ cert)
  | KClear => Some (7%N, [])
  | KEnable v => Some (8%N, (if N.eqb v 0 then 0%N else 1%N) :: repeat 0%N 7)
  end.
Definition when {A} (b : bool) (x : A) : option A := if b then Some x else None.
(** The Response halves on a received packet: 68-95, 156-184, 227-255, 695-719,
    759-784. *)
Definition got_simple (want : bool) (p : list N) : cout :=
  if 8 <? length p then failed BUFFER_SIZE else
  if negb (length p =? 8) then failed ABORTED else
  mkCo OK (when want (n_rc (fld 0 (unwire cb [4] p)))) None None None.
(** 409-440, 564-595. *)
Definition got_verify (asked : bool) (p : list N) : cout :=
  if 8 <? length p then failed BUFFER_SIZE else
  if negb (length p =? 8) then failed ABORTED else
  let v := unwire cb [4; 2] p in
  mkCo OK (Some (n_rc (fld 0 v))) (when asked (fld 1 v)) None None.
(** wh_Client_CertReadTrustedResponse: 296-351. *)
Definition got_read (want : bool) (cap : nat) (p : list N) : cout :=
  if DL <? length p then failed BUFFER_SIZE else
  if length p <? 8 then failed ABORTED else
  let v := unwire cb [4; 4] p in
  let rc := n_rc (fld 0 v) in
  let len := fld 1 v in
  if is_ok rc then
    if (N.of_nat (length p - 8) <? len)%N then mkCo ABORTED (when want rc) None None None else
    if (N.of_nat cap <? len)%N then mkCo OK (when want BUFFER_SIZE) None (Some len) None
    else mkCo OK (when want rc) None (Some len) (Some (rd 8 (N.to_nat len) p))
  else mkCo OK (when want rc) None (if want && Z.eqb rc BUFFER_SIZE then Some len else None) None.
Definition response (want : bool) (c : ccall) (p : list N) : cout :=
  match c with
  | KRead _ cap => got_read want cap p
  | KVerify _ _ key | KMulti _ _ key => got_verify (match key with Some _ => true | None => false end) p
  | _ => got_simple want p
  end.
(** A blocking call. *)
Definition cert_call (want : bool) (c : ccall) (L : tlink) (s : St) : cout * St :=
  match request want c with
  | None => (failed BADARGS, s)
  | Some (a, p) =>
      if negb (is_ok (tl_send L)) then (failed (tl_send L), s) else
      let '(r, s') := serve (tl_lock L) a (length p) (p ++ skipn (length p) (tl_buf L)) s in
      if negb (is_ok (tl_recv L)) then (failed (tl_recv L), s') else (response want c r, s')
  end.
End Peers.
End Cec.

(** ** The server's functions *)
(** [cert_handle] of CertModel.v as the functions behind the packets: a request
    with its lock, its result and, for a read that found an object, the object's
    length (wh_server_cert.c 690-720, 1006-1023).  [keys] stands for the id of the
    key a verification leaves. *)
From Verif Require Import CertModel.
Section Behind.
Variables (max_roots : nat) (World : Type) (vrfy load : World -> list bytes -> bytes -> Z) (parse : bytes -> Z * bool)
  (der : bytes -> Z + nat * nat) (digest : bytes -> bytes) (global : bool) (max_cert max_resp max_read : nat) (have_stateful : bool).
Variable e : cenv World.
Variable c : nat.                (* the server context *)
Variable keys : sop -> csys -> N.
Definition behind (op : sop) : creq :=
  match op with
  | SInit => CInit
  | SAdd id acc fl label cert => CAdd false id acc fl label cert
  | SErase id => CErase id
  | SRead id => CRead id
  | SVerify cert roots fl _ _ => CVerify false (fun _ _ => cert) roots (N.testbit fl 0)
  | SClear => CClear
  | SEnable v => CEnable (negb (N.eqb v 0))
  end.
Definition cert_srv (op : sop) (s : csys) : sres * csys :=
  let '(rc, b, s') := cert_handle max_roots World vrfy load parse der digest global max_cert max_resp max_read have_stateful
                        e c (behind op) s in
  let len := match op with SRead id => match sp_find (cs_nv s) id with Some (m, _) => m_len m | None => 0%N end | _ => 0%N end in
  (mkSr rc (keys op s) len b, s').
End Behind.
