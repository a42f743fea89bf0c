(** Certificate calls of the client that hand over buffers by address, from the
    caller's arguments to the bytes of the two packets and back:
    src/wh_client_cert.c 811-1352, the DMA actions of src/wh_server_cert.c
    1226-1448, src/wh_message_cert.c 154-230 and the structures of
    wolfhsm/wh_message_cert.h 180-261, for a client and a server of any byte order.

    What the server does with a decoded request is a parameter [srv] on a state
    that includes the memory it shares with the client.

    Left out: NULL arguments other than out_rc and label, the loops that repeat a
    call while it says NOTREADY (a link says how they end), the group and action
    of a reply (C17), authorization (C33), attribute certificates.  The mapping of
    a buffer is its code and the address it gives; that it is released is C74. *)
From Verif Require Import Base NvmSpec Store EndianModel KdfModel KsReq EndianProof NvcModel KeyId CertModel CecModel.

(** The calls: wh_client_cert.c 891, 995, 1143, 1168, 1316, 1342.  [len] is the
    length of the caller's buffer. *)
Inductive dcall :=
| DAdd (id acc fl : N) (label : option (list N)) (len : N)
| DRead (id len : N)
| DVerify (len root : N) (key : option (N * N))
| DMulti (len : N) (roots : list N) (key : option (N * N)).

(** What the handler asks of the functions behind it; [n] is numRoots, [roots]
    the array of a message. *)
Inductive dop :=
| OAdd (id acc fl : N) (label : list N) (addr len : N)
| ORead (id addr len : N)
| OVerify (addr len : N) (n : N) (roots : list N) (fl kfl key : N).

(** One exchange: the client's mapping of the buffer (code, address), sending,
    receiving, unmapping; the server's mapping and its NVM lock; its packet buffer. *)
Record dlink := mkDl { dl_pre : Z; dl_addr : N; dl_send : Z; dl_recv : Z; dl_post : Z; dl_dma : Z; dl_lock : Z; dl_buf : list N }.

Section Ced.
Variable MAX : nat.              (* WOLFHSM_CFG_CERT_MAX_VERIFY_ROOTS *)
Variable MAXCERT : N.            (* WOLFHSM_CFG_MAX_CERT_SIZE *)
Variable K : kcfg.
Variable St : Type.
Variable srv : dop -> St -> (Z * N) * St.

(** WH_PAD2: wh_message_cert.h 256-259. *)
Definition pad2 : nat := if MAX mod 4 =? 0 then 0 else 8 - 2 * (MAX mod 4).
Definition Z_MULTI : nat := 24 + 2 * MAX + pad2.

Section Peers.
Variables sb cb : bool.          (* big endian: server, client *)
Variable cid : N.                (* server->comm->client_id *)

(** ** Server *)
(** Mapping, lock and function: wh_server_cert.c 1241-1261, 1291-1323, 1357-1381,
    1414-1434.  [no] builds a reply without a result, [k] one with it. *)
Definition mapped (L : dlink) (no : Z -> list N) (op : dop) (k : Z -> N -> list N) (s : St) : list N * St :=
  if negb (is_ok (dl_dma L)) then (no (dl_dma L), s) else
  if negb (is_ok (dl_lock L)) then (no (dl_lock L), s) else
  let '((rc, key), s') := srv op s in (k rc key, s').
Definition dverified (L : dlink) (addr len n : N) (roots : list N) (fl kfl key : N) (buf : list N) (s : St) : list N * St :=
  mapped L (fun rc => vresp sb cb rc 0 buf) (OVerify addr len n roots fl kfl (from_client K KT_CRYPTO cid key))
    (fun rc k => vresp sb cb rc (to_client K k) buf) s.
(** The DMA actions of wh_Server_HandleCertRequest: 1226-1448. *)
Definition dserve (L : dlink) (a : N) (n : nat) (buf : list N) (s : St) : list N * St :=
  if N.eqb a 34 then
    if negb (n =? 48) then (simple sb cb ABORTED buf, s) else
    let v := take sb cb [8; 4; 2; 2; 2] buf in
    mapped L (fun rc => simple sb cb rc buf) (OAdd (fld 2 v) (fld 3 v) (fld 4 v) (rd 18 24 buf) (fld 0 v) (fld 1 v))
      (fun rc _ => simple sb cb rc buf) s
  else if N.eqb a 36 then
    if negb (n =? 16) then (simple sb cb ABORTED buf, s) else
    let v := take sb cb [8; 4; 2] buf in
    mapped L (fun rc => simple sb cb rc buf) (ORead (fld 2 v) (fld 0 v) (fld 1 v)) (fun rc _ => simple sb cb rc buf) s
  else if N.eqb a 37 then
    if negb (n =? 24) then (vresp sb cb ABORTED 0 buf, s) else
    let v := take sb cb [8; 4; 2; 2; 2; 2] buf in
    dverified L (fld 0 v) (fld 1 v) 1 [fld 2 v] (fld 3 v) (fld 4 v) (fld 5 v) buf s
  else if N.eqb a 40 then
    if negb (n =? Z_MULTI) then (vresp sb cb ABORTED 0 buf, s) else
    let v := take sb cb [8; 4; 2; 2; 2; 2] buf in
    dverified L (fld 0 v) (fld 1 v) (fld 2 v) (take sb cb (repeat 2 MAX) (skipn 24 buf)) (fld 3 v) (fld 4 v) (fld 5 v) buf s
  else ([], s).

(** ** Client *)
(** The checks before a buffer is mapped: 820-822, 1107-1109, 1189-1192 and
    1277-1279. *)
Definition dchecked (want : bool) (c : dcall) : bool :=
  match c with
  | DAdd _ _ _ _ len => (len <=? MAXCERT)%N
  | DRead _ _ => true
  | DVerify _ _ _ => want
  | DMulti _ roots _ => want && negb (length roots =? 0) && negb (MAX <? length roots)
  end.
(** The packets: 831-846, 936-944, 1039-1049, 1204-1219. *)
Definition dpacket (addr : N) (c : dcall) : N * list N :=
  match c with
  | DAdd id acc fl label len =>
      (34%N, wire cb [(8, addr); (4, len); (2, id); (2, acc); (2, fl)] ++
             exactly 24 (match label with Some l => l | None => [] end) ++ repeat 0%N 6)
  | DRead id len => (36%N, wire cb [(8, addr); (4, len); (2, id)] ++ repeat 0%N 2)
  | DVerify len root key => (37%N, wire cb ([(8, addr); (4, len); (2, root)] ++ key_fields key) ++ repeat 0%N 4)
  | DMulti len roots key =>
      (40%N, wire cb ([(8, addr); (4, len); (2, N.of_nat (length roots))] ++ key_fields key) ++ repeat 0%N 4 ++
             wire cb (map (fun r => (2, r)) roots) ++ repeat 0%N (2 * (MAX - length roots) + pad2))
  end.
(** The Response halves: 854-889, 950-993, 1056-1095, 1226-1264.  A read surfaces
    the code of unmapping its buffer, which writes it back; the others drop it. *)
Definition dresponse (want : bool) (post : Z) (c : dcall) (p : list N) : cout :=
  match c with
  | DAdd _ _ _ _ _ => got_simple cb want p
  | DRead _ _ =>
      let o := got_simple cb want p in
      if is_ok (co_ret o) then mkCo post (co_rc o) None None None else o
  | DVerify _ _ key | DMulti _ _ key => got_verify cb (match key with Some _ => true | None => false end) p
  end.
(** A blocking call. *)
Definition dma_call (want : bool) (c : dcall) (L : dlink) (s : St) : cout * St :=
  if negb (dchecked want c) then (failed BADARGS, s) else
  if negb (is_ok (dl_pre L)) then (failed (dl_pre L), s) else
  let '(a, p) := dpacket (dl_addr L) c in
  if negb (is_ok (dl_send L)) then (failed (dl_send L), s) else
  let '(r, s') := dserve L a (length p) (p ++ skipn (length p) (dl_buf L)) s in
  if negb (is_ok (dl_recv L)) then (failed (dl_recv L), s') else (dresponse want (dl_post L) c r, s').
End Peers.
End Ced.

(** ** The server's functions *)
(** [cert_handle] of CertModel.v on a memory shared with the client: an add takes
    the certificate from it, a read that succeeds writes it there (with the memory
    standing still during a request). *)
Section Behind.
Variables (max_roots : nat) (World : Type) (vrfy load : World -> list bytes -> bytes -> Z) (parse : bytes -> Z * bool)
  (der : bytes -> Z + nat * nat) (digest : bytes -> bytes) (global : bool) (max_cert max_resp max_read : nat) (have_stateful : bool).
Variable e : cenv World.
Variable c : nat.                (* the server context *)
Variable keys : dop -> csys -> N.
Definition dbehind (op : dop) (mem : list N) : creq :=
  match op with
  | OAdd id acc fl label addr len => CAdd true id acc fl label (rd (N.to_nat addr) (N.to_nat len) mem)
  | ORead id _ len => CReadDma id (N.to_nat len)
  | OVerify addr len n roots fl _ _ =>
      CVerify true (fun _ _ => rd (N.to_nat addr) (N.to_nat len) mem) (firstn (N.to_nat n) roots) (N.testbit fl 0)
  end.
Definition dma_srv (op : dop) (s : csys * list N) : (Z * N) * (csys * list N) :=
  let '(cs, mem) := s in
  let '(rc, b, cs') := cert_handle max_roots World vrfy load parse der digest global max_cert max_resp max_read have_stateful
                         e c (dbehind op mem) cs in
  ((rc, keys op cs), (cs', match op with ORead _ addr _ => if is_ok rc then wr (N.to_nat addr) b mem else mem | _ => mem end)).
End Behind.
