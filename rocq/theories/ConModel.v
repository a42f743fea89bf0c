(** Connection calls of the client (CommInit, CommInfo, CommClose, Echo), from the
    caller's arguments to the bytes of the two packets and back, and the
    connection of the server they act on: src/wh_client.c 296-692, src/wh_server.c
    199-358 and 554-622, src/wh_comm.c 159-248 and 363-412, src/wh_message_comm.c 36-85
    and the structures of wolfhsm/wh_message_comm.h, for a client and a server of
    any byte order and any two packet sizes.

    Left out: NULL contexts, NULL outputs (every output is asked for) and NULL
    data, the loops that repeat a call while it says NOTREADY (a link says how
    they end), the group and action of a reply (C17).  The comm group needs no
    permission (wh_auth.c 227; C33), so there is no authorization here. *)
From Verif Require Import Base NvmSpec Store EndianModel KdfModel KsReq EndianProof NvcModel ServerModel.

(** The connection of a server context: server->connected,
    server->comm->client_id, server->auth->user.user_id (0: nobody) and the data
    part of the packet buffer. *)
Record conn := mkCn { n_open : bool; n_client : N; n_user : N; n_buf : list N }.
(** What is built into the server: WOLFHSM_CFG_* and the two strings. *)
Record build := mkBd { b_version : list N; b_build : list N; b_comm : N; b_objects : N; b_keys : N; b_keylen : N;
                       b_bigkeys : N; b_biglen : N; b_callbacks : N; b_dma : N }.
(** The outputs of CommInfo: the build and the four states. *)
Record info := mkIf { i_build : build; i_debug : N; i_boot : N; i_life : N; i_nvm : N }.

Inductive ncall := CnInit | CnInfo | CnClose | CnEcho (d : list N).
(** wh_message_comm.h 37-45. *)
Definition naction (k : ncall) : N := match k with CnInit => 1 | CnClose => 3 | CnInfo => 4 | CnEcho _ => 5 end%N.
(** What the caller has: the return code and what was stored in its outputs. *)
Record nout := mkNo { no_rc : Z; no_ids : option (N * N); no_info : option info; no_echo : option (list N) }.
Definition nfail (rc : Z) : nout := mkNo rc None None None.

(** sizeof whMessageCommInitResponse and whMessageCommInfoResponse (with 6 bytes
    of WH_PAD): wh_message_comm.h 71-97. *)
Definition Z_INITRESP : nat := 8.
Definition Z_INFORESP : nat := 72.

(** How one exchange goes: the codes of sending and of receiving (the second
    counts when there is an answer), the code when no answer comes, whether
    wh_Auth_Logout forgets the user, and the code of wh_Auth_Reset. *)
Record nlink := mkNl { nl_send : Z; nl_recv : Z; nl_lost : Z; nl_logout : bool; nl_reset : Z }.

Section Con.
Variable global : bool.          (* WOLFHSM_CFG_GLOBAL_KEYS *)
Variables CD SD : nat.           (* WOLFHSM_CFG_COMM_DATA_LEN of client and server *)
Variable sb : bool.              (* the server is big endian *)
Variable sid : N.                (* server->comm->server_id *)
Variable B : build.

(** wh_Server_SetConnected: wh_server.c 199-231.  [logout]: wh_Auth_Logout forgot
    the user; [reset]: the code of wh_Auth_Reset, which forgets them when it has
    the lock (wh_auth.c 189-204). *)
Definition set_connected (up logout : bool) (reset : Z) (S : conn) : conn :=
  let u := if up then n_user S else if logout || is_ok reset then 0%N else n_user S in
  mkCn up (n_client S) u (n_buf S).

Section Peer.
Variable cb : bool.              (* the client is big endian *)

(** ** Server *)
(** wh_MessageComm_TranslateInfoResponse (wh_message_comm.c 61-85) of the
    response of wh_server.c 295-329; the padding stays what the packet held. *)
Definition info_resp (buf : list N) : list N :=
  give sb cb [(4, b_comm B); (4, b_objects B); (4, b_keys B); (4, b_keylen B); (4, b_bigkeys B); (4, b_biglen B);
              (4, b_callbacks B); (4, b_dma B); (4, 1%N); (4, 2%N); (4, 3%N); (4, 4%N)] ++
  exactly 9 (b_version B) ++ exactly 9 (b_build B) ++ exactly 6 (skipn 66 buf).
(** _wh_Server_HandleCommRequest: wh_server.c 252-358; the request of [n] bytes
    is in [n_buf S] and the answer is written over it. *)
Definition con_handle (logout : bool) (reset : Z) (a : N) (n : nat) (S : conn) : list N * conn :=
  let buf := n_buf S in
  let over resp := resp ++ skipn (length resp) buf in
  if N.eqb a 1 then
    let id := fld 0 (take sb cb [4] buf) in
    if (CLIENT_ID_MAX <? id)%N || (global && N.eqb id 0) then ([], S) else
    let resp := give sb cb [(4, id); (4, sid)] in
    (resp, mkCn (n_open S) id (n_user S) (over resp))
  else if N.eqb a 4 then
    let resp := info_resp buf in (resp, mkCn (n_open S) (n_client S) (n_user S) (over resp))
  else if N.eqb a 3 then ([], set_connected false logout reset S)
  else if N.eqb a 5 then (firstn n buf, S)
  else ([], S).
(** One turn of wh_Server_HandleRequestMessage on a packet with data [p]: no turn
    while disconnected (wh_server.c 576-579), no answer to a packet larger than
    the buffer (581-584, wh_comm.c 388-401). *)
Definition con_serve (logout : bool) (reset : Z) (a : N) (p : list N) (S : conn) : option (list N) * conn :=
  if negb (n_open S) then (None, S) else
  if SD <? length p then (None, S) else
  let S1 := mkCn (n_open S) (n_client S) (n_user S) (p ++ skipn (length p) (n_buf S)) in
  let '(r, S2) := con_handle logout reset a (length p) S1 in (Some r, S2).

(** ** Client *)
(** The Request functions: wh_client.c 296-310, 368-377, 560-569, 618-636.
    [cid]: c->comm->client_id. *)
Definition con_request (cid : N) (k : ncall) : Z + list N :=
  match k with
  | CnInit => inr (wire cb [(4, cid)])
  | CnInfo | CnClose => inr []
  | CnEcho d => if CD <? length d then inl BADARGS else inr d
  end.
(** The Response functions: wh_client.c 312-346, 379-461, 571-597, 638-673, on
    what wh_CommClient_RecvResponse copies (wh_comm.c 190-239); [p]: the data of
    the answer. *)
Definition con_response (k : ncall) (p : list N) : nout :=
  if CD <? length p then nfail ABORTED else
  match k with
  | CnInit =>
      if Z_INITRESP <? length p then nfail BUFFER_SIZE else
      if negb (length p =? Z_INITRESP) then nfail ABORTED else
      let v := unwire cb [4; 4] p in mkNo OK (Some (fld 0 v, fld 1 v)) None None
  | CnInfo =>
      if Z_INFORESP <? length p then nfail BUFFER_SIZE else
      if negb (length p =? Z_INFORESP) then nfail ABORTED else
      let v := unwire cb [4; 4; 4; 4; 4; 4; 4; 4; 4; 4; 4; 4] p in
      mkNo OK None (Some (mkIf (mkBd (rd 48 9 p) (rd 57 9 p) (fld 0 v) (fld 1 v) (fld 2 v) (fld 3 v) (fld 4 v) (fld 5 v)
                                     (fld 6 v) (fld 7 v)) (fld 8 v) (fld 9 v) (fld 10 v) (fld 11 v))) None
  | CnClose => if negb (length p =? 0) then nfail ABORTED else mkNo OK None None None
  | CnEcho _ => mkNo OK None None (Some p)
  end.
(** The blocking calls: wh_client.c 348-366, 463-558, 599-616, 675-692. *)
Definition con_call (cid : N) (k : ncall) (L : nlink) (S : conn) : nout * conn :=
  match con_request cid k with
  | inl rc => (nfail rc, S)
  | inr p =>
      if negb (is_ok (nl_send L)) then (nfail (nl_send L), S) else
      match con_serve (nl_logout L) (nl_reset L) (naction k) p S with
      | (None, S1) => (nfail (nl_lost L), S1)
      | (Some r, S1) => if negb (is_ok (nl_recv L)) then (nfail (nl_recv L), S1) else (con_response k r, S1)
      end
  end.
End Peer.

(** ** Histories *)
(** What happens to one server context: the application or the transport opens or
    drops the connection; a client calls; a peer sends a packet of the comm group
    with action [a] and data [p]; a user logs in (C31); a request of another
    group leaves [buf] in the packet buffer. *)
Inductive nevent :=
| NvOpen
| NvDrop (logout : bool) (reset : Z)
| NvCall (cb : bool) (cid : N) (k : ncall) (L : nlink)
| NvPacket (cb : bool) (a : N) (p : list N) (logout : bool) (reset : Z)
| NvLogin (u : N)
| NvOther (buf : list N).
Definition nstep (v : nevent) (S : conn) : conn :=
  match v with
  | NvOpen => set_connected true true OK S
  | NvDrop lo rs => set_connected false lo rs S
  | NvCall cb cid k L => snd (con_call cb cid k L S)
  | NvPacket cb a p lo rs => snd (con_serve cb lo rs a p S)
  | NvLogin u => if n_open S then mkCn true (n_client S) u (n_buf S) else S
  | NvOther buf => if n_open S then mkCn true (n_client S) (n_user S) buf else S
  end.
Definition nrun (vs : list nevent) (S : conn) : conn := fold_left (fun s v => nstep v s) vs S.
(** wh_Server_Init and wh_CommServer_Init clear the contexts: wh_server.c 86,
    wh_comm.c 345-348; the packet buffer is of [SD] bytes. *)
Definition conn0 : conn := mkCn false 0 0 (repeat 0%N SD).
End Con.
