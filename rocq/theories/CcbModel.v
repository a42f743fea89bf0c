(** Custom callback calls of the client, from the caller's structure to the bytes
    of the two packets and back: src/wh_client.c 694-800, src/wh_server_customcb.c
    53-112, src/wh_message_customcb.c 36-102 and the structures of
    wolfhsm/wh_message_customcb.h, for a client and a server of any byte order.

    Left out: NULL arguments, the loops that repeat a call while it says NOTREADY
    (a link says how they end), the group of a reply (C17), authorization (C33).
    The packet buffers hold the two structures. *)
From Verif Require Import Base NvmSpec Store EndianModel KdfModel KsReq EndianProof NvcModel ServerModel.

(** whMessageCustomCb_Request and _Response as the programs on either side have
    them: the data are bytes of their memory (wh_message_customcb.h 51-90). *)
Record creq := mkCq { q_id : N; q_type : N; q_data : list N }.
Record cresp := mkCr { r_id : N; r_type : N; r_rc : Z; r_err : Z; r_data : list N }.
(** How one exchange goes: the codes of sending and receiving, and the data part
    of the server's packet buffer before it. *)
Record clink := mkCl { cl_send : Z; cl_recv : Z; cl_buf : list N }.

Section Ccb.
Variable CL : nat.               (* WOLFHSM_CFG_CUSTOMCB_LEN *)
Variable COUNT : N.              (* WOLFHSM_CFG_SERVER_CUSTOMCB_COUNT *)
Variable St : Type.              (* what callbacks work on *)
(** A callback: the return code, the type and the data it leaves in the response
    (zeroed before, id and err overwritten afterwards), the state. *)
Definition callback : Type := creq -> St -> (Z * N * list N) * St.

Section Peers.
Variables sb cb : bool.          (* big endian: server, client *)

(** ** Translation *)
(** Four words of [w] bytes, read, translated and stored by the server: WH_T32
    and WH_T64 of wh_message_customcb.c 46-57. *)
Definition words (w : nat) (src : list N) : list N :=
  wire sb (map (fun v => (w, translate w (magic sb cb) v)) (unwire sb [w; w; w; w] src)).
Definition put (d dst : list N) : list N := d ++ skipn (length d) dst.
(** _translateCustomData: wh_message_customcb.c 36-66, with the type it is given. *)
Definition tdata (ty : N) (src dst : list N) : list N :=
  if (ty <? 8)%N then
    if N.eqb ty 1 then put (words 4 src) dst
    else if N.eqb ty 2 then put (words 8 src) dst
    else dst
  else put (firstn CL src) dst.

(** ** Server *)
(** wh_MessageCustomCb_TranslateRequest (69-82) into the zeroed [req]. *)
Definition get_req (buf : list N) : creq :=
  let v := take sb cb [4; 4] buf in
  mkCq (fld 0 v) (fld 1 v) (tdata (fld 1 v) (rd 8 CL buf) (repeat 0%N CL)).
(** wh_MessageCustomCb_TranslateResponse (85-102) into the packet: the data are
    translated after the type just stored in the packet, as the server reads it
    there. *)
Definition put_resp (r : cresp) (buf : list N) : list N :=
  let head := give sb cb [(4, r_id r); (4, r_type r); (4, rc_n (r_rc r)); (4, rc_n (r_err r))] in
  let stored := dec sb (enc sb 4 (translate 4 (magic sb cb) (r_type r))) in
  head ++ tdata stored (r_data r) (rd 16 CL buf).
(** wh_Server_HandleCustomCbRequest: wh_server_customcb.c 53-112.  A refused
    request is sent back as it came: *out_resp_size is the size of the request
    (wh_server.c 700-703). *)
Definition cserve (tbl : N -> option callback) (a : N) (n : nat) (buf : list N) (s : St) : list N * St :=
  if (COUNT <=? a)%N then (firstn n buf, s) else
  if negb (n =? 8 + CL) then (firstn n buf, s) else
  let q := get_req buf in
  match tbl a with
  | Some f =>
      if N.eqb (q_type q) 0 then (put_resp (mkCr (q_id q) 0 0 OK (repeat 0%N CL)) buf, s)
      else let '((rc, ty, d), s') := f q s in (put_resp (mkCr (q_id q) ty rc OK d) buf, s')
  | None => (put_resp (mkCr (q_id q) 0 0 NOHANDLER (repeat 0%N CL)) buf, s)
  end.

(** ** Client *)
(** wh_Client_CustomCbRequest (694-702): the structure as it lies in memory. *)
Definition cpacket (q : creq) : list N := wire cb [(4, q_id q); (4, q_type q)] ++ exactly CL (q_data q).
(** The action of the packet: (uint16_t)id, of which the kind keeps 8 bits
    (wh_client.c 239, wh_message.h 120). *)
Definition caction (id : N) : N := N.land (id mod 65536) 0xFF.
(** wh_Client_CustomCbResponse: 704-731. *)
Definition cresponse (p : list N) : Z * option cresp :=
  if 16 + CL <? length p then (BUFFER_SIZE, None) else
  if negb (length p =? 16 + CL) then (ABORTED, None) else
  let v := unwire cb [4; 4; 4; 4] p in
  (OK, Some (mkCr (fld 0 v) (fld 1 v) (n_rc (fld 2 v)) (n_rc (fld 3 v)) (rd 16 CL p))).
(** A request and its response. *)
Definition custom_call (tbl : N -> option callback) (q : creq) (L : clink) (s : St) : (Z * option cresp) * St :=
  if negb (is_ok (cl_send L)) then ((cl_send L, None), s) else
  let p := cpacket q in
  let '(r, s') := cserve tbl (caction (q_id q)) (length p) (p ++ skipn (length p) (cl_buf L)) s in
  if negb (is_ok (cl_recv L)) then ((cl_recv L, None), s') else (cresponse r, s').
(** wh_Client_CustomCbCheckRegistered and its two halves: 733-800; the return
    code and *responseError. *)
Definition check_registered (tbl : N -> option callback) (id : N) (L : clink) (s : St) : (Z * option Z) * St :=
  let '((rc, o), s') := custom_call tbl (mkCq id 0 (repeat 0%N CL)) L s in
  match o with
  | None => ((rc, None), s')
  | Some r =>
      if negb (N.eqb (r_type r) 0) then ((ABORTED, None), s') else
      if negb (is_ok (r_err r)) && negb (Z.eqb (r_err r) NOHANDLER) then ((ABORTED, None), s')
      else ((OK, Some (r_err r)), s')
  end.
End Peers.
End Ccb.
