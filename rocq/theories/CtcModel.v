(** Counter calls of the client, from the caller's arguments to the bytes of the
    two packets and back: src/wh_client.c 1435-1713, src/wh_server_counter.c
    40-232, src/wh_message_counter.c and the structures of
    wolfhsm/wh_message_counter.h, for a client and a server of any byte order.

    Left out, as in NvcModel.v: NULL contexts and outputs, the loops that repeat
    a call while it says NOTREADY (a link says how they end), the group and
    action of a reply (C17), authorization (C33).  wh_Nvm_AddObjectWithReclaim,
    wh_Nvm_GetMetadata and wh_Nvm_DestroyObjects are those of Store.v. *)
From Verif Require Import Base NvmSpec Flags Store KeyId CounterModel EndianModel EndianProof NvcModel KsReq.

(** Actions: wh_message.h, enum WH_COUNTER_ENUM. *)
Inductive cact := CaInit | CaInc | CaRead | CaDestroy.

(** Requests: wh_message_counter.h; each is 8 bytes with its padding. *)
Definition W_CINIT : list nat := [4; 2].  (* counter, counterId; 2 bytes of padding *)
Definition W_CID : list nat := [2].       (* counterId; 6 bytes of padding *)
(** Responses: rc and counter, or rc and padding; 8 bytes. *)
Definition R_COUNTER : list nat := [4; 4].

(** The calls of the client; [CtReset] is wh_Client_CounterReset. *)
Inductive ccall := CtInit (id v : N) | CtReset (id : N) | CtInc (id : N) | CtRead (id : N) | CtDestroy (id : N).
Definition caction (c : ccall) : cact :=
  match c with CtInit _ _ | CtReset _ => CaInit | CtInc _ => CaInc | CtRead _ => CaRead | CtDestroy _ => CaDestroy end.

(** What the caller has: the return code, and what was stored in *counter. *)
Record ccout := mkCo { co_rc : Z; co_val : option N }.

Section Ctc.
Variable sb : bool.              (* the server is big endian *)

(** ** Server *)
(** uint32_t* counter = (uint32_t* )(&meta->label): wh_server_counter.c 48; the
    value is in the label in the server's byte order. *)
Definition label_counter (m : meta) : N := dec sb (firstn 4 (m_label m)).
Definition with_counter (m : meta) (v : N) : meta :=
  mkMeta (m_id m) (m_access m) (m_flags m) (m_len m) (enc sb 4 v ++ skipn 4 (m_label m)).

(** The body of each case: wh_server_counter.c 71-87, 112-143, 167-184,
    209-219. *)
Definition cserve_req (e : cenv) (client : N) (q : counter_req) (s : store) : (Z * N) * store :=
  match q with
  | CShort => ((BADARGS, 0%N), s)
  | CInit id v =>
      let m := with_counter (with_id meta_zero (counter_id client id)) v in
      if negb (is_ok (ce_lock e)) then ((ce_lock e, 0%N), s) else
      let '(rc, s') := nv_add (ce_nvm e) m [] s in
      ((rc, if is_ok rc then label_counter m else 0%N), s')
  | CInc id =>
      if negb (is_ok (ce_lock e)) then ((ce_lock e, 0%N), s) else
      let '(rc, m) := nv_meta s (counter_id client id) in
      if negb (is_ok rc) then ((rc, 0%N), s) else
      let v := ((label_counter m + 1) mod 4294967296)%N in
      if N.eqb v 0 then ((OK, U32MAX), s) else
      let '(rc, s') := nv_add (ce_nvm e) (with_counter m v) [] s in
      ((rc, if is_ok rc then v else 0%N), s')
  | CRead id =>
      if negb (is_ok (ce_lock e)) then ((ce_lock e, 0%N), s) else
      let '(rc, m) := nv_meta s (counter_id client id) in
      ((rc, if is_ok rc then label_counter m else 0%N), s)
  | CDestroy id =>
      if negb (is_ok (ce_lock e)) then ((ce_lock e, 0%N), s) else
      let '(rc, s') := nv_destroy (ce_nvm e) [counter_id client id] s in ((rc, 0%N), s')
  end.

Section Peer.
Variable cb : bool.              (* the client is big endian *)

(** The head of each case: wh_server_counter.c 56-69, 96-110, 152-165,
    193-207. *)
Definition cparse (a : cact) (n : nat) (buf : list N) : counter_req :=
  if n <? 8 then CShort else
  match a with
  | CaInit => let v := take sb cb W_CINIT buf in CInit (fld 1 v) (fld 0 v)
  | CaInc => CInc (fld 0 (take sb cb W_CID buf))
  | CaRead => CRead (fld 0 (take sb cb W_CID buf))
  | CaDestroy => CDestroy (fld 0 (take sb cb W_CID buf))
  end.
(** The responses: lines 87-92, 143-148, 184-189, 219-224.  [junk]: the padding
    of a destroy response is whatever the packet holds. *)
Definition creply (a : cact) (r : Z * N) (junk : list N) : list N :=
  match a with
  | CaInit | CaInc | CaRead => give sb cb [(4, rc_n (fst r)); (4, snd r)]
  | CaDestroy => give sb cb [(4, rc_n (fst r))] ++ exactly 4 junk
  end.
Definition cserve (a : cact) (n : nat) (buf : list N) (e : cenv) (client : N) (s : store) : list N * store :=
  let '(r, s') := cserve_req e client (cparse a n buf) s in (creply a r (skipn 4 buf), s').

(** ** Client *)
(** The Request functions: wh_client.c 1435-1453, 1503-1506, 1520-1537,
    1587-1603, 1653-1669.  [pad]: the padding is what the packet buffer held. *)
Definition crequest (pad : list N) (c : ccall) : option (list N) :=
  match c with
  | CtInit id v => if N.eqb id 0 then None else Some (wire cb [(4, v); (2, id)] ++ exactly 2 pad)
  | CtReset id => if N.eqb id 0 then None else Some (wire cb [(4, 0%N); (2, id)] ++ exactly 2 pad)
  | CtInc id | CtRead id | CtDestroy id => if N.eqb id 0 then None else Some (wire cb [(2, id)] ++ exactly 6 pad)
  end.
(** The Response functions: wh_client.c 1455-1488, 1508-1511, 1539-1572,
    1605-1638, 1671-1701. *)
Definition cresponse (c : ccall) (p : list N) : ccout :=
  let v := unwire cb R_COUNTER p in
  if length p <? 8 then mkCo ABORTED None else
  if negb (Z.eqb (n_rc (fld 0 v)) 0) then mkCo (n_rc (fld 0 v)) None else
  match c with CtDestroy _ => mkCo OK None | _ => mkCo OK (Some (fld 1 v)) end.
(** The blocking calls: wh_client.c 1490-1501, 1513-1518, 1574-1585, 1640-1651,
    1703-1713.  wh_Client_CounterReset sets *counter to 0 before it calls. *)
Definition cfinal (c : ccall) (o : ccout) : ccout :=
  match c with
  | CtReset _ => mkCo (co_rc o) (match co_val o with None => Some 0%N | v => v end)
  | _ => o
  end.
Definition ccall_do (client : N) (c : ccall) (e : cenv) (L : nlink) (s : store) : ccout * store :=
  match crequest (k_old L) c with
  | None => (cfinal c (mkCo BADARGS None), s)
  | Some p =>
      if negb (is_ok (k_send L)) then (cfinal c (mkCo (k_send L) None), s) else
      let '(resp, s') := cserve (caction c) (length p) (p ++ skipn (length p) (k_old L)) e client s in
      (cfinal c (if is_ok (k_recv L) then cresponse c resp else mkCo (k_recv L) None), s')
  end.
End Peer.
End Ctc.
