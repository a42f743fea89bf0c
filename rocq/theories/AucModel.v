(** Authentication calls of the client, from the caller's arguments to the bytes
    of the two packets and back: src/wh_client_auth.c 46-746, src/wh_server_auth.c
    48-288, src/wh_message_auth.c 40-373, src/wh_server.c 386-455 and 586-661 and
    the structures of wolfhsm/wh_message_auth.h, for a client and a server of any
    byte order and any two packet sizes.  What the server does with a decoded
    request is [auth_handle] of AuthModel.v.

    Left out: NULL contexts, NULL outputs (every output is asked for) and NULL
    credentials, the loops that repeat a call while it says NOTREADY (a link says
    how they end), the group and action of a reply (C17). *)
From Verif Require Import Base NvmSpec Store EndianModel KdfModel KsReq EndianProof NvcModel NvmReqModel ServerModel AuthModel.

(** WH_AUTH_NOT_ENABLED: wh_error.h 80. *)
Definition NOT_ENABLED : Z := (-2302)%Z.
(** Sizes of the structures of wh_message_auth.h 59-289: whMessageAuth_LoginRequest,
    UserAddRequest (a byte of padding after the permissions), UserGetRequest,
    UserSetPermissionsRequest (a byte of padding at the end),
    UserSetCredentialsRequest; LoginResponse (two bytes of padding) and
    UserAddResponse, UserGetResponse (a byte of padding). *)
Definition Z_LOGIN : nat := 36.
Definition Z_ADD : nat := 510.
Definition Z_GET : nat := 34.
Definition Z_PERM : nat := 476.
Definition Z_CRED : nat := 8.
Definition Z_IDRESP : nat := 8.
Definition Z_GETRESP : nat := 480.

(** The calls; [name] is the C string without its terminating zero. *)
Inductive acall :=
| UcLogin (method : N) (name data : list N)
| UcLogout (uid : N)
| UcAdd (name : list N) (p : perms) (method : N) (cred : list N)
| UcDelete (uid : N)
| UcGet (name : list N)
| UcSetPerm (uid : N) (p : perms)
| UcSetCred (uid method : N) (old new : list N).
(** wh_message_auth.h, enum WH_MESSAGE_AUTH_ACTION_ENUM (wh_message.h). *)
Definition uaction (k : acall) : N :=
  match k with
  | UcLogin _ _ _ => 0 | UcLogout _ => 1 | UcAdd _ _ _ _ => 2 | UcDelete _ => 3
  | UcGet _ => 4 | UcSetPerm _ _ => 5 | UcSetCred _ _ _ _ => 6
  end%N.

(** What the caller has: the return code, and what was stored in *out_rc,
    *out_user_id and *out_permissions. *)
Record aout := mkAo { ao_rc : Z; ao_out : option Z; ao_id : option N; ao_perm : option perms }.
(** How one exchange goes: the codes of sending and receiving, and the data part
    of the packet buffers of the client and of the server before it. *)
Record alink := mkAl { l_send : Z; l_recv : Z; l_cbuf : list N; l_sbuf : list N }.

Section Auc.
Variables (nvm crypto certs : bool) (sha : list N -> list N) (verify : list N -> list N -> bool).
Variables CD SD : nat.           (* WOLFHSM_CFG_COMM_DATA_LEN of client and server *)
Variables sb cb : bool.          (* big endian: server, client *)

(** ** Client *)
(** _UserNameIsValid: wh_client_auth.c 46-58. *)
Definition name_valid (name : list N) : bool := negb (length name =? 0) && (length name <? 32).
(** strncpy of 31 bytes and a zero: 99-100, 299-300, 468-469. *)
Definition name_field (name : list N) : list N := exactly 31 name ++ [0%N].
(** The Request functions: 61-115, 192-204, 261-322, 387-399, 456-473, 543-561,
    620-687; a code or the data of the packet.  [old]: the packet buffer, for the
    padding. *)
Definition arequest (old : list N) (k : acall) : Z + list N :=
  match k with
  | UcLogin method name data =>
      if negb (name_valid name) then inl BADARGS else
      if CD - Z_LOGIN <? length data then inl BADARGS else
      if CD <? Z_LOGIN + length data then inl BADARGS else
      inr (wire cb [(2, method)] ++ name_field name ++ wire cb [(2, N.of_nat (length data))] ++ data)
  | UcLogout uid | UcDelete uid => inr (wire cb [(2, uid)] ++ [0; 0]%N)
  | UcAdd name p method cred =>
      if negb (name_valid name) then inl BADARGS else
      if CD - Z_ADD <? length cred then inl BUFFER_SIZE else
      if CD <? Z_ADD + length cred then inl BUFFER_SIZE else
      inr (name_field name ++ flatten p ++ exactly 1 (skipn 505 old) ++
           wire cb [(2, method); (2, N.of_nat (length cred))] ++ cred)
  | UcGet name => if negb (name_valid name) then inl BADARGS else inr (name_field name ++ [0; 0]%N)
  | UcSetPerm uid p => inr (wire cb [(2, uid)] ++ flatten p ++ exactly 1 (skipn 475 old))
  | UcSetCred uid method cur new =>
      if (CD - Z_CRED) / 2 <? length cur then inl BUFFER_SIZE else
      if (CD - Z_CRED) / 2 <? length new then inl BUFFER_SIZE else
      if CD <? Z_CRED + length cur + length new then inl BUFFER_SIZE else
      inr (wire cb [(2, uid); (2, method); (2, N.of_nat (length cur)); (2, N.of_nat (length new))] ++ cur ++ new)
  end.
(** The client's packet buffer after the Request function: the three calls that
    carry credentials build the packet in it and clear it, whatever sending said
    (111-112, 318-319, 683-684); the others leave the packet there. *)
Definition acleared (k : acall) (p buf : list N) : list N :=
  (match k with UcLogin _ _ _ | UcAdd _ _ _ _ | UcSetCred _ _ _ _ => repeat 0%N (length p) | _ => p end) ++ skipn (length p) buf.
(** The Response functions: 117-167, 207-239, 324-361, 401-433, 475-517, 563-596,
    689-722. *)
Definition code_of (p : list N) : Z := n_rc (fld 0 (unwire cb [4] p)).
Definition aresponse (k : acall) (p : list N) : aout :=
  let v := unwire cb [4; 2] p in
  match k with
  | UcLogin _ _ _ =>
      if negb (length p =? Z_IDRESP) then
        if (length p =? 4) && negb (is_ok (code_of p)) then mkAo OK (Some (code_of p)) (Some 0%N) None
        else mkAo ABORTED None (Some 0%N) None
      else mkAo OK (Some (n_rc (fld 0 v))) (Some (fld 1 v)) None
  | UcAdd _ _ _ _ =>
      if negb (length p =? Z_IDRESP) then mkAo ABORTED None None None
      else mkAo OK (Some (n_rc (fld 0 v))) (Some (fld 1 v)) None
  | UcGet _ =>
      if negb (length p =? Z_GETRESP) then mkAo ABORTED None None None
      else mkAo OK (Some (n_rc (fld 0 v))) (Some (fld 1 v)) (Some (unflatten (rd 6 FLAT_LEN p)))
  | UcLogout _ | UcDelete _ | UcSetPerm _ _ | UcSetCred _ _ _ _ =>
      if negb (length p =? 4) then mkAo ABORTED None None None
      else mkAo OK (Some (code_of p)) None None
  end.

(** ** Server *)
(** The head of each case: wh_server_auth.c 68-279 and the Translate functions,
    wh_message_auth.c 51-85, 101-111, 222-260, 274-301, 318-373: a code, or the request and
    the part of the packet that is cleared afterwards (offset and length). *)
Definition u16s (v : N) : N := (v mod 65536)%N.  (* (uint16_t) *)
Definition zero_end (raw : list N) : list N := firstn 31 raw ++ [0%N].  (* username[31] = 0 *)
Definition aparse (a : N) (n : nat) (buf : list N) : Z + (areq * (nat * nat)) :=
  let u16_at (i : nat) := fld 0 (take sb cb [2] (skipn i buf)) in
  if N.eqb a 0 then
    if n <? Z_LOGIN then inl BUFFER_SIZE else
    let method := u16_at 0 in let len := u16_at 34 in
    if (N.of_nat (SD - Z_LOGIN) <? len)%N || (N.of_nat n <? u16s (N.of_nat Z_LOGIN + len))%N then inl BUFFER_SIZE else
    inr (ALogin method (zero_end (rd 2 32 buf)) (rd Z_LOGIN (N.to_nat len) buf), (Z_LOGIN, N.to_nat len))
  else if N.eqb a 1 then
    if negb (n =? 4) then inl BADARGS else inr (ALogout (u16_at 0), (0, 0))
  else if N.eqb a 2 then
    if n <? Z_ADD then inl BUFFER_SIZE else
    let method := u16_at 506 in let len := u16_at 508 in
    if (N.of_nat (SD - Z_ADD) <? len)%N || (N.of_nat n <? u16s (N.of_nat Z_ADD + len))%N then inl BUFFER_SIZE else
    inr (AuthModel.AAdd (zero_end (rd 0 32 buf)) (unflatten (rd 32 FLAT_LEN buf)) method (rd Z_ADD (N.to_nat len) buf), (Z_ADD, N.to_nat len))
  else if N.eqb a 3 then
    if negb (n =? 4) then inl BADARGS else inr (ADelete (u16_at 0), (0, 0))
  else if N.eqb a 4 then
    if negb (n =? Z_GET) then inl BADARGS else inr (AGet (zero_end (rd 0 32 buf)), (0, 0))
  else if N.eqb a 5 then
    if negb (n =? Z_PERM) then inl BADARGS else inr (ASetPerm (u16_at 0) (unflatten (rd 2 FLAT_LEN buf)), (0, 0))
  else if N.eqb a 6 then
    if n <? Z_CRED then inl BADARGS else
    let l1 := u16_at 4 in let l2 := u16_at 6 in
    if (N.of_nat ((SD - Z_CRED) / 2) <? l1)%N then inl BUFFER_SIZE else
    if (N.of_nat ((SD - Z_CRED) / 2) <? l2)%N then inl BUFFER_SIZE else
    if (N.of_nat n <? u16s (N.of_nat Z_CRED + l1 + l2))%N then inl BUFFER_SIZE else
    inr (ASetCred (u16_at 0) (u16_at 2) (rd Z_CRED (N.to_nat l1) buf) (rd (Z_CRED + N.to_nat l1) (N.to_nat l2) buf),
         (Z_CRED, N.to_nat l1 + N.to_nat l2))
  else inl NOTIMPL.
(** wh_Utils_ForceZero of a part of the packet. *)
Definition wipe (w : nat * nat) (buf : list N) : list N :=
  firstn (fst w) buf ++ repeat 0%N (snd w) ++ skipn (fst w + snd w) buf.
(** The end of each case, and _FormatAuthErrorResponse (wh_server.c 386-455): the
    answer is written field by field over the packet, so its padding is what the
    packet holds.  An unknown action is answered with nothing. *)
Definition areply (a : N) (r : aresp) (buf : list N) : list N :=
  let id2 := give sb cb [(4, rc_n (ar_rc r)); (2, ar_id r)] in
  if N.eqb a 0 then id2 ++ exactly 2 (skipn 6 buf)
  else if N.eqb a 2 then id2 ++ exactly 2 (skipn 6 buf)
  else if N.eqb a 4 then id2 ++ flatten (ar_perm r) ++ exactly 1 (skipn 479 buf)
  else if (a <=? 6)%N then give sb cb [(4, rc_n (ar_rc r))] else [].
(** One request of the auth group: the authorization check (wh_server.c 586-616),
    then wh_Server_HandleAuthRequest; the answer, the packet buffer and the state.
    [conf]: an auth context is configured; without one every action is answered
    with a code of four bytes (wh_server.c 631-661). *)
Definition aserve (conf : bool) (c : nat) (e : aenv) (a : N) (n : nat) (buf : list N) (Y : asys) : (list N * list N) * asys :=
  let over (resp b : list N) := (resp, resp ++ skipn (length resp) b) in
  if negb conf then (over (give sb cb [(4, rc_n NOT_ENABLED)]) buf, Y) else
  let s := as_sess Y c in
  if negb (as_up Y) || negb (is_ok (check_request (ae_lock e) s GROUP_AUTH a)) then (over (areply a (arc PERMISSION_ERROR) buf) buf, Y) else
  match aparse a n buf with
  | inl rc => (over (areply a (arc rc) buf) buf, Y)
  | inr (q, w) =>
      let '(r, s1, D1) := auth_handle nvm crypto certs sha verify e q s (as_db Y) in
      (over (areply a r (wipe w buf)) (wipe w buf), mkAs true D1 (set_sess (as_sess Y) c s1))
  end.

(** ** The blocking calls *)
(** wh_client_auth.c 169-190, 241-258, 363-384, 435-453, 520-540, 598-617, 724-746:
    the outcome, the two packet buffers, the state. *)
Definition acall_do (conf : bool) (c : nat) (k : acall) (e : aenv) (L : alink) (Y : asys) : (aout * (list N * list N)) * asys :=
  match arequest (l_cbuf L) k with
  | inl rc => ((mkAo rc None None None, (l_cbuf L, l_sbuf L)), Y)
  | inr p =>
      let cb1 := acleared k p (l_cbuf L) in
      if negb (is_ok (l_send L)) then ((mkAo (l_send L) None None None, (cb1, l_sbuf L)), Y) else
      let '((resp, sb1), Y1) := aserve conf c e (uaction k) (length p) (p ++ skipn (length p) (l_sbuf L)) Y in
      if negb (is_ok (l_recv L))
      then ((mkAo (l_recv L) None (match k with UcLogin _ _ _ => Some 0%N | _ => None end) None, (cb1, sb1)), Y1)
      else ((aresponse k resp, (resp ++ skipn (length resp) cb1, sb1)), Y1)
  end.
End Auc.
