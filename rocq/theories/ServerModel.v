(** The server's request loop: src/wh_server.c 254-756 and
    src/wh_server_customcb.c 37-112.  Handlers that are modelled in other files
    are parameters here; the comm, PKCS11 and custom callback handlers are
    modelled in this file. *)
From Verif Require Import Base EndianModel TimeoutModel CommModel.
Local Open Scope N_scope.

(** Message groups: wolfhsm/wh_message.h 31-53. *)
Definition GROUP_COMM : N := 0x0100.
Definition GROUP_NVM : N := 0x0200.
Definition GROUP_KEY : N := 0x0300.
Definition GROUP_CRYPTO : N := 0x0400.
Definition GROUP_PKCS11 : N := 0x0600.
Definition GROUP_SHE : N := 0x0700.
Definition GROUP_COUNTER : N := 0x0800.
Definition GROUP_CUSTOM : N := 0x0A00.
Definition GROUP_CRYPTO_DMA : N := 0x0B00.
Definition GROUP_CERT : N := 0x0C00.
Definition GROUP_AUTH : N := 0x0D00.
Definition msg_group (kind : N) : N := N.land kind 0xFF00.
Definition msg_action (kind : N) : N := N.land kind 0x00FF.

(** Error codes of wolfhsm/wh_error.h for authentication. *)
Definition LOGIN_FAILED : Z := (-2300)%Z.
Definition PERMISSION_ERROR : Z := (-2301)%Z.
Definition AUTH_NOT_ENABLED : Z := (-2302)%Z.

(** An int32_t as an unsigned word, and back. *)
Definition u32 (z : Z) : N := Z.to_N (z mod 4294967296)%Z.
Definition s32 (n : N) : Z := if n <? 2147483648 then Z.of_N n else (Z.of_N n - 4294967296)%Z.

(** Reading and writing 32-bit words of the packet data, translated by magic. *)
Definition get32 (magic : N) (off : nat) (buf : list N) : N :=
  translate 4 magic (le_dec (firstn 4 (skipn off buf))).
Definition put32 (magic : N) (v : N) : list N := le_enc 4 (translate 4 magic v).
(** Overwriting the front of the buffer. *)
Definition over (d buf : list N) : list N := d ++ skipn (length d) buf.

Section Server.
Variable DL : nat.
(** The state of everything behind the handlers. *)
Variable St : Type.

(** whServerContext as far as the loop uses it: connected, the comm layer's
    client and server ids, and the rest. *)
Record sctx := mkS { s_connected : bool; s_client : N; s_server : N; s_rest : St }.

(** A handler works in place on the data buffer of the packet: given the request
    size and the buffer it returns the code it returns, the response size it
    leaves in *out_resp_size (the request size if it does not set it) and the
    buffer. *)
Definition handler : Type := N -> N -> N -> nat -> list N -> sctx -> Z * nat * list N * sctx.

(** ** _wh_Server_HandleCommRequest: wh_server.c 252-358 *)
(** [logout] is what wh_Server_SetConnected (wh_server.c 199-233) does to the
    authentication state on a disconnect.  [global] is WOLFHSM_CFG_GLOBAL_KEYS.
    The INFO answer (72 bytes of build constants) is [info]. *)
Variables (global : bool) (logout : St -> St) (info : N -> list N).
Definition CLIENT_ID_MAX : N := 15.
Definition h_comm : handler := fun magic action seq size buf s =>
  if action =? 1 then
    let cid := get32 magic 0 buf in
    if CLIENT_ID_MAX <? cid then (BADARGS, 0%nat, buf, s)
    else if global && (cid =? 0) then (BADARGS, 0%nat, buf, s)
    else (OK, 8%nat, over (put32 magic cid ++ put32 magic (s_server s)) buf,
          mkS (s_connected s) cid (s_server s) (s_rest s))
  else if action =? 4 then (OK, length (info magic), over (info magic) buf, s)
  else if action =? 3 then
    (OK, 0%nat, buf, mkS false (s_client s) (s_server s) (logout (s_rest s)))
  else if action =? 5 then (OK, size, buf, s)
  else (OK, 0%nat, buf, s).

(** _wh_Server_HandlePkcs11Request: wh_server.c 360-380. *)
Definition h_pkcs11 : handler := fun magic action seq size buf s => (OK, 0%nat, buf, s).

(** ** Custom callbacks *)
Definition CUSTOMCB_COUNT : N := 8.
Definition CUSTOMCB_LEN : nat := 256.
Definition CREQ : nat := 8 + CUSTOMCB_LEN.
Definition CRESP : nat := 16 + CUSTOMCB_LEN.
(** A callback: from id, type, data to its return code, the type and data it
    leaves in the (zeroed) response, and the state.  The fields id and err of the
    response are overwritten after the call. *)
Definition customcb : Type := N -> N -> list N -> sctx -> Z * N * list N * sctx.

(** _translateCustomData: wh_message_customcb.c 36-66, on bytes, for the data
    areas [src] and [dst]. *)
Fixpoint swap_words (w n : nat) (l : list N) : list N :=
  match n with
  | O => []
  | S n' => rev (firstn w l) ++ swap_words w n' (skipn w l)
  end.
Definition tr_cdata (magic ty : N) (src dst : list N) : list N :=
  let conv w := if swaptest magic then firstn (4 * w) src else swap_words w 4 src in
  if ty <? 8 then
    if ty =? 1 then over (conv 4%nat) dst
    else if ty =? 2 then over (conv 8%nat) dst
    else dst
  else over (firstn CUSTOMCB_LEN src) dst.

(** wh_Server_RegisterCustomCb: wh_server_customcb.c 37-49. *)
Definition register (action : N) (cb : option customcb) (tbl : N -> option customcb)
  : Z * (N -> option customcb) :=
  match cb with
  | None => (BADARGS, tbl)
  | Some f => if CUSTOMCB_COUNT <=? action then (BADARGS, tbl)
              else (OK, fun a => if a =? action then Some f else tbl a)
  end.

(** wh_Server_HandleCustomCbRequest: wh_server_customcb.c 51-112. *)
Definition h_custom (tbl : N -> option customcb) : handler := fun magic action seq size buf s =>
  if CUSTOMCB_COUNT <=? action then (BADARGS, size, buf, s)
  else if negb (size =? CREQ)%nat then (ABORTED, size, buf, s)
  else
    let id := get32 magic 0 buf in
    let ty := get32 magic 4 buf in
    let data := tr_cdata magic ty (firstn CUSTOMCB_LEN (skipn 8 buf)) (repeat 0 CUSTOMCB_LEN) in
    let '(rc, err, rty, rdata, s') :=
      match tbl action with
      | Some f => if ty =? 0 then (0%Z, OK, 0, repeat 0 CUSTOMCB_LEN, s)
                  else let '(rc, rty, rd, s') := f id ty data s in (rc, OK, rty, rd, s')
      | None => (0%Z, NOHANDLER, 0, repeat 0 CUSTOMCB_LEN, s)
      end in
    let out := put32 magic id ++ put32 magic rty ++ put32 magic (u32 rc) ++ put32 magic (u32 err)
               ++ tr_cdata magic (translate 4 magic rty) rdata
                    (firstn CUSTOMCB_LEN (skipn 16 buf)) in
    (OK, CRESP, over out buf, s').

(** ** _FormatAuthErrorResponse: wh_server.c 389-553 *)
(** Sizes of the response structures; every field but rc is zero.  The padding
    bytes of LoginResponse and UserAddResponse, shown as zero here, really keep
    the request's bytes.  [flat] is WH_FLAT_PERMISSIONS_LEN. *)
Variable flat : nat.
Definition auth_err_size (group action : N) : nat :=
  if group =? GROUP_AUTH then
    if (action =? 0) || (action =? 2) then 8%nat
    else if action =? 4 then (4 * ((6 + flat + 3) / 4))%nat
    else 4%nat
  else if group =? GROUP_NVM then
    if action =? 1 then 12%nat
    else if action =? 3 then 16%nat
    else if action =? 5 then 8%nat
    else if action =? 6 then 36%nat
    else 4%nat
  else 4%nat.
Definition auth_err (magic group action : N) (buf : list N) : nat * list N :=
  let n := auth_err_size group action in
  (n, over (put32 magic (u32 PERMISSION_ERROR) ++ repeat 0 (n - 4)) buf).

(** ** wh_Server_HandleRequestMessage: wh_server.c 557-756 *)
(** Build configuration and handlers modelled elsewhere. *)
Record cfg := mkCfg {
  b_crypto : bool; b_dma : bool; b_she : bool; b_cert : bool;
  h_nvm : handler; h_auth : handler; h_counter : handler; h_key : handler;
  h_crypto : handler; h_cryptodma : handler; h_she : handler; h_cert : handler;
  cbs : N -> option customcb;
  (* server->auth: None when NULL, else the authorization check for a group and
     action in a state: 0 allows *)
  authz : option (N -> N -> sctx -> Z) }.

Definition dispatch (c : cfg) (group : N) : option handler :=
  if group =? GROUP_COMM then Some h_comm
  else if group =? GROUP_NVM then Some (h_nvm c)
  else if group =? GROUP_AUTH then
    Some (match authz c with
          | None => fun magic action seq size buf s =>
              (AUTH_NOT_ENABLED, 4%nat, over (put32 magic (u32 AUTH_NOT_ENABLED)) buf, s)
          | Some _ => h_auth c
          end)
  else if group =? GROUP_COUNTER then Some (h_counter c)
  else if (group =? GROUP_KEY) && b_crypto c then Some (h_key c)
  else if (group =? GROUP_CRYPTO) && b_crypto c then Some (h_crypto c)
  else if (group =? GROUP_CRYPTO_DMA) && b_crypto c && b_dma c then Some (h_cryptodma c)
  else if group =? GROUP_PKCS11 then Some h_pkcs11
  else if (group =? GROUP_SHE) && b_she c then Some (h_she c)
  else if group =? GROUP_CUSTOM then Some (h_custom (cbs c))
  else if (group =? GROUP_CERT) && b_cert c && b_crypto c then Some (h_cert c)
  else None.

(** The send loop (wh_server.c 716-719): [rcs] are the transport's successive
    answers; None means that the loop is still spinning when they are used up. *)
Fixpoint send_loop (rcs : list Z) : option Z :=
  match rcs with
  | [] => None
  | rc :: r => if Z.eqb rc NOTREADY then send_loop r else Some rc
  end.

(** What one call does: its return code (None: still sending), the packets the
    transport accepted, the groups whose handler ran, the state. *)
Record hres := mkH { hr_rc : option Z; hr_sent : list (list N); hr_ran : list N; hr_state : sctx }.

Definition answer (magic kind seq : N) (size : nat) (pkt : list N) (rcs : list Z)
  (ran : list N) (s : sctx) : hres :=
  match sv_send DL magic kind seq size SSelf pkt with
  | (rc, None, _) => mkH (Some rc) [] ran s
  | (_, Some p, _) =>
      match send_loop rcs with
      | None => mkH None [] ran s
      | Some rc => mkH (Some rc) (if is_ok rc then [p] else []) ran s
      end
  end.

(** [trc], [size], [buf] are what the transport's Recv does. *)
Definition handle_message (c : cfg) (trc : Z) (size : nat) (buf : list N) (rcs : list Z)
  (s : sctx) : hres :=
  if negb (s_connected s) then mkH (Some NOTREADY) [] [] s
  else
    let r := sv_recv DL trc size buf DL DSelf in
    match r_magic r, r_kind r, r_seq r, r_size r with
    | Some magic, Some kind, Some seq, Some n =>
        if negb (is_ok (r_rc r)) then mkH (Some (r_rc r)) [] [] s
        else
          let group := msg_group kind in
          let action := msg_action kind in
          let data := skipn 8 buf in
          let allowed := match authz c with None => OK | Some f => f group action s end in
          if negb (is_ok allowed) then
            let '(m, data') := auth_err magic group action data in
            answer magic kind seq m (firstn 8 buf ++ data') rcs [] s
          else
            match dispatch c group with
            | None => answer magic kind seq 0 buf rcs [] s
            | Some h =>
                let '(hrc, m, data', s') := h magic action seq n data s in
                answer magic kind seq m (firstn 8 buf ++ data') rcs [group] s'
            end
    | _, _, _, _ => mkH (Some (r_rc r)) [] [] s
    end.

End Server.
