(** The boot and management commands of the SHE extension on bytes: the calls of
    src/wh_client_she.c 74-650, the packets (wolfhsm/wh_message_she.h 36-220), and
    what the handlers of src/wh_server_she.c 193-1179 read from a request and write
    to the response.  What the commands do is SheModel.v; here is what is on the
    wire.  As in ShdModel.v the server has one buffer for request and response, and
    both sides have one byte order. *)
From Verif Require Import Base NvmSpec Flags KeyId Store NvmReqModel CounterModel KsModel KsReq KsSys SheModel SheSys KdfModel AesModel ShdModel.
Local Open Scope nat_scope.

Inductive mcmd := CSetUid | CInit | CUpdate | CFinish | CStatus | CLoadKey | CLoadPlain | CExportRam | CInitRnd | CRnd | CExtend.
Definition zeros (n : nat) : list N := repeat 0%N n.
(** sizeof of the responses without rc: wh_message_she.h 43-218. *)
Definition tail_size (c : mcmd) : nat :=
  match c with
  | CSetUid | CInit | CUpdate | CFinish | CInitRnd | CExtend => 4
  | CStatus => 8 | CLoadKey => 48 | CLoadPlain => 0 | CExportRam => 112 | CRnd => 16
  end.

Section Shc.
Variable C : kscfg.
Variable crypt : cop -> list N -> list N -> Z * list N.
Variable pub : N -> list N -> Z * list N.
Variable ots : list N -> list N -> option (list N * list N).
Variable gcm_enc : list N -> list N -> N -> list N -> option (list N).
Variable gcm_dec : list N -> list N -> N -> list N -> option (list N).
Variable max_read : nat.
Variable aes cbc_enc cbc_dec cmac : list N -> list N -> list N.
Variable use_op : sop -> list N -> list N -> option (list N).
Variable DL : nat.                                     (* WOLFHSM_CFG_COMM_DATA_LEN *)

(** ** Server *)
(** The beginning of each handler: wh_server_she.c 201-208 (_SetUid), 236-242,
    318-337, 385-387, 442-444, 498-504, 749-755, 793-795, 956-958, 1065-1067,
    1117-1123.  [n] is the size of the request. *)
Definition parse (c : mcmd) (n : nat) (buf : list byte) : sreq :=
  let empty q a := if n =? 0 then q else SBad a in
  match c with
  | CSetUid => if n <? 16 then SBad ASetUid else SSetUid (rd 0 15 buf)
  | CInit => if n <? 8 then SBad ABootInit else SBootInit (le_dec (rd 0 4 buf))
  | CUpdate => if n <? 8 then SBad ABootUpdate else
               let sz := get32 0 buf in
               if (DL <? sz) || (n <? 8 + sz) then SBad ABootUpdate else SBootUpdate (rd 8 sz buf)
  | CFinish => empty SBootFinish ABootFinish
  | CStatus => empty SStatus AStatus
  | CLoadKey => if n <? 64 then SBad ALoadKey else SLoadKey (rd 0 16 buf) (rd 16 32 buf) (rd 48 16 buf)
  | CLoadPlain => if n <? 16 then SBad ALoadPlain else SLoadPlain (rd 0 16 buf)
  | CExportRam => empty SExportRam AExportRam
  | CInitRnd => empty SInitRnd AInitRnd
  | CRnd => empty SRnd ARnd
  | CExtend => if n <? 16 then SBad AExtendSeed else SExtendSeed (rd 0 16 buf)
  end.

(** How far a handler got when wolfCrypt failed: the failing step, and what the
    failure left in the response of _LoadKey (over-approximated as anything). *)
Record mishap := mkMishap { x_step : nat; x_left : list byte }.

(** The response of _ExportRamKey when it fails, as it has been filled so far:
    M1 (812-816), the clear text of M2 (825-839), M2 encrypted in place (841-853),
    M3 (865-876), the clear text of M4 (895-901), M4 (902-913). *)
Definition export_left (e : senv) (x : mishap) (client : N) (h : she) (S0 : ks) : list byte :=
  let m1 := exactly 16 (m1_of (h_uid h) SLOT_RAM SLOT_SECRET) in
  if negb (h_plain h) then zeros 112 else
  let '(rc, S1, _, ak) := she_read C (se_rd e 0) S0 (she_id C client SLOT_SECRET) in
  if negb (is_ok rc) || negb (length ak =? 16) then zeros 112 else
  if negb (se_c1 e) then m1 ++ zeros 96 else
  let '(rr, _, _, key) := she_read C (se_rd e 1) S1 (she_id C client SLOT_RAM) in
  if negb (is_ok rr) || negb (length key =? 16) then m1 ++ to_be32 16 ++ zeros 92 else
  let m2 := m2_of aes cbc_enc ak 16 key in
  let m3 := m3_of aes cmac ak m1 m2 in
  match x_step x with
  | 0 => m1 ++ (to_be32 16 ++ zeros 12 ++ key) ++ zeros 64
  | 1 => m1 ++ exactly 32 m2 ++ zeros 64
  | 2 => m1 ++ exactly 32 m2 ++ exactly 16 m3 ++ zeros 48
  | 3 => m1 ++ exactly 32 m2 ++ exactly 16 m3 ++ (zeros 16 ++ exactly 16 (firstn 3 (to_be32 16) ++ [N.lor (nth 3 (to_be32 16) 0%N) 8])) ++ zeros 16
  | _ => m1 ++ exactly 32 m2 ++ exactly 16 m3 ++ exactly 32 (m4_of aes (h_uid h) SLOT_RAM SLOT_SECRET 1 key) ++ zeros 16
  end.

(** The response after rc, by handler; [rc] is the handler's return value.  The
    structs start as zeros; translation copies no padding, so _SetUid's and
    _GetStatus's padding is what the buffer held: wh_message_she.c 53-271. *)
Definition tail (c : mcmd) (e : senv) (x : mishap) (client : N) (buf : list byte) (h : she) (S0 : ks)
    (rc : Z) (w : N) (out : list byte) (h1 : she) : list byte :=
  match c with
  | CSetUid => rd 4 4 buf
  | CInit | CUpdate | CInitRnd => put_rc (if is_ok rc then OK else GENERAL_ERROR)
  | CFinish => put_rc (match h_sb h, h_sb h1 with SbFinish, SbFailure => GENERAL_ERROR | _, _ => OK end)
  | CStatus => [w] ++ rd 5 7 buf
  | CLoadKey => if is_ok rc then exactly 48 out else if se_c1 e && Z.eqb rc GENERAL_ERROR then exactly 48 (x_left x) else zeros 48
  | CLoadPlain => []
  | CExportRam => if is_ok rc then exactly 112 out else if Z.eqb rc BUFFER_SIZE then zeros 112 else export_left e x client h S0
  | CRnd => if is_ok rc then exactly 16 out else zeros 16
  | CExtend => put_rc (if is_ok rc then OK else RNG_SEED)
  end.
(** _ReportInvalidSheState, 1676-1818: the response struct is not initialised; of
    SET_UID's and LOAD_PLAIN_KEY's only rc is copied. *)
Definition gate_tail (c : mcmd) (e : senv) (buf : list byte) : list byte :=
  match c with
  | CSetUid => rd 4 4 buf
  | CStatus => [0%N] ++ rd 5 7 buf                     (* does not occur *)
  | _ => exactly (tail_size c) (se_stack e)
  end.
(** wh_Server_HandleSheRequest: 1823-1986.  _SecureBootUpdate looks at the boot
    state before the size of the chunk (325-338). *)
Definition mserve (c : mcmd) (e : senv) (x : mishap) (client : N) (n : nat) (buf : list byte) (h : she) (S0 : ks)
  : list byte * she * ks :=
  let q := parse c n buf in
  if refused q h then (put_rc SEQUENCE_ERROR ++ gate_tail c e buf, h, S0) else
  if locks (action_of q) && negb (se_lock e) then
    ([], (if is_boot (action_of q) then set_boot h SbInit false 0 0 else h), S0)
  else
    let '(rc0, w, out, h1, S1) := she_handle C aes cbc_enc cbc_dec cmac use_op e client q h S0 in
    let rc := match c, q with
              | CUpdate, SBad _ => if (n <? 8) || sb_eqb (h_sb h) SbUpdate then rc0 else SEQUENCE_ERROR
              | _, _ => rc0
              end in
    let h2 := if is_boot (action_of q) && negb (is_ok rc) && negb (Z.eqb rc NO_SECURE_BOOT)
              then set_boot h1 SbInit false 0 0 else h1 in
    (put_rc (translate rc) ++ tail c e x client buf h S0 rc w out h1, h2, S1).

(** ** Client *)
(** One exchange: what other users of the device do before it, the environment of
    the server and of the link. *)
Record turn := mkTurn { t_gap : list hev; t_env : senv; t_mishap : mishap; t_link : link }.
(** wh_Client_SendRequest, then wh_Client_RecvResponse until it is there: code,
    response, device. *)
Definition ask (c : mcmd) (p : list byte) (t : turn) (i : nat) (client : N) (Y : hsys) : Z * list byte * hsys :=
  let Y0 := hafter C crypt pub ots gcm_enc gcm_dec max_read aes cbc_enc cbc_dec cmac use_op (t_gap t) Y in
  let L := t_link t in
  if negb (is_ok (l_send L)) then (l_send L, [], Y0) else
  let '(resp, h1, S1) := mserve c (t_env t) (t_mishap t) client (length p) (arrive p L) (hy_she Y0 i) (ks_of (hy_ks Y0) i) in
  let Y1 := mkHsys (put_ks (hy_ks Y0) i S1) (upd_she (hy_she Y0) i h1) in
  if negb (is_ok (l_recv L)) then (l_recv L, [], Y1) else (OK, resp, Y1).

(** wh_Client_SheSecureBoot: 128-238.  The pad bytes of the packets are what the
    buffer held.  One response buffer: the code of an answer is looked at when the
    next chunk is due, that of the last chunk not at all. *)
Definition init_packet (len : nat) (t : turn) : list byte := put32 len ++ rd 4 4 (l_cold (t_link t)).
Definition update_packet (chunk : list byte) (t : turn) : list byte := put32 (length chunk) ++ rd 4 4 (l_cold (t_link t)) ++ chunk.
Definition boot_finish (t : turn) (i : nat) (client : N) (Y : hsys) : Z * hsys :=
  let '(r, resp, Y1) := ask CFinish [] t i client Y in
  if negb (is_ok r) then (r, Y1) else if length resp <? 8 then (ABORTED, Y1) else (get_rc resp, Y1).
Fixpoint boot_loop (fuel : nat) (rest prev : list byte) (ts : nat -> turn) (i : nat) (client : N) (Y : hsys) : Z * hsys :=
  match rest, fuel with
  | [], _ => boot_finish (ts 0) i client Y
  | _, O => (ABORTED, Y)                                (* no progress: DL = 8 *)
  | _, S f =>
      if negb (is_ok (get_rc prev)) then (get_rc prev, Y) else
      let chunk := firstn (DL - 8) rest in
      let '(r, resp, Y1) := ask CUpdate (update_packet chunk (ts 0)) (ts 0) i client Y in
      if negb (is_ok r) then (r, Y1) else if length resp <? 8 then (ABORTED, Y1) else
      boot_loop f (skipn (DL - 8) rest) resp (fun n => ts (S n)) i client Y1
  end.
Definition boot_call (image : list byte) (ts : nat -> turn) (i : nat) (client : N) (Y : hsys) : Z * hsys :=
  match image with
  | [] => (BADARGS, Y)
  | _ =>
      let '(r, resp, Y1) := ask CInit (init_packet (length image) (ts 0)) (ts 0) i client Y in
      if negb (is_ok r) then (r, Y1) else if length resp <? 8 then (ABORTED, Y1) else
      boot_loop (length image) image resp (fun n => ts (S n)) i client Y1
  end.

(** The other calls. *)
Inductive mcall := MSetUid (uid : list byte) | MStatus | MLoadKey (m1 m2 m3 : list byte) | MLoadPlain (key : list byte)
  | MExportRam | MInitRnd | MRnd | MExtend (entropy : list byte).
Definition cmd_of (m : mcall) : mcmd :=
  match m with
  | MSetUid _ => CSetUid | MStatus => CStatus | MLoadKey _ _ _ => CLoadKey | MLoadPlain _ => CLoadPlain
  | MExportRam => CExportRam | MInitRnd => CInitRnd | MRnd => CRnd | MExtend _ => CExtend
  end.
(** The Request functions: 74-90, 240-252, 296-319, 368-383, 423-432, 491-500, 538-546, 591-611.
    M1, M2 and M3 are arrays of 16, 32 and 16 bytes. *)
Definition mrequest (m : mcall) (old : list byte) : option (list byte) :=
  match m with
  | MSetUid uid => if length uid <? 15 then None else Some (firstn 15 uid ++ rd 15 1 old)
  | MLoadKey m1 m2 m3 => Some (exactly 16 m1 ++ exactly 32 m2 ++ exactly 16 m3)
  | MLoadPlain key => if length key <? 16 then None else Some (firstn 16 key)
  | MExtend x => if negb (length x =? 16) then None else Some x
  | MStatus | MExportRam | MInitRnd | MRnd => Some []
  end.
(** How many bytes of the response the caller gets. *)
Definition given (m : mcall) : nat :=
  match m with MStatus => 1 | MLoadKey _ _ _ => 48 | MExportRam => 112 | MRnd => 16 | _ => 0 end.
(** The whole calls: 116-126, 284-294, 354-366, 411-421, 476-489, 526-536, 579-589,
    639-650, with their Response functions.  [out] is the memory the caller
    provides for the result (M4 and M5, M1 to M5 one after the other); Rnd looks at
    its size when the request has been sent. *)
Definition call (m : mcall) (t : turn) (i : nat) (client : N) (out : list byte) (Y : hsys) : Z * list byte * hsys :=
  match mrequest m (l_cold (t_link t)) with
  | None => (BADARGS, out, Y)
  | Some p =>
      let '(r, resp, Y1) := ask (cmd_of m) p t i client Y in
      if is_ok (l_send (t_link t)) && (match m with MRnd => length out <? 16 | _ => false end) then (BADARGS, out, Y1) else
      if negb (is_ok r) then (r, out, Y1) else
      if length resp <? 4 + tail_size (cmd_of m) then (ABORTED, out, Y1) else
      if negb (is_ok (get_rc resp)) then (get_rc resp, out, Y1) else
      (OK, wr 0 (rd 4 (given m) resp) out, Y1)
  end.
End Shc.
