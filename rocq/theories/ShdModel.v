(** The data commands of the SHE extension on bytes: wh_Client_SheEncEcb,
    SheEncCbc, SheDecEcb, SheDecCbc, SheGenerateMac and SheVerifyMac
    (src/wh_client_she.c 652-1104), the packets (wolfhsm/wh_message_she.h 222-387)
    and the server's handlers (src/wh_server_she.c 1181-1637).

    The server has one buffer for request and response (src/wh_server.c 674-677):
    the ciphers work in place, CBC with the output 16 bytes before the input.  Both
    sides have the same byte order, written here as little-endian (translation:
    C18).  Pointers are valid, sizes below 4 GiB.  The gate, the key slots and the
    SHE context are those of SheModel.v.  wolfCrypt's block functions and CMAC are
    parameters; its mode loops are modelled block by block, each block read before
    its output is written. *)
From Verif Require Import Base NvmSpec Flags KeyId Store NvmReqModel KsModel KsReq SheModel KdfModel AesModel.
Local Open Scope nat_scope.

Inductive dop := EncEcb | DecEcb | EncCbc | DecCbc.
Definition is_cbc (op : dop) : bool := match op with EncCbc | DecCbc => true | _ => false end.
(** sizeof of the request structs, and of the response struct of the ciphers:
    wh_message_she.h 226-329. *)
Definition chdr (op : dop) : nat := if is_cbc op then 24 else 8.
Definition CRESP : nat := 8.
(** whMessageShe_GenMacRequest, GenMacResponse, VerifyMacRequest,
    VerifyMacResponse: wh_message_she.h 341-381. *)
Definition GREQ : nat := 8.
Definition GRESP : nat := 20.
Definition VREQ : nat := 16.
Definition VRESP : nat := 12.

(** A uint32_t and an int32_t in a packet. *)
Definition put32 (n : nat) : list byte := le_enc 4 (N.of_nat n).
Definition get32 (off : nat) (buf : list byte) : nat := N.to_nat (le_dec (rd off 4 buf)).
Definition put_rc (z : Z) : list byte := le_enc 4 (Z.to_N (z mod 4294967296)).
Definition get_rc (buf : list byte) : Z :=
  let v := Z.of_N (le_dec (rd 0 4 buf)) in (if v <? 2147483648 then v else v - 4294967296)%Z.

(** ** wolfCrypt's loops on memory *)
(** wc_AesEcbEncrypt, wc_AesEcbDecrypt with out at [dst], in at [src]. *)
Fixpoint ecb_mem (F : list byte -> list byte) (n src dst : nat) (buf : list byte) : list byte :=
  match n with
  | O => buf
  | S m => ecb_mem F m (src + 16) (dst + 16) (wr dst (F (rd src 16 buf)) buf)
  end.
(** wc_AesCbcEncrypt: the register holds the last output block. *)
Fixpoint cbc_enc_mem (F : list byte -> list byte) (n : nat) (reg : list byte) (src dst : nat) (buf : list byte) : list byte :=
  match n with
  | O => buf
  | S m => let c := F (zipx (rd src 16 buf) reg) in cbc_enc_mem F m c (src + 16) (dst + 16) (wr dst c buf)
  end.
(** wc_AesCbcDecrypt: the input block is kept before the output is written. *)
Fixpoint cbc_dec_mem (F : list byte -> list byte) (n : nat) (reg : list byte) (src dst : nat) (buf : list byte) : list byte :=
  match n with
  | O => buf
  | S m => let c := rd src 16 buf in cbc_dec_mem F m c (src + 16) (dst + 16) (wr dst (zipx (F c) reg) buf)
  end.

Section Shd.
Variable C : kscfg.
(** wolfCrypt: AES of a block under a key, its inverse, CMAC. *)
Variable E D : list byte -> list byte -> list byte.
Variable cm : list byte -> list byte -> list byte.
Variable DL : nat.                                     (* WOLFHSM_CFG_COMM_DATA_LEN *)

Definition run (op : dop) (k iv : list byte) (n src dst : nat) (buf : list byte) : list byte :=
  match op with
  | EncEcb => ecb_mem (E k) n src dst buf
  | DecEcb => ecb_mem (D k) n src dst buf
  | EncCbc => cbc_enc_mem (E k) n iv src dst buf
  | DecCbc => cbc_dec_mem (D k) n iv src dst buf
  end.

(** ** Server *)
(** A handler's outcome: return value, buffer, size of the response. *)
Definition served : Type := Z * list byte * nat * she * ks.

(** _EncEcb 1181-1254, _EncCbc 1256-1336, _DecEcb 1338-1418, _DecCbc 1420-1503.
    [n] is the size of the request.  wc_AesSetKey wants 16 bytes (a key read here
    has at most 16). *)
Definition cipher_serve (op : dop) (e : senv) (client : N) (n : nat) (buf : list byte) (h : she) (S0 : ks) : served :=
  let fin rc field b S1 := (rc, wr 0 (put_rc (translate rc) ++ put32 field) b, CRESP + field, h, S1) in
  if n <? chdr op then fin BUFFER_SIZE 0 buf S0 else
  let sz := get32 0 buf in
  let id := nth 4 buf 0%N in
  let iv := rd 8 16 buf in
  let field := sz - sz mod 16 in
  if (DL <? field) || (n <? chdr op + field) then fin BUFFER_SIZE 0 buf S0 else
  if DL <? CRESP + field then fin BUFFER_SIZE 0 buf S0 else
  let '(rc, S1, _, k) := she_read C (se_rd e 0) S0 (she_id C client id) in
  if negb (is_ok rc) then fin KEY_NOT_AVAILABLE 0 buf S1 else
  if (match op with DecCbc => true | _ => false end) && negb (length k =? 16) then fin KEY_NOT_AVAILABLE 0 buf S1 else
  if negb (length k =? 16) || negb (se_c1 e) then fin GENERAL_ERROR 0 buf S1 else
  fin OK field (run op k iv (field / 16) (chdr op) CRESP buf) S1.

(** _GenerateMac: 1505-1563.  The response's mac is zero until it is computed. *)
Definition gen_serve (e : senv) (client : N) (n : nat) (buf : list byte) (h : she) (S0 : ks) : served :=
  let fin rc mac h1 S1 := (rc, wr 0 (put_rc (translate rc) ++ mac) buf, GRESP, h1, S1) in
  let zero := repeat 0%N 16 in
  if n <? GREQ then fin BUFFER_SIZE zero h S0 else
  let id := N.of_nat (get32 0 buf) in
  let sz := get32 4 buf in
  if (DL <? sz) || (n <? GREQ + sz) then fin BUFFER_SIZE zero h S0 else
  let '(rc, S1, _, k) := she_read C (se_rd e 0) S0 (she_id C client id) in
  if negb (is_ok rc) || negb (length k =? 16) then fin KEY_NOT_AVAILABLE zero h S1 else
  let inp := rd GREQ sz buf in
  let h1 := set_cmac h k inp in
  if negb (se_c1 e) then fin GENERAL_ERROR zero h1 S1 else fin OK (cm k inp) h1 S1.

(** wc_AesCmacVerify_ex: compares as many bytes as it is given, 4 to 16. *)
Definition lib_verify (mac k msg : list byte) : bool :=
  (4 <=? length mac) && (length mac <=? 16) && (if list_eq_dec N.eq_dec (firstn (length mac) (cm k msg)) mac then true else false).
(** _VerifyMac: 1565-1637.  Translation of the response leaves its padding as it
    is; totalLen is computed in 32 bits. *)
Definition verify_serve (e : senv) (client : N) (n : nat) (buf : list byte) (h : she) (S0 : ks) : served :=
  let fin rc st h1 S1 := (rc, wr 0 (put_rc (translate rc) ++ [st]) buf, VRESP, h1, S1) in
  if n <? VREQ then fin BUFFER_SIZE 0%N h S0 else
  let id := N.of_nat (get32 0 buf) in
  let mlen := le_dec (rd 4 4 buf) in
  let total := ((mlen + le_dec (rd 8 4 buf)) mod 4294967296)%N in
  if (total <? mlen)%N || (N.of_nat DL <? total)%N || (n <? VREQ + N.to_nat total) then fin BUFFER_SIZE 0%N h S0 else
  let '(rc, S1, _, k) := she_read C (se_rd e 0) S0 (she_id C client id) in
  if negb (is_ok rc) || negb (length k =? 16) then fin KEY_NOT_AVAILABLE 0%N h S1 else
  let msg := rd VREQ (N.to_nat mlen) buf in
  let mac := rd (VREQ + N.to_nat mlen) (get32 8 buf) buf in
  fin OK (if se_c1 e && lib_verify mac k msg then 0%N else 1%N) (set_cmac h k msg) S1.

Inductive cmd := Cipher (op : dop) | GenMac | VerifyMac.
(** _ReportInvalidSheState for these commands: 1676-1678, 1768-1816.  The response struct is
    a local variable of which only rc (and the status of VERIFY_MAC) is set: the
    rest is what the stack held. *)
Definition refusal (c : cmd) (e : senv) : list byte * nat :=
  match c with
  | Cipher _ => (put_rc SEQUENCE_ERROR ++ exactly 4 (se_stack e), CRESP)
  | GenMac => (put_rc SEQUENCE_ERROR ++ exactly 16 (se_stack e), GRESP)
  | VerifyMac => (put_rc SEQUENCE_ERROR ++ [1%N], VRESP)
  end.
(** wh_Server_HandleSheRequest for these commands: 1823-1986.  The response is
    the first bytes of the buffer; none (size 0) when the lock is not had. *)
Definition serve (c : cmd) (e : senv) (client : N) (n : nat) (buf : list byte) (h : she) (S0 : ks)
  : list byte * she * ks :=
  if negb (h_uidset h) || negb (sb_eqb (h_sb h) SbSuccess) then
    let '(b, m) := refusal c e in (firstn m (wr 0 b buf), h, S0)
  else if negb (se_lock e) then ([], h, S0)
  else
    let '(_, b, m, h1, S1) := match c with
                              | Cipher op => cipher_serve op e client n buf h S0
                              | GenMac => gen_serve e client n buf h S0
                              | VerifyMac => verify_serve e client n buf h S0
                              end in
    (firstn m b, h1, S1).

(** ** Client *)
(** What becomes of one exchange: the code of the send, the code with which
    polling ends, and what the two buffers held before. *)
Record link := mkLink { l_send : Z; l_recv : Z; l_cold : list byte; l_sold : list byte }.

(** A request: refused by the client, a write past its buffer, or a packet. *)
Inductive request := Refuse | Overruns | Packet (p : list byte).

(** The four cipher Request functions: 652-673, 728-752, 807-827, 882-906.
    The vector is copied with the caller's size. *)
Definition cipher_request (op : dop) (slot : N) (iv inp old : list byte) : request :=
  let sz := length inp in
  if (sz <? 16) || is_cbc op && (length iv <? 16) || (DL <? chdr op + sz) then Refuse else
  let b := wr 0 (put32 sz) (wr 4 [slot] old) in
  if is_cbc op then
    if DL <? 8 + length iv then Overruns else Packet (firstn (24 + sz) (wr 24 inp (wr 8 iv b)))
  else Packet (firstn (8 + sz) (wr 8 inp b)).
(** wh_Client_SheGenerateMacRequest: 961-982. *)
Definition gen_request (slot : N) (inp old : list byte) : request :=
  let sz := length inp in
  if (sz <? 16) || (DL <? GREQ + sz) then Refuse else
  Packet (firstn (GREQ + sz) (wr 8 inp (wr 4 (put32 sz) (wr 0 (le_enc 4 slot) old)))).
(** wh_Client_SheVerifyMacRequest: 1029-1060. *)
Definition verify_request (slot : N) (msg mac old : list byte) : request :=
  let sz := length msg in
  if (sz <? 16) || (length mac <? 16) || (DL <? VREQ + sz + 16) then Refuse else
  Packet (firstn (VREQ + sz + 16)
    (wr (VREQ + sz) (firstn 16 mac) (wr VREQ msg (wr 8 (put32 16) (wr 4 (put32 sz) (wr 0 (le_enc 4 slot) old)))))).

(** What the caller gets: the return code, and its output buffer. *)
Inductive result := Ret (rc : Z) (out : list byte) | Overrun.

(** The four cipher Response functions: 675-712, 755-791, 830-866, 909-945. *)
Definition cipher_response (resp out : list byte) (sz : nat) : Z * list byte :=
  if length resp <? CRESP then (ABORTED, out)
  else if negb (is_ok (get_rc resp)) then (get_rc resp, out)
  else
    let m := get32 4 resp in
    if length resp - CRESP <? m then (ABORTED, out)
    else if sz <? m then (BADARGS, out)
    else (OK, wr 0 (rd CRESP m resp) out).
(** wh_Client_SheGenerateMacResponse: 985-1013; too small an output is refused
    before the response is received. *)
Definition gen_response (resp out : list byte) : Z * list byte :=
  if length resp <? GRESP then (ABORTED, out)
  else if negb (is_ok (get_rc resp)) then (get_rc resp, out)
  else (OK, wr 0 (rd 4 16 resp) out).
(** wh_Client_SheVerifyMacResponse: 1063-1089.  [out] is the status. *)
Definition verify_response (resp out : list byte) : Z * list byte :=
  if length resp <? VRESP then (ABORTED, out)
  else if negb (is_ok (get_rc resp)) then (get_rc resp, out)
  else (OK, [nth 4 resp 0%N]).

(** The exchange: the server's buffer when the packet has arrived. *)
Definition arrive (p : list byte) (L : link) : list byte := p ++ skipn (length p) (l_sold L).
Definition exchange (c : cmd) (e : senv) (client : N) (q : request) (recv : list byte -> Z * list byte)
    (early : option Z) (out : list byte) (L : link) (h : she) (S0 : ks) : result * she * ks :=
  match q with
  | Refuse => (Ret BADARGS out, h, S0)
  | Overruns => (Overrun, h, S0)
  | Packet p =>
      if negb (is_ok (l_send L)) then (Ret (l_send L) out, h, S0) else
      let '(resp, h1, S1) := serve c e client (length p) (arrive p L) h S0 in
      match early with
      | Some rc => (Ret rc out, h1, S1)
      | None => if negb (is_ok (l_recv L)) then (Ret (l_recv L) out, h1, S1)
                else let '(rc, o) := recv resp in (Ret rc o, h1, S1)
      end
  end.
(** wh_Client_SheEncEcb 715-725, SheEncCbc 794-804, SheDecEcb 869-879, SheDecCbc 948-958: request,
    then the response until it is there. *)
Definition cipher_call (op : dop) (e : senv) (client slot : N) (iv inp out : list byte) (L : link) (h : she) (S0 : ks)
  : result * she * ks :=
  exchange (Cipher op) e client (cipher_request op slot iv inp (l_cold L))
    (fun resp => cipher_response resp out (length inp)) None out L h S0.
(** wh_Client_SheGenerateMac: 1016-1026. *)
Definition gen_call (e : senv) (client slot : N) (inp out : list byte) (L : link) (h : she) (S0 : ks) : result * she * ks :=
  exchange GenMac e client (gen_request slot inp (l_cold L)) (fun resp => gen_response resp out)
    (if length out <? 16 then Some BADARGS else None) out L h S0.
(** wh_Client_SheVerifyMac: 1092-1104. *)
Definition verify_call (e : senv) (client slot : N) (msg mac out : list byte) (L : link) (h : she) (S0 : ks) : result * she * ks :=
  exchange VerifyMac e client (verify_request slot msg mac (l_cold L)) (fun resp => verify_response resp out) None out L h S0.
End Shd.
