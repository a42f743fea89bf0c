(** Random bytes through the server, from the caller's buffer to the server's
    generator and back on the bytes of the packets: wh_Client_RngGenerate
    (src/wh_client_crypto.c 201-314), wh_Client_RngGenerateDma (318-441),
    _HandleRng (src/wh_server_crypto.c 1992-2042), _HandleRngDma (9137-9195), the
    ends of the two dispatchers (6304-6322, 9417-9434) and the structures of
    wolfhsm/wh_message_crypto.h, for a client and a server of any byte order and
    any two packet sizes.

    Left out: NULL checks, the loops that repeat a call while it says NOTREADY (a
    link says how they end), the group and action of a reply (C17), authorization
    (C33), the choice of a crypto device; the DMA addresses are offsets in the
    client's memory (the client's callbacks are C74, the server's windows C73). *)
From Verif Require Import Base EndianModel KdfModel KsReq EndianProof NvcModel.

(** WC_ALGO_TYPE_RNG of wolfCrypt. *)
Definition ALGO_RNG : N := 4.
(** whMessageCrypto_GenericRequestHeader (wh_message_crypto.h 74-80) and
    whMessageCrypto_RngRequest (119-121). *)
Definition W_RNG : list nat := [4; 4; 4; 4].
(** whMessageCrypto_GenericResponseHeader (84-88), whMessageCrypto_RngResponse
    (124-129). *)
Definition R_HEAD : list nat := [4; 4; 4].
Definition R_RNG : list nat := [4; 4; 4; 4].
(** The header and whMessageCrypto_RngDmaRequest: a 64-bit address and a
    64-bit size (whMessageCrypto_DmaBuffer, 1288-1291; 1955-1958). *)
Definition W_RNGDMA : list nat := [4; 4; 4; 8; 8].

(** How one exchange goes: the codes of sending and receiving, what the packet
    buffer held, the code of wc_RNG_GenerateBlock, and how far the generator moved
    if that failed. *)
Record rlink := mkRl { r_send : Z; r_recv : Z; r_old : list N; r_rng : Z; r_skip : nat }.

Section Rnd.
Variable g : nat -> N.           (* the output of the server's generator *)
Variables CD SD : nat.           (* WOLFHSM_CFG_COMM_DATA_LEN of client and server *)
Variables sb cb : bool.          (* big endian: server, client *)

(** wc_RNG_GenerateBlock: the next [n] bytes. *)
Definition draw (pos n : nat) : list N := map g (seq pos n).

(** ** Server *)
(** _HandleRng: wh_server_crypto.c 1992-2042; the body of the answer or a code,
    and the new position of the generator. *)
Definition handle_rng (e : rlink) (n : nat) (buf : list N) (pos : nat) : (Z * list N) * nat :=
  if n <? 4 then ((BADARGS, []), pos) else
  let sz := fld 3 (take sb cb W_RNG buf) in
  let max := SD - 16 in
  let actual := if (sz <? N.of_nat max)%N then N.to_nat sz else max in
  if negb (is_ok (r_rng e)) then ((r_rng e, []), pos + r_skip e) else
  ((OK, give sb cb [(4, N.of_nat actual)] ++ draw pos actual), pos + actual).
(** wh_Server_HandleCryptoRequest around it: the header is read before and
    written after, over the request (5975-6008 and 6304-6322). *)
Definition serve_rng (e : rlink) (n : nat) (buf : list N) (pos : nat) : list N * nat :=
  let '((rc, body), pos') := handle_rng e (n - 12) buf pos in
  (give sb cb [(4, fld 0 (take sb cb W_RNG buf)); (4, rc_n rc); (4, 0%N)] ++ (if is_ok rc then body else []), pos').

(** ** Client *)
Definition CAP : nat := CD - 16.  (* WH_MESSAGE_CRYPTO_RNG_MAX_INLINE_SZ *)
(** wh_Client_RngGenerateRequest: wh_client_crypto.c 201-230. *)
Definition rng_request (aff : N) (size : nat) : option (list N) :=
  if (size =? 0) || (CAP <? size) then None
  else Some (wire cb [(4, ALGO_RNG); (4, 0%N); (4, aff); (4, N.of_nat size)]).
(** wh_Client_RngGenerateResponse: 232-279; the code, and the bytes it copied
    out. *)
Definition rng_response (room : nat) (p : list N) : Z * list N :=
  let v := unwire cb R_RNG p in
  if negb (N.eqb (fld 0 v) ALGO_RNG) then (ABORTED, []) else
  let rc := n_rc (fld 1 v) in
  if negb (is_ok rc) then (rc, []) else
  let sz := N.to_nat (fld 3 v) in
  if (length p <? 16) || (length p - 16 <? sz) || (CAP <? sz) || (room <? sz) then (ABORTED, [])
  else (OK, rd 16 sz p).
(** One turn of the loop of wh_Client_RngGenerate: 294-311. *)
Definition rng_turn (aff : N) (chunk : nat) (e : rlink) (pos : nat) : (Z * list N) * nat :=
  match rng_request aff chunk with
  | None => ((BADARGS, []), pos)
  | Some p =>
      if negb (is_ok (r_send e)) then ((r_send e, []), pos) else
      let '(resp, pos') := serve_rng e (length p) (p ++ skipn (length p) (r_old e)) pos in
      if negb (is_ok (r_recv e)) then ((r_recv e, []), pos') else
      let '(rc, bs) := rng_response chunk resp in
      ((if is_ok rc then if length bs =? 0 then ABORTED else OK else rc, bs), pos')
  end.
(** The loop: 281-314.  [at]: offset of out in the caller's buffer; [fuel] bounds
    the turns, and [rng_call] gives one per byte. *)
Fixpoint rng_loop (fuel : nat) (aff : N) (at_ left_ : nat) (E : nat -> rlink) (k pos : nat) (out : list N) : (Z * list N) * nat :=
  match fuel with
  | 0 => ((OK, out), pos)
  | S fuel =>
      if left_ =? 0 then ((OK, out), pos) else
      let '((rc, bs), pos') := rng_turn aff (if left_ <? CAP then left_ else CAP) (E k) pos in
      let out' := firstn at_ out ++ bs ++ skipn (at_ + length bs) out in
      if is_ok rc then rng_loop fuel aff (at_ + length bs) (left_ - length bs) E (S k) pos' out'
      else ((rc, out'), pos')
  end.
Definition rng_call (aff : N) (size : nat) (E : nat -> rlink) (pos : nat) (out : list N) : (Z * list N) * nat :=
  rng_loop size aff 0 size E 0 pos out.

(** ** By DMA *)
(** How the exchange goes: also the codes of the two address checks, and
    [d_stack], the 16 bytes of the server's stack where the response structure
    lies. *)
Record dlink := mkDl { d_link : rlink; d_pre : Z; d_post : Z; d_stack : list N }.
(** _HandleRngDma and the end of the DMA dispatcher: the answer, the client's
    memory and the generator.  The response structure, one DMA buffer, is not
    initialised: it is sent as it lies on the stack unless an address check gave
    ACCESS, and then only the header is sent.  A failing generator is taken to
    leave the memory alone. *)
Definition serve_rng_dma (e : dlink) (n : nat) (buf mem : list N) (pos : nat) : (list N * list N) * nat :=
  let v := take sb cb W_RNGDMA buf in
  let head rc body := give sb cb [(4, fld 0 v); (4, rc_n rc); (4, 0%N)] ++ (if is_ok rc then body else []) in
  if n - 12 <? 16 then ((head BADARGS [], mem), pos) else
  let a := N.to_nat (fld 3 v) in let sz := N.to_nat (fld 4 v) in
  let st := unwire sb [8; 8] (d_stack e) in
  let body := give sb cb [(8, fld 0 st); (8, fld 1 st)] in
  if negb (is_ok (d_pre e)) then ((head (d_pre e) body, mem), pos) else
  if negb (is_ok (r_rng (d_link e))) then ((head (r_rng (d_link e)) body, mem), pos + r_skip (d_link e)) else
  let mem' := firstn a mem ++ draw pos sz ++ skipn (a + sz) mem in
  ((head (d_post e) body, mem'), pos + sz).
(** wh_Client_RngGenerateDma: wh_client_crypto.c 319-441. *)
Definition rng_dma_call (aff : N) (addr size : nat) (e : dlink) (pos : nat) (mem : list N) : ((Z * list N) * list N) * nat :=
  if size =? 0 then (((BADARGS, []), mem), pos) else
  let p := wire cb [(4, ALGO_RNG); (4, 0%N); (4, aff); (8, N.of_nat addr); (8, N.of_nat size)] in
  let l := d_link e in
  if negb (is_ok (r_send l)) then (((r_send l, []), mem), pos) else
  let '((resp, mem'), pos') := serve_rng_dma e (length p) (p ++ skipn (length p) (r_old l)) mem pos in
  if negb (is_ok (r_recv l)) then (((r_recv l, []), mem'), pos') else
  let v := unwire cb R_HEAD resp in
  let rc := n_rc (fld 1 v) in
  (((if negb (N.eqb (fld 0 v) ALGO_RNG) then ABORTED else
     if negb (is_ok rc) then rc else if length resp <? 28 then ABORTED else OK, resp), mem'), pos').
End Rnd.
