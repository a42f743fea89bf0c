(** Hashing through the server: the streaming SHA-2 and SHA-3 functions of the
    client (wh_client_crypto.c 6599-9946) and the server's handlers
    (wh_server_crypto.c 4620-5160, 6326-6880).  The hash function itself
    (compression, padding) is a parameter. *)
From Verif Require Import Base EndianModel.

(** The variants: wh_client_crypto.c 6599 (SHA256), 7198 (SHA224), 7783 (SHA384),
    8373 (SHA512 and SHA512/t, told apart by sha->hashType), 9023 (SHA3). *)
Inductive variant := SHA224 | SHA256 | SHA384 | SHA512 | SHA512_224 | SHA512_256
  | SHA3_224 | SHA3_256 | SHA3_384 | SHA3_512.
Inductive family := Fam256 | Fam512 | Keccak.
Definition fam (v : variant) : family :=
  match v with
  | SHA224 | SHA256 => Fam256
  | SHA384 | SHA512 | SHA512_224 | SHA512_256 => Fam512
  | _ => Keccak
  end.
(** Block sizes: WC_SHA*_BLOCK_SIZE (64, 128; wh_message_crypto.h 948: 144/136/104/72). *)
Definition bs (v : variant) : nat :=
  match v with
  | SHA224 | SHA256 => 64 | SHA384 | SHA512 | SHA512_224 | SHA512_256 => 128
  | SHA3_224 => 144 | SHA3_256 => 136 | SHA3_384 => 104 | SHA3_512 => 72
  end.
(** Digest sizes: WC_SHA*_DIGEST_SIZE. *)
Definition dsz (v : variant) : nat :=
  match v with
  | SHA224 | SHA512_224 | SHA3_224 => 28 | SHA256 | SHA512_256 | SHA3_256 => 32
  | SHA384 | SHA3_384 => 48 | SHA512 | SHA3_512 => 64
  end.
(** Words of the running state that travel: 32 and 64 bytes as eight words
    (wh_client_crypto.c 6704, 7305, 7892), s[25] for SHA3 (9174). *)
Definition cw (v : variant) : nat := match fam v with Keccak => 25 | _ => 8 end.
(** The algoType of the generic request header: SHA512/t uses SHA512's
    (wh_client_crypto.c 8427). *)
Definition algo (v : variant) : variant :=
  match v with SHA512_224 | SHA512_256 => SHA512 | _ => v end.

(** Sizes of the request structures: wh_message_crypto.h 806-819, 862-876, 945-950,
    1313-1336, 1378-1383; the generic header 74-80. *)
Definition HDR : nat := 12.
Definition reqsz (dma : bool) (v : variant) : nat :=
  match fam v with
  | Fam256 => if dma then 64 else 48
  | Fam512 => if dma then 104 else 84
  | Keccak => if dma then 224 else 208
  end.
(** WH_MESSAGE_CRYPTO_*_MAX_INLINE_UPDATE_SZ: wh_message_crypto.h 824-984. *)
Definition max_inline (DL : nat) (v : variant) : nat := (DL - HDR - reqsz false v) / bs v * bs v.

(** * Messages *)
Record hreq := mkHq {
  q_dma : bool; q_algo : variant; q_type : variant; q_last : bool;
  q_st : list N; q_hi : N; q_lo : N;
  q_insz : nat; q_inl : list N; (* bytes after the structure *)
  q_dmain : list N;             (* what input.addr, input.sz describe *)
  q_size : nat }.               (* payload size given to SendRequest, uint16_t *)
Record hresp := mkHp { p_st : list N; p_hi : N; p_lo : N; p_type : variant; p_hash : list N }.

(** A word of the state as the other side reads it: SHA-2 states are copied with
    memcpy in the byte order of the host (wh_message_crypto.c 683-687, 704-708: no
    translation), SHA-3 states are translated (736-749). *)
Definition bswap_word (v : variant) (w : N) : N :=
  match fam v with Fam256 => swap32 w | Fam512 => swap64 w | Keccak => w end.
Definition ship (same : bool) (v : variant) (st : list N) : list N :=
  if same then st else map (bswap_word v) st.

Definition wrap32 (x : N) : N := N.modulo x 4294967296.
Definition wrap64 (x : N) : N := N.modulo x 18446744073709551616.

Section Hash.
Variable DL : nat.            (* WOLFHSM_CFG_COMM_DATA_LEN *)
Variable same : bool.         (* client and server have the same byte order *)
Variable sup : variant -> bool. (* compiled into the server *)
(** wolfCrypt: initial state, compression of one block, and the digest of a state,
    a length and a tail; digest bytes before truncation. *)
Variable iv : variant -> list N.
Variable comp : family -> list N -> list N -> list N.
Variable fin : family -> nat -> list N -> N -> list N -> list N.

(** * wolfCrypt's context, on the server and for the client's software path.
    Contract of the library: Update counts the bytes it is given, compresses every
    full block of the buffered and the new bytes and buffers the rest. *)
Record lctx := mkLc { l_st : list N; l_hi : N; l_lo : N; l_buf : list N }.

Fixpoint chop (fuel b : nat) (st : list N) (f : family) (data : list N) : list N * list N :=
  match fuel with
  | O => (st, data)
  | S k => if length data <? b then (st, data)
           else chop k b (comp f st (firstn b data)) f (skipn b data)
  end.

(** AddLength: two 32-bit words for the SHA256 family, two 64-bit words for the
    SHA512 family; SHA3 keeps no length. *)
Definition add_len (f : family) (hi lo n : N) : N * N :=
  match f with
  | Fam256 => let lo' := wrap32 (lo + n) in ((if (lo' <? lo)%N then wrap32 (hi + 1) else hi), lo')
  | Fam512 => let lo' := wrap64 (lo + n) in ((if (lo' <? lo)%N then wrap64 (hi + 1) else hi), lo')
  | Keccak => (hi, lo)
  end.

Definition lib_update (v : variant) (L : lctx) (data : list N) : lctx :=
  let '(hi, lo) := add_len (fam v) (l_hi L) (l_lo L) (N.of_nat (length data)) in
  let all := l_buf L ++ data in
  let '(st, t) := chop (length all) (bs v) (l_st L) (fam v) all in
  mkLc st hi lo t.

Definition total (f : family) (hi lo : N) : N :=
  match f with
  | Fam256 => hi * 4294967296 + lo | Fam512 => hi * 18446744073709551616 + lo | Keccak => 0
  end%N.

(** Final for [v] writes [dsz v] bytes. *)
Definition lib_final (v : variant) (L : lctx) : list N :=
  firstn (dsz v) (fin (fam v) (bs v) (l_st L) (total (fam v) (l_hi L) (l_lo L)) (l_buf L)).

(** * Server: _HandleSha256 (4623-4711), _HandleSha224 (4715), _HandleSha384 (4806),
    _HandleSha512 (4901), _HandleSha3 (5080) and the DMA versions (6329-6880) in
    wh_server_crypto.c; NOT_COMPILED_IN: 6280-6290.
    [dma_rc]: what wh_Server_DmaProcessClientAddress answers. *)
Definition NOT_COMPILED_IN : Z := (-174)%Z.

(** The variant executed: 4942-4962, 6683-6702. *)
Definition exec_type (q : hreq) : variant :=
  match q_algo q with
  | SHA512 => match q_type q with
              | SHA512_224 => if sup SHA512_224 then SHA512_224 else SHA512
              | SHA512_256 => if sup SHA512_256 then SHA512_256 else SHA512
              | _ => SHA512
              end
  | a => a
  end.

Definition handle_hash (dma_rc : Z) (q : hreq) : Z * hresp :=
  let a := q_algo q in
  let none := mkHp [] 0 0 a [] in
  let insize := q_size q - HDR in
  if negb (sup a) then (NOT_COMPILED_IN, none)
  else if insize <? reqsz (q_dma q) a then (BADARGS, none)
  else if insize - reqsz (q_dma q) a <? q_insz q then (BADARGS, none)
  else if negb (q_last q) && (negb (q_insz q mod bs a =? 0) || negb (length (q_dmain q) mod bs a =? 0))
  then (BADARGS, none)
  else if q_last q && ((bs a <=? q_insz q) || negb (length (q_dmain q) =? 0)) then (BADARGS, none)
  else
    let t := exec_type q in
    let st := ship same a (q_st q) in
    let L := mkLc (firstn (cw a) st ++ skipn (cw a) (iv t)) (q_hi q) (q_lo q) [] in
    let L := if q_insz q =? 0 then L else lib_update a L (firstn (q_insz q) (q_inl q)) in
    if negb (length (q_dmain q) =? 0) && negb (is_ok dma_rc) then (dma_rc, none)
    else
      let L := if length (q_dmain q) =? 0 then L else lib_update a L (q_dmain q) in
      if q_last q then
        (* wc_Sha512_224Final and wc_Sha512_256Final truncate: 4984-5000 *)
        let h := lib_final t L in
        (OK, mkHp [] 0 0 t (h ++ repeat 0%N (64 - length h)))
      else if negb (length (l_buf L) =? 0) then (ABORTED, none)
      else (OK, mkHp (ship same a (firstn (cw a) (l_st L))) (wrap32 (l_hi L)) (wrap32 (l_lo L)) t []).

(** * Client *)
(** wc_Sha256 and its kin: running state, byte count of the blocks sent, partial
    block. *)
Record cctx := mkCc { c_st : list N; c_hi : N; c_lo : N; c_buf : list N }.
Definition fresh (v : variant) : cctx := mkCc (iv v) 0 0 [].
Definition with_buf (c : cctx) (b : list N) : cctx := mkCc (c_st c) (c_hi c) (c_lo c) b.

(** _Sha256UpdatePerCallCapacity and its kin: 6605-6609, 9061-9065. *)
Definition capacity (v : variant) (c : cctx) : nat :=
  max_inline DL v + (bs v - 1 - length (c_buf c)).

(** Topping up the partial block: 6666-6681, 6936-6947, 9134-9144.  Result: the
    bytes for the wire, the buffer, the rest of the input. *)
Definition topup (v : variant) (buf data : list N) : list N * list N * list N :=
  if length buf =? 0 then ([], buf, data)
  else
    let k := Nat.min (length data) (bs v - length buf) in
    let b := buf ++ firstn k data in
    if length b =? bs v then (b, [], skipn k data) else ([], b, skipn k data).

(** Packing full blocks: 6684-6691, 9147-9152. *)
Fixpoint pack (fuel : nat) (v : variant) (wire rest : list N) : list N * list N :=
  match fuel with
  | O => (wire, rest)
  | S k => if (bs v <=? length rest) && (length wire + bs v <=? max_inline DL v)
           then pack k v (wire ++ firstn (bs v) rest) (skipn (bs v) rest)
           else (wire, rest)
  end.

(** The request structure: 6702-6714, 6961-6970, 8470, 9165-9176. *)
Definition request (dma : bool) (v : variant) (c : cctx) (last : bool) (inl dmain : list N) : hreq :=
  mkHq dma (algo v) v last (firstn (cw v) (c_st c)) (wrap32 (c_hi c)) (wrap32 (c_lo c))
    (length inl) inl dmain (HDR + reqsz dma v + length inl).

(** wh_Client_SendRequest, wh_comm.c: refused while a request is pending or when the
    size exceeds the buffer; [src] is the transport's answer (for DMA also that of
    the client's address callback). *)
Definition send (pending : bool) (size : nat) (src : Z) : Z :=
  if pending then REQUEST_PENDING else if DL <? size then BADARGS else src.

Record hst := mkHs { hs_c : cctx; hs_p : option hreq }.
Definition pending (s : hst) : bool := match hs_p s with Some _ => true | None => false end.

(** wh_Client_*UpdateRequest: 6611-6721, 9084-9182; *DmaUpdateRequest: 6891-7023,
    9586-9691. *)
Definition upd_req (dma : bool) (v : variant) (data : list N) (src : Z) (s : hst) : Z * hst :=
  let c := hs_c s in
  if dma && pending s then (REQUEST_PENDING, s)
  else if bs v <=? length (c_buf c) then (BADARGS, s)
  else if negb dma && (capacity v c <? length data) then (BADARGS, s)
  else if length data =? 0 then (OK, s)
  else
    let '(w, b, r) := topup v (c_buf c) data in
    let '(w, d, t) :=
      if dma then let n := length r / bs v * bs v in (w, firstn n r, skipn n r)
      else let '(w, r) := pack (length r) v w r in (w, [], r) in
    let b := b ++ t in
    if (length w =? 0) && (length d =? 0) then (OK, mkHs (with_buf c b) (hs_p s))
    else
      let q := request dma v c false w d in
      let rc := send (pending s) (q_size q) src in
      if is_ok rc then (OK, mkHs (with_buf c b) (Some q)) else (rc, s).

(** The reply to the pending request: none yet, an error from the transport or
    from a server that could not run the handler, or the handler's answer.  [Served]
    carries the server's DMA address check. *)
Inductive reply := NotReady | Failed (rc : Z) | Served (dma_rc : Z).

(** 512/t is accepted as family: 8514-8521. *)
Definition type_ok (v t : variant) : bool :=
  match algo v, t with
  | SHA512, SHA512 | SHA512, SHA512_224 | SHA512, SHA512_256 => true
  | SHA512, _ => false
  | SHA224, SHA224 | SHA256, SHA256 | SHA384, SHA384 => true
  | SHA224, _ | SHA256, _ | SHA384, _ => false
  | _, _ => true (* SHA3 responses carry no type: 9208-9216 *)
  end.

(** wh_Client_*UpdateResponse: 6723-6761, 7025-7076, 9184-9218.  A response call
    without a pending request is NOTREADY (wh_comm.c).  A failed reply is the end of
    the exchange. *)
Definition upd_resp (v : variant) (r : reply) (s : hst) : Z * hst :=
  match hs_p s, r with
  | None, _ | _, NotReady => (NOTREADY, s)
  | Some q, Failed rc => (rc, mkHs (hs_c s) None)
  | Some q, Served d =>
      let '(rc, p) := handle_hash d q in
      if negb (is_ok rc) then (rc, mkHs (hs_c s) None)
      else if negb (type_ok v (p_type p)) then (ABORTED, mkHs (hs_c s) None)
      else (OK, mkHs (mkCc (firstn (cw v) (p_st p) ++ skipn (cw v) (c_st (hs_c s)))
                       (p_hi p) (p_lo p) (c_buf (hs_c s))) None)
  end.

(** wh_Client_*FinalRequest: 6763-6801, 7078-7127, 9220-9260. *)
Definition fin_req (dma : bool) (v : variant) (src : Z) (s : hst) : Z * hst :=
  let c := hs_c s in
  if dma && pending s then (REQUEST_PENDING, s)
  else if bs v <=? length (c_buf c) then (BADARGS, s)
  else
    let q := request dma v c true (c_buf c) [] in
    let rc := send (pending s) (q_size q) src in
    if is_ok rc then (OK, mkHs c (Some q)) else (rc, s).

(** wh_Client_*FinalResponse: 6803-6842, 7129-7169, 8568-8600, 9262-9302. *)
Definition fin_resp (v : variant) (r : reply) (s : hst) : Z * list N * hst :=
  match hs_p s, r with
  | None, _ | _, NotReady => (NOTREADY, [], s)
  | Some q, Failed rc => (rc, [], mkHs (hs_c s) None)
  | Some q, Served d =>
      let '(rc, p) := handle_hash d q in
      if negb (is_ok rc) then (rc, [], mkHs (hs_c s) None)
      else if negb (type_ok v (p_type p)) then (ABORTED, [], mkHs (hs_c s) None)
      else (OK, firstn (dsz v) (p_hash p), mkHs (fresh v) None)
  end.

(** * Calls of the split API on one hash context.  A response call is paired with
    the request call it belongs to, as the API requires, and wc_Init* is not called
    between the two: anything else is not modelled ([None]). *)
Inductive hcall :=
| HInit
| HUpdReq (dma : bool) (data : list N) (src : Z)
| HUpdResp (r : reply)
| HFinReq (dma : bool) (src : Z)
| HFinResp (r : reply).

Definition hstep (v : variant) (e : hcall) (s : hst) : option (Z * list N * hst) :=
  match e with
  | HInit => match hs_p s with None => Some (OK, [], mkHs (fresh v) None) | Some _ => None end
  | HUpdReq dma data src => let '(rc, s) := upd_req dma v data src s in Some (rc, [], s)
  | HUpdResp r =>
      match hs_p s with
      | Some q => if q_last q then None else let '(rc, s) := upd_resp v r s in Some (rc, [], s)
      | None => Some (NOTREADY, [], s)
      end
  | HFinReq dma src => let '(rc, s) := fin_req dma v src s in Some (rc, [], s)
  | HFinResp r =>
      match hs_p s with
      | Some q => if q_last q then Some (fin_resp v r s) else None
      | None => Some (NOTREADY, [], s)
      end
  end.

Fixpoint hrun (v : variant) (es : list hcall) (s : hst) : option (list (hcall * Z * list N) * hst) :=
  match es with
  | [] => Some ([], s)
  | e :: es =>
      match hstep v e s with
      | None => None
      | Some (rc, o, s) =>
          match hrun v es s with None => None | Some (l, s) => Some ((e, rc, o) :: l, s) end
      end
  end.

(** * Blocking calls: wh_Client_Sha256 (6844-6887) and its kin, *Dma (7171-7194),
    _Sha3Oneshot (9326-9386), _Sha3DmaOneshot (9775-9815).  [env] gives the
    transport's answer and the reply of each exchange; polls that are not ready
    are not listed.  When [env] is used up the transport fails. *)
Definition exchange := (Z * reply)%type.
Definition next (env : list exchange) : exchange * list exchange :=
  match env with [] => ((ABORTED, Failed ABORTED), []) | x :: r => (x, r) end.

Definition upd_once (dma : bool) (v : variant) (data : list N) (env : list exchange) (c : cctx)
  : Z * cctx * list exchange :=
  let '((src, r), env') := next env in
  let '(rc, s) := upd_req dma v data src (mkHs c None) in
  if negb (is_ok rc) then (rc, hs_c s, env')
  else match hs_p s with
       | None => (OK, hs_c s, env)
       | Some _ => let '(rc, s) := upd_resp v r s in (rc, hs_c s, env')
       end.

Fixpoint upd_loop (fuel : nat) (v : variant) (data : list N) (env : list exchange) (c : cctx)
  : Z * cctx * list exchange :=
  match fuel with
  | O => (OK, c, env)
  | S k =>
      if length data =? 0 then (OK, c, env)
      else
        let n := if length data <? capacity v c then length data else capacity v c in
        let '(rc, c, env) := upd_once false v (firstn n data) env c in
        if negb (is_ok rc) then (rc, c, env) else upd_loop k v (skipn n data) env c
  end.

Definition is3 (v : variant) : bool := match fam v with Keccak => true | _ => false end.

(** [out]: the caller wants the digest. *)
Definition hash_call (dma : bool) (v : variant) (data : list N) (out : bool) (env : list exchange) (c : cctx)
  : Z * list N * cctx :=
  let '(rc, c1, env) :=
    if length data =? 0 then (OK, c, env)
    else if dma then upd_once true v data env c
    else upd_loop (length data) v data env c in
  let '(rc, o, c1) :=
    if negb (is_ok rc && out) then (rc, [], c1)
    else
      let '((src, r), _) := next env in
      let '(rc, s) := fin_req dma v src (mkHs c1 None) in
      if negb (is_ok rc) then (rc, [], hs_c s)
      else let '(rc, o, s) := fin_resp v r s in (rc, o, hs_c s) in
  (* snapshot and roll back: SHA3 only (9345-9348, 9380-9383) *)
  if is3 v && negb (is_ok rc) then (rc, o, c) else (rc, o, c1).

(** ** Behind wolfCrypt's crypto callback (wh_client_cryptocb.c 630-723, 1445-1540):
    wc_*Update and wc_*Final call it first; NOT_COMPILED_IN becomes
    CRYPTOCB_UNAVAILABLE in wolfCrypt, which then takes its software path
    (wh_client_crypto.c 9345-9347). *)
Definition lib_of (c : cctx) : lctx := mkLc (c_st c) (c_hi c) (c_lo c) (c_buf c).
Definition of_lib (L : lctx) : cctx := mkCc (l_st L) (l_hi L) (l_lo L) (l_buf L).
Definition cb_update (dma : bool) (v : variant) (data : list N) (env : list exchange) (c : cctx) : Z * cctx :=
  let '(rc, _, c1) := hash_call dma v data false env c in
  if Z.eqb rc NOT_COMPILED_IN then (OK, of_lib (lib_update v (lib_of c1) data)) else (rc, c1).
Definition cb_final (dma : bool) (v : variant) (env : list exchange) (c : cctx) : Z * list N * cctx :=
  let '(rc, o, c1) := hash_call dma v [] true env c in
  if Z.eqb rc NOT_COMPILED_IN then (OK, lib_final v (lib_of c1), fresh v) else (rc, o, c1).

(** A caller using the blocking functions on one context, and one using wolfCrypt's
    wc_Init*, wc_*Update, wc_*Final on top of the callback. *)
Inductive bcall := BInit | BHash (dma : bool) (data : list N) (out : bool) (env : list exchange).
Definition bstep (v : variant) (e : bcall) (c : cctx) : Z * list N * cctx :=
  match e with
  | BInit => (OK, [], fresh v)
  | BHash dma data out env => hash_call dma v data out env c
  end.
Fixpoint brun (v : variant) (es : list bcall) (c : cctx) : list (bcall * Z * list N) :=
  match es with
  | [] => []
  | e :: es => let '(rc, o, c) := bstep v e c in (e, rc, o) :: brun v es c
  end.

Inductive wcall := WInit | WUpdate (dma : bool) (data : list N) (env : list exchange)
  | WFinal (dma : bool) (env : list exchange).
Definition wstep (v : variant) (e : wcall) (c : cctx) : Z * list N * cctx :=
  match e with
  | WInit => (OK, [], fresh v)
  | WUpdate dma data env => let '(rc, c) := cb_update dma v data env c in (rc, [], c)
  | WFinal dma env => cb_final dma v env c
  end.
Fixpoint wrun (v : variant) (es : list wcall) (c : cctx) : list (wcall * Z * list N) :=
  match es with
  | [] => []
  | e :: es => let '(rc, o, c) := wstep v e c in (e, rc, o) :: wrun v es c
  end.

End Hash.
