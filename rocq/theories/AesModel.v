(* AES through the server: CTR, ECB, CBC and GCM, with the data in the
   communication buffer or in client memory (DMA).  The cipher state of CTR and
   CBC lives in the client's object and travels with each request.  wolfCrypt is
   not in /repo: its block function is a parameter and its mode loops are
   modelled from its source's contract.  A library call reads its inputs before
   it writes its outputs; input and output data have the same place in the
   buffer.  Pointers are valid; an erased key id is 0; sizes are those of the
   lists given. *)
From Coq Require Import Arith NArith List Bool.
From Verif Require Import KdfModel.
Import ListNotations.

Definition BLOCK := 16.

(* uint32_t arithmetic. *)
Definition w32 (n : N) : N := (n mod 4294967296)%N.

(* wolfhsm/wh_message_crypto.h:148-312 and 1476-1600: sizes of the request
   structs; an inline response has the size of its request (static asserts). *)
Definition CTR_REQ := 20.
Definition ECB_REQ := 16.
Definition CBC_REQ := 16.
Definition GCM_REQ := 28.
Definition CTR_DREQ := 48.
Definition CBC_DREQ := 48.
Definition ECB_DREQ := 48.
Definition GCM_DREQ := 72.
Definition DRESP := 24.

(* The fields of wolfCrypt's Aes the client uses: devKey (keylen bytes), the key
   id in devCtx, reg, tmp, left. *)
Record aes : Type := mkAes {
  a_key : list byte;
  a_id : N;
  a_reg : list byte;
  a_tmp : list byte;
  a_left : nat
}.

(* wolfCrypt xorbufout. *)
Fixpoint zipx (a b : list byte) : list byte :=
  match a, b with
  | x :: a', y :: b' => N.lxor x y :: zipx a' b'
  | _, _ => []
  end.

(* wolfCrypt IncrementAesCounter: from the last byte, until one does not wrap. *)
Fixpoint inc_le (l : list byte) : list byte :=
  match l with
  | [] => []
  | x :: r =>
    let y := ((x + 1) mod 256)%N in
    if (y =? 0)%N then y :: inc_le r else y :: r
  end.
Definition inc (l : list byte) : list byte := rev (inc_le (rev l)).

(* wolfCrypt wc_AesCtrEncrypt after the unused bytes are consumed: whole blocks,
   then a last partial one, of which the rest is kept in tmp. *)
Fixpoint ctr_blocks (F : list byte -> list byte) (fuel : nat) (reg tmp : list byte) (left : nat)
    (inp : list byte) : list byte * (list byte * list byte * nat) :=
  match fuel with
  | O => ([], (reg, tmp, left))
  | S f =>
    if length inp =? 0 then ([], (reg, tmp, left))
    else if length inp <? BLOCK then
      let t := F reg in
      (zipx inp t, (inc reg, t, BLOCK - length inp))
    else
      let '(o, st) := ctr_blocks F f (inc reg) tmp 0 (skipn BLOCK inp) in
      (zipx (firstn BLOCK inp) (F reg) ++ o, st)
  end.

(* wolfCrypt wc_AesCtrEncrypt. *)
Definition lib_ctr (F : list byte -> list byte) (reg tmp : list byte) (left : nat)
    (inp : list byte) : list byte * (list byte * list byte * nat) :=
  let p := Nat.min left (length inp) in
  let head := zipx (firstn p inp) (skipn (BLOCK - left) tmp) in
  let '(o, st) := ctr_blocks F (S (length inp)) reg tmp (left - p) (skipn p inp) in
  (head ++ o, st).

(* wolfCrypt wc_AesEcbEncrypt and wc_AesEcbDecrypt. *)
Fixpoint lib_ecb (F : list byte -> list byte) (fuel : nat) (inp : list byte) : list byte :=
  match fuel with
  | O => []
  | S f => if length inp <? BLOCK then []
           else F (firstn BLOCK inp) ++ lib_ecb F f (skipn BLOCK inp)
  end.

(* wolfCrypt wc_AesCbcEncrypt: reg holds the last output block. *)
Fixpoint lib_cbc_enc (F : list byte -> list byte) (fuel : nat) (reg inp : list byte)
  : list byte * list byte :=
  match fuel with
  | O => ([], reg)
  | S f =>
    if length inp <? BLOCK then ([], reg)
    else
      let c := F (zipx (firstn BLOCK inp) reg) in
      let '(o, r) := lib_cbc_enc F f c (skipn BLOCK inp) in
      (c ++ o, r)
  end.

(* wolfCrypt wc_AesCbcDecrypt: reg holds the last input block. *)
Fixpoint lib_cbc_dec (F : list byte -> list byte) (fuel : nat) (reg inp : list byte)
  : list byte * list byte :=
  match fuel with
  | O => ([], reg)
  | S f =>
    if length inp <? BLOCK then ([], reg)
    else
      let c := firstn BLOCK inp in
      let p := zipx (F c) reg in
      let '(o, r) := lib_cbc_dec F f c (skipn BLOCK inp) in
      (p ++ o, r)
  end.

(* What the world answers during one call: the stored key of an id for
   encryption or decryption (wh_Server_KeystoreReadKeyEnforce, at most 32
   bytes), whether wolfCrypt succeeds, whether the request and the response
   arrive, what the server's buffer held before; for DMA, whether the input and
   output addresses may be used, whether the closing operation succeeds, and
   whether it still copies the output when it does not. *)
Record world : Type := mkWorld {
  w_key : bool -> N -> option (list byte);
  w_lib : bool;
  w_sent : bool;
  w_back : bool;
  w_old : list byte;
  w_in : bool;
  w_out : bool;
  w_post : bool;
  w_copied : bool
}.

(* How a blocking call ends: success, an error code, polling for ever for a
   response to a request never sent, or a write past the client's buffer. *)
Inductive outcome : Type := Done | Err | Hang | Overrun.

Section Aes.

(* wolfCrypt's block functions, by key: wc_AesEncrypt under an encryption
   schedule, wc_AesDecrypt under a decryption schedule, and wc_AesEncrypt under
   a decryption schedule. *)
Variable E D X : list byte -> list byte -> list byte.

(* wc_AesGcmEncrypt key iv aad text tagsize, wc_AesGcmDecrypt key iv aad text tag. *)
Variable gcm_enc : list byte -> list byte -> list byte -> list byte -> nat ->
                   option (list byte * list byte).
Variable gcm_dec : list byte -> list byte -> list byte -> list byte -> list byte ->
                   option (list byte).

Variable DL : nat.   (* WOLFHSM_CFG_COMM_DATA_LEN *)

(* The key checks every handler ends its key selection with, e.g.
   src/wh_server_crypto.c:3246-3250. *)
Definition key_ok (k : list byte) : bool :=
  (length k =? 16) || (length k =? 24) || (length k =? 32).

(* src/wh_server_crypto.c:3222-3250 (and 3556-3583, 3851-3878, 4165-4190): a
   stored key takes the place of the one in the request. *)
Definition pick_key (w : world) (enc : bool) (id : N) (inline : list byte) : option (list byte) :=
  let k := if (id =? 0)%N then Some inline else w_key w enc id in
  match k with
  | Some k => if key_ok k then Some k else None
  | None => None
  end.

(* src/wh_server_crypto.c:3361-3395 (and 3668-3702, 3966-4000, 4300-4332): with
   DMA a key in the request comes first; no key at all has length 0. *)
Definition pick_key_dma (w : world) (enc : bool) (id : N) (inline : list byte)
  : option (list byte) :=
  let k := if length inline =? 0 then
             if (id =? 0)%N then Some [] else w_key w enc id
           else Some inline in
  match k with
  | Some k => if key_ok k then Some k else None
  | None => None
  end.

(* The server's buffer when a request with a struct of [req] bytes arrived. *)
Definition got (w : world) (req : nat) (payload : list byte) : list byte :=
  arrived (repeat 0%N (HDR + req)) payload (w_old w).

(* --- inline handlers: the new buffer and the sizes in the response --- *)

(* src/wh_server_crypto.c:3175-3307 _HandleAesCtr. *)
Definition ctr_serve (w : world) (enc : bool) (id : N) (keyLen sz left inSize : nat)
    (buf : list byte) : list byte * option (nat * nat) :=
  if inSize <? CTR_REQ then (buf, None)
  else if negb (CTR_REQ + sz + keyLen + BLOCK + BLOCK =? inSize) then (buf, None)
  else
    let inp := HDR + CTR_REQ in
    let key := inp + sz in
    let iv := key + keyLen in
    let tmp := iv + BLOCK in
    let out := HDR + CTR_REQ in
    let out_reg := out + sz in
    let out_tmp := out_reg + BLOCK in
    match pick_key w enc id (rd key keyLen buf) with
    | None => (buf, None)
    | Some k =>
      if negb (w_lib w) then (buf, None)
      else if BLOCK <? left then (buf, None)
      else
        let '(o, (r, t, l)) :=
          lib_ctr (if enc then E k else X k) (rd iv BLOCK buf) (rd tmp BLOCK buf) left
                  (rd inp sz buf) in
        (wr out_tmp t (wr out_reg r (wr out o buf)), Some (sz, l))
    end.

(* src/wh_server_crypto.c:3511-3621 _HandleAesEcb. *)
Definition ecb_serve (w : world) (enc : bool) (id : N) (keyLen sz inSize : nat)
    (buf : list byte) : list byte * option nat :=
  if inSize <? ECB_REQ then (buf, None)
  else if negb (ECB_REQ + sz + keyLen =? inSize) then (buf, None)
  else
    let inp := HDR + ECB_REQ in
    let key := inp + sz in
    let out := HDR + ECB_REQ in
    match pick_key w enc id (rd key keyLen buf) with
    | None => (buf, None)
    | Some k =>
      if negb (w_lib w) then (buf, None)
      else (wr out (lib_ecb (if enc then E k else D k) (S sz) (rd inp sz buf)) buf, Some sz)
    end.

Definition lib_cbc (enc : bool) (k reg inp : list byte) : list byte * list byte :=
  if enc then lib_cbc_enc (E k) (S (length inp)) reg inp
  else lib_cbc_dec (D k) (S (length inp)) reg inp.

(* src/wh_server_crypto.c:3796-3912 _HandleAesCbc. *)
Definition cbc_serve (w : world) (enc : bool) (id : N) (keyLen sz inSize : nat)
    (buf : list byte) : list byte * option nat :=
  if inSize <? CBC_REQ then (buf, None)
  else if negb (CBC_REQ + sz + keyLen + BLOCK =? inSize) then (buf, None)
  else
    let inp := HDR + CBC_REQ in
    let key := inp + sz in
    let iv := key + keyLen in
    let out := HDR + CBC_REQ in
    let out_iv := out + sz in
    match pick_key w enc id (rd key keyLen buf) with
    | None => (buf, None)
    | Some k =>
      if negb (w_lib w) then (buf, None)
      else
        let '(o, r) := lib_cbc enc k (rd iv BLOCK buf) (rd inp sz buf) in
        (wr out_iv r (wr out o buf), Some sz)
    end.

(* src/wh_server_crypto.c:4093-4248 _HandleAesGcm; the response length is
   computed in 32 bits. *)
Definition gcm_serve (w : world) (enc : bool) (id : N)
    (keyLen sz ivLen aadLen tagLen inSize : nat) (buf : list byte)
  : list byte * option (nat * nat) :=
  if inSize <? GCM_REQ then (buf, None)
  else if negb (GCM_REQ + sz + keyLen + ivLen + aadLen + (if enc then 0 else tagLen) =? inSize)
  then (buf, None)
  else
    let inp := HDR + GCM_REQ in
    let key := inp + sz in
    let iv := key + keyLen in
    let aad := iv + ivLen in
    let tag := aad + aadLen in
    let out := HDR + GCM_REQ in
    let out_tag := out + sz in
    let res_len := w32 (N.of_nat (GCM_REQ + sz + (if enc then tagLen else 0))) in
    if (N.of_nat (DL - HDR) <? res_len)%N then (buf, None)
    else
      match pick_key w enc id (rd key keyLen buf) with
      | None => (buf, None)
      | Some k =>
        if negb (w_lib w) then (buf, None)
        else if enc then
          match gcm_enc k (rd iv ivLen buf) (rd aad aadLen buf) (rd inp sz buf) tagLen with
          | Some (c, t) => (wr out_tag t (wr out c buf), Some (sz, tagLen))
          | None => (buf, None)
          end
        else
          match gcm_dec k (rd iv ivLen buf) (rd aad aadLen buf) (rd inp sz buf)
                        (rd tag tagLen buf) with
          | Some p => (wr out p buf, Some (sz, 0))
          | None => (buf, None)
          end
      end.

(* --- the client's blocking calls.  A result is the object and the output
   buffer afterwards and how the call ended. --- *)

(* The size check before a request is written: the length is 32 bits wide. *)
Definition fits (total : nat) : bool := (w32 (N.of_nat total) <=? N.of_nat DL)%N.

(* src/wh_client_crypto.c:447-582 wh_Client_AesCtrRequest, AesCtrResponse, AesCtr. *)
Definition ctr_call (w : world) (a : aes) (enc : bool) (msg out : list byte)
  : aes * list byte * outcome :=
  let len := length msg in
  let keyLen := length (a_key a) in
  let total := HDR + CTR_REQ + len + keyLen + BLOCK + BLOCK in
  if negb (fits total) then (a, out, Err)
  else if DL <? total then (a, out, Overrun)
  else if negb (w_sent w) then (a, out, Err)
  else
    let '(buf, res) := ctr_serve w enc (a_id a) keyLen len (a_left a) (total - HDR)
                         (got w CTR_REQ (msg ++ a_key a ++ a_reg a ++ a_tmp a)) in
    if negb (w_back w) then (a, out, Err)
    else
      match res with
      | None => (a, out, Err)
      | Some (sz, lf) =>
        let res_out := HDR + CTR_REQ in
        let res_reg := res_out + sz in
        let res_tmp := res_reg + BLOCK in
        (mkAes (a_key a) (a_id a) (rd res_reg BLOCK buf) (rd res_tmp BLOCK buf) lf,
         wr 0 (rd res_out sz buf) out, Done)
      end.

(* uint16_t blocks = len / AES_BLOCK_SIZE. *)
Definition blocks16 (len : nat) : N := ((N.of_nat len / 16) mod 65536)%N.

(* src/wh_client_crypto.c:788-919 wh_Client_AesEcbRequest, AesEcbResponse,
   AesEcb.  A request of zero blocks is not sent and OK is answered; the
   response is then polled for. *)
Definition ecb_call (w : world) (a : aes) (enc : bool) (msg out : list byte)
  : aes * list byte * outcome :=
  let len := length msg in
  let keyLen := length (a_key a) in
  let total := HDR + ECB_REQ + len + keyLen in
  if negb (len mod BLOCK =? 0) then (a, out, Err)
  else if len =? 0 then (a, out, Done)
  else if (blocks16 len =? 0)%N then (a, out, Hang)
  else if negb (fits total) then (a, out, Err)
  else if DL <? total then (a, out, Overrun)
  else if negb (w_sent w) then (a, out, Err)
  else
    let '(buf, res) := ecb_serve w enc (a_id a) keyLen len (total - HDR)
                         (got w ECB_REQ (msg ++ a_key a)) in
    if negb (w_back w) then (a, out, Err)
    else
      match res with
      | None => (a, out, Err)
      | Some sz => (a, wr 0 (rd (HDR + ECB_REQ) sz buf) out, Done)
      end.

(* src/wh_client_crypto.c:1110-1260 wh_Client_AesCbcRequest, AesCbcResponse, AesCbc. *)
Definition cbc_call (w : world) (a : aes) (enc : bool) (msg out : list byte)
  : aes * list byte * outcome :=
  let len := length msg in
  let keyLen := length (a_key a) in
  let total := HDR + CBC_REQ + len + keyLen + BLOCK in
  if negb (len mod BLOCK =? 0) then (a, out, Err)
  else if len =? 0 then (a, out, Done)
  else if (blocks16 len =? 0)%N then (a, out, Hang)
  else if negb (fits total) then (a, out, Err)
  else if DL <? total then (a, out, Overrun)
  else if negb (w_sent w) then (a, out, Err)
  else
    let '(buf, res) := cbc_serve w enc (a_id a) keyLen len (total - HDR)
                         (got w CBC_REQ (msg ++ a_key a ++ a_reg a)) in
    if negb (w_back w) then (a, out, Err)
    else
      match res with
      | None => (a, out, Err)
      | Some sz =>
        let res_out := HDR + CBC_REQ in
        let res_iv := res_out + sz in
        (mkAes (a_key a) (a_id a) (rd res_iv BLOCK buf) (a_tmp a) (a_left a),
         wr 0 (rd res_out sz buf) out, Done)
      end.

(* src/wh_client_crypto.c:1460-1630 wh_Client_AesGcmRequest, AesGcmResponse,
   AesGcm.  The result has the caller's tag buffer too; [tag] is the tag to check
   when decrypting and the buffer of the new one when encrypting, [tagLen]
   bytes. *)
Definition gcm_call (w : world) (a : aes) (enc : bool) (msg iv aad tag : list byte)
    (out : list byte) : list byte * list byte * outcome :=
  let len := length msg in
  let keyLen := length (a_key a) in
  let tagLen := length tag in
  let total := HDR + GCM_REQ + len + keyLen + length iv + length aad
               + (if enc then 0 else tagLen) in
  if negb (fits total) then (out, tag, Err)
  else if DL <? total then (out, tag, Overrun)
  else if negb (w_sent w) then (out, tag, Err)
  else
    let '(buf, res) := gcm_serve w enc (a_id a) keyLen len (length iv) (length aad) tagLen
                         (total - HDR)
                         (got w GCM_REQ (msg ++ a_key a ++ iv ++ aad
                                         ++ (if enc then [] else tag))) in
    if negb (w_back w) then (out, tag, Err)
    else
      match res with
      | None => (out, tag, Err)
      | Some (sz, tsz) =>
        let res_out := HDR + GCM_REQ in
        if len <? sz then (out, tag, Err)
        else if tagLen <? tsz then (wr 0 (rd res_out sz buf) out, tag, Err)
        else (wr 0 (rd res_out sz buf) out,
              if enc then wr 0 (rd (res_out + sz) tsz buf) tag else tag, Done)
      end.

(* --- DMA.  The server reads the input and writes the output in client memory;
   only the key, the iv, tmp and the tag travel in the buffer. --- *)

(* Client: a key in the request only when there is no id
   (src/wh_client_crypto.c:624-631, 958-965, 1303-1310, 1678-1685). *)
Definition dma_key (a : aes) : list byte := if (a_id a =? 0)%N then a_key a else [].

(* The output buffer after the server wrote [o]: copied back by the closing
   operation, or maybe by one that failed. *)
Definition landed (w : world) (o out : list byte) : list byte :=
  if w_post w || w_copied w then wr 0 o out else out.

(* src/wh_server_crypto.c:3309-3506 _HandleAesCtrDma; [inSz] and [outSz] are the
   sizes of the two client buffers in the request.  The result: buffer, client's
   output buffer, and left in a response without error. *)
Definition ctr_serve_dma (w : world) (enc : bool) (id : N) (keyLen left inSize : nat)
    (inp : list byte) (outSz : nat) (buf out : list byte) : list byte * list byte * option nat :=
  if inSize <? CTR_DREQ then (buf, out, None)
  else if negb (CTR_DREQ + keyLen + BLOCK + BLOCK =? inSize) then (buf, out, None)
  else if negb (length inp =? outSz) then (buf, out, None)
  else
    let iv := HDR + CTR_DREQ in
    let tmp := iv + BLOCK in
    let key := tmp + BLOCK in
    let out_iv := HDR + DRESP in
    let out_tmp := out_iv + BLOCK in
    match pick_key_dma w enc id (rd key keyLen buf) with
    | None => (buf, out, None)
    | Some k =>
      if negb (w_in w) then (buf, out, None)
      else if negb (w_out w) then (buf, out, None)
      else if negb (w_lib w) then (buf, out, None)
      else if BLOCK <? left then (buf, out, None)
      else
        let '(o, (r, t, l)) :=
          lib_ctr (if enc then E k else X k) (rd iv BLOCK buf) (rd tmp BLOCK buf) left inp in
        (wr out_iv r (wr out_tmp t buf), landed w o out, if w_post w then Some l else None)
    end.

(* src/wh_client_crypto.c:585-783 wh_Client_AesCtrDmaRequest, AesCtrDmaResponse,
   AesCtrDma. *)
Definition ctr_call_dma (w : world) (a : aes) (enc : bool) (msg out : list byte)
  : aes * list byte * outcome :=
  let keyLen := length (dma_key a) in
  let total := HDR + CTR_DREQ + BLOCK + BLOCK + keyLen in
  if negb (fits total) then (a, out, Err)
  else if DL <? total then (a, out, Overrun)
  else if negb (w_sent w) then (a, out, Err)
  else
    let '(buf, out', res) :=
      ctr_serve_dma w enc (a_id a) keyLen (a_left a) (total - HDR) msg (length msg)
                    (got w CTR_DREQ (a_reg a ++ a_tmp a ++ dma_key a)) out in
    if negb (w_back w) then (a, out', Err)
    else
      match res with
      | None => (a, out', Err)
      | Some lf =>
        let res_iv := HDR + DRESP in
        let res_tmp := res_iv + BLOCK in
        (mkAes (a_key a) (a_id a) (rd res_iv BLOCK buf) (rd res_tmp BLOCK buf) lf, out', Done)
      end.

(* src/wh_server_crypto.c:3624-3790 _HandleAesEcbDma. *)
Definition ecb_serve_dma (w : world) (enc : bool) (id : N) (keyLen inSize : nat)
    (inp : list byte) (outSz : nat) (buf out : list byte) : list byte * list byte * option unit :=
  if inSize <? ECB_DREQ then (buf, out, None)
  else if negb (ECB_DREQ + keyLen =? inSize) then (buf, out, None)
  else if negb (length inp =? outSz) then (buf, out, None)
  else
    let key := HDR + ECB_DREQ in
    match pick_key_dma w enc id (rd key keyLen buf) with
    | None => (buf, out, None)
    | Some k =>
      if negb (w_in w) then (buf, out, None)
      else if negb (w_out w) then (buf, out, None)
      else if negb (w_lib w) then (buf, out, None)
      else (buf, landed w (lib_ecb (if enc then E k else D k) (S (length inp)) inp) out,
            if w_post w then Some tt else None)
    end.

(* src/wh_client_crypto.c:921-1105 wh_Client_AesEcbDmaRequest, AesEcbDmaResponse,
   AesEcbDma. *)
Definition ecb_call_dma (w : world) (a : aes) (enc : bool) (msg out : list byte)
  : aes * list byte * outcome :=
  let keyLen := length (dma_key a) in
  let total := HDR + ECB_DREQ + keyLen in
  if negb (length msg mod BLOCK =? 0) then (a, out, Err)
  else if length msg =? 0 then (a, out, Done)
  else if negb (fits total) then (a, out, Err)
  else if DL <? total then (a, out, Overrun)
  else if negb (w_sent w) then (a, out, Err)
  else
    let '(_, out', res) :=
      ecb_serve_dma w enc (a_id a) keyLen (total - HDR) msg (length msg)
                    (got w ECB_DREQ (dma_key a)) out in
    if negb (w_back w) then (a, out', Err)
    else match res with None => (a, out', Err) | Some tt => (a, out', Done) end.

(* src/wh_server_crypto.c:3915-4090 _HandleAesCbcDma. *)
Definition cbc_serve_dma (w : world) (enc : bool) (id : N) (keyLen inSize : nat)
    (inp : list byte) (outSz : nat) (buf out : list byte) : list byte * list byte * option unit :=
  if inSize <? CBC_DREQ then (buf, out, None)
  else if negb (CBC_DREQ + keyLen + BLOCK =? inSize) then (buf, out, None)
  else if negb (length inp =? outSz) then (buf, out, None)
  else
    let iv := HDR + CBC_DREQ in
    let key := iv + BLOCK in
    let out_iv := HDR + DRESP in
    match pick_key_dma w enc id (rd key keyLen buf) with
    | None => (buf, out, None)
    | Some k =>
      if negb (w_in w) then (buf, out, None)
      else if negb (w_out w) then (buf, out, None)
      else if negb (w_lib w) then (buf, out, None)
      else
        let '(o, r) := lib_cbc enc k (rd iv BLOCK buf) inp in
        (wr out_iv r buf, landed w o out, if w_post w then Some tt else None)
    end.

(* src/wh_client_crypto.c:1262-1456 wh_Client_AesCbcDmaRequest, AesCbcDmaResponse,
   AesCbcDma. *)
Definition cbc_call_dma (w : world) (a : aes) (enc : bool) (msg out : list byte)
  : aes * list byte * outcome :=
  let keyLen := length (dma_key a) in
  let total := HDR + CBC_DREQ + BLOCK + keyLen in
  if negb (length msg mod BLOCK =? 0) then (a, out, Err)
  else if length msg =? 0 then (a, out, Done)
  else if negb (fits total) then (a, out, Err)
  else if DL <? total then (a, out, Overrun)
  else if negb (w_sent w) then (a, out, Err)
  else
    let '(buf, out', res) :=
      cbc_serve_dma w enc (a_id a) keyLen (total - HDR) msg (length msg)
                    (got w CBC_DREQ (a_reg a ++ dma_key a)) out in
    if negb (w_back w) then (a, out', Err)
    else
      match res with
      | None => (a, out', Err)
      | Some tt =>
        (mkAes (a_key a) (a_id a) (rd (HDR + DRESP) BLOCK buf) (a_tmp a) (a_left a), out', Done)
      end.

(* src/wh_server_crypto.c:4250-4447 _HandleAesGcmDma.  wolfCrypt clears the
   output of a decryption it refuses or never writes it; here it is not
   written. *)
Definition gcm_serve_dma (w : world) (enc : bool) (id : N) (keyLen ivLen tagLen inSize : nat)
    (inp aad : list byte) (outSz : nat) (buf out : list byte)
  : list byte * list byte * option nat :=
  if inSize <? GCM_DREQ then (buf, out, None)
  else if negb (GCM_DREQ + keyLen + ivLen + (if enc then 0 else tagLen) =? inSize)
  then (buf, out, None)
  else if negb (length inp =? outSz) then (buf, out, None)
  else
    let iv := HDR + GCM_DREQ in
    let tag := iv + ivLen in
    let key := tag + (if enc then 0 else tagLen) in
    let out_tag := HDR + DRESP in
    match pick_key_dma w enc id (rd key keyLen buf) with
    | None => (buf, out, None)
    | Some k =>
      if negb (w_in w) then (buf, out, None)
      else if negb (w_out w) then (buf, out, None)
      else if negb (w_lib w) then (buf, out, None)
      else if enc then
        match gcm_enc k (rd iv ivLen buf) aad inp tagLen with
        | Some (c, t) => (wr out_tag t buf, landed w c out, if w_post w then Some tagLen else None)
        | None => (buf, out, None)
        end
      else
        match gcm_dec k (rd iv ivLen buf) aad inp (rd tag tagLen buf) with
        | Some p => (buf, landed w p out, if w_post w then Some 0 else None)
        | None => (buf, out, None)
        end
    end.

(* src/wh_client_crypto.c:1632-1874 wh_Client_AesGcmDmaRequest, AesGcmDmaResponse,
   AesGcmDma. *)
Definition gcm_call_dma (w : world) (a : aes) (enc : bool) (msg iv aad tag : list byte)
    (out : list byte) : list byte * list byte * outcome :=
  let keyLen := length (dma_key a) in
  let tagLen := length tag in
  let total := HDR + GCM_DREQ + length iv + (if enc then 0 else tagLen) + keyLen in
  if negb (fits total) then (out, tag, Err)
  else if DL <? total then (out, tag, Overrun)
  else if negb (w_sent w) then (out, tag, Err)
  else
    let '(buf, out', res) :=
      gcm_serve_dma w enc (a_id a) keyLen (length iv) tagLen (total - HDR) msg aad (length msg)
                    (got w GCM_DREQ (iv ++ (if enc then [] else tag) ++ dma_key a)) out in
    if negb (w_back w) then (out', tag, Err)
    else
      match res with
      | None => (out', tag, Err)
      | Some tsz =>
        if tagLen <? tsz then (out', tag, Err)
        else (out', if enc then wr 0 (rd (HDR + DRESP) tsz buf) tag else tag, Done)
      end.

(* --- a stream of calls on one object, by either path --- *)
Record step : Type := mkStep {
  s_dma : bool;
  s_world : world;
  s_msg : list byte;
  s_out : list byte     (* the caller's output buffer *)
}.

Definition ctr_step (a : aes) (enc : bool) (s : step) : aes * list byte * outcome :=
  (if s_dma s then ctr_call_dma else ctr_call) (s_world s) a enc (s_msg s) (s_out s).
Definition ecb_step (a : aes) (enc : bool) (s : step) : aes * list byte * outcome :=
  (if s_dma s then ecb_call_dma else ecb_call) (s_world s) a enc (s_msg s) (s_out s).
Definition cbc_step (a : aes) (enc : bool) (s : step) : aes * list byte * outcome :=
  (if s_dma s then cbc_call_dma else cbc_call) (s_world s) a enc (s_msg s) (s_out s).

(* The calls that succeeded: what each was given and what it put in its output
   buffer. *)
Fixpoint stream_of (one : aes -> bool -> step -> aes * list byte * outcome)
    (a : aes) (enc : bool) (l : list step) : aes * list (list byte * list byte) :=
  match l with
  | [] => (a, [])
  | s :: r =>
    let '(a', out, o) := one a enc s in
    let '(a'', done) := stream_of one a' enc r in
    match o with
    | Done => (a'', (s_msg s, firstn (length (s_msg s)) out) :: done)
    | _ => (a'', done)
    end
  end.

End Aes.
