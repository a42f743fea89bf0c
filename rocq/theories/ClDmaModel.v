(** The client's own buffers opened for direct access by the server, over whole
    histories of calls: src/wh_client_dma.c, the Request and Response functions of
    src/wh_client_crypto.c, wh_client.c, wh_client_nvm.c and wh_client_cert.c that
    hand a buffer of the caller to the server, the blocking ones of
    wh_client_crypto.c, and the part of src/wh_comm.c that decides whether a request
    is pending.

    Modelled is, in order, every call of wh_Client_DmaProcessClientAddress with its
    result, the addresses put into each request that is sent, and what receiving
    gives.  All other steps (checks of arguments, checks of the reply, the platform's
    callback, the transport, the timer) answer as they like, depending on all that
    happened before; consecutive steps that can only fail and leave together are one
    step.  Compiled with WOLFHSM_CFG_DMA and WOLFHSM_CFG_ENABLE_TIMEOUT; 64-bit
    little-endian words. *)
From Verif Require Export Base DmaModel.
Local Open Scope N_scope.

Inductive dir := Rd | Wr.                     (* the server reads it, the server writes it *)
Definition pre_of (d : dir) : dma_oper := match d with Rd => RdPre | Wr => WrPre end.
Definition post_of (d : dir) : dma_oper := match d with Rd => RdPost | Wr => WrPost end.
Record buf := mkBuf { addr : N; size : N }.

(** Which pair of functions a request belongs to: the view of the shared record that
    its Response reads. *)
Inductive kind := KRng | KAes | KGcm | KCmac | KSha | KBuf | KNvmAdd | KPlain.

(** What the transport gives when asked for a message. *)
Inductive arrival :=
| Fails (rc : Z)              (* an error, or NOTREADY; never 0 *)
| BadSize                     (* length out of range *)
| BadMagic                    (* wrong magic number *)
| Stale                       (* a reply to an older request *)
| Reply (fits same : bool).   (* the reply: it fits the room given, it is of the kind asked for *)

Inductive ev :=
| Dma (op : dma_oper) (client len x : N) (cbrc rc : Z)
| Sent (k : kind) (bufs : list (dir * N * N)) (rc timer : Z)   (* result of the transport, of starting the timer *)
| Got (a : arrival) (rc : Z)
| Ext (k : nat) (rc : Z) (v : N).

Record env := mkEnv {
  e_umax : N;
  e_cb : option (list ev -> dma_oper -> N -> N -> Z * N);
  e_allow : option allow_list;
  e_send : list ev -> Z * Z;
  e_recv : list ev -> arrival;
  e_timer : list ev -> Z;            (* wh_Timeout_Expired *)
  e_ext : list ev -> nat -> Z * N }.

(** whClientDmaAsyncCtx, the shared union: wh_client.h 140-216, as 64-bit words.
    sha, rng, cmac: address produced, own address, size in words 0-2.  aes: the same
    for input (0-2), output (3-5), additional data (6-8).  buf: address produced, own
    address, size, closing operation in words 0-3.  nvmAdd: two of those, 0-3 and 4-7. *)
Record words := mkW { w0 : N; w1 : N; w2 : N; w3 : N; w4 : N; w5 : N; w6 : N; w7 : N; w8 : N }.
Definition zero : words := mkW 0 0 0 0 0 0 0 0 0.

(** The client: is a request pending (context->pending), the union, the events (newest
    first). *)
Record st := mkSt { pend : bool; un : words; tr : list ev }.

Definition M (A : Type) := env -> st -> A * st.
Definition ret {A} (a : A) : M A := fun _ s => (a, s).
Definition bind {A B} (m : M A) (f : A -> M B) : M B :=
  fun e s => let '(a, s1) := m e s in f a e s1.
Notation "x <- m ;; f" := (bind m (fun x => f)) (at level 61, m at next level, right associativity).
Notation "' p <- m ;; f" := (bind m (fun p => f)) (at level 61, p pattern, m at next level, right associativity).
Notation "m ;;; f" := (bind m (fun _ => f)) (at level 61, right associativity).

(** wh_Client_DmaProcessClientAddress: wh_client_dma.c 68-98; the same steps as the
    server's, [process_addr] in DmaModel, with a callback that may remember. *)
Definition dma (op : dma_oper) (client len : N) : M (Z * N) := fun e s =>
  let cb := match e_cb e with None => None | Some f => Some (f (tr s)) end in
  let '(rc, x) := process_addr (e_umax e) (mkDma cb false (e_allow e)) client len op in
  let cbrc := match cb with None => OK | Some f => fst (f op client len) end in
  ((rc, x), mkSt (pend s) (un s) (Dma op client len x cbrc rc :: tr s)).
Definition ext2 (k : nat) : M (Z * N) := fun e s =>
  let r := e_ext e (tr s) k in (r, mkSt (pend s) (un s) (Ext k (fst r) (snd r) :: tr s)).
Definition ext (k : nat) : M Z := r <- ext2 k;; ret (fst r).
Definition get : M words := fun _ s => (un s, s).
Definition set (f : words -> words) : M unit := fun _ s => (tt, mkSt (pend s) (f (un s)) (tr s)).
(** wh_CommClient_IsRequestPending: wh_comm.c 309-317. *)
Definition pending : M bool := fun _ s => (pend s, s).
(** wh_CommClient_AbortPending: wh_comm.c 319-329. *)
Definition not_pending : M unit := fun _ s => (tt, mkSt false (un s) (tr s)).

(** Leave early with a result, or go on: checks of arguments and of state that come
    before anything else. *)
Definition early (k : nat) (m : M Z) : M Z :=
  r <- ext2 k;; if snd r =? 0 then m else ret (fst r).

(** wh_Client_SendRequest: wh_client.c 236-254, and wh_CommClient_SendRequest:
    wh_comm.c 107-151.  A request is pending as soon as the transport took it, even
    if the timer then does not start. *)
Definition send (k : kind) (bufs : list (dir * N * N)) : M Z := fun e s =>
  if pend s then (REQUEST_PENDING, s) else
  let '(rc, timer) := e_send e (tr s) in
  let t := Sent k bufs rc timer :: tr s in
  if is_ok rc then (timer, mkSt true (un s) t) else (rc, mkSt false (un s) t).

(** wh_Client_RecvResponse: wh_client.c 256-286, and wh_CommClient_RecvResponse:
    wh_comm.c 159-265. *)
Definition recv : M Z := fun e s =>
  if negb (pend s) then (NOTREADY, s) else
  let a := e_recv e (tr s) in
  let fin rc p := (rc, mkSt p (un s) (Got a rc :: tr s)) in
  match a with
  | Fails rc0 =>
      let rc := if is_ok rc0 then NOTREADY else rc0 in
      if (rc =? ABORTED)%Z then fin ABORTED false else
      if (rc =? NOTREADY)%Z then
        let x := e_timer e (tr s) in
        if (0 <? x)%Z then fin TIMEOUT false else
        if (x <? 0)%Z then fin x true else fin NOTREADY true
      else fin rc true
  | BadSize => fin ABORTED false
  | BadMagic => fin ABORTED true
  | Stale => fin NOTREADY true
  | Reply fits same => fin (if fits then if same then OK else ABORTED else BUFFER_SIZE) false
  end.

Definition post (d : dir) (client len : N) : M unit := dma (post_of d) client len;;; ret tt.
Definition post_if (c : bool) (d : dir) (client len : N) : M unit :=
  if c then post d client len else ret tt.
(** A buffer is opened if the condition holds and nothing failed; told is whether it
    was. *)
Definition acquire (r : Z) (cond : bool) (d : dir) (client len : N) : M (Z * N * bool) :=
  if is_ok r && cond then
    '(r1, x) <- dma (pre_of d) client len;; ret (r1, x, is_ok r1)
  else ret (r, 0, false).
Definition given (acq : bool) (d : dir) (x len : N) : list (dir * N * N) :=
  if acq then [(d, x, len)] else [].

(** ** The pairs of Request and Response *)
(** Words 0-2, 3-5, 6-8. *)
Definition put_a (x c n : N) (u : words) : words := mkW x c n (w3 u) (w4 u) (w5 u) (w6 u) (w7 u) (w8 u).
Definition put_b (x c n : N) (u : words) : words := mkW (w0 u) (w1 u) (w2 u) x c n (w6 u) (w7 u) (w8 u).
Definition put_c (x c n : N) (u : words) : words := mkW (w0 u) (w1 u) (w2 u) (w3 u) (w4 u) (w5 u) x c n.
Definition done_a (u : words) : words := put_a (w0 u) (w1 u) 0 u.
Definition done_b (u : words) : words := put_b (w3 u) (w4 u) 0 u.
Definition done_c (u : words) : words := put_c (w6 u) (w7 u) 0 u.

(** The end of a Response: close what the record says is open, then mark it closed.
    What the closing answers is not looked at. *)
Definition close_a (d : dir) : M unit :=
  u <- get;; if 0 <? w2 u then post d (w1 u) (w2 u);;; set done_a else ret tt.
Definition close_b (d : dir) : M unit :=
  u <- get;; if 0 <? w5 u then post d (w4 u) (w5 u);;; set done_b else ret tt.
Definition close_c (d : dir) : M unit :=
  u <- get;; if 0 <? w8 u then post d (w7 u) (w8 u);;; set done_c else ret tt.

(** A Response: checks of its arguments (BADARGS); receive; NOTREADY leaves at once; otherwise
    the reply is checked and, whatever the result, the buffers are closed. *)
Definition response (closing : Z -> M Z) : M Z :=
  a <- ext2 10;;
  if negb (snd a =? 0) then ret BADARGS else
  r <- recv;;
  if (r =? NOTREADY)%Z then ret r else
  r2 <- (if is_ok r then ext 11 else ret r);;
  closing r2.

(** wh_Client_RngGenerateDmaRequest: wh_client_crypto.c 319-378. *)
Definition rng_request (out : buf) : M Z :=
  early 1 (
  if size out =? 0 then ret BADARGS else
  p <- pending;; if p then ret REQUEST_PENDING else
  '(r, x, acq) <- acquire OK true Wr (addr out) (size out);;
  r2 <- (if is_ok r then set (put_a x (addr out) (size out));;; send KRng [(Wr, x, size out)] else ret r);;
  (if negb (is_ok r2) && acq then post Wr (addr out) (size out);;; set done_a else ret tt);;;
  ret r2).
(** wh_Client_RngGenerateDmaResponse: wh_client_crypto.c 380-428. *)
Definition rng_response : M Z := response (fun r => close_a Wr;;; ret r).

(** wh_Client_AesCtrDmaRequest: wh_client_crypto.c 585-700; AesEcb: 921-1026; AesCbc:
    1262-1373, the same steps here. *)
Definition some (a n : N) : bool := negb (a =? 0) && (0 <? n).
Definition aes_request (inp out len : N) : M Z :=
  early 1 (
  p <- pending;; if p then ret REQUEST_PENDING else
  '(r1, ia, iacq) <- acquire OK (some inp len) Rd inp len;;
  '(r2, oa, oacq) <- acquire r1 (some out len) Wr out len;;
  r3 <- (if is_ok r2 then
     set (fun u => put_c (w6 u) (w7 u) 0
        (put_b oa out (if oacq then len else 0) (put_a ia inp (if iacq then len else 0) u)));;;
     send KAes (given iacq Rd ia len ++ given oacq Wr oa len)
   else ret r2);;
  (if negb (is_ok r3) then
     post_if iacq Rd inp len;;; post_if oacq Wr out len;;; set (fun _ => zero)
   else ret tt);;;
  ret r3).
(** wh_Client_AesCtrDmaResponse: 702-765; AesEcb: 1028-1083; AesCbc: 1375-1433. *)
Definition aes_response : M Z := response (fun r => close_a Rd;;; close_b Wr;;; ret r).

(** wh_Client_AesGcmDmaRequest: wh_client_crypto.c 1632-1778. *)
Definition gcm_request (inp out len : N) (aad : buf) : M Z :=
  early 1 (
  p <- pending;; if p then ret REQUEST_PENDING else
  '(r1, ia, iacq) <- acquire OK (some inp len) Rd inp len;;
  '(r2, oa, oacq) <- acquire r1 (some out len) Wr out len;;
  '(r3, aa, aacq) <- acquire r2 (some (addr aad) (size aad)) Rd (addr aad) (size aad);;
  r4 <- (if is_ok r3 then
     set (fun u => put_c aa (addr aad) (if aacq then size aad else 0)
        (put_b oa out (if oacq then len else 0) (put_a ia inp (if iacq then len else 0) u)));;;
     send KGcm (given iacq Rd ia len ++ given oacq Wr oa len ++ given aacq Rd aa (size aad))
   else ret r3);;
  (if negb (is_ok r4) then
     post_if iacq Rd inp len;;; post_if oacq Wr out len;;;
     post_if aacq Rd (addr aad) (size aad);;; set (fun _ => zero)
   else ret tt);;;
  ret r4).
(** wh_Client_AesGcmDmaResponse: wh_client_crypto.c 1780-1857. *)
Definition gcm_response : M Z :=
  response (fun r => close_a Rd;;; close_b Wr;;; close_c Rd;;; ret r).

(** wh_Client_CmacDmaUpdateRequest: wh_client_crypto.c 6269-6371;
    wh_Client_CmacGenerateDmaRequest: 6123-6213, the same steps with input that is
    never empty.  An update without input leaves the record as it is.  The clean-up of
    a failed request goes through the record (6111-6121). *)
Definition cmac_request (inp : buf) : M Z :=
  early 1 (
  p <- pending;; if p then ret REQUEST_PENDING else
  '(r, x, acq) <- acquire OK (0 <? size inp) Rd (addr inp) (size inp);;
  (if acq then set (put_a x (addr inp) (size inp)) else ret tt);;;
  r2 <- (if is_ok r then send KCmac (given acq Rd x (size inp)) else ret r);;
  (if negb (is_ok r2) && acq then close_a Rd else ret tt);;;
  ret r2).
(** wh_Client_CmacGenerateDmaResponse: 6215-6267; CmacDmaUpdateResponse: 6373-6415. *)
Definition cmac_response : M Z := response (fun r => close_a Rd;;; ret r).

(** wh_Client_Sha256DmaUpdateRequest: wh_client_crypto.c 6891-7023; Sha224: 7494-7613;
    Sha384: 8081-8201; Sha512: 8699-8818; _Sha3DmaUpdateRequest: 9521-9638.  [inp] is
    the part of the input that is not sent in the message; it may be empty. *)
Definition sha_request (inp : buf) : M Z :=
  early 1 (
  p <- pending;; if p then ret REQUEST_PENDING else
  early 2 (
  '(r, x, acq) <- acquire OK (0 <? size inp) Rd (addr inp) (size inp);;
  r2 <- (if is_ok r then set (put_a x (addr inp) (size inp));;; send KSha (given acq Rd x (size inp)) else ret r);;
  (if negb (is_ok r2) then
     post_if acq Rd (addr inp) (size inp);;; set (put_a 0 0 0)
   else ret tt);;;
  ret r2)).
(** The Sha…DmaUpdateResponse: 7025-7077, 7615-7665, 8203-8253, 8820-8876, 9640-9685. *)
Definition sha_response : M Z := response (fun r => close_a Rd;;; ret r).

(** The generic record of one buffer: words 0-3 (meta, buf) and 4-7 (data). *)
Definition put_m (x c n o : N) (u : words) : words := mkW x c n o (w4 u) (w5 u) (w6 u) (w7 u) (w8 u).
Definition put_d (x c n o : N) (u : words) : words := mkW (w0 u) (w1 u) (w2 u) (w3 u) x c n o (w8 u).
Definition code (d : dir) : N := match d with Rd => 1 | Wr => 3 end.   (* wh_dma.h 37-45 *)
Definition op_of (c : N) : dma_oper :=
  let c := c mod 4294967296 in                                        (* whDmaOper has 32 bits *)
  if c =? 0 then RdPre else if c =? 1 then RdPost else if c =? 2 then WrPre else
  if c =? 3 then WrPost else BadOper.

(** wh_Client_DmaAsyncPre: wh_client_dma.c 100-149. *)
Definition async_pre (put : N -> N -> N -> N -> words -> words) (client len : N) (d : dir) : M (Z * N) :=
  set (put 0 0 0 0);;;
  if len =? 0 then ret (OK, 0) else
  '(r, x) <- dma (pre_of d) client len;;
  if is_ok r then set (put x client len (code d));;; ret (r, x) else ret (r, 0).
(** wh_Client_DmaAsyncPost: wh_client_dma.c 151-172. *)
Definition async_post (put : N -> N -> N -> N -> words -> words) (c n o : words -> N) : M Z :=
  u <- get;;
  if n u =? 0 then ret OK else
  '(r, _) <- dma (op_of (o u)) (c u) (n u);;
  set (put 0 0 0 0);;; ret r.
Definition post_m : M Z := async_post put_m w1 w2 w3.
Definition post_d : M Z := async_post put_d w5 w6 w7.

(** One buffer: wh_Client_KeyCacheDmaRequest (wh_client.c 1717-1775), read;
    wh_Client_KeyExportDmaRequest (1838-1879), KeyExportPublicDma (1959-1999),
    written; wh_client_cert.c CertAddTrustedDma (811-850), CertVerifyDma (1017-1056),
    the multi-root form (1179-1226), CertVerifyAcertDma (1438-1474), read;
    CertReadTrustedDma (918-955), written.  [told] is the length put into the message. *)
Definition buf_request (d : dir) (client len told : N) : M Z :=
  early 1 (
  p <- pending;; if p then ret REQUEST_PENDING else
  early 2 (
  '(r, x) <- async_pre put_m client len d;;
  r2 <- (if is_ok r then send KBuf [(d, x, told)] else ret r);;
  (if negb (is_ok r2) then post_m;;; ret tt else ret tt);;;
  ret r2)).
(** Their Responses.  Of the reading ones, the result of closing is not looked at
    (wh_client.c 1777-1821; wh_client_cert.c 852-889, 1058-1095, 1228-1264, 1476-1508);
    the writing ones return it if all else went well (wh_client.c 1881-1943, 2001-2061;
    wh_client_cert.c 957-993; wh_client_nvm.c 847-896). *)
Definition read_response : M Z := response (fun r => post_m;;; ret r).
Definition write_response : M Z :=
  response (fun r => r2 <- post_m;; ret (if is_ok r then r2 else r)).

(** wh_Client_NvmReadDmaRequest: wh_client_nvm.c 810-845.  Without a buffer nothing is
    opened and the address sent is 0, with the length asked for. *)
Definition nvm_read_request (data dlen : N) : M Z :=
  buf_request Wr data (if data =? 0 then 0 else dlen) dlen.

(** wh_Client_NvmAddObjectDmaRequest: wh_client_nvm.c 686-740.  [META] is
    sizeof(whNvmMetadata). *)
Definition META : N := 32.
Definition nvm_add_request (meta data dlen : N) : M Z :=
  early 1 (
  p <- pending;; if p then ret REQUEST_PENDING else
  set (fun u => put_d 0 0 0 0 (put_m 0 0 0 0 u));;;
  '(r1, ma) <- async_pre put_m meta META Rd;;
  '(r2, da) <- (if is_ok r1 then async_pre put_d data (if data =? 0 then 0 else dlen) Rd else ret (r1, 0));;
  r3 <- (if is_ok r2 then send KNvmAdd [(Rd, ma, META); (Rd, da, dlen)] else ret r2);;
  (if negb (is_ok r3) then post_d;;; post_m;;; ret tt else ret tt);;;
  ret r3).
(** wh_Client_NvmAddObjectDmaResponse: wh_client_nvm.c 742-785. *)
Definition nvm_add_response : M Z := response (fun r => post_d;;; post_m;;; ret r).

(** Any request without buffers, and its response (among them the Final functions of
    SHA and CMAC: wh_client_crypto.c 6417-6517, 7078-7169). *)
Definition plain_request : M Z := early 1 (send KPlain []).
Definition plain_response : M Z := response (fun r => ret r).

(** wh_Client_Cleanup: wh_client.c 202-234; the whole context is cleared. *)
Definition cleanup : M Z := not_pending;;; set (fun _ => zero);;; ret OK.

(** ** Calls that wait for the answer themselves *)
(** [while (ret == WH_ERROR_NOTREADY)], at most [n] times; [None]: still waiting. *)
Fixpoint wait (m : M Z) (n : nat) : M (option Z) :=
  match n with
  | O => ret None
  | S n => r <- m;; if (r =? NOTREADY)%Z then wait m n else ret (Some r)
  end.

(** The buffers of each in the order they are opened.
    Ed25519SignDma (wh_client_crypto.c 4241-4387), Ed25519VerifyDma (4389-4535),
    _MlDsaMakeKeyDma (10625-10762), MlDsaSignDma (10821-10982), MlDsaVerifyDma
    (10984-11137), _MlKemMakeKeyDma (11760-11875), MlKemEncapsulateDma (11933-12059),
    MlKemDecapsulateDma (12061-12183), Lms and Xmss MakeKeyDma (12209-12329,
    12680-12810), SignDma (12336-12443, 12817-12924), VerifyDma (12445-12543,
    12926-13025). *)
Inductive direct :=
| Ed25519Sign (msg sig : buf) | Ed25519Verify (sig msg : buf)
| MlDsaMakeKey (key : buf) | MlDsaSign (msg sig : buf) | MlDsaVerify (sig msg : buf)
| MlKemMakeKey (key : buf) | MlKemEncaps (ct : buf) | MlKemDecaps (ct : buf)
| HbsMakeKey (pub : buf) | HbsSign (msg sig : buf) | HbsVerify (sig msg : buf).
Definition bufs_of (o : direct) : list (dir * buf) :=
  match o with
  | Ed25519Sign m s | MlDsaSign m s | HbsSign m s => [(Rd, m); (Wr, s)]
  | Ed25519Verify s m | MlDsaVerify s m | HbsVerify s m => [(Rd, s); (Rd, m)]
  | MlDsaMakeKey b | MlKemMakeKey b | MlKemEncaps b | HbsMakeKey b => [(Wr, b)]
  | MlKemDecaps b => [(Rd, b)]
  end.
(** The stateful signatures return the result of closing the output. *)
Definition tells (o : direct) : bool :=
  match o with HbsMakeKey _ | HbsSign _ _ => true | _ => false end.

(** Open one after the other until one is refused. *)
Fixpoint open_all (l : list (dir * buf)) : M (Z * list (dir * N * N)) :=
  match l with
  | [] => ret (OK, [])
  | (d, b) :: r =>
      '(rc, x) <- dma (pre_of d) (addr b) (size b);;
      if is_ok rc then '(rc2, l2) <- open_all r;; ret (rc2, (d, x, size b) :: l2) else ret (rc, [])
  end.
(** Close all, also what was never opened; the result is that of the last one for
    writing.  The stateful signatures close in the order of opening, the others in the
    reverse order. *)
Definition closing_order (o : direct) : list (dir * buf) :=
  match o with
  | HbsMakeKey _ | HbsSign _ _ | HbsVerify _ _ => bufs_of o
  | _ => rev (bufs_of o)
  end.
Fixpoint close_all (l : list (dir * buf)) (r : Z) : M Z :=
  match l with
  | [] => ret r
  | (d, b) :: l2 =>
      '(rc, _) <- dma (post_of d) (addr b) (size b);;
      close_all l2 (match d with Wr => rc | Rd => r end)
  end.
Definition direct_call (o : direct) (n : nat) : M (option Z) :=
  a <- ext 1;;
  if negb (is_ok a) then ret (Some a) else
  '(r1, l) <- open_all (bufs_of o);;
  r2 <- (if is_ok r1 then send KPlain l else ret r1);;
  r3 <- (if is_ok r2 then wait recv n else ret (Some r2));;
  match r3 with
  | None => ret None
  | Some r =>
      p <- close_all (closing_order o) OK;;
      r4 <- (if is_ok r then ext 11 else ret r);;
      ret (Some (if is_ok r4 && tells o then p else r4))
  end.

(** ** Histories *)
Inductive call :=
| RngRequest (out : buf) | RngResponse
| AesRequest (inp out len : N) | AesResponse
| GcmRequest (inp out len : N) (aad : buf) | GcmResponse
| CmacRequest (inp : buf) | CmacResponse
| ShaRequest (inp : buf) | ShaResponse
| ReadRequest (b : buf) | ReadResponse          (* key cache, certificate add and verify *)
| WriteRequest (b : buf) | WriteResponse        (* key export, certificate and object read *)
| NvmReadRequest (data dlen : N)                (* its response is WriteResponse *)
| NvmAddRequest (meta data dlen : N) | NvmAddResponse
| PlainRequest | PlainResponse
| AbortPending | Cleanup
| Direct (o : direct) (polls : nat).

Definition to_some (m : M Z) : M (option Z) := r <- m;; ret (Some r).
Definition do_call (c : call) : M (option Z) :=
  match c with
  | RngRequest b => to_some (rng_request b)
  | RngResponse => to_some rng_response
  | AesRequest i o n => to_some (aes_request i o n)
  | AesResponse => to_some aes_response
  | GcmRequest i o n a => to_some (gcm_request i o n a)
  | GcmResponse => to_some gcm_response
  | CmacRequest b => to_some (cmac_request b)
  | CmacResponse => to_some cmac_response
  | ShaRequest b => to_some (sha_request b)
  | ShaResponse => to_some sha_response
  | ReadRequest b => to_some (buf_request Rd (addr b) (size b) (size b))
  | ReadResponse => to_some read_response
  | WriteRequest b => to_some (buf_request Wr (addr b) (size b) (size b))
  | WriteResponse => to_some write_response
  | NvmReadRequest d n => to_some (nvm_read_request d n)
  | NvmAddRequest m d n => to_some (nvm_add_request m d n)
  | NvmAddResponse => to_some nvm_add_response
  | PlainRequest => to_some plain_request
  | PlainResponse => to_some plain_response
  | AbortPending => to_some (not_pending;;; ret OK)
  | Cleanup => to_some cleanup
  | Direct o n => direct_call o n
  end.

Definition start : st := mkSt false zero [].
(** One call after the other; [None] if one of them does not return. *)
Fixpoint run (e : env) (h : list call) (s : st) : option st :=
  match h with
  | [] => Some s
  | c :: r => let '(o, s1) := do_call c e s in match o with None => None | Some _ => run e r s1 end
  end.

(** The functions that send and wait (wh_Client_RngGenerateDma, wh_client_crypto.c
    430-446, wh_Client_KeyExportDma, wh_client.c 1945-1957, and so on): the Request;
    if it went well, the Response until it says something else than NOTREADY.  Those
    whose Request may find that there is nothing to send look at requestSent, which is
    true just if a request is pending (wh_client_crypto.c 6519-6594, 7171-7194). *)
Definition blocking (rq rs : call) (n : nat) : M (option Z) :=
  r <- do_call rq;;
  p <- pending;;
  match r with
  | Some rc => if is_ok rc && p then wait (x <- do_call rs;; ret (match x with Some z => z | None => NOTREADY end)) n
               else ret (Some rc)
  | None => ret None
  end.
