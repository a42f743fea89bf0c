(** Client memory opened for direct access, request by request: the handlers of
    src/wh_server_crypto.c, wh_server_cert.c, wh_server_nvm.c and
    wh_server_img_mgr.c that are given addresses of the client, and the two copy
    functions of wh_server_dma.c.

    Modelled is, in order, every call of wh_Server_DmaProcessClientAddress with its
    result, and every time an address it produced is handed to code that reads or
    writes there, with the length handed over.  All other calls (wolfCrypt,
    keystore, NVM, message translation) answer as they like, depending on all that
    happened before; consecutive calls that can only fail and leave together are
    one call.  Compiled with WOLFHSM_CFG_DMA and all algorithms; allocation and
    contents of buffers do not matter here. *)
From Verif Require Export Base DmaModel.
Local Open Scope N_scope.

Inductive dir := Rd | Wr.
Record buf := mkBuf { addr : N; size : N }.   (* whMessageCrypto_DmaBuffer: wh_message_crypto.h 1288-1291 *)

(** What happens: a call for a client address (operation, address, length, the
    address produced, the callback's answer, the answer given to the handler); an
    access through a produced address; any other call. *)
Inductive ev :=
| Dma (op : dma_oper) (client len x : N) (cbrc rc : Z)
| Use (d : dir) (x len : N)
| Ext (k : nat) (rc : Z) (v : N).

(** The platform and everything that is not modelled: the DMA callback, the allow
    list, the other calls (a result and a number). *)
Record env := mkEnv {
  e_umax : N;
  e_cb : option (list ev -> dma_oper -> N -> N -> Z * N);
  e_allow : option allow_list;
  e_ext : list ev -> nat -> Z * N }.

Definition M (A : Type) := env -> list ev -> A * list ev.   (* newest event first *)
Definition ret {A} (a : A) : M A := fun _ t => (a, t).
Definition bind {A B} (m : M A) (f : A -> M B) : M B :=
  fun e t => let '(a, t1) := m e t in f a e t1.
Notation "x <- m ;; f" := (bind m (fun x => f)) (at level 61, m at next level, right associativity).
Notation "' p <- m ;; f" := (bind m (fun p => f)) (at level 61, p pattern, m at next level, right associativity).
Notation "m ;;; f" := (bind m (fun _ => f)) (at level 61, right associativity).

(** wh_Server_DmaProcessClientAddress: wh_server_dma.c 91-122; [process_addr] is the
    model of it in DmaModel, here with a callback that may remember. *)
Definition dma (op : dma_oper) (client len : N) : M (Z * N) := fun e t =>
  let cb := match e_cb e with None => None | Some f => Some (f t) end in
  let '(rc, x) := process_addr (e_umax e) (mkDma cb false (e_allow e)) client len op in
  let cbrc := match cb with None => OK | Some f => fst (f op client len) end in
  ((rc, x), Dma op client len x cbrc rc :: t).
Definition use (d : dir) (x len : N) : M unit := fun _ t => (tt, Use d x len :: t).
Definition ext2 (k : nat) : M (Z * N) := fun e t => let r := e_ext e t k in (r, Ext k (fst r) (snd r) :: t).
Definition ext (k : nat) : M Z := r <- ext2 k;; ret (fst r).

(** [if (ret == WH_ERROR_OK) ret = ...] *)
Definition ok_then (r : Z) (m : M Z) : M Z := if is_ok r then m else ret r.
(** An address variable starts as NULL and is set by the PRE if that is reached. *)
Definition pre_if (r : Z) (cond : bool) (op : dma_oper) (b : buf) : M (Z * N) :=
  if is_ok r && cond then dma op (addr b) (size b) else ret (r, 0).
Definition post (op : dma_oper) (client len : N) : M unit := dma op client len;;; ret tt.
Definition post_if (c : bool) (op : dma_oper) (client len : N) : M unit :=
  if c then post op client len else ret tt.
Definition u32 (n : N) : N := n mod 4294967296.
Definition u16 (n : N) : N := n mod 65536.
Definition some_bytes (b : buf) : bool := 0 <? size b.
Definition not_null (x : N) : bool := negb (x =? 0).

(** _HandleEd25519SignDma: wh_server_crypto.c 2969-3069. *)
Definition ed25519_sign (msg sig : buf) : M Z :=
  r0 <- ext 1;;                                        (* 2981-3010: size, translation, context, type *)
  if negb (is_ok r0) then ret r0 else
  '(r1, ma) <- dma RdPre (addr msg) (size msg);;       (* 3013-3016 *)
  '(r2, sa) <- pre_if r1 true WrPre sig;;              (* 3020-3027 *)
  '(r3, sl) <- (if is_ok r2 then
     r <- ext 2;;                                      (* 3029-3035: init, export of the key *)
     if is_ok r then
       use Rd ma (u32 (size msg));;; use Wr sa (u32 (size sig));;;
       ext2 3                                          (* 3036-3038: sign; stores sigLen *)
     else ret (r, u32 (size sig))
   else ret (r2, u32 (size sig)));;
  post WrPost (addr sig) sl;;;                         (* 3050-3052 *)
  post RdPost (addr msg) (size msg);;;                 (* 3053-3055 *)
  ret r3.

(** _HandleEd25519VerifyDma: wh_server_crypto.c 3071-3168. *)
Definition ed25519_verify (sig msg : buf) : M Z :=
  r0 <- ext 1;;
  if negb (is_ok r0) then ret r0 else
  '(r1, sa) <- dma RdPre (addr sig) (size sig);;
  '(r2, ma) <- pre_if r1 true RdPre msg;;
  r3 <- ok_then r2 (
    r <- ext 2;;
    ok_then r (use Rd sa (u32 (size sig));;; use Rd ma (u32 (size msg));;; ext 3));;
  post RdPost (addr msg) (size msg);;;
  post RdPost (addr sig) (size sig);;;
  ret r3.

(** _HandleAesEcbDma: wh_server_crypto.c 3624-3791; _HandleAesCbcDma: 3915-4087,
    the same calls; _HandleAesCtrDma: 3311-3506, where also a bad count of left-over
    bytes is refused before the computation (3438-3440; call 3 here).  Input and
    output must have the same size (3656, 3947, 3349). *)
Definition aes (inp out : buf) : M Z :=
  r0 <- ext 1;;                                        (* size, translation *)
  if negb (is_ok r0) then ret r0 else
  if negb (size inp =? size out) then ret BADARGS else
  r1 <- ext 2;;                                        (* key *)
  '(r2, ia) <- pre_if r1 (some_bytes inp) RdPre inp;;
  '(r3, oa) <- pre_if r2 (some_bytes out) WrPre out;;
  r4 <- ok_then r3 (ext 3);;                           (* init, key, for CTR the count *)
  r5 <- ok_then r4 (use Rd ia (u32 (size inp));;; use Wr oa (u32 (size inp));;; ext 4);;
  r6 <- (if is_ok r5 && some_bytes out then r <- dma WrPost (addr out) (size out);; ret (fst r) else ret r5);;
  post_if (not_null ia) RdPost (addr inp) (size inp);;;
  ret r6.

(** _HandleAesGcmDma: wh_server_crypto.c 4251-4446. *)
Definition aes_gcm (inp aad out : buf) : M Z :=
  r0 <- ext 1;;
  if negb (is_ok r0) then ret r0 else
  if negb (size inp =? size out) then ret BADARGS else
  r1 <- ext 2;;
  '(r2, ia) <- pre_if r1 (some_bytes inp) RdPre inp;;
  '(r2', aa) <- pre_if r2 (some_bytes aad) RdPre aad;;
  '(r3, oa) <- pre_if r2' (some_bytes out) WrPre out;;
  r4 <- ok_then r3 (ext 3);;
  r5 <- ok_then r4 (use Rd ia (u32 (size inp));;; use Rd aa (u32 (size aad));;;
                    use Wr oa (u32 (size inp));;; ext 4);;
  r6 <- (if is_ok r5 && some_bytes out then r <- dma WrPost (addr out) (size out);; ret (fst r) else ret r5);;
  post_if (not_null ia) RdPost (addr inp) (size inp);;;
  post_if (not_null aa) RdPost (addr aad) (size aad);;;
  ret r6.

(** _HandleSha256Dma: wh_server_crypto.c 6329-6432; _HandleSha224Dma 6437-6536,
    _HandleSha384Dma 6541-6640, _HandleSha512Dma 6645-6778 and _HandleSha3Dma
    6783-6879 make the same calls. *)
Definition sha (inp : buf) : M Z :=
  r0 <- ext 1;;                                        (* size, translation, block checks, init *)
  if negb (is_ok r0) then ret r0 else
  r1 <- ext 2;;                                        (* inline data *)
  '(r2, x, pre_ok) <- (if is_ok r1 && some_bytes inp then
      '(r, x) <- dma RdPre (addr inp) (size inp);;
      if is_ok r then use Rd x (u32 (size inp));;; r' <- ext 3;; ret (r', x, true)
      else ret (r, x, false)
    else ret (r1, 0, false));;
  post_if pre_ok RdPost (addr inp) (size inp);;;
  ok_then r2 (ext 4).                                  (* final or state *)

(** _HandleMlDsaKeyGenDma: wh_server_crypto.c 6882-7043. *)
Definition mldsa_keygen (ephemeral : bool) (key : buf) : M Z :=
  r0 <- ext 1;;                                        (* size, translation, level, init, params, make *)
  if negb (is_ok r0) then ret r0 else
  if ephemeral then
    '(r1, x) <- dma WrPre (addr key) (size key);;      (* 6934-6937 *)
    '(r2, n) <- (if is_ok r1 then use Wr x (u16 (size key));;; ext2 2 else ret (r1, 0));;
    if is_ok r2 then r <- dma WrPost (addr key) (u16 n);; ret (fst r) else ret r2    (* 6948-6953 *)
  else
    r1 <- ext 3;;                                      (* lock, id, import *)
    if negb (is_ok r1) then ret r1 else
    '(r2, x) <- dma WrPre (addr key) (size key);;      (* 6992-6995 *)
    if is_ok r2 then
      use Wr x (u32 (size key));;;
      '(r3, n) <- ext2 4;;                             (* 6997-7006: public key to DER *)
      post WrPost (addr key) (if is_ok r3 then u16 n else 0);;;   (* 7007-7010; keySize stays 0 if that failed *)
      ret r3
    else ret r2.

(** _HandleMlDsaSignDma: wh_server_crypto.c 7045-7180. *)
Definition mldsa_sign (msg sig : buf) : M Z :=
  r0 <- ext 1;;                                        (* size, translation, context, init, export *)
  if negb (is_ok r0) then ret r0 else
  '(r1, ma) <- dma RdPre (addr msg) (size msg);;
  if negb (is_ok r1) then ret r1 else
  '(r2, sa) <- dma WrPre (addr sig) (size sig);;
  '(r3, sl) <- (if is_ok r2 then
      use Rd ma (u32 (size msg));;; use Wr sa (u32 (size sig));;; ext2 2
    else ret (r2, 0));;                                (* sigLen is 0 until here *)
  post_if (not_null sa) WrPost (addr sig) sl;;;
  post_if (not_null ma) RdPost (addr msg) (size msg);;;
  ret r3.

(** _HandleMlDsaVerifyDma: wh_server_crypto.c 7182-7314. *)
Definition mldsa_verify (sig msg : buf) : M Z :=
  r0 <- ext 1;;
  if negb (is_ok r0) then ret r0 else
  '(r1, sa) <- dma RdPre (addr sig) (size sig);;
  if negb (is_ok r1) then ret r1 else
  '(r2, ma) <- dma RdPre (addr msg) (size msg);;
  r3 <- ok_then r2 (use Rd sa (u32 (size sig));;; use Rd ma (u32 (size msg));;; ext 2);;
  post_if (not_null sa) RdPost (addr sig) (size sig);;;
  post_if (not_null ma) RdPost (addr msg) (size msg);;;
  ret r3.

(** _HandleMlKemKeyGenDma: wh_server_crypto.c 7385-7520. *)
Definition mlkem_keygen (ephemeral : bool) (key : buf) : M Z :=
  r0 <- ext 1;;
  if negb (is_ok r0) then ret r0 else
  if ephemeral then
    '(r1, x) <- dma WrPre (addr key) (size key);;
    '(r2, n) <- (if is_ok r1 then use Wr x (u16 (size key));;; ext2 2 else ret (r1, 0));;
    if is_ok r2 then r <- dma WrPost (addr key) (u16 n);; ret (fst r) else ret r2
  else
    r1 <- ext 3;;                                      (* lock, id, import *)
    if negb (is_ok r1) then ret r1 else
    '(rp, pub) <- ext2 4;;                             (* 7471-7474: public key size *)
    if negb (is_ok rp) || (size key <? u32 pub) then ret ABORTED else
    '(r2, x) <- dma WrPre (addr key) (u32 pub);;
    if is_ok r2 then
      use Wr x (u32 pub);;;
      r3 <- ext 5;;                                    (* 7481-7489: encode *)
      post WrPost (addr key) (if is_ok r3 then u16 (u32 pub) else 0);;;
      ret (if is_ok r3 then OK else ABORTED)
    else ret r2.

(** _HandleMlKemEncapsDma: wh_server_crypto.c 7522-7653. *)
Definition mlkem_encaps (ct : buf) : M Z :=
  r0 <- ext 1;;                                        (* up to the export and its level *)
  if negb (is_ok r0) then ret r0 else
  '(r1, cl) <- ext2 2;;                                (* 7584-7586: size of the ciphertext *)
  if is_ok r1 && (size ct <? u32 cl) then ret BADARGS else
  r2 <- ok_then r1 (ext 3);;                           (* shared secret size, room *)
  '(r3, x) <- pre_if r2 true WrPre (mkBuf (addr ct) (u32 cl));;
  r4 <- ok_then r3 (use Wr x (u32 cl);;; ext 4);;
  post_if (not_null x) WrPost (addr ct) (u32 cl);;;
  ret r4.

(** _HandleMlKemDecapsDma: wh_server_crypto.c 7655-7776. *)
Definition mlkem_decaps (ct : buf) : M Z :=
  r0 <- ext 1;;
  '(r1, x) <- pre_if r0 true RdPre ct;;
  r2 <- ok_then r1 (use Rd x (u32 (size ct));;; ext 2);;
  post_if (not_null x) RdPost (addr ct) (size ct);;;
  ret r2.

(** _HandleLmsKeyGenDma: wh_server_crypto.c 7896-8052; _HandleXmssKeyGenDma:
    8388-8557, the same calls. *)
Definition hbs_keygen (pub : buf) : M Z :=
  r0 <- ext 1;;                                        (* size, translation, flags, init *)
  if negb (is_ok r0) then ret r0 else
  '(r1, pl) <- ext2 2;;                                (* parameters, public key length *)
  r2 <- (if is_ok r1 then ret (if size pub <? u32 pl then BUFFER_SIZE else OK) else ret r1);;
  '(r3, x) <- pre_if r2 true WrPre (mkBuf (addr pub) (u32 pl));;
  r4 <- ok_then r3 (ext 3);;                           (* label, lock, id, slot, callbacks, make, serialise, commit *)
  (if is_ok r4 then use Wr x (u32 pl) else ret tt);;;  (* 8033 *)
  post_if (not_null x) WrPost (addr pub) (u32 pl);;;
  ret r4.

(** _HandleLmsSignDma: wh_server_crypto.c 8054-8188; _HandleXmssSignDma: 8559-8679,
    the same calls. *)
Definition hbs_sign (msg sig : buf) : M Z :=
  r0 <- ext 1;;                                        (* size, translation, id, lock *)
  if negb (is_ok r0) then ret r0 else
  r1 <- ext 2;;                                        (* freshen, init, deserialise, slot, reload *)
  '(r2, ma) <- pre_if r1 true RdPre msg;;
  '(r3, sa) <- pre_if r2 true WrPre sig;;
  '(r4, sl) <- (if is_ok r3 then
      use Rd ma (u32 (size msg));;; use Wr sa (u32 (size sig));;; ext2 3
    else ret (r3, u32 (size sig)));;
  post_if (not_null sa) WrPost (addr sig) sl;;;
  post_if (not_null ma) RdPost (addr msg) (size msg);;;
  ret r4.

(** _HandleLmsVerifyDma: wh_server_crypto.c 8190-8287; _HandleXmssVerifyDma:
    8681-8778, the same calls.  [ext 3] answers 0 also for a signature that does
    not fit (8255-8264). *)
Definition hbs_verify (sig msg : buf) : M Z :=
  r0 <- ext 1;;
  if negb (is_ok r0) then ret r0 else
  r1 <- ext 2;;                                        (* init, lock, export *)
  '(r2, sa) <- pre_if r1 true RdPre sig;;
  '(r3, ma) <- pre_if r2 true RdPre msg;;
  r4 <- ok_then r3 (use Rd sa (u32 (size sig));;; use Rd ma (u32 (size msg));;; ext 3);;
  post RdPost (addr sig) (size sig);;;
  post RdPost (addr msg) (size msg);;;
  ret r4.

(** _HandleCmacDma: wh_server_crypto.c 8944-9134.  [inl]: inline input is present;
    [fin]: output is asked for. *)
Definition cmac (inl fin : bool) (inp : buf) : M Z :=
  r0 <- ext 1;;
  if negb (is_ok r0) then ret r0 else
  '(r3, x) <- (if negb inl && some_bytes inp && fin then
      '(r1, x) <- dma RdPre (addr inp) (size inp);;    (* 9006-9012 *)
      r2 <- ok_then r1 (ext 2);;                       (* key; init if by id *)
      r3 <- ok_then r2 (use Rd x (u32 (size inp));;; ext 3);;
      ret (r3, x)
    else
      r1 <- ext 4;;                                    (* key, init, state, inline input *)
      '(r2, x) <- pre_if r1 (some_bytes inp) RdPre inp;;
      r3 <- (if is_ok r2 && some_bytes inp then use Rd x (u32 (size inp));;; ext 5 else ret r2);;
      r4 <- (if is_ok r3 && fin then ext 6 else ret r3);;
      ret (r4, x));;
  post_if (not_null x) RdPost (addr inp) (size inp);;;
  ok_then r3 (ext 7).                                  (* translation of the response *)

(** _HandleRngDma: wh_server_crypto.c 9137-9198. *)
Definition rng (out : buf) : M Z :=
  r0 <- ext 1;;
  if negb (is_ok r0) then ret r0 else
  '(r1, x) <- dma WrPre (addr out) (size out);;
  r2 <- ok_then r1 (use Wr x (u32 (size out));;; ext 2);;
  if is_ok r2 then r <- dma WrPost (addr out) (size out);; ret (fst r) else ret r2.

(** The DMA actions of wh_Server_HandleCertRequest: wh_server_cert.c 1226-1274 (add),
    1340-1386 (verify), 1388-1438 (several roots), 1504-1567 (attribute certificate),
    all reading; 1276-1338 (read back), writing.  [ext 2]: lock and for reading back
    the metadata and flags; [ext 3]: the action. *)
Definition pre_op (d : dir) := match d with Rd => RdPre | Wr => WrPre end.
Definition post_op (d : dir) := match d with Rd => RdPost | Wr => WrPost end.
Definition cert (d : dir) (b : buf) : M Z :=
  r0 <- ext 1;;
  '(r1, x) <- pre_if r0 true (pre_op d) b;;
  let pre_ok := is_ok r0 && is_ok r1 in
  r2 <- ok_then r1 (r <- ext 2;; ok_then r (use d x (size b);;; ext 3));;
  post_if pre_ok (post_op d) (addr b) (size b);;;
  ret r2.

(** sizeof(whNvmMetadata): wh_common.h 127-135. *)
Definition META : N := 32.

(** WH_MESSAGE_NVM_ACTION_ADDOBJECTDMA: wh_server_nvm.c 362-443. *)
Definition nvm_add (meta_addr : N) (data : buf) : M Z :=
  r0 <- ext 1;;
  '(r1, ma) <- pre_if r0 true RdPre (mkBuf meta_addr META);;
  let m_ok := is_ok r0 && is_ok r1 in
  '(r2, da) <- pre_if r1 true RdPre data;;
  let d_ok := is_ok r1 && is_ok r2 in
  let r3 := if is_ok r2 && (ma =? 0) then BADARGS else r2 in
  r4 <- ok_then r3 (
    use Rd da (size data);;;
    b <- ext 2;;                                       (* 412-415: a stateful private key? *)
    if negb (is_ok b) then ret ACCESS else
    r <- ext 3;;                                       (* lock *)
    ok_then r (use Rd ma META;;; use Rd da (size data);;; ext 4));;
  post_if m_ok RdPost meta_addr META;;;
  post_if d_ok RdPost (addr data) (size data);;;
  ret r4.

(** WH_MESSAGE_NVM_ACTION_READDMA: wh_server_nvm.c 445-515.  The object's length is
    the number the second call gives. *)
Definition nvm_read (offset : N) (data : buf) : M Z :=
  r0 <- ext 1;;                                        (* size, translation, lock *)
  if negb (is_ok r0) then ret r0 else
  '(r1, len) <- ext2 2;;                               (* 466: metadata *)
  let r2 := if is_ok r1 && (len <=? offset) then BADARGS else r1 in
  let n := if len - offset <? size data then len - offset else size data in
  '(r3, x) <- pre_if r2 true WrPre data;;
  let pre_ok := is_ok r2 && is_ok r3 in
  r4 <- ok_then r3 (use Wr x n;;; ext 3);;
  post_if pre_ok WrPost (addr data) (size data);;;
  ret r4.

(** wh_Server_ImgMgrVerifyMethodEccWithSha256, ...AesCmac, ...RsaSslWithSha256:
    wh_server_img_mgr.c 226-306, 310-376, 380-470. *)
Definition img (b : buf) : M Z :=
  r0 <- ext 1;;                                        (* arguments, key *)
  if negb (is_ok r0) then ret r0 else
  '(r1, x) <- dma RdPre (addr b) (size b);;
  if negb (is_ok r1) then ret r1 else
  use Rd x (u32 (size b));;;
  r2 <- ext 2;;
  '(rp, _) <- dma RdPost (addr b) (size b);;
  ok_then (if is_ok r2 then rp else r2) (ext 3).

(** wh_Server_ImgMgrVerifyMethodWolfBootRsa4096WithSha256: wh_server_img_mgr.c
    883-990; ...WolfBootCertChainRsa4096WithSha256: 993-1134, where the header is
    used once more (call 4).  The second number is the image size in the header. *)
Definition img_boot (hdr payload : buf) : M Z :=
  r0 <- ext 1;;
  if negb (is_ok r0) then ret r0 else
  '(r1, ha) <- dma RdPre (addr hdr) (size hdr);;
  if negb (is_ok r1) then ret r1 else
  use Rd ha (size hdr);;;
  '(r2, peek) <- ext2 2;;
  '(r5, mapped) <- (
    if negb (is_ok r2) then ret (r2, false) else
    if size payload <? u32 peek then ret (BADARGS, false) else
    '(r3, pa) <- dma RdPre (addr payload) (u32 peek);;
    if negb (is_ok r3) then ret (r3, false) else
    use Rd ha (size hdr);;; use Rd pa (u32 peek);;;
    r4 <- ext 3;;                                      (* hash *)
    r <- ok_then r4 (use Rd ha (size hdr);;; ext 4);;  (* chain, hint, signature *)
    ret (r, true));;
  post_if mapped RdPost (addr payload) (u32 peek);;;
  post RdPost (addr hdr) (size hdr);;;
  ret r5.

(** whServerDma_CopyFromClient: wh_server_dma.c 124-168; whServerDma_CopyToClient:
    170-214.  [own]: a copy callback is registered; it is then given the client's
    address for writing (197) and may fail. *)
Definition copy_from_client (own : bool) (b : buf) : M Z :=
  if size b =? 0 then ret BADARGS else
  '(r1, x) <- dma RdPre (addr b) (size b);;
  if negb (is_ok r1) then ret r1 else
  use Rd x (size b);;;
  r2 <- (if own then ext 1 else ret OK);;
  if negb (is_ok r2) then ret r2 else
  r <- dma RdPost (addr b) (size b);; ret (fst r).
Definition copy_to_client (own : bool) (b : buf) : M Z :=
  if size b =? 0 then ret BADARGS else
  '(r1, x) <- dma WrPre (addr b) (size b);;
  if negb (is_ok r1) then ret r1 else
  use Wr (if own then addr b else x) (size b);;;
  r2 <- (if own then ext 1 else ret OK);;
  if negb (is_ok r2) then ret r2 else
  r <- dma WrPost (addr b) (size b);; ret (fst r).

(** Everything the server does with client addresses. *)
Inductive request :=
| Ed25519Sign (msg sig : buf) | Ed25519Verify (sig msg : buf)
| AesDma (inp out : buf) | AesGcmDma (inp aad out : buf)
| ShaDma (inp : buf) | CmacDma (inl fin : bool) (inp : buf) | RngDma (out : buf)
| MlDsaKeyGen (ephemeral : bool) (key : buf) | MlDsaSign (msg sig : buf) | MlDsaVerify (sig msg : buf)
| MlKemKeyGen (ephemeral : bool) (key : buf) | MlKemEncaps (ct : buf) | MlKemDecaps (ct : buf)
| HbsKeyGen (pub : buf) | HbsSign (msg sig : buf) | HbsVerify (sig msg : buf)
| CertDma (d : dir) (b : buf) | NvmAddDma (meta_addr : N) (data : buf) | NvmReadDma (offset : N) (data : buf)
| ImgVerify (b : buf) | ImgBoot (hdr payload : buf)
| CopyFrom (own : bool) (b : buf) | CopyTo (own : bool) (b : buf).

(** Case by case the function above. *)
Definition handler (r : request) : M Z :=
  match r with
  | Ed25519Sign m s => ed25519_sign m s
  | Ed25519Verify s m => ed25519_verify s m
  | AesDma i o => aes i o
  | AesGcmDma i a o => aes_gcm i a o
  | ShaDma i => sha i
  | CmacDma l f i => cmac l f i
  | RngDma o => rng o
  | MlDsaKeyGen e k => mldsa_keygen e k
  | MlDsaSign m s => mldsa_sign m s
  | MlDsaVerify s m => mldsa_verify s m
  | MlKemKeyGen e k => mlkem_keygen e k
  | MlKemEncaps c => mlkem_encaps c
  | MlKemDecaps c => mlkem_decaps c
  | HbsKeyGen p => hbs_keygen p
  | HbsSign m s => hbs_sign m s
  | HbsVerify s m => hbs_verify s m
  | CertDma d b => cert d b
  | NvmAddDma m d => nvm_add m d
  | NvmReadDma o d => nvm_read o d
  | ImgVerify b => img b
  | ImgBoot h p => img_boot h p
  | CopyFrom w b => copy_from_client w b
  | CopyTo w b => copy_to_client w b
  end.

(** The answer and what happened, oldest first. *)
Definition serve (e : env) (r : request) : Z * list ev :=
  let '(rc, t) := handler r e [] in (rc, rev t).
