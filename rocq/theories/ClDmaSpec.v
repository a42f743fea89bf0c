(** What it means that the caller's buffers are open while the server may use them, and
    closed afterwards. *)
From Verif Require Import ClDmaModel.
Local Open Scope N_scope.

(** A buffer (direction, address, length) is opened by a "pre" call that succeeds and
    closed by a "post" call. *)
Definition opening (d : dir) (a n : N) (x : ev) : bool :=
  match d, x with
  | Rd, Dma RdPre c l _ _ rc => (c =? a) && (l =? n) && is_ok rc
  | Wr, Dma WrPre c l _ _ rc => (c =? a) && (l =? n) && is_ok rc
  | _, _ => false
  end.
Definition closing (d : dir) (a n : N) (x : ev) : bool :=
  match d, x with
  | Rd, Dma RdPost c l _ _ _ => (c =? a) && (l =? n)
  | Wr, Dma WrPost c l _ _ _ => (c =? a) && (l =? n)
  | _, _ => false
  end.
Definition count (f : ev -> bool) (t : list ev) : nat := length (filter f t).
Definition opened (d : dir) (a n : N) (t : list ev) : nat := count (opening d a n) t.
Definition closed (d : dir) (a n : N) (t : list ev) : nat := count (closing d a n) t.

(** Everything that happened, oldest first. *)
Definition events (s : st) : list ev := rev (tr s).

(** No buffer is open: each was closed as often as it was opened, with the same
    direction, address and length. *)
Definition all_closed (s : st) : Prop :=
  forall d a n, opened d a n (events s) = closed d a n (events s).
(** At no time a buffer was closed that was not open. *)
Definition none_extra (s : st) : Prop :=
  forall k d a n, (closed d a n (firstn k (events s)) <= opened d a n (firstn k (events s)))%nat.
Definition is_open (d : dir) (a n : N) (s : st) : Prop :=
  (closed d a n (events s) < opened d a n (events s))%nat.

(** The request that was last taken by the transport; [t] has the newest event first. *)
Fixpoint last_sent (t : list ev) : kind :=
  match t with
  | [] => KPlain
  | Sent k _ rc _ :: r => if is_ok rc then k else last_sent r
  | _ :: r => last_sent r
  end.
(** The buffers told to the server in the request that was last sent, as long as the
    client heard nothing but "not ready" since. *)
Fixpoint waiting (t : list ev) : option (list (dir * N * N)) :=
  match t with
  | [] => None
  | Sent _ bufs rc timer :: _ => if is_ok rc && is_ok timer then Some bufs else None
  | Got _ rc :: r => if (rc =? NOTREADY)%Z then waiting r else None
  | _ :: r => waiting r
  end.

(** Which requests a Response function belongs to. *)
Definition answers (c : call) : option kind :=
  match c with
  | RngResponse => Some KRng | AesResponse => Some KAes | GcmResponse => Some KGcm
  | CmacResponse => Some KCmac | ShaResponse => Some KSha
  | ReadResponse | WriteResponse => Some KBuf
  | NvmAddResponse => Some KNvmAdd | PlainResponse => Some KPlain
  | _ => None
  end.
(** The caller keeps to the rules: while a request is pending, only the Response that
    belongs to it is called, and the pending request is not thrown away. *)
Definition orderly_call (c : call) (s : st) : Prop :=
  match c with
  | AbortPending | Cleanup => pend s = false
  | _ => match answers c with Some k => pend s = true -> last_sent (tr s) = k | None => True end
  end.
Fixpoint orderly (e : env) (h : list call) (s : st) : Prop :=
  match h with
  | [] => True
  | c :: r => orderly_call c s /\
      let '(o, s1) := do_call c e s in match o with None => True | Some _ => orderly e r s1 end
  end.

(** Not one of the calls that open, send, wait and close by themselves. *)
Definition two_step (c : call) : Prop := match c with Direct _ _ => False | _ => True end.
(** No opening was refused. *)
Definition never_refused (s : st) : Prop :=
  forall d c l x cbrc rc, In (Dma (pre_of d) c l x cbrc rc) (events s) -> rc = OK.
(** The calls that close what they never opened are not used, or have no reason to. *)
Definition calm (h : list call) (s : st) : Prop := Forall two_step h \/ never_refused s.
(** [s1] is [s] with more events, among them [x]. *)
Definition since (s s1 : st) (x : ev) : Prop := exists t, tr s1 = t ++ tr s /\ In x t.
(** Object data of some length comes with a buffer. *)
Definition with_data (c : call) : Prop :=
  match c with
  | NvmReadRequest d n | NvmAddRequest _ d n => d = 0 -> n = 0
  | _ => True
  end.

(** The Request and Response functions that belong together. *)
Definition pair_of (rq : call) : option call :=
  match rq with
  | RngRequest _ => Some RngResponse
  | AesRequest _ _ _ => Some AesResponse
  | GcmRequest _ _ _ _ => Some GcmResponse
  | CmacRequest _ => Some CmacResponse
  | ShaRequest _ => Some ShaResponse
  | ReadRequest _ => Some ReadResponse
  | WriteRequest _ | NvmReadRequest _ _ => Some WriteResponse
  | NvmAddRequest _ _ _ => Some NvmAddResponse
  | PlainRequest => Some PlainResponse
  | _ => None
  end.
(** The Response functions accept their arguments. *)
Definition good_arguments (e : env) : Prop := forall t, snd (e_ext e t 10%nat) = 0.

(** The buffers each call is about, and what the server does with them. *)
Definition about (c : call) : list (dir * N * N) :=
  let one d b := (d, addr b, size b) in
  match c with
  | RngRequest out => [one Wr out]
  | AesRequest inp out len => [(Rd, inp, len); (Wr, out, len)]
  | GcmRequest inp out len aad => [(Rd, inp, len); (Wr, out, len); one Rd aad]
  | CmacRequest inp | ShaRequest inp => [one Rd inp]
  | ReadRequest b => [one Rd b]
  | WriteRequest b => [one Wr b]
  | NvmReadRequest data dlen => [(Wr, data, dlen)]
  | NvmAddRequest meta data dlen => [(Rd, meta, META); (Rd, data, dlen)]
  | Direct (Ed25519Sign msg sig) _ | Direct (MlDsaSign msg sig) _ | Direct (HbsSign msg sig) _ => [one Rd msg; one Wr sig]
  | Direct (Ed25519Verify sig msg) _ | Direct (MlDsaVerify sig msg) _ | Direct (HbsVerify sig msg) _ => [one Rd sig; one Rd msg]
  | Direct (MlDsaMakeKey key) _ | Direct (MlKemMakeKey key) _ | Direct (HbsMakeKey key) _ => [one Wr key]
  | Direct (MlKemEncaps ct) _ => [one Wr ct]
  | Direct (MlKemDecaps ct) _ => [one Rd ct]
  | _ => []
  end.
