(** Which bytes of the shared buffers the memory transport reads and writes.
    An access is an address and a length.  Sizes are 16-bit numbers, and [w] is
    the number of bits of a size_t. *)
From Coq Require Import List NArith Arith Bool.
Import ListNotations.
Open Scope N_scope.

(** the configuration (wolfhsm/wh_transport_mem.h 102-108); address 0 is NULL *)
Record cfg := mkCfg { c_req : N; c_resp : N; c_req_size : N; c_resp_size : N }.

(** an address and a number of bytes *)
Record access := mkAcc { a_at : N; a_len : N }.

(** sizeof(whTransportMemCsr) (wolfhsm/wh_transport_mem.h 114-122) *)
Definition CSR : N := 8.

(** wh_TransportMem_Init (src/wh_transport_mem.c 46-53): whether the
    configuration is taken *)
Definition tm_init (c : cfg) : bool :=
  negb (c_req c =? 0) && negb (c_req_size c =? 0) && negb (c_resp c =? 0) && negb (c_resp_size c =? 0).

(** wh_TransportMem_InitClear (src/wh_transport_mem.c 70-82): what it writes *)
Definition tm_clear (c : cfg) : list access :=
  if tm_init c then [mkAcc (c_req c) (c_req_size c); mkAcc (c_resp c) (c_resp_size c)] else [].

(** subtraction of a size_t from a uint16_t: the result is a size_t *)
Definition sub_size (w a b : N) : N := (a + 2 ^ w - b) mod 2 ^ w.

Inductive outcome := BadArgs | NotReady | Done.

(** wh_TransportMem_SendRequest (src/wh_transport_mem.c 96-143): result, reads
    and writes of the shared buffers.  [busy] says whether the server has yet to
    complete the previous request. *)
Definition tm_send_request (w : N) (c : cfg) (busy null : bool) (len : N) : outcome * list access * list access :=
  if null && negb (len =? 0) then (BadArgs, [], []) else
  if sub_size w (c_req_size c) CSR <? len then (BadArgs, [], []) else
  let rds := [mkAcc (c_resp c) CSR; mkAcc (c_req c) CSR] in
  if busy then (NotReady, rds, []) else
  (Done, rds, (if negb null && negb (len =? 0) then [mkAcc (c_req c + CSR) len] else []) ++ [mkAcc (c_req c) CSR]).

(** wh_TransportMem_SendResponse (src/wh_transport_mem.c 201-243) *)
Definition tm_send_response (w : N) (c : cfg) (null : bool) (len : N) : outcome * list access * list access :=
  if null && negb (len =? 0) then (BadArgs, [], []) else
  if sub_size w (c_resp_size c) CSR <? len then (BadArgs, [], []) else
  (Done, [mkAcc (c_req c) CSR; mkAcc (c_resp c) CSR],
   (if negb null && negb (len =? 0) then [mkAcc (c_resp c + CSR) len] else []) ++ [mkAcc (c_resp c) CSR]).

(** the length copied out (src/wh_transport_mem.c 179-188 and 281-290) *)
Definition clamp (size cap len : N) : N :=
  let src := if CSR <? size then size - CSR else 0 in
  let n := if cap <? len then cap else len in
  if src <? n then src else n.

(** wh_TransportMem_RecvRequest (src/wh_transport_mem.c 245-298) and
    wh_TransportMem_RecvResponse (145-197), which differ in the buffer: the
    buffer read, the other one, the size of the first.  [cap] is [None] without
    a place for the length, [len] the length field found in the buffer. *)
Definition tm_recv (at_ other size : N) (ready null : bool) (cap : option N) (len : N) : outcome * list access :=
  match null, cap with
  | false, None => (BadArgs, [])
  | _, _ =>
    let rds := [mkAcc at_ CSR; mkAcc other CSR] in
    if negb ready then (NotReady, rds) else
    (Done, rds ++ (if negb null && negb (len =? 0)
                   then [mkAcc (at_ + CSR) (clamp size (match cap with Some k => k | None => 0 end) len)] else []))
  end.

Definition tm_recv_request (c : cfg) := tm_recv (c_req c) (c_resp c) (c_req_size c).
Definition tm_recv_response (c : cfg) := tm_recv (c_resp c) (c_req c) (c_resp_size c).
