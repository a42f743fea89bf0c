(** The shared-memory transport (src/wh_transport_mem.c) as two threads, the
    client's and the server's, that take turns in any order.  One step is one
    access to shared memory: reading or writing a control word (CSR), reading or
    writing one byte of a data area.

    Simplifications: memory is sequentially consistent (the source puts fences
    and cache operations around the accesses); a CSR is read and written in one
    piece; the unused CSR fields ack and wait are left out; the contexts are
    initialized and their pointers not null.  A caller's buffer of capacity [cap]
    is passed to the receive functions, as wh_comm.c does. *)
From Verif Require Export Base.
Local Open Scope N_scope.

Definition M16 : N := 65536.

(** whTransportMemCsr and the two data areas: wh_transport_mem.h 114-122. *)
Record mem := mkM { rq_n : N; rq_len : nat; rq_data : list N;
                    rs_n : N; rs_len : nat; rs_data : list N }.

(** Store byte [b] at index [i]. *)
Definition upd (i : nat) (b : N) (l : list N) : list N := firstn i l ++ b :: skipn (S i) l.

(** How much a receive copies: wh_transport_mem.c 179-190 and 278-289. *)
Definition copy_len (len cap area : nat) : nat :=
  let n := if (cap <? len)%nat then cap else len in
  if (area <? n)%nat then area else n.

(** Where a thread is inside a transport function. *)
Inductive pc :=
| PIdle
| PSend1 (d : list N)                          (* before the first CSR read *)
| PSend2 (d : list N) (n : N)                  (* one CSR read *)
| PSendC (d : list N) (n : N) (i : nat)        (* i bytes copied *)
| PRecv1 (cap : nat)
| PRecv2 (cap : nat) (n : N) (len : nat)
| PRecvC (cap : nat) (len : nat) (got : list N).

(** What can be seen from outside: calls and how they return. *)
Inductive who := Client | Server.
Inductive ev :=
| EvCall (w : who) (op : option (list N))      (* Some d: send d; None: receive *)
| EvSent (w : who) (d : list N)                (* send returned OK *)
| EvGot (w : who) (cap len : nat) (d : list N) (* receive returned OK *)
| EvErr (w : who) (rc : Z)                     (* the call returned an error *)
| EvAbort.                                     (* wh_CommClient_AbortPending, or a timeout *)

(** [cl_open]: the packet layer's request-pending flag (wh_comm.c 117, 164, 262,
    319).  [sv_open]: the server has a request it has not answered; it sends a
    response only then (wh_server.c 437-732). *)
Record st := mkSt { sh : mem; cl : pc; sv : pc; cl_open : bool; sv_open : bool }.

Section Mem.
Variables RQ RS : nat.    (* req_size - 8 and resp_size - 8 *)

Inductive cmd := DoSend (d : list N) | DoRecv (cap : nat) | DoAbort | DoNothing.

Definition set_cl (p : pc) (s : st) : st := mkSt (sh s) p (sv s) (cl_open s) (sv_open s).
Definition set_sv (p : pc) (s : st) : st := mkSt (sh s) (cl s) p (cl_open s) (sv_open s).

(** One step of the client: wh_TransportMem_SendRequest (95-140) and
    wh_TransportMem_RecvResponse (142-199), called by the packet layer as
    wh_comm.c 100-156 and 159-270 do: no send while a request is pending, no receive
    while none is. *)
Definition cl_step (c : cmd) (s : st) : st * list ev :=
  let m := sh s in
  match cl s with
  | PIdle =>
      match c with
      | DoSend d =>
          if cl_open s then (s, [])
          else if (RQ <? length d)%nat then (s, [EvCall Client (Some d); EvErr Client BADARGS])
          else (set_cl (PSend1 d) s, [EvCall Client (Some d)])
      | DoRecv cap => if cl_open s then (set_cl (PRecv1 cap) s, [EvCall Client None]) else (s, [])
      | DoAbort => (mkSt m PIdle (sv s) false (sv_open s), [EvAbort])
      | DoNothing => (s, [])
      end
  | PSend1 d => (set_cl (PSend2 d (rs_n m)) s, [])
  | PSend2 d n =>
      if negb (rq_n m =? n) then (set_cl PIdle s, [EvErr Client NOTREADY])
      else (set_cl (PSendC d (rq_n m) 0) s, [])
  | PSendC d n i =>
      if (i <? length d)%nat then
        (mkSt (mkM (rq_n m) (rq_len m) (upd i (nth i d 0) (rq_data m)) (rs_n m) (rs_len m) (rs_data m))
              (PSendC d n (S i)) (sv s) (cl_open s) (sv_open s), [])
      else
        (mkSt (mkM ((n + 1) mod M16) (length d) (rq_data m) (rs_n m) (rs_len m) (rs_data m))
              PIdle (sv s) true (sv_open s), [EvSent Client d])
  | PRecv1 cap => (set_cl (PRecv2 cap (rq_n m) 0) s, [])
  | PRecv2 cap n _ =>
      if negb (rs_n m =? n) then (set_cl PIdle s, [EvErr Client NOTREADY])
      else (set_cl (PRecvC cap (rs_len m) []) s, [])
  | PRecvC cap len got =>
      if (length got <? copy_len len cap RS)%nat
      then (set_cl (PRecvC cap len (got ++ [nth (length got) (rs_data m) 0])) s, [])
      else (mkSt m PIdle (sv s) false (sv_open s), [EvGot Client cap len got])
  end.

(** One step of the server: wh_TransportMem_SendResponse (203-244) and
    wh_TransportMem_RecvRequest (246-301). *)
Definition sv_step (c : cmd) (s : st) : st * list ev :=
  let m := sh s in
  match sv s with
  | PIdle =>
      match c with
      | DoSend d =>
          if negb (sv_open s) then (s, [])
          else if (RS <? length d)%nat then (s, [EvCall Server (Some d); EvErr Server BADARGS])
          else (set_sv (PSend1 d) s, [EvCall Server (Some d)])
      | DoRecv cap => (set_sv (PRecv1 cap) s, [EvCall Server None])
      | _ => (s, [])
      end
  | PSend1 d => (set_sv (PSend2 d (rq_n m)) s, [])
  | PSend2 d n => (set_sv (PSendC d n 0) s, [])
  | PSendC d n i =>
      if (i <? length d)%nat then
        (mkSt (mkM (rq_n m) (rq_len m) (rq_data m) (rs_n m) (rs_len m) (upd i (nth i d 0) (rs_data m)))
              (cl s) (PSendC d n (S i)) (cl_open s) (sv_open s), [])
      else
        (mkSt (mkM (rq_n m) (rq_len m) (rq_data m) n (length d) (rs_data m))
              (cl s) PIdle (cl_open s) false, [EvSent Server d])
  | PRecv1 cap => (set_sv (PRecv2 cap (rq_n m) (rq_len m)) s, [])
  | PRecv2 cap n len =>
      if n =? rs_n m then (set_sv PIdle s, [EvErr Server NOTREADY])
      else (set_sv (PRecvC cap len []) s, [])
  | PRecvC cap len got =>
      if (length got <? copy_len len cap RQ)%nat
      then (set_sv (PRecvC cap len (got ++ [nth (length got) (rq_data m) 0])) s, [])
      else (mkSt m (cl s) PIdle (cl_open s) true, [EvGot Server cap len got])
  end.

(** A schedule: at each turn, who moves, and what they start if they are between
    two calls. *)
Definition mstep (x : who * cmd) (s : st) : st * list ev :=
  match fst x with Client => cl_step (snd x) s | Server => sv_step (snd x) s end.
Fixpoint mrun (xs : list (who * cmd)) (s : st) : list ev * st :=
  match xs with
  | [] => ([], s)
  | x :: xs' => let '(s1, e) := mstep x s in let '(es, s2) := mrun xs' s1 in (e ++ es, s2)
  end.

(** The state after initialization: both notify fields equal (zero after
    wh_TransportMem_InitClear 70-82, but any value is allowed), any contents. *)
Definition started (s : st) : Prop :=
  exists n ql qd sl sd, n < M16 /\ length qd = RQ /\ length sd = RS /\
    s = mkSt (mkM n ql qd n sl sd) PIdle PIdle false false.
End Mem.
