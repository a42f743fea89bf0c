(** The bridge between the two worlds of an ARMv8-M TrustZone part:
    port/armv8m-tz/wh_transport_nsc.c.  The client's Send calls a function of the secure
    world (the veneer), which runs the server and returns with the answer.

    The veneer itself is not part of the code; for the client it is any function, and
    [veneer] below is the one its contract describes (README.md 21-40, wh_transport_nsc.h
    72-77).  NULL contexts and data are left out; sizes are numbers of bytes. *)
From Verif Require Export Base.

Section Nsc.
Variable MTU : nat.                               (* WH_TRANSPORT_NSC_BUFFER_SIZE *)
Variable W : Type.                                (* the secure world *)

(** ** The client *)
(** whTransportNscClientContext: wh_transport_nsc.h 54-59. *)
Record cl := mkCl { rsp_buf : list N; last_rsp_size : nat; initialized : bool }.

(** What a call of the veneer gives: its result, the contents of rsp_buf after it, and
    the size it reports. *)
Definition veneer_fn := W -> list N -> (Z * list N * N) * W.

Inductive call := Init | Send (d : list N) | Recv (room : nat) | Cleanup.
(** One call, its result, what the veneer did (if it was called), and what was received. *)
Record step := mkStep { what : call; rc : Z; ran : option (Z * list N * N); given : option (list N) }.

Definition known (rc : Z) : bool := ((rc =? BADARGS) || (rc =? NOTREADY) || (rc =? ABORTED))%Z.

(** wh_TransportNsc_ClientInit: 48-68; ClientSend: 70-106; ClientRecv: 108-128;
    ClientCleanup: 130-138. *)
Definition cl_init : cl := mkCl (repeat 0%N MTU) 0 true.
Definition cl_send (v : veneer_fn) (d : list N) (c : cl) (w : W) : step * (cl * W) :=
  let no r := (mkStep (Send d) r None None, (c, w)) in
  if negb (initialized c) then no BADARGS else
  if (length d =? 0)%nat || (MTU <? length d)%nat then no BADARGS else
  if negb (last_rsp_size c =? 0)%nat then no NOTREADY else
  let '((r, b, n), w1) := v w d in
  let out z l := (mkStep (Send d) z (Some (r, b, n)) None, (mkCl b l (initialized c), w1)) in
  if negb (r =? 0)%Z then out (if known r then r else ABORTED) 0%nat else
  if ((n =? 0) || (N.of_nat MTU <? n))%N then out ABORTED 0%nat else
  out OK (N.to_nat (n mod 65536)).
Definition cl_recv (room : nat) (c : cl) : step * cl :=
  let no r := (mkStep (Recv room) r None None, c) in
  if negb (initialized c) then no BADARGS else
  if (last_rsp_size c =? 0)%nat then no NOTREADY else
  if (room <? last_rsp_size c)%nat then no BADARGS else
  (mkStep (Recv room) OK None (Some (firstn (last_rsp_size c) (rsp_buf c))), mkCl (rsp_buf c) 0 (initialized c)).
Definition cl_cleanup (c : cl) : cl := mkCl (rsp_buf c) (last_rsp_size c) false.

Definition do_call (v : veneer_fn) (x : call) (s : cl * W) : step * (cl * W) :=
  let '(c, w) := s in
  match x with
  | Init => (mkStep Init OK None None, (cl_init, w))
  | Send d => cl_send v d c w
  | Recv room => let '(t, c1) := cl_recv room c in (t, (c1, w))
  | Cleanup => (mkStep Cleanup OK None None, (cl_cleanup c, w))
  end.
Fixpoint run (v : veneer_fn) (h : list call) (s : cl * W) : list step * (cl * W) :=
  match h with
  | [] => ([], s)
  | x :: r => let '(t, s1) := do_call v x s in let '(l, s2) := run v r s1 in (t :: l, s2)
  end.

(** ** The client's packet layer on top: whether a request is pending *)
(** What wh_CommClient_RecvResponse finds in a packet. *)
Inductive verdict := BadSize | BadMagic | Stale | Taken.
Inductive ccall := CSend (d : list N) | CRecv (expired : bool) | CAbort.
Record cst := mkCst { pending : bool; tp : cl; world : W }.
(** wh_CommClient_SendRequest: wh_comm.c 107-151; RecvResponse: 159-265; AbortPending:
    319-329.  [judge] is what the packet received is; [PKT] is sizeof(packet). *)
Definition comm (v : veneer_fn) (judge : list N -> verdict) (PKT : nat) (x : ccall) (s : cst)
  : option step * cst :=
  match x with
  | CSend d =>
      if pending s then (None, s) else
      let '(t, (c, w)) := cl_send v d (tp s) (world s) in
      (Some t, mkCst (rc t =? 0)%Z c w)
  | CRecv expired =>
      if negb (pending s) then (None, s) else
      let '(t, c) := cl_recv PKT (tp s) in
      let p := match given t with
        | Some b => match judge b with BadSize => false | BadMagic => true | Stale => true | Taken => false end
        | None => if (rc t =? ABORTED)%Z then false else if (rc t =? NOTREADY)%Z then negb expired else true
        end in
      (Some t, mkCst p c (world s))
  | CAbort => (None, mkCst false (tp s) (world s))
  end.
Fixpoint comms (v : veneer_fn) (judge : list N -> verdict) (PKT : nat) (h : list ccall) (s : cst)
  : list (option step) * cst :=
  match h with
  | [] => ([], s)
  | x :: r => let '(t, s1) := comm v judge PKT x s in
      let '(l, s2) := comms v judge PKT r s1 in (t :: l, s2)
  end.

(** ** The server *)
(** whTransportNscServerContext: wh_transport_nsc.h 72-83; a pointer is NULL or the bytes
    there. *)
Record sv := mkSv { req : option (list N); req_size : nat; rsp : option (list N); rsp_capacity : nat;
                    rsp_size : nat; request_pending : bool }.
(** wh_TransportNsc_ServerInit: 149-167, and ServerCleanup: 213-222. *)
Definition sv_init : sv := mkSv None 0 None 0 0 false.
(** wh_TransportNsc_ServerRecv: 169-191. *)
Definition sv_recv (room : nat) (s : sv) : (Z * option (list N)) * sv :=
  match req s with
  | Some b =>
      if negb (request_pending s) || (req_size s =? 0)%nat then ((NOTREADY, None), s) else
      let s1 := mkSv (req s) (req_size s) (rsp s) (rsp_capacity s) 0 false in
      if (room <? req_size s)%nat then ((ABORTED, None), s1)
      else ((OK, Some (firstn (req_size s) b)), s1)
  | None => ((NOTREADY, None), s)
  end.
(** wh_TransportNsc_ServerSend: 193-211. *)
Definition sv_send (d : list N) (s : sv) : Z * sv :=
  if (length d =? 0)%nat || (rsp_capacity s <? length d)%nat then (BADARGS, s) else
  match rsp s with
  | None => (ABORTED, s)
  | Some b => (OK, mkSv (req s) (req_size s) (Some (d ++ skipn (length d) b)) (rsp_capacity s) (length d)
                     (request_pending s))
  end.

(** wh_Server_HandleRequestMessage as far as the transport sees it (wh_server.c 557-784):
    not connected, or one Recv and, if that gave a request the packet layer accepts,
    one answer ([serve] gives [None] where no answer is sent). *)
Variable S0 : Type.                               (* the server's own state *)
Variable connected : S0 -> bool.
Variable serve : S0 -> list N -> option (list N) * S0.
Variable PKT : nat.
Definition dispatch (x : S0) (s : sv) : Z * (S0 * sv) :=
  if negb (connected x) then (NOTREADY, (x, s)) else
  let '((r, d), s1) := sv_recv PKT s in
  match d with
  | None => (r, (x, s1))
  | Some b =>
      let '(a, x1) := serve x b in
      match a with
      | None => (ABORTED, (x1, s1))
      | Some a => let '(r2, s2) := sv_send a s1 in (r2, (x1, s2))
      end
  end.
(** The veneer its contract asks for: [room] are the bytes at rsp, of the size the
    caller gave. *)
Definition veneer (cmd room : list N) (x : S0) (s : sv) : (Z * list N * N) * (S0 * sv) :=
  let s0 := mkSv (Some cmd) (length cmd) (Some room) (length room) (rsp_size s) true in
  let '(r, (x1, s1)) := dispatch x s0 in
  ((r, match rsp s1 with Some b => b | None => room end, N.of_nat (rsp_size s1)), (x1, s1)).
End Nsc.
