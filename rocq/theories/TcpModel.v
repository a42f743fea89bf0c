(** The TCP transport (port/posix/posix_transport_tcp.c): framing of messages on a
    byte stream.

    Simplifications: file descriptors are valid, the pointers not null; a failed
    socket call with another errno than EAGAIN, EINPROGRESS or EINTR means that the
    connection is dead; connection set-up is an oracle.  Any access outside the
    context's buffer or the caller's buffer makes the call's result [None]. *)
From Verif Require Export Base.
Local Open Scope N_scope.

Section Tcp.
Variable MTU : nat.   (* PTT_PACKET_MAX_SIZE: posix_transport_tcp.h 75 *)
Definition BUF : nat := 4 + MTU.   (* PTT_BUFFER_SIZE: 76 *)

(** htonl and ntohl on the first four bytes of the buffer. *)
Definition be4 (n : N) : list N := rev (le_enc 4 n).
Definition len4 (buf : list N) : N := le_dec (rev (firstn 4 buf)).

(** Copy [d] to index [off] of a buffer. *)
Definition blit (off : nat) (d buf : list N) : option (list N) :=
  if (off + length d <=? length buf)%nat then Some (firstn off buf ++ d ++ skipn (off + length d) buf) else None.

(** What a socket call does: EAGAIN, a fatal error, or at most [k] bytes. *)
Inductive sys := Again | Fatal | Upto (k : nat).

(** posixTransportTcp_Send: posix_transport_tcp.c 107-159.  Result: return code,
    offset, buffer, bytes written to the stream. *)
Definition tcp_send (w : sys) (d : list N) (off : nat) (buf : list N)
  : option (Z * nat * list N * list N) :=
  if (length d =? 0)%nat || (MTU <? length d)%nat then Some (BADARGS, off, buf, [])
  else
    match (if (off =? 0)%nat then blit 0 (be4 (N.of_nat (length d)) ++ d) buf else Some buf) with
    | None => None
    | Some buf =>
        let total := (4 + length d)%nat in
        (* int remaining_size, passed as size_t *)
        if (total <? off)%nat then None
        else
          let rem := (total - off)%nat in
          match w with
          | Again => Some (NOTREADY, off, buf, [])
          | Fatal => Some (ABORTED, O, buf, [])
          | Upto k =>
              let n := Nat.min k rem in
              let out := firstn n (skipn off buf) in
              if negb (n =? rem)%nat then Some (NOTREADY, (off + n)%nat, buf, out)
              else Some (OK, O, buf, out)
          end
    end.

(** posixTransportTcp_Recv, once the length has been read or not: 195-241. *)
Definition tcp_recv2 (r2 : sys) (cap : nat) (off : nat) (buf avail : list N)
  : option (Z * nat * list N * list N * option (list N)) :=
  if (off <? 4)%nat then Some (NOTREADY, off, buf, avail, None)
  else
    let ps := len4 buf in
    let rem := (ps + 2 ^ 32 - N.of_nat (off - 4)) mod 2 ^ 32 in
    if (ps =? 0) || (N.of_nat MTU <? ps) then Some (ABORTED, O, buf, avail, None)
    else
      match r2 with
      | Again => Some (NOTREADY, off, buf, avail, None)
      | Fatal => Some (ABORTED, O, buf, avail, None)
      | Upto k =>
          let got := firstn (N.to_nat (N.min (N.of_nat k) rem)) avail in
          match blit off got buf with
          | None => None
          | Some buf =>
              let avail := skipn (length got) avail in
              if 0 <? rem - N.of_nat (length got) then Some (NOTREADY, (off + length got)%nat, buf, avail, None)
              else if (cap <? N.to_nat ps)%nat then None
              else Some (OK, O, buf, avail, Some (firstn (N.to_nat ps) (skipn 4 buf)))
          end
      end.

(** posixTransportTcp_Recv: 161-241, with what the stream holds.  Result: return
    code, offset, buffer, rest of the stream, the message copied to the caller,
    whose buffer has [cap] bytes. *)
Definition tcp_recv (r1 r2 : sys) (cap : nat) (off : nat) (buf avail : list N)
  : option (Z * nat * list N * list N * option (list N)) :=
  if (BUF <? off)%nat then Some (BADARGS, off, buf, avail, None)
  else if (off <? 4)%nat then
    match r1 with
    | Again => Some (NOTREADY, off, buf, avail, None)
    | Fatal => Some (ABORTED, O, buf, avail, None)
    | Upto k =>
        let got := firstn (Nat.min k (4 - off)) avail in
        match blit off got buf with
        | None => None
        | Some buf => tcp_recv2 r2 cap (off + length got)%nat buf (skipn (length got) avail)
        end
    end
  else tcp_recv2 r2 cap off buf avail.

(** posixTransportTcpClientContext and posixTransportTcpServerContext:
    posix_transport_tcp.h 92-102 and 126-137; [busy] is request_sent or
    request_recv; [up]: the client's state is CONNECTED, the server has accepted;
    [dead] says that the connection failed. *)
Record tctx := mkX { x_off : nat; x_buf : list N; busy : bool; up : bool; dead : bool }.
Definition x_init : tctx := mkX 0 (repeat 0 BUF) false false false.

Definition sysd (c : tctx) (w : sys) : sys := if dead c then Fatal else w.
Definition is_fatal (w : sys) : bool := match w with Fatal => true | _ => false end.

(** posixTransportTcp_SendRequest: 470-514; [conn] is what HandleConnect (244-372)
    returns when the client is not connected yet. *)
Definition client_send (conn : Z) (w : sys) (d : list N) (c : tctx) : option (Z * tctx * list N) :=
  if (length d =? 0)%nat || (MTU <? length d)%nat then Some (BADARGS, c, [])
  else if busy c then Some (NOTREADY, c, [])
  else if up c || is_ok conn then
    match tcp_send (sysd c w) d (x_off c) (x_buf c) with
    | None => None
    | Some (rc, off, buf, out) =>
        let dd := dead c || is_fatal w in
        if negb (Z.eqb rc NOTREADY) then Some (rc, mkX 0 buf (is_ok rc) true dd, out)
        else Some (rc, mkX off buf false true dd, out)
    end
  else Some (if Z.eqb conn NOTFOUND then NOTREADY else conn, c, []).

(** posixTransportTcp_RecvResponse: 516-549.  (Before a socket exists the source
    returns BADARGS instead of NOTREADY.) *)
Definition client_recv (r1 r2 : sys) (cap : nat) (avail : list N) (c : tctx)
  : option (Z * tctx * list N * option (list N)) :=
  if negb (busy c) then Some (NOTREADY, c, avail, None)
  else
    match tcp_recv (sysd c r1) (sysd c r2) cap (x_off c) (x_buf c) avail with
    | None => None
    | Some (rc, off, buf, avail', m) =>
        let dd := dead c || Z.eqb rc ABORTED in
        if negb (Z.eqb rc NOTREADY) then Some (rc, mkX 0 buf false (up c) dd, avail', m)
        else Some (rc, mkX off buf true (up c) dd, avail', m)
    end.

(** posixTransportTcp_RecvRequest: 692-746; [acc] is the outcome of accept, if it
    has to be called. *)
Definition server_recv (acc : Z) (r1 r2 : sys) (cap : nat) (avail : list N) (c : tctx)
  : option (Z * tctx * list N * option (list N)) :=
  if negb (up c || is_ok acc) then Some (acc, c, avail, None)
  else if busy c then Some (NOTREADY, c, avail, None)
  else
    match tcp_recv (sysd c r1) (sysd c r2) cap (x_off c) (x_buf c) avail with
    | None => None
    | Some (rc, off, buf, avail', m) =>
        let dd := dead c || Z.eqb rc ABORTED in
        if negb (Z.eqb rc NOTREADY) then Some (rc, mkX 0 buf (is_ok rc) true dd, avail', m)
        else Some (rc, mkX off buf false true dd, avail', m)
    end.

(** posixTransportTcp_SendResponse: 748-787. *)
Definition server_send (w : sys) (d : list N) (c : tctx) : option (Z * tctx * list N) :=
  if negb (up c) || (length d =? 0)%nat || (MTU <? length d)%nat then Some (BADARGS, c, [])
  else if negb (busy c) then Some (NOTREADY, c, [])
  else
    match tcp_send (sysd c w) d (x_off c) (x_buf c) with
    | None => None
    | Some (rc, off, buf, out) =>
        let dd := dead c || is_fatal w in
        if negb (Z.eqb rc NOTREADY) then Some (rc, mkX 0 buf (negb (is_ok rc)) true dd, out)
        else Some (rc, mkX off buf true true dd, out)
    end.

(** The two ends and the two streams.  Each socket call moves any number of the
    bytes that can be moved, so that running a call at one go loses no behaviour. *)
Record net := mkNet { cli : tctx; srv : tctx; c2s : list N; s2c : list N }.
Definition net_init : net := mkNet x_init x_init [] [].
Inductive tcall :=
| SendReq (conn : Z) (w : sys) (d : list N)
| RecvResp (r1 r2 : sys) (cap : nat)
| RecvReq (acc : Z) (r1 r2 : sys) (cap : nat)
| SendResp (w : sys) (d : list N).
Definition tstep (c : tcall) (s : net) : option (net * (Z * option (list N))) :=
  match c with
  | SendReq conn w d =>
      match client_send conn w d (cli s) with
      | None => None | Some (rc, x, out) => Some (mkNet x (srv s) (c2s s ++ out) (s2c s), (rc, None)) end
  | RecvResp r1 r2 cap =>
      match client_recv r1 r2 cap (s2c s) (cli s) with
      | None => None | Some (rc, x, rest, m) => Some (mkNet x (srv s) (c2s s) rest, (rc, m)) end
  | RecvReq acc r1 r2 cap =>
      match server_recv acc r1 r2 cap (c2s s) (srv s) with
      | None => None | Some (rc, x, rest, m) => Some (mkNet (cli s) x rest (s2c s), (rc, m)) end
  | SendResp w d =>
      match server_send w d (srv s) with
      | None => None | Some (rc, x, out) => Some (mkNet (cli s) x (c2s s) (s2c s ++ out), (rc, None)) end
  end.
(** A call with its outcome: return code and message received, or None for an
    access outside a buffer, after which nothing more is said. *)
Notation tev := (prod tcall (option (prod Z (option (list N))))).
Fixpoint trun (cs : list tcall) (s : net) : list tev * net :=
  match cs with
  | [] => ([], s)
  | c :: cs' =>
      match tstep c s with
      | None => ([(c, None)], s)
      | Some (s1, o) => let '(tr, s2) := trun cs' s1 in ((c, Some o) :: tr, s2)
      end
  end.
End Tcp.
Notation tev := (prod tcall (option (prod Z (option (list N))))).
