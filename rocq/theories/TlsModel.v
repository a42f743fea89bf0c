(** The TLS transport (port/posix/posix_transport_tls.c) over the socket set-up of
    port/posix/posix_transport_tcp.c: descriptors, TLS objects, peer verification and
    the messages that cross the connection.

    The operating system and the TLS library are arguments: every call takes what they
    answer, and any answer is possible, except that a new descriptor is not one already
    open, that a handshake succeeds only with a peer the verification mode lets in, and
    that the library reads and writes application data only after the handshake.

    Simplifications: pointers are not null; sizes and return values fit; the configured
    address is a flag (understood by inet_pton or not); setsockopt and the addresses are
    left out; the callback is given; PSK callbacks are a flag; heap hints left out. *)
From Verif Require Export Base.

(** * The world outside the transport *)

(** Who is at the other end of a connection: the certificate it presents, if any, and
    whether it holds the pre-shared key. *)
Record peer := mkPeer { p_name : nat; p_cert : option N; p_psk : bool }.

(** wolfSSL_CTX_set_verify: NONE, PEER, PEER with FAIL_IF_NO_PEER_CERT. *)
Inductive vmode := VNone | VPeer | VPeerCert.

(** A WOLFSSL_CTX: verification mode, CA, PSK set up. *)
Record tctx := mkTctx { x_mode : vmode; x_ca : option N; x_psk : bool }.

(** A WOLFSSL: its context's settings, server side or not, the descriptor, handshake
    done, the rest of a record read, a record encrypted and not written yet. *)
Record tssl := mkTssl {
  s_set : tctx; s_srv : bool; s_fd : option Z; s_done : bool;
  s_left : list N; s_pend : option (list N) }.

(** What can be observed: records the library takes from and puts on the wire,
    with the object they belong to, messages the transport hands to its caller with
    the peer they come from, connect callbacks. *)
Inductive ev :=
| RecIn (s : nat) (r : list N)
| RecOut (s : nat) (r : list N)
| Got (s : nat) (p : peer) (d : list N)
| Told (connected : bool).

Record world := mkWorld {
  w_open : list (Z * option peer);   (* open descriptors, the other end *)
  w_ctx : list (nat * tctx);         (* live contexts *)
  w_ssl : list (nat * tssl);         (* live TLS objects *)
  w_next : nat;                      (* next object *)
  w_stray : bool;                    (* a descriptor not open was closed, or an object not live used or freed *)
  w_log : list ev }.
Definition world0 : world := mkWorld [] [] [] 0 false [].

Definition w_with_open w x := mkWorld x (w_ctx w) (w_ssl w) (w_next w) (w_stray w) (w_log w).
Definition w_with_ctx w x := mkWorld (w_open w) x (w_ssl w) (w_next w) (w_stray w) (w_log w).
Definition w_with_ssl w x := mkWorld (w_open w) (w_ctx w) x (w_next w) (w_stray w) (w_log w).
Definition w_strays w := mkWorld (w_open w) (w_ctx w) (w_ssl w) (w_next w) true (w_log w).
Definition w_say w e := mkWorld (w_open w) (w_ctx w) (w_ssl w) (w_next w) (w_stray w) (w_log w ++ [e]).
Definition w_tick w := mkWorld (w_open w) (w_ctx w) (w_ssl w) (S (w_next w)) (w_stray w) (w_log w).

Fixpoint nget {A} (i : nat) (l : list (nat * A)) : option A :=
  match l with [] => None | (j, a) :: r => if Nat.eqb i j then Some a else nget i r end.
Fixpoint nset {A} (i : nat) (a : A) (l : list (nat * A)) : list (nat * A) :=
  match l with [] => [] | (j, b) :: r => if Nat.eqb i j then (j, a) :: r else (j, b) :: nset i a r end.
Definition ndel {A} (i : nat) (l : list (nat * A)) : list (nat * A) :=
  filter (fun x => negb (Nat.eqb i (fst x))) l.
Fixpoint zget {A} (i : Z) (l : list (Z * A)) : option A :=
  match l with [] => None | (j, a) :: r => if Z.eqb i j then Some a else zget i r end.
Definition zdel {A} (i : Z) (l : list (Z * A)) : list (Z * A) :=
  filter (fun x => negb (Z.eqb i (fst x))) l.

(** socket and accept: a descriptor not open yet, or none.  close. *)
Definition os_new (fd : Z) (p : option peer) (w : world) : option world :=
  if Z.ltb fd 0 then None
  else match zget fd (w_open w) with
       | Some _ => None
       | None => Some (w_with_open w ((fd, p) :: w_open w))
       end.
Definition os_close (fd : Z) (w : world) : world :=
  match zget fd (w_open w) with
  | Some _ => w_with_open w (zdel fd (w_open w))
  | None => w_strays w
  end.

Section Tls.
(** [issued ca c]: the certificate [c] verifies against the CA [ca]. *)
Variable issued : N -> N -> bool.
(** PTTLS_PACKET_MAX_SIZE (posix_transport_tls.h 48) and the library's largest fragment. *)
Variable MTU FRAG : nat.

(** ** The TLS library *)

(** Does a handshake with [p] succeed?  The client is always sent a certificate, if no
    pre-shared key is used. *)
Definition cert_ok (x : tctx) (p : peer) : bool :=
  match x_ca x, p_cert p with Some a, Some c => issued a c | _, _ => false end.
Definition lets_in (srv : bool) (x : tctx) (p : peer) : bool :=
  (x_psk x && p_psk p)
  || match x_mode x with
     | VNone => true
     | VPeer => if srv then match p_cert p with None => true | Some _ => cert_ok x p end else cert_ok x p
     | VPeerCert => cert_ok x p
     end.

(** What a call of the library reports. *)
Inductive lib := LOk | LWant | LSock | LFatal.

(** The handshake on object [i]: wolfSSL_connect, wolfSSL_accept, and what wolfSSL_read
    and wolfSSL_write do first. *)
Definition end_of (s : tssl) (w : world) : option peer :=
  match s_fd s with
  | Some fd => match zget fd (w_open w) with Some (Some p) => Some p | _ => None end
  | None => None
  end.
Definition shake (i : nat) (a : lib) (w : world) : lib * world :=
  match nget i (w_ssl w) with
  | None => (LFatal, w_strays w)
  | Some s =>
      if s_done s then (LOk, w)
      else match a with
           | LOk => match end_of s w with
                    | Some p =>
                        if lets_in (s_srv s) (s_set s) p
                        then (LOk, w_with_ssl w (nset i (mkTssl (s_set s) (s_srv s) (s_fd s) true (s_left s) (s_pend s)) (w_ssl w)))
                        else (LFatal, w)
                    | None => (LSock, w)
                    end
           | a => (a, w)
           end
  end.

(** wolfSSL_read of at most MTU bytes: the rest of the last record, or the next record
    [r]; a closed connection is fatal. *)
Inductive rdans := RdRec (r : list N) | RdWant | RdFatal.
Definition lib_read (i : nat) (h : lib) (a : rdans) (w : world) : (lib * list N) * world :=
  let (hr, w) := shake i h w in
  match hr with
  | LOk =>
      match nget i (w_ssl w) with
      | None => ((LFatal, []), w_strays w)
      | Some s =>
          let upd l w := w_with_ssl w (nset i (mkTssl (s_set s) (s_srv s) (s_fd s) (s_done s) l (s_pend s)) (w_ssl w)) in
          match s_left s with
          | _ :: _ => ((LOk, firstn MTU (s_left s)), upd (skipn MTU (s_left s)) w)
          | [] =>
              match a with
              | RdRec [] => ((LFatal, []), w)
              | RdRec r => ((LOk, firstn MTU r), w_say (upd (skipn MTU r) w) (RecIn i r))
              | RdWant => ((LWant, []), w)
              | RdFatal => ((LFatal, []), w)
              end
          end
      end
  | r => ((r, []), w)
  end.

(** The records a message is cut into. *)
Fixpoint frags (fuel : nat) (d : list N) : list (list N) :=
  match fuel with
  | O => []
  | S k => match d with [] => [] | _ => firstn FRAG d :: frags k (skipn FRAG d) end
  end.
Definition w_recs (i : nat) (rs : list (list N)) (w : world) : world :=
  fold_left (fun w r => w_say w (RecOut i r)) rs w.

(** wolfSSL_write of [d]: encrypted at once; not written completely, the call is to be
    repeated, and the repeated call only writes what is pending (it fails if it is given
    less than that). *)
Inductive wrans := WrOk | WrWant | WrFatal.
Definition lib_write (i : nat) (h : lib) (a : wrans) (d : list N) (w : world) : lib * world :=
  let (hr, w) := shake i h w in
  match hr with
  | LOk =>
      match nget i (w_ssl w) with
      | None => (LFatal, w_strays w)
      | Some s =>
          let upd p w := w_with_ssl w (nset i (mkTssl (s_set s) (s_srv s) (s_fd s) (s_done s) (s_left s) p) (w_ssl w)) in
          match s_pend s, a with
          | None, WrOk => (LOk, w_recs i (frags (length d) d) w)
          | None, WrWant => (LWant, upd (Some d) w)
          | Some e, WrOk =>
              let w := w_recs i (frags (length e) e) (upd None w) in
              if (length d <? length e)%nat then (LFatal, w) else (LOk, w)
          | Some _, WrWant => (LWant, w)
          | _, WrFatal => (LFatal, w)
          end
      end
  | r => (r, w)
  end.

(** wolfSSL_free, wolfSSL_CTX_free of a pointer that is not null. *)
Definition ssl_free (i : nat) (w : world) : world :=
  match nget i (w_ssl w) with Some _ => w_with_ssl w (ndel i (w_ssl w)) | None => w_strays w end.
Definition ctx_free (i : nat) (w : world) : world :=
  match nget i (w_ctx w) with Some _ => w_with_ctx w (ndel i (w_ctx w)) | None => w_strays w end.
(** wolfSSL_new: null if there is no context or no memory. *)
Definition ssl_new (x : option nat) (srv ok : bool) (w : world) : option nat * world :=
  match x with
  | None => (None, w)
  | Some x =>
      match nget x (w_ctx w) with
      | None => (None, w_strays w)
      | Some t =>
          if ok
          then (Some (w_next w),
                w_tick (w_with_ssl w ((w_next w, mkTssl t srv None false [] None) :: w_ssl w)))
          else (None, w)
      end
  end.
(** wolfSSL_set_fd that succeeds. *)
Definition ssl_fd (i : nat) (fd : Z) (w : world) : world :=
  match nget i (w_ssl w) with
  | Some s => w_with_ssl w (nset i (mkTssl (s_set s) (s_srv s) (Some fd) (s_done s) (s_left s) (s_pend s)) (w_ssl w))
  | None => w_strays w
  end.

(** ** Configuration *)

(** posixTransportTlsConfig: posix_transport_tls.h 52-94. *)
Record tlscfg := mkCfg {
  g_ip_ok : bool; g_noverify : bool; g_ca : option N; g_psk : bool }.

(** LoadTlsCertificates: posix_transport_tls.c 63-118.  [ok]: each load succeeds. *)
Definition load_certs (ok : bool) (cfg : tlscfg) (is_server : bool) (t : tctx) : Z * tctx :=
  if negb ok then (ABORTED, t)
  else
    (OK, mkTctx (if g_noverify cfg then VNone else if is_server then VPeerCert else VPeer)
                (match g_ca cfg with Some c => Some c | None => x_ca t end) (x_psk t)).
(** The context after wolfSSL_CTX_new: the default of a client is to verify, that of a
    server is not to. *)
Definition tctx_new (srv : bool) : tctx := mkTctx (if srv then VNone else VPeer) None false.
Definition set_ctx (i : nat) (t : tctx) (w : world) : world := w_with_ctx w (nset i t (w_ctx w)).

(** ** The client *)

(** pttClientState: posix_transport_tcp.h 86-91. *)
Inductive tst := TUnconn | TWait | TConn | TDone.

(** posixTransportTlsClientContext with its tcpCtx: posix_transport_tls.h 105-116,
    posix_transport_tcp.h 93-102.  connectcb is never set: [c_cb] is kept to show it. *)
Record cctx := mkCctx {
  c_cb : bool; c_conn : bool; c_fd1 : Z; c_ctx : option nat; c_ssl : option nat;
  ct_cb : bool; ct_st : tst; ct_fd1 : Z }.
Definition cctx0 : cctx := mkCctx false false 0 None None false TUnconn 0.
Definition c_with_ctx c x := mkCctx (c_cb c) (c_conn c) (c_fd1 c) x (c_ssl c) (ct_cb c) (ct_st c) (ct_fd1 c).
Definition c_with_ssl c x := mkCctx (c_cb c) (c_conn c) (c_fd1 c) (c_ctx c) x (ct_cb c) (ct_st c) (ct_fd1 c).
Definition c_with_conn c x := mkCctx (c_cb c) x (c_fd1 c) (c_ctx c) (c_ssl c) (ct_cb c) (ct_st c) (ct_fd1 c).
Definition c_with_fd1 c x := mkCctx (c_cb c) (c_conn c) x (c_ctx c) (c_ssl c) (ct_cb c) (ct_st c) (ct_fd1 c).
Definition c_with_tcp c b s f := mkCctx (c_cb c) (c_conn c) (c_fd1 c) (c_ctx c) (c_ssl c) b s f.

(** What the system answers while connecting. *)
Inductive conn := CnOk | CnRefused | CnWait | CnFail.
Inductive pollr := PoHup | PoErr | PoOut | PoNone | PoFail.
Record sysans := mkSys { y_sock : Z; y_nb : bool; y_conn : conn; y_poll : pollr; y_peer : peer }.

(** posixTransportTcp_Close: posix_transport_tcp.c 384-394. *)
Definition tcp_close (c : cctx) (w : world) : cctx * world :=
  if Z.eqb (ct_fd1 c) 0 then (c, w)
  else (c_with_tcp c (ct_cb c) (ct_st c) 0, os_close (ct_fd1 c - 1) w).

(** posixTransportTcp_HandleConnect: posix_transport_tcp.c 243-382. *)
Definition handle_connect (y : sysans) (c : cctx) (w : world) : Z * cctx * world :=
  let to s c := c_with_tcp c (ct_cb c) s (ct_fd1 c) in
  match ct_st c with
  | TUnconn =>
      match os_new (y_sock y) (Some (y_peer y)) w with
      | None => (ABORTED, to TDone c, w)
      | Some w =>
          if Z.leb (y_sock y) 2 then (ABORTED, to TDone c, os_close (y_sock y) w)
          else
            let c := c_with_tcp c (ct_cb c) (ct_st c) (y_sock y + 1) in
            if y_nb y then
              match y_conn y with
              | CnOk => (OK, to TConn c, w)
              | CnRefused => let (c, w) := tcp_close c w in (NOTFOUND, to TUnconn c, w)
              | CnWait => (NOTREADY, to TWait c, w)
              | CnFail => let (c, w) := tcp_close c w in (ABORTED, to TDone c, w)
              end
            else let (c, w) := tcp_close c w in (ABORTED, to TDone c, w)
      end
  | TWait =>
      match y_poll y with
      | PoHup => let (c, w) := tcp_close c w in (NOTFOUND, to TUnconn c, w)
      | PoErr => let (c, w) := tcp_close c w in (ABORTED, to TDone c, w)
      | PoOut => if Z.eqb (ct_fd1 c) 0 then (NOTREADY, c, w) (* poll skips a negative descriptor *)
                 else (OK, to TConn c, w)
      | PoNone => (NOTREADY, c, w)
      | PoFail => let (c, w) := tcp_close c w in (ABORTED, to TDone c, w)
      end
  | TConn => (OK, c, w)
  | TDone => (ABORTED, c, w)
  end.

(** posixTransportTcp_InitConnect: posix_transport_tcp.c 397-436. *)
Definition tcp_init_connect (cfg : tlscfg) (y : sysans) (c : cctx) (w : world) : Z * cctx * world :=
  let c := c_with_tcp c false TUnconn 0 in
  if negb (g_ip_ok cfg) then (BADARGS, c, w)
  else
    match handle_connect y c w with
    | (rc, c, w) =>
        if Z.eqb rc OK || Z.eqb rc NOTFOUND || Z.eqb rc NOTREADY
        then (OK, c_with_tcp c true (ct_st c) (ct_fd1 c), w_say w (Told true))
        else (rc, c, w)
    end.

(** posixTransportTcp_CleanupConnect: posix_transport_tcp.c 553-571. *)
Definition tcp_cleanup_connect (c : cctx) (w : world) : cctx * world :=
  let w := if ct_cb c then w_say w (Told false) else w in
  if Z.eqb (ct_fd1 c) 0 then (c, w)
  else (c_with_tcp c (ct_cb c) (ct_st c) 0, os_close (ct_fd1 c - 1) w).

(** posixTransportTls_InitConnect: posix_transport_tls.c 123-197.  [xnew]:
    wolfSSL_CTX_new succeeds, [certs]: the loads do. *)
Definition init_connect (cfg : tlscfg) (xnew certs : bool) (y : sysans) (w : world)
  : Z * cctx * world :=
  let c := cctx0 in
  if negb xnew then (ABORTED, c, w)
  else
    let x := w_next w in
    let w := w_tick (w_with_ctx w ((x, tctx_new false) :: w_ctx w)) in
    let c := c_with_ctx c (Some x) in
    match load_certs certs cfg false (tctx_new false) with
    | (rc, t) =>
        let w := set_ctx x t w in
        if negb (is_ok rc) then (rc, c_with_ctx c None, ctx_free x w)
        else
          let w := set_ctx x (mkTctx (x_mode t) (x_ca t) (g_psk cfg)) w in
          match tcp_init_connect cfg y c w with
          | (rc, c, w) =>
              if negb (is_ok rc) then (rc, c_with_ctx c None, ctx_free x w)
              else (OK, c, if c_cb c then w_say w (Told true) else w)
          end
    end.

(** posixTransportTcp_GetConnectFd: posix_transport_tcp.c 439-468. *)
Definition get_connect_fd (c : cctx) : option Z :=
  match ct_st c with TWait | TConn => Some (ct_fd1 c - 1)%Z | _ => None end.

(** posixTransportTls_SendRequest: posix_transport_tls.c 201-304. *)
Definition send_request (y : sysans) (new setfd : bool) (h : lib) (a : wrans) (d : list N)
    (c : cctx) (w : world) : Z * cctx * world :=
  if (length d =? 0)%nat then (BADARGS, c, w)
  else
    (* lines 214-285 *)
    match
      (if c_conn c then (None, c, w)
       else
         match handle_connect y c w with
         | (rc, c, w) =>
             if negb (is_ok rc) then (Some NOTREADY, c, w)
             else
               match
                 (match c_ssl c with
                  | Some _ => (None, c, w)
                  | None =>
                      match get_connect_fd c with
                      | None => (Some NOTREADY, c, w)
                      | Some fd =>
                          let c := c_with_fd1 c (fd + 1) in
                          match ssl_new (c_ctx c) false new w with
                          | (None, w) => let (c, w) := tcp_cleanup_connect c w in (Some ABORTED, c, w)
                          | (Some i, w) =>
                              if negb setfd
                              then let (c, w) := tcp_cleanup_connect c (ssl_free i w) in (Some ABORTED, c, w)
                              else (None, c_with_ssl c (Some i), ssl_fd i fd w)
                          end
                      end
                  end)
               with
               | (Some rc, c, w) => (Some rc, c, w)
               | (None, c, w) =>
                   match c_ssl c with
                   | None => (Some ABORTED, c, w) (* not reached *)
                   | Some i =>
                       match shake i h w with
                       | (LOk, w) => (None, c_with_conn c true, w)
                       | (LWant, w) => (Some NOTREADY, c, w)
                       | (LSock, w) =>
                           let w := ssl_free i w in
                           let c := c_with_ssl c None in
                           let (c, w) := if Z.eqb (ct_fd1 c) 0 then (c, w)
                                         else (c_with_tcp c (ct_cb c) (ct_st c) 0, os_close (ct_fd1 c - 1) w) in
                           (Some NOTREADY, c_with_tcp (c_with_fd1 c 0) (ct_cb c) TUnconn (ct_fd1 c), w)
                       | (LFatal, w) => (Some ABORTED, c, if c_cb c then w_say w (Told false) else w)
                       end
                   end
               end
         end)
    with
    | (Some rc, c, w) => (rc, c, w)
    | (None, c, w) =>
        (* lines 287-297 *)
        match c_ssl c with
        | None => (ABORTED, c, w) (* wolfSSL_write of a null object fails *)
        | Some i =>
            match lib_write i h a d w with
            | (LOk, w) => (OK, c, w)
            | (LWant, w) => (NOTREADY, c, w)
            | (_, w) => (ABORTED, c, w)
            end
        end
    end.

(** posixTransportTls_RecvResponse: posix_transport_tls.c 306-343. *)
Definition recv_response (h : lib) (a : rdans) (c : cctx) (w : world)
  : (Z * option (list N)) * cctx * world :=
  match c_ssl c with
  | None => ((BADARGS, None), c, w)
  | Some i =>
      match lib_read i h a w with
      | ((LOk, d), w) =>
          match nget i (w_ssl w) with
          | Some s => match end_of s w with
                      | Some p => ((OK, Some d), c, w_say w (Got i p d))
                      | None => ((OK, Some d), c, w_strays w)
                      end
          | None => ((OK, Some d), c, w_strays w)
          end
      | ((LWant, _), w) => ((NOTREADY, None), c, w)
      | ((_, _), w) => ((ABORTED, None), c, w)
      end
  end.

(** posixTransportTls_CleanupConnect: posix_transport_tls.c 345-374. *)
Definition cleanup_connect (c : cctx) (w : world) : Z * cctx * world :=
  let (c, w) := match c_ssl c with
                | Some i => (c_with_ssl c None, ssl_free i w)
                | None => (c, w)
                end in
  let (c, w) := match c_ctx c with
                | Some x => (c_with_ctx c None, ctx_free x w)
                | None => (c, w)
                end in
  let c := c_with_fd1 (c_with_conn c false) 0 in
  let (c, w) := tcp_cleanup_connect c w in
  (OK, c, w).

(** ** The server *)

(** posixTransportTlsServerContext with its tcpCtx: posix_transport_tls.h 141-156. *)
Record sctx := mkSctx {
  l_cb : bool; l_fd1 : Z; l_afd1 : Z; l_ctx : option nat; l_ssl : option nat;
  lt_cb : bool; lt_fd1 : Z; lt_afd1 : Z }.
Definition sctx0 : sctx := mkSctx false 0 0 None None false 0 0.
Definition l_with_afd c x := mkSctx (l_cb c) (l_fd1 c) x (l_ctx c) (l_ssl c) (lt_cb c) (lt_fd1 c) (lt_afd1 c).
Definition l_with_ctx c x := mkSctx (l_cb c) (l_fd1 c) (l_afd1 c) x (l_ssl c) (lt_cb c) (lt_fd1 c) (lt_afd1 c).
Definition l_with_ssl c x := mkSctx (l_cb c) (l_fd1 c) (l_afd1 c) (l_ctx c) x (lt_cb c) (lt_fd1 c) (lt_afd1 c).
Definition l_with_tcp c b f a := mkSctx (l_cb c) (l_fd1 c) (l_afd1 c) (l_ctx c) (l_ssl c) b f a.

(** posixTransportTcp_InitListen: posix_transport_tcp.c 616-686. *)
Definition tcp_init_listen (cfg : tlscfg) (sock : Z) (nb bnd lst : bool) (c : sctx) (w : world)
  : Z * sctx * world :=
  let c := l_with_tcp c false 0 0 in
  if negb (g_ip_ok cfg) then (BADARGS, c, w)
  else
    match os_new sock None w with
    | None => (ABORTED, c, w)
    | Some w =>
        if Z.leb sock 2 then (ABORTED, c, os_close sock w)
        else if negb nb || negb bnd || negb lst then (ABORTED, c, os_close sock w)
        else (OK, l_with_tcp c true (sock + 1) 0, w_say w (Told true))
    end.

(** posixTransportTcp_CleanupListen: posix_transport_tcp.c 787-809. *)
Definition tcp_cleanup_listen (c : sctx) (w : world) : sctx * world :=
  let w := if lt_cb c then w_say w (Told false) else w in
  let w := if Z.eqb (lt_afd1 c) 0 then w else os_close (lt_afd1 c - 1) w in
  let w := if Z.eqb (lt_fd1 c) 0 then w else os_close (lt_fd1 c - 1) w in
  (l_with_tcp c (lt_cb c) 0 0, w).

(** posixTransportTls_InitListen: posix_transport_tls.c 378-464. *)
Definition init_listen (cfg : tlscfg) (sock : Z) (nb bnd lst xnew certs : bool) (w : world)
  : Z * sctx * world :=
  match tcp_init_listen cfg sock nb bnd lst sctx0 w with
  | (rc, c, w) =>
      if negb (is_ok rc) then (rc, c, w)
      else
        let c := mkSctx true (lt_fd1 c) 0 None None (lt_cb c) (lt_fd1 c) (lt_afd1 c) in
        if negb xnew then let (c, w) := tcp_cleanup_listen c w in (ABORTED, c, w)
        else
          let x := w_next w in
          let w := w_tick (w_with_ctx w ((x, tctx_new true) :: w_ctx w)) in
          let c := l_with_ctx c (Some x) in
          match load_certs certs cfg true (tctx_new true) with
          | (rc, t) =>
              let w := set_ctx x t w in
              if negb (is_ok rc)
              then let (c, w) := tcp_cleanup_listen (l_with_ctx c None) (ctx_free x w) in (rc, c, w)
              else
                let w := set_ctx x (mkTctx (x_mode t) (x_ca t) (g_psk cfg)) w in
                (OK, c, w_say w (Told true))
          end
  end.

(** What accept answers: nobody there, an error, a descriptor and who is behind it. *)
Inductive acc := AcAgain | AcFail | AcFd (fd : Z) (p : peer).

(** posixTransportTls_RecvRequest: posix_transport_tls.c 466-568. *)
Definition recv_request (ac : acc) (nb new setfd : bool) (h h2 : lib) (a : rdans)
    (c : sctx) (w : world) : (Z * option (list N)) * sctx * world :=
  match
    (if negb (Z.eqb (l_afd1 c) 0) then (None, c, w)
     else
       match zget (l_fd1 c - 1) (w_open w), ac with
       | None, _ => (Some ABORTED, c, w)          (* EBADF *)
       | _, AcAgain => (Some NOTREADY, c, w)
       | _, AcFail => (Some ABORTED, c, w)
       | Some _, AcFd fd p =>
           match os_new fd (Some p) w with
           | None => (Some ABORTED, c, w)
           | Some w =>
               if negb nb then (Some ABORTED, l_with_afd c 0, os_close fd w)
               else
                 match ssl_new (l_ctx c) true new w with
                 | (None, w) => (Some ABORTED, l_with_ssl (l_with_afd c 0) None, os_close fd w)
                 | (Some i, w) =>
                     if negb setfd
                     then (Some ABORTED, l_with_ssl (l_with_afd c 0) None, os_close fd (ssl_free i w))
                     else
                       let w := ssl_fd i fd w in
                       match shake i h w with
                       | (LOk, w) => (None, l_with_ssl (l_with_afd c (fd + 1)) (Some i), w_say w (Told true))
                       | (LWant, w) => (Some NOTREADY, l_with_ssl (l_with_afd c (fd + 1)) (Some i), w)
                       | (_, w) => (Some ABORTED, l_with_ssl (l_with_afd c 0) None, os_close fd (ssl_free i w))
                       end
                 end
           end
       end)
  with
  | (Some rc, c, w) => ((rc, None), c, w)
  | (None, c, w) =>
      match l_ssl c with
      | None => ((ABORTED, None), c, w)
      | Some i =>
          match lib_read i h2 a w with
          | ((LOk, d), w) =>
              match nget i (w_ssl w) with
              | Some s => match end_of s w with
                          | Some p => ((OK, Some d), c, w_say w (Got i p d))
                          | None => ((OK, Some d), c, w_strays w)
                          end
              | None => ((OK, Some d), c, w_strays w)
              end
          | ((LWant, _), w) => ((NOTREADY, None), c, w)
          | ((_, _), w) => ((ABORTED, None), c, w)
          end
      end
  end.

(** posixTransportTls_SendResponse: posix_transport_tls.c 570-604. *)
Definition send_response (h : lib) (a : wrans) (d : list N) (c : sctx) (w : world) : Z * sctx * world :=
  if (length d =? 0)%nat then (BADARGS, c, w)
  else
    match l_ssl c with
    | None => (NOTREADY, c, w)
    | Some i =>
        match lib_write i h a d w with
        | (LOk, w) => (OK, c, w)
        | (LWant, w) => (NOTREADY, c, w)
        | (_, w) => (ABORTED, c, w)
        end
    end.

(** posixTransportTls_CleanupListen: posix_transport_tls.c 606-641. *)
Definition cleanup_listen (c : sctx) (w : world) : Z * sctx * world :=
  let (c, w) := match l_ssl c with
                | Some i => (l_with_ssl c None, ssl_free i w)
                | None => (c, w)
                end in
  let (c, w) := match l_ctx c with
                | Some x => (l_with_ctx c None, ctx_free x w)
                | None => (c, w)
                end in
  let (c, w) := tcp_cleanup_listen c w in
  (OK, mkSctx (l_cb c) 0 0 (l_ctx c) (l_ssl c) (lt_cb c) (lt_fd1 c) (lt_afd1 c), w).

(** posixTransportTls_GetListenFd, GetAcceptFd: posix_transport_tls.c 644-683. *)
Definition get_listen_fd (c : sctx) : Z * option Z :=
  if negb (Z.eqb (l_fd1 c) 0) then (OK, Some (l_fd1 c - 1)%Z) else (NOTREADY, None).
Definition get_accept_fd (c : sctx) : Z * option Z :=
  if negb (Z.eqb (l_afd1 c) 0) then (OK, Some (l_afd1 c - 1)%Z) else (NOTREADY, None).

(** ** Calls of a session *)

Inductive cop :=
| CSend (y : sysans) (new setfd : bool) (h : lib) (a : wrans) (d : list N)
| CRecv (h : lib) (a : rdans)
| CClean.
Definition c_step (o : cop) (c : cctx) (w : world) : (Z * option (list N)) * cctx * world :=
  match o with
  | CSend y n s h a d => match send_request y n s h a d c w with (rc, c, w) => ((rc, None), c, w) end
  | CRecv h a => recv_response h a c w
  | CClean => match cleanup_connect c w with (rc, c, w) => ((rc, None), c, w) end
  end.

Inductive sop :=
| SRecv (ac : acc) (nb new setfd : bool) (h h2 : lib) (a : rdans)
| SSend (h : lib) (a : wrans) (d : list N)
| SClean.
Definition s_step (o : sop) (c : sctx) (w : world) : (Z * option (list N)) * sctx * world :=
  match o with
  | SRecv ac nb n s h h2 a => recv_request ac nb n s h h2 a c w
  | SSend h a d => match send_response h a d c w with (rc, c, w) => ((rc, None), c, w) end
  | SClean => match cleanup_listen c w with (rc, c, w) => ((rc, None), c, w) end
  end.

(** The calls, each with its result. *)
Fixpoint c_run (os : list cop) (c : cctx) (w : world)
  : list (cop * (Z * option (list N))) * cctx * world :=
  match os with
  | [] => ([], c, w)
  | o :: os => match c_step o c w with
               | (r, c, w) => match c_run os c w with (tr, c, w) => ((o, r) :: tr, c, w) end
               end
  end.
Fixpoint s_run (os : list sop) (c : sctx) (w : world)
  : list (sop * (Z * option (list N))) * sctx * world :=
  match os with
  | [] => ([], c, w)
  | o :: os => match s_step o c w with
               | (r, c, w) => match s_run os c w with (tr, c, w) => ((o, r) :: tr, c, w) end
               end
  end.

End Tls.

(** * What the server does when it is told *)

(** wh_Server_SetConnected: src/wh_server.c 199-231, called through
    wh_Server_SetConnectedCb (233-236): who is logged in, if anybody.  [reset]: the return
    code of wh_Auth_Reset; what wh_Auth_Logout answers is not looked at, and what it does
    to the context's user is [out]. *)
Definition set_connected (up : bool) (out : option N -> option N) (reset : Z) (u : option N) : option N :=
  match up, u with
  | false, Some _ => if is_ok reset then None else out u
  | _, _ => u
  end.
(** The callbacks of a session, in order; each disconnect with its answers. *)
Definition user_after (tl : list bool) (out : option N -> option N) (reset : Z) (u : option N) : option N :=
  fold_left (fun u b => set_connected b out reset u) tl u.

(** The callback of posixTransportTcp_RecvRequest, after its result: posix_transport_tcp.c
    732-744 (not called if the call is still accepting or already working). *)
Definition tcp_tells (rc : Z) : list bool :=
  if negb (Z.eqb rc NOTREADY) && negb (Z.eqb rc OK) then [false] else [].
