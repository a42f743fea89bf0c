(** Properties C46, C52 and part of C17: the TCP transport. *)
From Verif Require Import Base BaseLemmas EndianModel TimeoutModel CommModel ServerModel TcpModel TcpSpec TcpProof.
Local Open Scope N_scope.

(** * C46 *)
(** However the two streams are cut into pieces, whichever socket calls say
    EAGAIN or fail, and in whatever order the two ends are called: as long as a
    send that was not ready is repeated with the same message, no access leaves a
    buffer, and the messages received are the messages sent, whole, in order and
    each once.  The server answers a request at most once, and a client has at
    most one request without answer. *)
Theorem C46_messages_intact : forall MTU cs tr s', N.of_nat MTU < 2 ^ 16 ->
  trun MTU cs (net_init MTU) = (tr, s') -> well_used MTU None None tr ->
  Forall (fun e => snd e <> None) tr /\
  (exists more, reqs_sent tr = reqs_got tr ++ more) /\
  (exists more, resps_sent tr = resps_got tr ++ more) /\
  (length (resps_sent tr) <= length (reqs_got tr))%nat /\
  (length (reqs_sent tr) <= length (resps_got tr) + 1)%nat.
Proof. intros MTU cs tr s' H. exact (tcp_delivers MTU H cs tr s'). Qed.
Print Assumptions C46_messages_intact.

(** A request and its answer, each in pieces. *)
Definition tcp_run : list tcall :=
  [SendReq 0%Z (Upto 3) [7;8;9]; RecvReq 0%Z (Upto 9) (Upto 9) 5; SendReq 0%Z Again [7;8;9];
   SendReq 0%Z (Upto 2) [7;8;9]; RecvReq 0%Z (Upto 9) (Upto 9) 5; SendReq 0%Z (Upto 9) [7;8;9];
   RecvResp (Upto 1) (Upto 1) 5; RecvReq 0%Z (Upto 9) (Upto 9) 5; SendResp (Upto 5) [1;2];
   RecvResp (Upto 9) (Upto 1) 5; SendResp (Upto 5) [1;2]; RecvResp (Upto 9) (Upto 1) 5].
Example C46_run :
  let tr := fst (trun 5 tcp_run (net_init 5)) in
  well_used 5 None None tr /\ reqs_got tr = [[7;8;9]] /\ resps_got tr = [[1;2]] /\
  map (fun e => option_map fst (snd e)) tr =
    map Some [NOTREADY; NOTREADY; NOTREADY; NOTREADY; NOTREADY; OK; NOTREADY; OK; NOTREADY; NOTREADY; OK; OK].
Proof.
  vm_compute. intuition (subst; auto using Forall_nil); repeat (constructor; try (vm_compute; reflexivity)).
Qed.

(** The transport holds nothing back: once a message is there to be read
    completely, a receive whose reads are not cut short delivers it and leaves
    the rest of the stream for the next one. *)
Theorem C46_receive_completes : forall MTU d cap k off buf rest stream, N.of_nat MTU < 2 ^ 16 ->
  (0 < length d <= MTU)%nat -> (MTU <= cap)%nat ->
  rinv MTU off buf -> firstn off buf ++ stream = frame d ++ rest -> (BUF MTU <= k)%nat ->
  exists buf', tcp_recv MTU (Upto k) (Upto k) cap off buf stream = Some (OK, 0%nat, buf', rest, Some d).
Proof. intros MTU d cap k off buf rest stream H. exact (recv_complete MTU H d cap k off buf rest stream). Qed.
Print Assumptions C46_receive_completes.
Example C46_receive_completes_case :
  rinv 5 3 ([0;0;0] ++ repeat 0 6) /\ firstn 3 ([0;0;0] ++ repeat 0 6) ++ [2;5;6;0;0] = frame [5;6] ++ [0;0] /\
  option_map snd (tcp_recv 5 (Upto 9) (Upto 9) 5 3 ([0;0;0] ++ repeat 0 6) [2;5;6;0;0]) = Some (Some [5;6]).
Proof. split; [split; [reflexivity|left; repeat constructor]|split; vm_compute; reflexivity]. Qed.

(** Whatever bytes the other end sends, in whatever pieces, a receiver never
    leaves its buffers, and what it hands up has between one byte and the largest
    message size. *)
Theorem C46_any_peer : forall MTU cap xs, N.of_nat MTU < 2 ^ 16 -> (MTU <= cap)%nat ->
  exists ms, feed MTU cap xs 0 (repeat 0 (BUF MTU)) [] = Some ms /\
    Forall (fun m => 0 < length m <= MTU)%nat ms.
Proof. intros MTU cap xs H. exact (feed_safe MTU H cap xs). Qed.
Print Assumptions C46_any_peer.

(** A length field of zero or beyond the largest message is refused. *)
Theorem C46_impossible_length : forall MTU hdr rest cap k1 k2, N.of_nat MTU < 2 ^ 16 -> (MTU <= cap)%nat ->
  length hdr = 4%nat -> le_dec (rev hdr) = 0 \/ N.of_nat MTU < le_dec (rev hdr) -> (4 <= k1)%nat ->
  exists buf' rest', tcp_recv MTU (Upto k1) (Upto k2) cap 0 (repeat 0 (BUF MTU)) (hdr ++ rest) =
    Some (ABORTED, 0%nat, buf', rest', None).
Proof.
  intros MTU hdr rest cap k1 k2 HM HC HL HB HK.
  destruct hdr as [|a [|b [|c [|d [|]]]]]; try discriminate HL.
  unfold tcp_recv. change (BUF MTU <? 0)%nat with false. change (0 <? 4)%nat with true.
  replace (Nat.min k1 (4 - 0)) with 4%nat by lia. cbv beta iota zeta.
  cbn [firstn app length]. unfold blit. rewrite repeat_length. cbn [length Nat.add].
  replace (4 <=? BUF MTU)%nat with true by (symmetry; apply Nat.leb_le; unfold BUF; lia).
  rewrite firstn_O. cbn [app]. unfold tcp_recv2. change (4 <? 4)%nat with false. cbv beta iota zeta.
  unfold len4. cbn [firstn].
  match goal with |- context [if ?x then _ else _] => replace x with true end; [eauto|].
  symmetry. apply Bool.orb_true_iff. destruct HB; [left; now apply N.eqb_eq|right; now apply N.ltb_lt].
Qed.
Print Assumptions C46_impossible_length.

(** The condition on repeated sends is needed.  A client whose send is cut short
    and which then sends a shorter message reads outside its buffer, and after a
    message of the same length the server receives the abandoned message instead
    of the one reported as sent.  The interface allows both: the first request
    was never accepted. *)
Theorem C46_abandoned_send_refuted :
  (exists tr, fst (trun 5 [SendReq 0%Z (Upto 8) [1;2;3;4;5]; SendReq 0%Z (Upto 8) [1]] (net_init 5)) = tr /\
     map snd tr = [Some (NOTREADY, None); None]) /\
  (let tr := fst (trun 5 [SendReq 0%Z (Upto 6) [1;2;3]; SendReq 0%Z (Upto 6) [4;5;6]; RecvReq 0%Z (Upto 9) (Upto 9) 5]
                   (net_init 5)) in
   reqs_sent tr = [[4;5;6]] /\ reqs_got tr = [[1;2;3]]).
Proof. split; [eexists; split; [reflexivity|]|]; vm_compute; auto. Qed.
Print Assumptions C46_abandoned_send_refuted.

(** * C17 over TCP *)
(** Having received a message, a server receives nothing before it has answered.
    A message of fewer than eight bytes is dropped unanswered by the packet layer
    (C17_server_unharmed), so that one such message from a peer ends all service
    on the connection. *)
Theorem C17_tcp_short_message_refuted :
  (forall MTU acc r1 r2 cap avail c c' avail' m,
     server_recv MTU acc r1 r2 cap avail c = Some (OK, c', avail', m) ->
     forall acc r1 r2 cap more, server_recv MTU acc r1 r2 cap more c' = Some (NOTREADY, c', more, None)) /\
  (exists c', server_recv 16 OK (Upto 99) (Upto 99) 16 [0;0;0;3;1;2;3] (x_init 16) = Some (OK, c', [], Some [1;2;3])) /\
  (forall buf cap d, r_rc (sv_recv 8 OK 3 buf cap d) = ABORTED).
Proof.
  split; [|split].
  - intros MTU acc r1 r2 cap avail c c' avail' m H acc' r1' r2' cap' more. unfold server_recv in H.
    destruct (negb (up c || is_ok acc)) eqn:E; [injection H as E1 _ _ _|].
    { apply Bool.negb_true_iff, Bool.orb_false_iff in E. destruct E as [_ E]. rewrite E1 in E. discriminate E. }
    destruct (busy c); [discriminate H|].
    destruct (tcp_recv MTU _ _ _ _ _ _) as [[[[[rc off] buf] a] x]|]; [|discriminate H].
    destruct (negb (rc =? NOTREADY)%Z) eqn:E2.
    + injection H as -> <- _ _. unfold server_recv. cbn [up busy orb negb]. reflexivity.
    + injection H as -> _ _ _. discriminate E2.
  - eexists. vm_compute. reflexivity.
  - intros. vm_compute. reflexivity.
Qed.
Print Assumptions C17_tcp_short_message_refuted.

(** * C52 over TCP *)
(** The packet layer's client (src/wh_comm.c 107-151, 159-270) on top of the TCP
    transport. *)
Section Client.
Variable DL : nat.
Definition ct_send (conn : Z) (w : sys) (now magic kind : N) (size : nat) (s : src) (c : cctx) (x : tctx)
  : option (Z * cctx * tctx) :=
  match snd (fst (cl_send DL NOTREADY now magic kind size s c)) with
  | None => Some (fst (fst (fst (cl_send DL NOTREADY now magic kind size s c))), c, x)
  | Some p =>
      match client_send (MTU DL) conn w p x with
      | None => None
      | Some (trc, x', _) =>
          let '((rc, _, _), c') := cl_send DL trc now magic kind size s c in Some (rc, c', x')
      end
  end.
Definition ct_recv (r1 r2 : sys) (avail : list N) (app : option (Z * Z * option N)) (now : N) (cap : nat) (d : dst)
  (c : cctx) (x : tctx) : option (Z * cctx * tctx) :=
  if negb (c_init c && c_pending c) then
    let '(r, c') := cl_recv DL NOTREADY 0 (c_pkt c) app now cap d c in Some (r_rc r, c', x)
  else
    match client_recv (MTU DL) r1 r2 (PKT DL) avail x with
    | None => None
    | Some (trc, x', _, m) =>
        let m := match m with Some m => m | None => [] end in
        let '(r, c') := cl_recv DL trc (length m) (m ++ skipn (length m) (c_pkt c)) app now cap d c in Some (r_rc r, c', x')
    end.
Inductive ctcall :=
| KSend (conn : Z) (w : sys) (now magic kind : N) (size : nat) (s : src)
| KRecv (r1 r2 : sys) (avail : list N) (app : option (Z * Z * option N)) (now : N) (cap : nat) (d : dst)
| KAbort.
Definition ct_step (e : ctcall) (c : cctx) (x : tctx) : option (Z * cctx * tctx) :=
  match e with
  | KSend conn w now magic kind size s => ct_send conn w now magic kind size s c x
  | KRecv r1 r2 avail app now cap d => ct_recv r1 r2 avail app now cap d c x
  | KAbort => let '(rc, c') := cl_abort c in Some (rc, c', x)
  end.
(** Return codes of a sequence of calls. *)
Fixpoint ct_run (es : list ctcall) (c : cctx) (x : tctx) : list (option Z) :=
  match es with
  | [] => []
  | e :: es' => match ct_step e c x with None => [None] | Some (rc, c', x') => Some rc :: ct_run es' c' x' end
  end.
Fixpoint ct_state (es : list ctcall) (c : cctx) (x : tctx) : cctx * tctx :=
  match es with
  | [] => (c, x)
  | e :: es' => match ct_step e c x with None => (c, x) | Some (_, c', x') => ct_state es' c' x' end
  end.
Definition a_send (e : ctcall) : bool := match e with KSend _ _ _ _ _ _ _ => true | _ => false end.
Definition no_send_ok (p : ctcall * option Z) : Prop := a_send (fst p) = true -> snd p <> Some OK.

Lemma stuck_forever : forall es c x, c_init c = true -> c_pending c = false -> busy x = true ->
  Forall no_send_ok (combine es (ct_run es c x)).
Proof.
  induction es as [|e es IH]; intros c x HI HP HB; [constructor|].
  cbn [ct_run]. assert (exists rc c', ct_step e c x = Some (rc, c', x) /\ c_init c' = true /\ c_pending c' = false /\
    (a_send e = true -> rc <> OK)) as (rc & c' & -> & H1 & H2 & H3).
  { destruct e as [conn w now magic kind size s|r1 r2 avail app now cap d|]; cbn [ct_step a_send].
    - unfold ct_send, cl_send. rewrite HI, HP. cbn [negb].
      destruct (DL <? size)%nat eqn:ES; cbn [fst snd]; [do 2 eexists; split; [reflexivity|]; repeat split; auto; discriminate|].
      change (is_ok NOTREADY) with false. cbv beta iota. cbn [fst snd].
      set (p := firstn (8 + size) _). unfold client_send. rewrite HB.
      destruct ((length p =? 0)%nat || (MTU DL <? length p)%nat).
      + change (is_ok BADARGS) with false. cbv beta iota. do 2 eexists. split; [reflexivity|]. repeat split; discriminate.
      + change (is_ok NOTREADY) with false. cbv beta iota. do 2 eexists. split; [reflexivity|]. repeat split; discriminate.
    - unfold ct_recv. rewrite HI, HP. cbn [andb negb]. unfold cl_recv. rewrite HI, HP. cbn [negb].
      do 2 eexists. split; [reflexivity|]. repeat split; auto; discriminate.
    - unfold cl_abort. rewrite HI. cbn [negb]. do 2 eexists. split; [reflexivity|]. repeat split; discriminate. }
  cbn [combine]. constructor; [|apply IH; auto].
  unfold no_send_ok. cbn [fst snd]. intros A B. injection B as ->. now apply (H3 A).
Qed.
End Client.

(** After a request that was sent is given up, be it by wh_CommClient_AbortPending
    or because its timeout expired, no later request is ever sent on the
    connection, whatever the network does and whatever is called. *)
Theorem C52_tcp_refuted : forall es,
  (let pre := [KSend OK (Upto 99) 1 MAGIC_NATIVE 0x105 4 (SBuf [1;2;3;4]); KAbort] in
   ct_run 8 pre (cl_init 8 None) (x_init 16) = [Some OK; Some OK] /\
   let '(c, x) := ct_state 8 pre (cl_init 8 None) (x_init 16) in
   Forall no_send_ok (combine es (ct_run 8 es c x))) /\
  (let pre := [KSend OK (Upto 99) 1 MAGIC_NATIVE 0x105 4 (SBuf [1;2;3;4]);
               KRecv Again Again [] None 20 8 DBuf] in
   ct_run 8 pre (cl_init 8 (Some 5)) (x_init 16) = [Some OK; Some TIMEOUT] /\
   let '(c, x) := ct_state 8 pre (cl_init 8 (Some 5)) (x_init 16) in
   Forall no_send_ok (combine es (ct_run 8 es c x))).
Proof.
  intros es. split.
  - split; [vm_compute; reflexivity|]. set (st := ct_state _ _ _ _). vm_compute in st. subst st. cbv beta iota.
    apply stuck_forever; reflexivity.
  - split; [vm_compute; reflexivity|]. set (st := ct_state _ _ _ _). vm_compute in st. subst st. cbv beta iota.
    apply stuck_forever; reflexivity.
Qed.
Print Assumptions C52_tcp_refuted.
