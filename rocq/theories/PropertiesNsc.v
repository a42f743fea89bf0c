(** C75: the TrustZone bridge hands each request over once and each answer back once,
    whole. *)
From Verif Require Import NscModel NscSpec NscProof.

(** Whatever is received is the whole answer of the last request that went over, handed
    out once: nothing crossed and nothing was received in between. *)
Theorem C75_received MTU W (v : veneer_fn W) h c w l s1 j x a :
  (N.of_nat MTU < 65536)%N -> fresh c -> run MTU W v h (c, w) = (l, s1) ->
  nth_error l j = Some x -> given x = Some a ->
  rc x = OK /\ exists i y d b n, i < j /\ nth_error l i = Some y /\ sent_ok y d b n /\
    (0 < N.to_nat n <= MTU)%nat /\ a = firstn (N.to_nat n) b /\ between l i j quiet.
Proof. intros M. exact (received_ok MTU M W v h c w l s1 j x a). Qed.
Print Assumptions C75_received.

(** An answer that is owed is received as soon as there is room for it; until then it is
    kept. *)
Theorem C75_kept MTU W (v : veneer_fn W) h c w l s1 j x room :
  (N.of_nat MTU < 65536)%N -> fresh c -> run MTU W v h (c, w) = (l, s1) ->
  nth_error l j = Some x -> what x = Recv room ->
  (forall w d, length (snd (fst (fst (v w d)))) = MTU) -> length (rsp_buf c) = MTU ->
  if in_use (firstn j l) then
    match owed (firstn j l) with
    | Some a => if (length a <=? room)%nat then rc x = OK /\ given x = Some a else rc x = BADARGS /\ given x = None
    | None => rc x = NOTREADY /\ given x = None
    end
  else rc x = BADARGS /\ given x = None.
Proof. intros M. exact (recv_ok MTU M W v h c w l s1 j x room). Qed.
Print Assumptions C75_kept.

(** A request goes over just if the client is in use, its size is right and no answer is
    owed; success is reported just if the secure side reports success and a size that
    is possible. *)
Theorem C75_sent MTU W (v : veneer_fn W) h c w l s1 j x d :
  (N.of_nat MTU < 65536)%N -> fresh c -> run MTU W v h (c, w) = (l, s1) ->
  nth_error l j = Some x -> what x = Send d ->
  given x = None /\
  (ran x <> None <-> in_use (firstn j l) = true /\ (0 < length d <= MTU)%nat /\ owed (firstn j l) = None) /\
  (ran x = None -> rc x = BADARGS \/ rc x = NOTREADY) /\
  (forall r b n, ran x = Some (r, b, n) ->
     (rc x = OK <-> r = 0%Z /\ (0 < n <= N.of_nat MTU)%N) /\ (rc x = OK \/ rc x = BADARGS \/ rc x = NOTREADY \/ rc x = ABORTED)).
Proof. intros M. exact (send_ok MTU M W v h c w l s1 j x d). Qed.
Print Assumptions C75_sent.

(** Under the packet layer, without aborts: whenever no request is pending the next one
    goes over, and its answer is there at the first look. *)
Theorem C75_goes_on MTU W (v : veneer_fn W) judge PKT h w l s1 d :
  (N.of_nat MTU < 65536)%N -> (MTU <= PKT)%nat ->
  Forall not_abort h -> comms MTU W v judge PKT h (opened MTU w) = (l, s1) -> pending W s1 = false ->
  (0 < length d <= MTU)%nat ->
  exists t s2, comm MTU W v judge PKT (CSend d) s1 = (Some t, s2) /\ ran t <> None /\
    (rc t = OK -> pending W s2 = true /\
       exists t2 s3, comm MTU W v judge PKT (CRecv false) s2 = (Some t2, s3) /\ rc t2 = OK /\ given t2 <> None).
Proof. intros M P. exact (goes_on_ok MTU M W v judge PKT P h w l s1 d). Qed.
Print Assumptions C75_goes_on.

(** The secure side, with a veneer as its contract asks: the server sees exactly the
    bytes of the command, once; what is reported is the server's answer, whole and inside
    the caller's room; if there is none the size is 0 and the room is untouched. *)
Theorem C75_server S0 connected serve PKT cmd room x s r b n x1 s1 :
  veneer S0 connected serve PKT cmd room x s = ((r, b, n), (x1, s1)) -> cmd <> [] -> connected x = true ->
  request_pending s1 = false /\ (n <= N.of_nat (length room))%N /\ length b = length room /\
  ((length cmd <= PKT)%nat -> x1 = snd (serve x cmd) /\
     (r = OK -> exists a, fst (serve x cmd) = Some a /\ n = N.of_nat (length a) /\ firstn (length a) b = a /\ a <> [])) /\
  ((PKT < length cmd)%nat -> x1 = x /\ r = ABORTED /\ n = 0%N /\ b = room) /\
  (r <> OK -> n = 0%N /\ b = room).
Proof. exact (server_ok S0 connected serve PKT cmd room x s r b n x1 s1). Qed.
Print Assumptions C75_server.
Theorem C75_server_once S0 connected serve PKT cmd room x s y x1 s1 :
  veneer S0 connected serve PKT cmd room x s = (y, (x1, s1)) -> cmd <> [] -> connected x = true -> connected x1 = true ->
  dispatch S0 connected serve PKT x1 s1 = (NOTREADY, (x1, s1)).
Proof. exact (once_ok S0 connected serve PKT cmd room x s y x1 s1). Qed.
Print Assumptions C75_server_once.

Module NscExamples.
(** A server that counts its requests and answers with the count and the request's first
    byte; the room is 4 bytes; the bridge between the two. *)
Definition count_serve (x : N) (d : list N) : option (list N) * N := (Some [(x + 1)%N; hd 0%N d], (x + 1)%N).
Definition bridge : veneer_fn (N * sv) := fun w d =>
  veneer N (fun x => (x <? 200)%N) count_serve 8 d [9; 9; 9; 9]%N (fst w) (snd w).
Definition blank := mkCl (repeat 0%N 4) 0 false.
Definition results (l : list step) := map (fun x => (rc x, given x)) l.

Example C75_case :
  results (fst (run 4 _ bridge
    [Send [5]; Init; Recv 4; Send [5; 6]; Send [7]; Recv 1; Recv 4; Recv 4; Send [7]; Recv 2; Send [1; 2; 3; 4; 5]; Cleanup; Send [1]]%N
    (blank, (0%N, sv_init)))) =
  [(BADARGS, None); (OK, None); (NOTREADY, None); (OK, None); (NOTREADY, None); (BADARGS, None); (OK, Some [1; 5]%N);
   (NOTREADY, None); (OK, None); (OK, Some [2; 7]%N); (BADARGS, None); (OK, None); (BADARGS, None)].
Proof. vm_compute. reflexivity. Qed.
Example C75_fresh_case : fresh blank /\ length (rsp_buf blank) = 4 /\
  length (snd (fst (fst (bridge (0%N, sv_init) [5]%N)))) = 4.
Proof. repeat split. Qed.
(** Three requests through the packet layer; the second answer is stale and dropped, and
    its request times out. *)
Example C75_comm_case :
  let judge b := if (hd 0%N b =? 2)%N then Stale else Taken in
  let h := [CSend [5]; CRecv false; CSend [6]; CRecv false; CRecv true; CSend [7]; CRecv false]%N in
  Forall not_abort h /\
  map (fun o => match o with Some t => Some (rc t, given t) | None => None end)
    (fst (comms 4 _ bridge judge 8 h (opened 4 (0%N, sv_init)))) =
  [Some (OK, None); Some (OK, Some [1; 5]%N); Some (OK, None); Some (OK, Some [2; 6]%N); Some (NOTREADY, None);
   Some (OK, None); Some (OK, Some [3; 7]%N)].
Proof. split; [repeat constructor|vm_compute; reflexivity]. Qed.

(** A request that is given up before its answer was fetched blocks the bridge: after
    that no request ever reaches the server again, whatever is tried (the packet layer
    does not ask for an answer nobody waits for, and Send refuses while there is one). *)
Theorem C75_abort_refuted :
  let s := snd (comms 4 _ bridge (fun _ => Taken) 8 [CSend [5]%N; CAbort] (opened 4 (0%N, sv_init))) in
  pending _ s = false /\
  forall h l s1, comms 4 _ bridge (fun _ => Taken) 8 h s = (l, s1) -> ~ reached l.
Proof.
  cbv zeta. split; [reflexivity|]. intros h l s1.
  apply (stuck_ok 4 eq_refl (N * sv) bridge (fun _ => Taken) 8 ltac:(lia) h); [reflexivity|discriminate|reflexivity].
Qed.
Print Assumptions C75_abort_refuted.

(** The size of the answer is cleared only when a request is taken: an empty command, or
    one that comes while the server is not connected, leaves the size of the answer
    before, also if it is larger than the room there is now. *)
Theorem C75_stale_size_refuted :
  exists w1, bridge (0%N, sv_init) [5]%N = ((OK, [1; 5; 9; 9]%N, 2%N), w1) /\
  let again := veneer N (fun x => (x <? 200)%N) count_serve 8 [] [9]%N (fst w1) (snd w1) in
  fst again = (NOTREADY, [9]%N, 2%N) /\
  let closed := veneer N (fun _ => false) count_serve 8 [7]%N [9]%N (fst w1) (snd w1) in
  fst closed = (NOTREADY, [9]%N, 2%N) /\ request_pending (snd (snd closed)) = true.
Proof. eexists. split; [vm_compute; reflexivity|]. vm_compute. repeat split. Qed.
Print Assumptions C75_stale_size_refuted.

(** NOTREADY from Send does not tell whether the request was carried out: the veneer's
    own NOTREADY is passed on. *)
Theorem C75_notready_refuted :
  let v : veneer_fn N := fun w d => ((NOTREADY, [0; 0; 0; 0]%N, 0%N), (w + 1)%N) in
  results (fst (run 4 N v [Init; Send [5]%N] (blank, 0%N))) = [(OK, None); (NOTREADY, None)] /\
  snd (snd (run 4 N v [Init; Send [5]%N] (blank, 0%N))) = 1%N.
Proof. vm_compute. split; reflexivity. Qed.
Print Assumptions C75_notready_refuted.
End NscExamples.
