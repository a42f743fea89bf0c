(** C74: a buffer the client's application hands over is open as long as the server
    may use it, and closed afterwards. *)
From Verif Require Import ClDmaModel ClDmaSpec ClDmaProof.
Local Open Scope N_scope.

(** Whenever no request is pending, no buffer is open. *)
Theorem C74_idle e h s :
  orderly e h start -> calm h s -> run e h start = Some s -> pend s = false -> all_closed s.
Proof. exact (idle_ok e h s). Qed.
Print Assumptions C74_idle.

(** At no time a buffer is closed that is not open in that direction and length. *)
Theorem C74_none_extra e h s :
  orderly e h start -> calm h s -> run e h start = Some s -> none_extra s.
Proof. exact (extra_ok e h s). Qed.
Print Assumptions C74_none_extra.

(** While the client waits for the answer, each buffer named in the request is open, in
    the direction and length told to the server and at the address the platform gave. *)
Theorem C74_held e h s b :
  orderly e h start -> calm h s -> Forall with_data h -> run e h start = Some s ->
  pend s = true -> waiting (tr s) = Some b ->
  forall d x n, In (d, x, n) b -> 0 < n ->
  exists c cb, In (Dma (pre_of d) c n x cb OK) (events s) /\ is_open d c n s.
Proof. exact (held_ok e h s b). Qed.
Print Assumptions C74_held.

(** As soon as receiving said anything else than "not ready", or the request failed,
    nothing is open. *)
Theorem C74_released e h s :
  orderly e h start -> calm h s -> run e h start = Some s -> waiting (tr s) = None -> all_closed s.
Proof. exact (released_ok e h s). Qed.
Print Assumptions C74_released.

(** A Response that reports success received, during this call, the reply to the pending
    request. *)
Theorem C74_success c k e s s1 :
  answers c = Some k -> do_call c e s = (Some OK, s1) ->
  pend s = true /\ pend s1 = false /\ since s s1 (Got (Reply true true) OK).
Proof. exact (success_ok c k e s s1). Qed.
Print Assumptions C74_success.

(** Reading a key, certificate or object into a buffer reports success only if the
    buffer was given back without error. *)
Theorem C74_delivered e h s s1 b :
  orderly e h start -> calm h s -> Forall with_data h -> run e h start = Some s ->
  waiting (tr s) = Some b -> last_sent (tr s) = KBuf -> do_call WriteResponse e s = (Some OK, s1) ->
  forall x n, In (Wr, x, n) b -> 0 < n ->
  exists c cb x' cb', In (Dma WrPre c n x cb OK) (events s) /\ since s s1 (Dma WrPost c n x' cb' OK).
Proof. exact (delivered_ok e h s s1 b). Qed.
Print Assumptions C74_delivered.

(** The same of the calls that wait by themselves; the stateful signatures also say if
    the output was not given back. *)
Theorem C74_direct o n e s s1 :
  do_call (Direct o n) e s = (Some OK, s1) ->
  since s s1 (Got (Reply true true) OK) /\
  (tells o = true -> forall b, In (Wr, b) (bufs_of o) ->
    exists x cb, since s s1 (Dma WrPost (addr b) (size b) x cb OK)).
Proof. exact (direct_ok o n e s s1). Qed.
Print Assumptions C74_direct.

(** A function that sends and waits leaves nothing open when it returns, whatever it
    returns. *)
Theorem C74_blocking e h s rq rs n r s1 :
  orderly e h start -> calm h s -> run e h start = Some s -> pend s = false ->
  good_arguments e -> pair_of rq = Some rs -> blocking rq rs n e s = (Some r, s1) -> all_closed s1.
Proof. exact (blocking_ok e h s rq rs n r s1). Qed.
Print Assumptions C74_blocking.

(** A call opens only the buffers it is about, for what the server does with them. *)
Theorem C74_about c e s o s1 d a n x cb rc :
  answers c = None -> do_call c e s = (o, s1) ->
  since s s1 (Dma (pre_of d) a n x cb rc) -> In (d, a, n) (about c).
Proof. exact (about_ok c e s o s1 d a n x cb rc). Qed.
Print Assumptions C74_about.

Module ClDmaExamples.
(** A platform that maps buffers 4096 bytes higher.  [l] are the arrivals, one for each
    time the transport is asked, then "not ready"; [tm] what the timer says. *)
Definition gots (t : list ev) : nat := length (filter (fun x => match x with Got _ _ => true | _ => false end) t).
Definition world (l : list arrival) (tm : Z) : env :=
  mkEnv 4294967295 (Some (fun _ _ a _ => (OK, a + 4096))) None (fun _ => (OK, OK))
    (fun t => nth (gots t) l (Fails NOTREADY)) (fun _ => tm) (fun _ _ => (OK, 0)).
Definition answered := world [Fails NOTREADY; Reply true true; Stale; Reply true true] 0.
Definition A := mkBuf 100 16.
Definition B := mkBuf 200 32.
Definition got_back (d : dir) (a n : N) (s : option st) : option (bool * nat * nat) :=
  match s with None => None | Some s => Some (pend s, opened d a n (events s), closed d a n (events s)) end.

Ltac orderly_tac := cbn; repeat split; try discriminate; auto.

(** A history of two requests that meets all hypotheses: encryption, then export of a
    key, each answered at the second try. *)
Definition two : list call := [AesRequest 100 300 16; AesResponse; AesResponse; WriteRequest B; WriteResponse; WriteResponse].
Example C74_two_case :
  exists s, orderly answered two start /\ calm two s /\ Forall with_data two /\ run answered two start = Some s /\
    pend s = false /\
    events s =
    [Ext 1 OK 0; Dma RdPre 100 16 4196 OK OK; Dma WrPre 300 16 4396 OK OK;
     Sent KAes [(Rd, 4196, 16); (Wr, 4396, 16)] OK OK;
     Ext 10 OK 0; Got (Fails NOTREADY) NOTREADY;
     Ext 10 OK 0; Got (Reply true true) OK; Ext 11 OK 0; Dma RdPost 100 16 4196 OK OK; Dma WrPost 300 16 4396 OK OK;
     Ext 1 OK 0; Ext 2 OK 0; Dma WrPre 200 32 4296 OK OK; Sent KBuf [(Wr, 4296, 32)] OK OK;
     Ext 10 OK 0; Got Stale NOTREADY;
     Ext 10 OK 0; Got (Reply true true) OK; Ext 11 OK 0; Dma WrPost 200 32 4296 OK OK].
Proof.
  eexists. split; [vm_compute; repeat split; intros; try discriminate; reflexivity|].
  split; [left; repeat constructor|]. split; [repeat constructor|].
  split; [vm_compute; reflexivity|]. split; reflexivity.
Qed.
(** In the middle: the buffers are open. *)
Example C74_held_case :
  exists s, orderly answered (firstn 2 two) start /\ run answered (firstn 2 two) start = Some s /\ pend s = true /\
    waiting (tr s) = Some [(Rd, 4196, 16); (Wr, 4396, 16)] /\ is_open Rd 100 16 s /\ is_open Wr 300 16 s.
Proof.
  eexists. split; [vm_compute; repeat split; intros; try discriminate; reflexivity|].
  split; [vm_compute; reflexivity|]. split; [reflexivity|]. split; [reflexivity|].
  split; vm_compute; constructor.
Qed.
(** Sending and waiting; signing with a stateful key. *)
Example C74_blocking_case :
  exists s1, good_arguments answered /\ blocking (RngRequest A) RngResponse 5 answered start = (Some OK, s1) /\
    opened Wr 100 16 (events s1) = 1%nat /\ closed Wr 100 16 (events s1) = 1%nat.
Proof. eexists. split; [intros t; reflexivity|]. split; [vm_compute; reflexivity|]. split; reflexivity. Qed.
Example C74_direct_case :
  exists s1, do_call (Direct (HbsSign A B) 5) answered start = (Some OK, s1) /\
    events s1 = [Ext 1 OK 0; Dma RdPre 100 16 4196 OK OK; Dma WrPre 200 32 4296 OK OK;
      Sent KPlain [(Rd, 4196, 16); (Wr, 4296, 32)] OK OK; Got (Fails NOTREADY) NOTREADY; Got (Reply true true) OK;
      Dma RdPost 100 16 4196 OK OK; Dma WrPost 200 32 4296 OK OK; Ext 11 OK 0].
Proof. eexists. split; [vm_compute; reflexivity|]. reflexivity. Qed.

Example C74_about_case :
  exists s1, do_call (NvmAddRequest 100 200 7) answered start = (Some OK, s1) /\
    since start s1 (Dma RdPre 100 32 4196 OK OK) /\ since start s1 (Dma RdPre 200 7 4296 OK OK).
Proof.
  eexists. split; [vm_compute; reflexivity|].
  split; eexists; (split; [symmetry; apply app_nil_r|cbn; tauto]).
Qed.

(** After a timeout the buffers are closed although no reply came: the server may still
    write into memory that the application has back. *)
Theorem C74_timeout_refuted :
  exists s, run (world [] 1) [RngRequest A; RngResponse] start = Some s /\
    events s = [Ext 1 OK 0; Dma WrPre 100 16 4196 OK OK; Sent KRng [(Wr, 4196, 16)] OK OK;
                Ext 10 OK 0; Got (Fails NOTREADY) TIMEOUT; Dma WrPost 100 16 4196 OK OK].
Proof. eexists. split; [vm_compute; reflexivity|]. reflexivity. Qed.
Print Assumptions C74_timeout_refuted.

(** A message with a wrong magic number, or a failing transport, closes the buffers
    although the request is still pending; the true reply then arrives for buffers that
    are no longer open, and the call reports success. *)
Theorem C74_pending_closed_refuted :
  exists s1 s2, run (world [BadMagic; Reply true true] 0) [RngRequest A; RngResponse] start = Some s1 /\
    pend s1 = true /\ ~ is_open Wr 100 16 s1 /\
    do_call RngResponse (world [BadMagic; Reply true true] 0) s1 = (Some OK, s2) /\
    opened Wr 100 16 (events s2) = 1%nat /\ closed Wr 100 16 (events s2) = 1%nat.
Proof.
  eexists _, _. split; [vm_compute; reflexivity|]. split; [reflexivity|].
  split; [vm_compute; lia|]. split; [vm_compute; reflexivity|]. split; reflexivity.
Qed.
Print Assumptions C74_pending_closed_refuted.
(** So does a timer that does not start, after the request went out. *)
Theorem C74_timer_refuted :
  let e := mkEnv 4294967295 None None (fun _ => (OK, BADARGS)) (fun _ => Reply true true) (fun _ => 0%Z) (fun _ _ => (OK, 0)) in
  exists s, do_call (RngRequest A) e start = (Some BADARGS, s) /\ pend s = true /\
    events s = [Ext 1 OK 0; Dma WrPre 100 16 100 OK OK; Sent KRng [(Wr, 100, 16)] OK BADARGS; Dma WrPost 100 16 100 OK OK].
Proof. eexists. split; [vm_compute; reflexivity|]. split; reflexivity. Qed.
Print Assumptions C74_timer_refuted.

(** Throwing the pending request away, or cleaning up the client, leaves the buffer
    open; an update of a CMAC without input later closes it in the wrong direction. *)
Theorem C74_abort_refuted :
  got_back Wr 100 16 (run answered [RngRequest A; AbortPending] start) = Some (false, 1%nat, 0%nat) /\
  got_back Wr 100 16 (run answered [RngRequest A; Cleanup] start) = Some (false, 1%nat, 0%nat) /\
  exists s, run (world [Reply true true] 0) [RngRequest A; AbortPending; CmacRequest (mkBuf 0 0); CmacResponse] start = Some s /\
    opened Rd 100 16 (events s) = 0%nat /\ closed Rd 100 16 (events s) = 1%nat.
Proof.
  split; [vm_compute; reflexivity|]. split; [vm_compute; reflexivity|].
  eexists. split; [vm_compute; reflexivity|]. split; reflexivity.
Qed.
Print Assumptions C74_abort_refuted.

(** A Response that belongs to another request takes the reply and closes the buffer in
    the wrong direction. *)
Theorem C74_mispaired_refuted :
  let s := run (world [Reply true true] 0) [RngRequest A; ShaResponse] start in
  got_back Wr 100 16 s = Some (false, 1%nat, 0%nat) /\ got_back Rd 100 16 s = Some (false, 0%nat, 1%nat).
Proof. vm_compute. split; reflexivity. Qed.
Print Assumptions C74_mispaired_refuted.

(** Signing whose first buffer is refused closes both, though none was opened. *)
Definition refusing : env :=
  mkEnv 4294967295 None (Some (mkAllow [] [])) (fun _ => (OK, OK)) (fun _ => Reply true true) (fun _ => 0%Z) (fun _ _ => (OK, 0)).
Theorem C74_close_unopened_refuted :
  exists s, do_call (Direct (Ed25519Sign A B) 1) refusing start = (Some ACCESS, s) /\
    events s = [Ext 1 OK 0; Dma RdPre 100 16 100 OK ACCESS; Dma WrPost 200 32 200 OK OK; Dma RdPost 100 16 100 OK OK].
Proof. eexists. split; [vm_compute; reflexivity|]. reflexivity. Qed.
Print Assumptions C74_close_unopened_refuted.

(** A platform that fails to copy the output back: random numbers, encryption and all
    but the stateful signatures report success. *)
Definition no_copy_back : env :=
  mkEnv 4294967295 (Some (fun _ op a _ => (match op with WrPost => ABORTED | _ => OK end, a))) None
    (fun _ => (OK, OK)) (fun _ => Reply true true) (fun _ => 0%Z) (fun _ _ => (OK, 0)).
Theorem C74_copy_back_refuted :
  let result c s := fst (do_call c no_copy_back s) in
  let after c := snd (do_call c no_copy_back start) in
  result RngResponse (after (RngRequest A)) = Some OK /\
  result AesResponse (after (AesRequest 100 300 16)) = Some OK /\
  result GcmResponse (after (GcmRequest 100 300 16 B)) = Some OK /\
  result (Direct (Ed25519Sign A B) 1) start = Some OK /\
  result (Direct (MlDsaSign A B) 1) start = Some OK /\
  result (Direct (MlKemEncaps A) 1) start = Some OK /\
  result (Direct (HbsSign A B) 1) start = Some ABORTED /\
  result WriteResponse (after (WriteRequest A)) = Some ABORTED.
Proof. vm_compute. repeat split. Qed.
Print Assumptions C74_copy_back_refuted.

(** Reading or adding an object without a buffer but with a length tells the server to
    use address 0. *)
Theorem C74_no_buffer_refuted :
  waiting (tr (snd (do_call (NvmReadRequest 0 16) answered start))) = Some [(Wr, 0, 16)] /\
  waiting (tr (snd (do_call (NvmAddRequest 100 0 16) answered start))) = Some [(Rd, 4196, 32); (Rd, 0, 16)].
Proof. vm_compute. split; reflexivity. Qed.
Print Assumptions C74_no_buffer_refuted.

(** Sending and waiting where the Response refuses its arguments (KeyExportDma without a
    place for the size): it returns with the request pending and the buffer open. *)
Theorem C74_refused_arguments_refuted :
  let e := mkEnv 4294967295 None None (fun _ => (OK, OK)) (fun _ => Reply true true) (fun _ => 0%Z)
             (fun _ k => (OK, if (k =? 10)%nat then 1 else 0)) in
  exists s, blocking (WriteRequest A) WriteResponse 5 e start = (Some BADARGS, s) /\ pend s = true /\ is_open Wr 100 16 s.
Proof. eexists. split; [vm_compute; reflexivity|]. split; [reflexivity|vm_compute; constructor]. Qed.
Print Assumptions C74_refused_arguments_refuted.
End ClDmaExamples.
