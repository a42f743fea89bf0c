(** Property C16 (and C52 for this transport): the shared-memory transport.  Every
    theorem holds for all sizes of the two areas, all messages, all start values of
    the 16-bit notify counters and all schedules of the two threads, down to the
    single memory access, with the client giving up waiting whenever it likes. *)
From Verif Require Import MemModel MemSpec MemProof.
Local Open Scope N_scope.

(** The calls behave as those of an ideal exchange ([MemSpec.chan_step]); in
    particular a call that starts when it can succeed is not refused. *)
Theorem C16_ideal_exchange : forall RQ RS xs s tr s',
  started RQ RS s -> mrun RQ RS xs s = (tr, s') -> exists c, chan_run empty tr c.
Proof. exact mem_refines_chan. Qed.
Print Assumptions C16_ideal_exchange.

(** What the server receives is the client's last request, with its length and
    its bytes as far as the buffer goes, and it has not been answered. *)
Theorem C16_server_receives_last_request : forall RQ RS xs s tr s' j cap len d,
  started RQ RS s -> mrun RQ RS xs s = (tr, s') ->
  nth_error tr j = Some (EvGot Server cap len d) ->
  exists i q, (i < j)%nat /\ nth_error tr i = Some (EvSent Client q) /\ len = length q /\ d = firstn cap q /\
    forall k w, (i < k < j)%nat -> ~ sent_at w tr k.
Proof. intros RQ RS xs s tr s' j cap len d HS HR. destruct (mem_refines_chan _ _ _ _ _ _ HS HR) as (c & H). apply (server_gets _ _ H). Qed.
Print Assumptions C16_server_receives_last_request.

(** Each answer is to the last request, which the server has received, and is the
    only answer to it; and there is an answer between any two requests. *)
Theorem C16_one_answer_per_request : forall RQ RS xs s tr s',
  started RQ RS s -> mrun RQ RS xs s = (tr, s') ->
  (forall j r, nth_error tr j = Some (EvSent Server r) ->
    exists i g q cap len d, (i < g < j)%nat /\ nth_error tr i = Some (EvSent Client q) /\
      nth_error tr g = Some (EvGot Server cap len d) /\
      forall k w, (i < k < j)%nat -> ~ sent_at w tr k) /\
  (forall i j q q', (i < j)%nat -> nth_error tr i = Some (EvSent Client q) -> nth_error tr j = Some (EvSent Client q') ->
    exists k, (i < k < j)%nat /\ sent_at Server tr k).
Proof.
  intros RQ RS xs s tr s' HS HR. destruct (mem_refines_chan _ _ _ _ _ _ HS HR) as (c & H).
  split; [apply (server_answers _ _ H)|apply (client_sends _ _ H)].
Qed.
Print Assumptions C16_one_answer_per_request.

(** What the client receives is the answer to its last request, with its length and
    bytes, and it receives it once. *)
Theorem C16_client_receives_its_answer_once : forall RQ RS xs s tr s',
  started RQ RS s -> mrun RQ RS xs s = (tr, s') ->
  (forall j cap len d, nth_error tr j = Some (EvGot Client cap len d) ->
    exists i k q r, (i < k < j)%nat /\ nth_error tr i = Some (EvSent Client q) /\ nth_error tr k = Some (EvSent Server r) /\
      len = length r /\ d = firstn cap r /\ forall n w, (i < n < j)%nat -> n <> k -> ~ sent_at w tr n) /\
  (forall i j cap len d cap' len' d', (i < j)%nat ->
    nth_error tr i = Some (EvGot Client cap len d) -> nth_error tr j = Some (EvGot Client cap' len' d') ->
    exists k, (i < k < j)%nat /\ sent_at Client tr k).
Proof.
  intros RQ RS xs s tr s' HS HR. destruct (mem_refines_chan _ _ _ _ _ _ HS HR) as (c & H).
  split; [apply (client_gets _ _ H)|apply (client_gets_once _ _ H)].
Qed.
Print Assumptions C16_client_receives_its_answer_once.

(** With any value in the peer's length field, a receive copies no more than the
    caller's buffer holds and reads no further than the shared area. *)
Theorem C16_copy_bounds : forall len cap area,
  (copy_len len cap area <= cap)%nat /\ (copy_len len cap area <= area)%nat.
Proof. intros. pose proof (copy_len_le len cap area). tauto. Qed.
Print Assumptions C16_copy_bounds.

(** C52, shared memory: after a request is abandoned, a send is refused with
    NOTREADY only if the server has not answered the abandoned request when the send
    starts; the answer received then is the one to the new request
    ([C16_client_receives_its_answer_once]). *)
Definition by_client (e : ev) : Prop :=
  match e with EvCall Client _ | EvSent Client _ | EvGot Client _ _ _ | EvErr Client _ | EvAbort => True | _ => False end.
(** The client's call at position [i] returns at position [j]. *)
Definition returns_at (tr : list ev) (i j : nat) : Prop :=
  (i < j)%nat /\ forall k e, (i < k < j)%nat -> nth_error tr k = Some e -> ~ by_client e.
Theorem C52_mem_send_after_abort : forall RQ RS xs s tr s' i j d rc,
  started RQ RS s -> mrun RQ RS xs s = (tr, s') ->
  nth_error tr i = Some (EvCall Client (Some d)) ->
  (forall k, (k < i)%nat -> sent_at Client tr k -> exists k', (k < k' < i)%nat /\ sent_at Server tr k') ->
  returns_at tr i j -> nth_error tr j = Some (EvErr Client rc) -> rc = BADARGS.
Proof.
  intros RQ RS xs s tr s' i j d rc HS HR Hi HA [Hij HN] Hj. destruct (mem_refines_chan _ _ _ _ _ _ HS HR) as (c & H).
  (* the exchange is empty at the call *)
  assert (Li : (S i <= length tr)%nat) by (apply nth_error_Some; congruence).
  destruct (chan_prefix _ _ _ (S i) H Li) as (c1 & H1 & H2).
  assert (M : cl_must c1 = true).
  { replace (firstn (S i) tr) with (firstn i tr ++ [EvCall Client (Some d)]) in H1.
    - destruct (run_snoc _ _ _ _ H1) as (x & X & S2). cbn in S2. subst c1. cbn.
      pose proof (chan_state _ _ X) as T. unfold tells in T. destruct (flight x) as [q|]; [|reflexivity].
      destruct T as (n & A & B & _). destruct (firstn_nth _ _ _ _ A) as [A1 A2].
      destruct (HA n A2) as (k' & K1 & (r & K2)); [exists q; auto|]. exfalso. apply (B k' Server); [lia|].
      exists r. apply nth_firstn; [auto|lia].
    - rewrite (firstn_S_nth EvAbort) by lia. f_equal. f_equal. symmetry. now apply nth_error_nth. }
  (* and the obligation lasts until the call returns *)
  assert (K : forall es c1 c2 n, chan_run c1 es c2 -> cl_must c1 = true -> nth_error es n = Some (EvErr Client rc) ->
     (forall k e, (k < n)%nat -> nth_error es k = Some e -> ~ by_client e) -> rc = BADARGS).
  { clear. intros es. induction es as [|e es IH]; intros c1 c2 n R HM Hn HN; [destruct n; discriminate|].
    inversion R as [|? ? cc ? ? R1 R2]; subst. destruct n as [|n]; cbn [nth_error] in Hn.
    - injection Hn as ->. cbn in R1. destruct R1 as [[[_ X]|X] _]; [congruence|auto].
    - assert (D : cl_must cc = true).
      { assert (NB : ~ by_client e) by (apply (HN 0%nat); [lia|reflexivity]).
        destruct e as [[] op|[] x|[] a b x|[] r|]; cbn in NB; try (exfalso; exact (NB I)); cbn in R1.
        - destruct op; subst; exact HM.
        - destruct R1 as (_ & _ & ->). exact HM.
        - destruct R1 as (q & _ & _ & _ & ->). exact HM.
        - destruct R1 as (_ & ->). exact HM. }
      apply (IH _ _ _ R2 D Hn). intros k e' Hk He. apply (HN (S k)); [lia|exact He]. }
  assert (NS : forall k, nth_error (skipn (S i) tr) k = nth_error tr (S i + k)).
  { intros k. rewrite <- (firstn_skipn (S i) tr) at 2. rewrite nth_error_app2; rewrite firstn_length; [|lia].
    f_equal. lia. }
  apply (K _ _ _ (j - S i)%nat H2 M).
  - rewrite NS. replace (S i + (j - S i))%nat with j by lia. auto.
  - intros k e Hk He. rewrite NS in He. apply (HN (S i + k)%nat); [lia|auto].
Qed.
Print Assumptions C52_mem_send_after_abort.

(** A concrete run over the wrap of the notify counter: a request of two bytes is
    abandoned, a send is refused while it is unanswered, the server answers it, the
    next request goes out and its answer, not the old one, comes back. *)
Definition ex_start : st := mkSt (mkM 65535 7 [9;9;9;9] 65535 7 [8;8;8;8]) PIdle PIdle false false.
Definition turns (n : nat) (w : who) : list (who * cmd) := repeat (w, DoNothing) n.
Definition ex_schedule : list (who * cmd) :=
  (Client, DoSend [1;2]) :: (Server, DoRecv 4) :: turns 3 Client ++ turns 2 Server ++ turns 2 Client ++
  [(Client, DoAbort); (Client, DoSend [3])] ++ turns 1 Client ++ (Server, DoRecv 4) :: turns 5 Server ++
  [(Server, DoSend [5;6])] ++ turns 5 Server ++ turns 1 Client ++
  [(Client, DoSend [3])] ++ turns 4 Client ++ [(Server, DoRecv 4)] ++ turns 4 Server ++ [(Server, DoSend [7])] ++
  turns 4 Server ++ [(Client, DoRecv 4)] ++ turns 4 Client.
Example C16_run :
  started 4 4 ex_start /\
  fst (mrun 4 4 ex_schedule ex_start) =
    [EvCall Client (Some [1;2]); EvCall Server None; EvErr Server NOTREADY; EvSent Client [1;2];
     EvAbort; EvCall Client (Some [3]); EvCall Server None; EvGot Server 4 2 [1;2];
     EvCall Server (Some [5;6]); EvSent Server [5;6]; EvErr Client NOTREADY;
     EvCall Client (Some [3]); EvSent Client [3]; EvCall Server None; EvGot Server 4 1 [3];
     EvCall Server (Some [7]); EvSent Server [7]; EvCall Client None; EvGot Client 4 1 [7]].
Proof.
  split; [|vm_compute; reflexivity].
  exists 65535, 7%nat, [9;9;9;9], 7%nat, [8;8;8;8]. repeat split; reflexivity.
Qed.
