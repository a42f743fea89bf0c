(** * C77: logins and user management with several connections

    Specification in [AtSpec], model in [AtModel], proofs in [AtProof]. *)

From Coq Require Import List NArith Bool Arith Lia.
From Verif Require Import AtModel AtSpec AtProof.
Import ListNotations.

Section C77.
Context (h : pin -> list N) (admin : nat -> bool) (may : nat -> op -> bool)
        (ctx : nat -> nat) (mutex : nat -> nat).
Notation run := (run h admin may ctx mutex).

(** Every server with an auth context of its own, and all contexts on one mutex:
    whatever the schedule and whichever locks or storage calls fail, the answers
    are those of requests handled one at a time in the order of the answers; when
    nobody is in a locked section, so are the user table, the credentials and
    the sessions, and no credential is left in the scratch buffer. *)
Theorem C77_one_at_a_time : forall c q sc s,
  (forall i j, ctx i = ctx j -> i = j) -> (forall a b, mutex a = mutex b) ->
  run sc (start c q) = Some s ->
  exists b, history h admin may (closed c) (trace s) b /\
    ((forall i, own s (mutex (ctx i)) = None) ->
       agree b (mkBook (act (shared s)) (cred (shared s)) (fun i => sess (shared s) (ctx i))) /\
       buf (shared s) = None).
Proof.
  intros c q sc s HI HM R.
  destruct (run_inv h admin may ctx mutex HI HM sc (closed c) (closed c) (start c q) s) as (b & V).
  - apply start_inv.
  - exact R.
  - exists b. split; [exact (v_hist _ _ _ _ _ _ _ _ V)|].
    intros F. apply (v_free _ _ _ _ _ _ _ _ V). unfold L. rewrite (HM 0 (ctx 0)). apply F.
Qed.

(** A login that succeeds presented the credential the user was last given. *)
Theorem C77_login : forall c q sc s pre i u p post,
  (forall i j, ctx i = ctx j -> i = j) -> (forall a b, mutex a = mutex b) ->
  run sc (start c q) = Some s ->
  trace s = pre ++ (i, Login u p, LoggedIn) :: post ->
  current h c pre u = Some (h p).
Proof.
  intros c q sc s pre i u p post HI HM R T.
  destruct (C77_one_at_a_time c q sc s HI HM R) as (b & H & _). rewrite T in H.
  apply history_app in H. destruct H as (b1 & H1 & H2).
  inversion H2 as [|? ? ? ? b2 ? ? A _]; subst. inversion A; subst.
  pose proof (history_current h admin may _ _ _ H1 u) as E. cbn in E. congruence.
Qed.

(** A user is logged in twice only if logged out in between. *)
Theorem C77_one_session : forall c q sc s pre i u p mid j p' post,
  (forall i j, ctx i = ctx j -> i = j) -> (forall a b, mutex a = mutex b) ->
  run sc (start c q) = Some s ->
  trace s = pre ++ (i, Login u p, LoggedIn) :: mid ++ (j, Login u p', LoggedIn) :: post ->
  exists k, In (k, Logout u, Done) mid.
Proof.
  intros c q sc s pre i u p mid j p' post HI HM R T.
  destruct (C77_one_at_a_time c q sc s HI HM R) as (b & H & _). rewrite T in H.
  apply history_app in H. destruct H as (b1 & H1 & H2).
  inversion H2 as [|? ? ? ? b2 ? ? A H3]; subst. clear H2.
  apply history_app in H3. destruct H3 as (b3 & H3 & H4).
  inversion H4 as [|? ? ? ? b4 ? ? A' _]; subst.
  assert (O2 : online b2 u = true) by (inversion A; subst; cbn; apply upd_same).
  assert (O3 : online b3 u = false) by (inversion A'; subst; assumption).
  assert (D : (exists k, In (k, Logout u, Done) mid) \/ (forall k, ~ In (k, Logout u, Done) mid)).
  { clear. induction mid as [|e mid IH]; [right; intros k []|].
    destruct IH as [(k & I)|N]; [left; exists k; right; exact I|].
    assert (D : (exists k, e = (k, Logout u, Done)) \/ forall k, e <> (k, Logout u, Done)).
    { destruct e as [[k [|v| |]] []]; try (right; intros k'; discriminate).
      destruct (Nat.eq_dec v u) as [->|Hn]; [left; eauto|right; intros k'; congruence]. }
    destruct D as [(k & ->)|D]; [left; exists k; left; reflexivity|].
    right. intros k [E|I]; [exact (D k E)|exact (N k I)]. }
  destruct D as [D|D]; [exact D|].
  rewrite (history_online h admin may _ _ _ u H3 O2 D) in O3. discriminate.
Qed.

(** Work is done, a credential changed and a user logged out only on a connection
    that is logged in, as a user who may. *)
Theorem C77_acts : forall c q sc s pre i o r post,
  (forall i j, ctx i = ctx j -> i = j) -> (forall a b, mutex a = mutex b) ->
  run sc (start c q) = Some s ->
  trace s = pre ++ (i, o, r) :: post -> r = Done ->
  exists w, session i pre = Some w /\
    match o with
    | Work _ => may w o = true
    | Logout u => w = u \/ admin w = true
    | SetCred u now new => may w o = true /\ (w = u \/ admin w = true) /\
        match now with Some p => current h c pre u = Some (h p) | None => current h c pre u = None end
    | Login _ _ => False
    end.
Proof.
  intros c q sc s pre i o r post HI HM R T ->.
  destruct (C77_one_at_a_time c q sc s HI HM R) as (b & H & _). rewrite T in H.
  apply history_app in H. destruct H as (b1 & H1 & H2).
  inversion H2 as [|? ? ? ? b2 ? ? A _]; subst.
  assert (W : who b1 i = session i pre).
  { rewrite (history_session h admin may _ _ _ i H1). reflexivity. }
  inversion A; subst.
  - exists w. split; [congruence|]. assumption.
  - match goal with X : over _ _ _ _ |- _ => destruct X as (w & E & M) end. exists w. split; [congruence|].
    split; [|split; [exact M|]].
    + match goal with X : allowed _ _ _ _ = true |- _ => unfold allowed in X; rewrite E in X; exact X end.
    + unfold right in *. pose proof (history_current h admin may _ _ _ H1 u) as X. cbn in X.
      rewrite <- X.
      destruct now, (secret b1 u); try contradiction; congruence.
  - rename H into X. unfold allowed in X.
    destruct (who b2 i) as [w|]; [|discriminate X].
    exists w. split; [congruence|exact X].
Qed.

(** Nobody waits for ever, however contexts and mutexes are shared: while a
    request is unanswered some server can take a step, with no failure. *)
Theorem C77_progress : forall c q sc s i,
  run sc (start c q) = Some s -> ph s i <> Idle \/ todo s i <> [] ->
  exists j s', step h admin may ctx mutex j false s = Some s'.
Proof.
  intros c q sc s i R W. apply (progress h admin may ctx mutex s i); [|exact W].
  apply (run_holds h admin may ctx mutex sc (start c q)); [|exact R].
  intros l j E. discriminate.
Qed.

End C77.

(* ------------------------------------------------------------------ *)
(** ** Other set-ups *)

Module AtExamples.

(** User 1 is the administrator, with PIN 1; user 2 has PIN 2 and may do
    anything that is not user management.  The hash is the identity. *)
Definition h (p : pin) : list N := p.
Definition admin (u : nat) : bool := Nat.eqb u 1.
Definition may (u : nat) (o : op) : bool := match o with Work _ => true | _ => admin u end.
Definition c (u : nat) : option (list N) :=
  match u with 1 => Some [1%N] | 2 => Some [2%N] | _ => None end.
Definition two (a b : list op) (i : nat) : list op := match i with 0 => a | 1 => b | _ => [] end.
Definition ok (i n : nat) : list (nat * bool) := repeat (i, false) n.
Definition view (r : option sys) := match r with Some s => Some (trace s) | None => None end.

(** Own contexts, one mutex: two connections log in at once, with moves of the one
    between those of the other, one works, one is refused. *)
Definition sched1 : list (nat * bool) :=
  ok 0 1 ++ ok 1 1 ++ ok 0 3 ++ ok 1 3 ++ ok 0 10 ++ ok 1 7 ++ ok 0 5.
Example serial_case : exists s,
  run h admin may (fun i => i) (fun _ => 0) sched1
      (start c (two [Login 2 [2%N]; Work 5] [Login 1 [2%N]])) = Some s /\
  trace s = [(0, Login 2 [2%N], LoggedIn)] ++ [(1, Login 1 [2%N], Refused); (0, Work 5, Done)].
Proof.
  assert (V : view (run h admin may (fun i => i) (fun _ => 0) sched1
                     (start c (two [Login 2 [2%N]; Work 5] [Login 1 [2%N]]))) =
              Some [(0, Login 2 [2%N], LoggedIn); (1, Login 1 [2%N], Refused); (0, Work 5, Done)]).
  { vm_compute. reflexivity. }
  destruct (run _ _ _ _ _ _ _) as [s|]; [|discriminate]. exists s. split; [reflexivity|].
  injection V as ->. reflexivity.
Qed.

(** Contexts of their own with mutexes of their own (a lock configuration for each
    context): the user table and the scratch buffer are not protected.  Someone
    who presents their own PIN as the administrator's, while they log in as
    themselves over a second connection, is logged in as the administrator. *)
Theorem C77_own_mutex_refuted : exists sc s pre post,
  run h admin may (fun i => i) (fun l => l) sc
      (start c (two [Login 1 [2%N]] [Login 2 [2%N]])) = Some s /\
  trace s = pre ++ (0, Login 1 [2%N], LoggedIn) :: post /\
  current h c pre 1 <> Some (h [2%N]).
Proof.
  assert (V : view (run h admin may (fun i => i) (fun l => l) (ok 0 8 ++ ok 1 8 ++ ok 0 6)
                     (start c (two [Login 1 [2%N]] [Login 2 [2%N]]))) =
              Some [(0, Login 1 [2%N], LoggedIn)]).
  { vm_compute. reflexivity. }
  exists (ok 0 8 ++ ok 1 8 ++ ok 0 6).
  destruct (run _ _ _ _ _ _ _) as [s|]; [|discriminate]. exists s, [], []. split; [reflexivity|].
  injection V as ->. split; [reflexivity|]. vm_compute. discriminate.
Qed.

(** And one user can be logged in twice. *)
Theorem C77_own_mutex_twice_refuted : exists sc s,
  run h admin may (fun i => i) (fun l => l) sc
      (start c (two [Login 2 [2%N]] [Login 2 [2%N]])) = Some s /\
  trace s = [(0, Login 2 [2%N], LoggedIn); (1, Login 2 [2%N], LoggedIn)].
Proof.
  assert (V : view (run h admin may (fun i => i) (fun l => l) (ok 0 11 ++ ok 1 7 ++ ok 1 4 ++ ok 0 3 ++ ok 1 3)
                     (start c (two [Login 2 [2%N]] [Login 2 [2%N]]))) =
              Some [(0, Login 2 [2%N], LoggedIn); (1, Login 2 [2%N], LoggedIn)]).
  { vm_compute. reflexivity. }
  exists (ok 0 11 ++ ok 1 7 ++ ok 1 4 ++ ok 0 3 ++ ok 1 3).
  destruct (run _ _ _ _ _ _ _) as [s|]; [|discriminate]. exists s. split; [reflexivity|].
  injection V as ->. reflexivity.
Qed.

(** One context for all servers: its lock protects the table, but the session is
    everybody's.  A connection on which nobody has logged in works as the user
    another connection logged in as. *)
Theorem C77_shared_context_refuted : exists sc s pre,
  run h admin may (fun _ => 0) (fun l => l) sc
      (start c (two [Login 2 [2%N]] [Work 5])) = Some s /\
  trace s = pre ++ [(1, Work 5, Done)] /\ session 1 pre = None.
Proof.
  assert (V : view (run h admin may (fun _ => 0) (fun l => l) (ok 0 14 ++ ok 1 5)
                     (start c (two [Login 2 [2%N]] [Work 5]))) =
              Some ([(0, Login 2 [2%N], LoggedIn)] ++ [(1, Work 5, Done)])).
  { vm_compute. reflexivity. }
  exists (ok 0 14 ++ ok 1 5).
  destruct (run _ _ _ _ _ _ _) as [s|]; [|discriminate]. exists s, [(0, Login 2 [2%N], LoggedIn)]. split; [reflexivity|].
  injection V as ->. split; [reflexivity|]. reflexivity.
Qed.

(** There the gate and the work are apart: a request that has passed the gate is
    carried out after the session has been closed. *)
Theorem C77_shared_gate_refuted : exists sc s pre,
  run h admin may (fun _ => 0) (fun l => l) sc
      (start c (two [Login 2 [2%N]; Work 5] [Logout 2])) = Some s /\
  trace s = pre ++ [(1, Logout 2, Done)] ++ [(0, Work 5, Done)].
Proof.
  assert (V : view (run h admin may (fun _ => 0) (fun l => l) (ok 0 18 ++ ok 1 9 ++ ok 0 1)
                     (start c (two [Login 2 [2%N]; Work 5] [Logout 2]))) =
              Some ([(0, Login 2 [2%N], LoggedIn)] ++ [(1, Logout 2, Done)] ++ [(0, Work 5, Done)])).
  { vm_compute. reflexivity. }
  exists (ok 0 18 ++ ok 1 9 ++ ok 0 1).
  destruct (run _ _ _ _ _ _ _) as [s|]; [|discriminate]. exists s, [(0, Login 2 [2%N], LoggedIn)]. split; [reflexivity|].
  injection V as ->. reflexivity.
Qed.

End AtExamples.

Print Assumptions C77_one_at_a_time.
Print Assumptions C77_login.
Print Assumptions C77_one_session.
Print Assumptions C77_acts.
Print Assumptions C77_progress.
Print Assumptions AtExamples.C77_own_mutex_refuted.
Print Assumptions AtExamples.C77_own_mutex_twice_refuted.
Print Assumptions AtExamples.C77_shared_context_refuted.
Print Assumptions AtExamples.C77_shared_gate_refuted.
