(** * C76: several servers sharing one NVM and key cache

    The specification is in [LkSpec]; the model of what every request does in
    [LkModel]; the proofs in [LkProof] and [LkConc]. *)

From Coq Require Import List ZArith Lia Bool.
From Verif Require Import Base LkModel LkSpec LkProof LkConc.
Import ListNotations.
Local Open Scope Z_scope.

(* ------------------------------------------------------------------ *)
(** ** One request *)

(** Whatever its choices and the store's answers, a request other than "make
    ECC public key" and "check ECC public key" touches the key cache and the NVM
    only while it holds the NVM lock, and the global verify cache only while it
    holds that one's lock. *)
Theorem C76_locked : forall g q o t b,
  unlocked_req q = false -> trace (handler g q) o = (t, b) -> guarded t.
Proof.
  intros g q o t b HU E.
  refine (proj1 (takes_trace true false (visits q) (handler g q) o t b _ E) eq_refl).
  apply handler_takes; [rewrite HU; discriminate|reflexivity].
Qed.

(** Every request takes and releases its locks in pairs, never waits for a lock
    it already holds, never waits for anything while it holds the verify
    cache's lock, and holds nothing when it answers. *)
Theorem C76_balanced : forall g q o t b,
  trace (handler g q) o = (t, b) ->
  no_self_wait t /\ ordered t /\ paired t /\
  (b = true -> held Nvm t = false /\ held Vc t = false).
Proof.
  intros g q o t b E.
  destruct (takes_trace false false (visits q) (handler g q) o t b) as (_ & A & B & C & _ & D).
  - apply handler_takes; auto.
  - exact E.
  - auto.
Qed.

(** How often a request takes the NVM lock. *)
Theorem C76_visits : forall g q o t b,
  trace (handler g q) o = (t, b) -> (visits_of t <= visits q)%nat.
Proof.
  intros g q o t b E.
  destruct (takes_trace false false (visits q) (handler g q) o t b) as (_ & _ & _ & _ & V & _).
  - apply handler_takes; auto.
  - exact E.
  - exact V.
Qed.

(** A server application that brackets its own image verification with the lock
    gets the same guarantees for it. *)
Theorem C76_image : forall g key sg root leaf o t b,
  trace (locked (img_verify g key sg root leaf)) o = (t, b) ->
  guarded t /\ no_self_wait t /\ ordered t /\ paired t /\ (visits_of t <= 1)%nat /\
  (b = true -> held Nvm t = false /\ held Vc t = false).
Proof.
  intros g key sg root leaf o t b E.
  destruct (takes_trace true true 1 (locked (img_verify g key sg root leaf)) o t b)
    as (A & B & C & D & F & G).
  - apply takes_locked, k_img_verify.
  - exact E.
  - auto 10.
Qed.

(* ------------------------------------------------------------------ *)
(** ** Several servers, any schedule *)

(** Two servers are never both about to touch what one lock protects, and the
    one that is holds that lock. *)
Theorem C76_exclusive : forall X (sem : nat -> acc -> Z -> X -> Z * X) g x q sc s,
  (forall i r, In r (q i) -> unlocked_req r = false) ->
  run sem g sc (start x q) = Some s ->
  (forall i a v k, cur (srv s i) = Some (Use a v k) -> own (guard a) s = Some i) /\
  (forall i j a b v w k k', cur (srv s i) = Some (Use a v k) ->
     cur (srv s j) = Some (Use b w k') -> guard a = guard b -> i = j).
Proof.
  intros X sem g x q sc s HU HR.
  assert (HI : InvA X true s).
  { refine (run_invA X sem g true sc _ s (start_invA X true x q _) HR).
    intros i. apply Forall_forall. intros r Hr _. exact (HU i r Hr). }
  assert (E : forall i a v k, cur (srv s i) = Some (Use a v k) -> own (guard a) s = Some i).
  { intros i a v k Hc. exact (exclusiveA X true s i a v k eq_refl HI Hc). }
  split; [exact E|].
  intros i j a b v w k k' Hi Hj G. pose proof (E _ _ _ _ Hi) as Ei. pose proof (E _ _ _ _ Hj) as Ej.
  rewrite G in Ei. congruence.
Qed.

(** No deadlock: whatever has happened so far, all requests of all servers can
    still be answered, and then no lock is held.  (All requests, including the
    two that do not lock.) *)
Theorem C76_completes : forall X (sem : nat -> acc -> Z -> X -> Z * X) g x q n sc s,
  (forall i, (n <= i)%nat -> q i = []) ->
  run sem g sc (start x q) = Some s ->
  exists sc' s', run sem g sc' s = Some s' /\ finished s' /\ free s'.
Proof.
  intros X sem g x q n sc s HQ HR.
  assert (HI : InvA X false s).
  { refine (run_invA X sem g false sc _ s (start_invA X false x q _) HR).
    intros i. apply Forall_forall. intros r _ E. discriminate. }
  apply (completesA X sem g false n s HI).
  apply (run_others X sem g sc (start x q) s n HR).
  intros i Hi. split; [reflexivity|]. exact (HQ i Hi).
Qed.

(** Every run is equivalent to one in which the servers take turns: nobody else
    moves during a turn, no lock is held between turns, and a request that takes
    at most one visit is one whole turn.  Equivalent: same store, same answers
    from the store to every server, same replies. *)
Theorem C76_in_turns : forall X (sem : nat -> acc -> Z -> X -> Z * X) g x q sc s,
  (forall i r, In r (q i) -> unlocked_req r = false /\ cache_only g r = false) ->
  run sem g sc (start x q) = Some s -> finished s ->
  exists turns s', in_turns sem g (start x q) turns s' /\ same s s'.
Proof.
  intros X sem g x q sc s HA HR HF.
  apply (serial X sem g x q sc s); auto.
  intros i. apply Forall_forall. intros r Hr. exact (HA i r Hr).
Qed.

(** If no request takes more than one visit, every run is equivalent to handling
    whole requests one at a time, in some order that keeps each server's own. *)
Theorem C76_one_at_a_time : forall X (sem : nat -> acc -> Z -> X -> Z * X) g x q sc s,
  (forall i r, In r (q i) ->
     unlocked_req r = false /\ cache_only g r = false /\ (visits r <= 1)%nat) ->
  run sem g sc (start x q) = Some s -> finished s ->
  exists s', one_at_a_time sem g (start x q) s' /\ same s s'.
Proof.
  intros X sem g x q sc s HA HR HF.
  apply (serial_whole X sem g x q sc s); auto.
  - intros i. apply Forall_forall. intros r Hr. destruct (HA i r Hr) as (A & B & _). split; auto.
  - intros i r Hr. apply (HA i r Hr).
Qed.

(* ------------------------------------------------------------------ *)
(** ** What fails *)

(** A key cache of one slot and an empty NVM, small enough to run.  The content
    is 0 (empty) or 100 * version + key id; a key written by a client has version 1. *)
Definition toy (i : nat) (a : acc) (v x : Z) : Z * Z :=
  match a with
  | KFind => (if andb (negb (x =? 0)) (x mod 100 =? v) then 0 else NOTFOUND, x)
  | KAlloc => if x =? 0 then (0, 100 + v) else (NOSPACE, x)
  | KGet => (x, x)
  | KPut => (0, 100 + x mod 100)
  | KDrop => (0, 0)
  | _ => (NOTFOUND, x)
  end.

Definition two (a b : list req) (i : nat) : list req :=
  match i with O => a | S O => b | _ => [] end.

Definition view (r : option (sys Z)) :=
  match r with
  | Some s => Some (store_of s, nvm_own s, vc_own s,
                    (todo (srv s 0), seen (srv s 0), done (srv s 0)),
                    (todo (srv s 1), seen (srv s 1), done (srv s 1)),
                    match cur (srv s 0), cur (srv s 1) with None, None => true | _, _ => false end)
  | None => None
  end.

Lemma two_finished : forall g x a b sc s y n v l0 m0 l1 m1,
  run toy g sc (start x (two a b)) = Some s ->
  view (Some s) = Some (y, n, v, ([], l0, m0), ([], l1, m1), true) ->
  finished s.
Proof.
  intros g x a b sc s y n v l0 m0 l1 m1 HR HV. cbn [view] in HV.
  injection HV as _ _ _ T0 _ _ T1 _ _ HC.
  intros [|[|i]].
  - unfold idle. destruct (cur (srv s 0)); [discriminate|]. auto.
  - unfold idle. destruct (cur (srv s 0)); [discriminate|].
    destruct (cur (srv s 1)); [discriminate|]. auto.
  - apply (run_others Z toy g sc (start x (two a b)) s 2 HR); [|lia].
    intros [|[|j]] Hj; [lia|lia|]. split; reflexivity.
Qed.

Definition v0 (n : nat) : list (nat * Z) := repeat (0%nat, 0) n.
Definition v1 (n : nat) : list (nat * Z) := repeat (1%nat, 0) n.


(** While server [i] moves alone, the others keep their state. *)
Lemma whole_other : forall g i vs s s',
  run toy g (map (pair i) vs) s = Some s' ->
  forall j, j <> i -> srv s' j = srv s j.
Proof.
  intros g i vs. induction vs as [|v vs IH]; intros s s' R j Hj; cbn [map run] in R.
  - congruence.
  - destruct (step toy g i v s) as [s1|] eqn:E; [|discriminate].
    rewrite (IH _ _ R j Hj). apply (step_other Z toy g i v s s1 j E Hj).
Qed.

Lemma unique_S : forall n id,
  unique_id (S n) id =
  bind (find id) (fun s =>
  if 0 <=? s then unique_id n (id - 1)
  else if negb (s =? NOTFOUND) then Ret s else
  bind (use NMeta id) (fun m =>
  if m =? NOTFOUND then Ret (Z.abs id) else if m <? 0 then Ret m else unique_id n (id - 1))).
Proof. reflexivity. Qed.
Definition unique_255 := unique_S 254.
Definition unique_254 := unique_S 253.

Ltac walk := repeat first
  [ progress intros
  | progress cbn [alone bind toy fst snd handler use check maybe locked
                  h_ecc_makepub h_ecc_check h_use h_key_cache export freshen find get_slot
                  evict mark policy get_slot_checked pick_id cache_with cache_key_checked
                  export_enforce evict_locked app]
  | rewrite unique_255 | rewrite unique_254
  | match goal with |- context [if ?b then _ else _] =>
      let b' := eval vm_compute in b in
      first [constr_eq b' true; change b with true
            |constr_eq b' false; change b with false
            |destruct b eqn:?] end ].

(** "Make ECC public key" is not atomic, nor is "check ECC public key": with
    key 7 in the slot, one server has looked it up, another evicts it and caches
    key 8, and the first then reads key 8 as its key 7.  No order of whole
    requests gives that. *)
Definition ecc_sched : list (nat * Z) := v0 4 ++ v1 31 ++ v0 7.

Lemma ecc_alone : forall g r x,
  r = EccMakePub 7 \/ r = EccCheckPub 7 ->
  alone Z toy 0 (handler g r) x [] (fun seen _ _ => ~ In 108 seen).
Proof.
  intros g r x [-> | ->]; walk.
  all: repeat match goal with H : _ && _ = true |- _ => apply andb_true_iff in H; destruct H end.
  all: cbn [In]; intuition; try discriminate.
  all: subst; try discriminate.
  Qed.

Theorem C76_ecc_refuted : forall g r, r = EccMakePub 7 \/ r = EccCheckPub 7 ->
  exists s,
    run toy g ecc_sched (start 7 (two [r] [KeyEvict 7; KeyCache 8])) = Some s /\
    finished s /\
    forall s', one_at_a_time toy g (start 7 (two [r] [KeyEvict 7; KeyCache 8])) s' ->
               ~ same s s'.
Proof.
  intros g r Hr.
  assert (V : view (run toy g ecc_sched (start 7 (two [r] [KeyEvict 7; KeyCache 8]))) =
              Some (108, None, None, ([], [0; 108; 108; -2104], [0]),
                    ([], [0; 7; 0; 7; 0; 0; -2104; -2104; -2104; 0; 0; 0; 0], [0; 0]), true)).
  { destruct Hr as [-> | ->]; destruct g; vm_compute; reflexivity. }
  destruct (run toy g ecc_sched (start 7 (two [r] [KeyEvict 7; KeyCache 8]))) as [s|] eqn:R;
    [|discriminate].
  exists s. split; [reflexivity|]. split; [exact (two_finished _ _ _ _ _ _ _ _ _ _ _ _ _ R V)|].
  intros s' HO HS.
  assert (S0 : In 108 (seen (srv s' 0))).
  { destruct HS as (_ & _ & _ & E). rewrite <- E. cbn [view] in V.
    injection V as _ _ _ _ -> _ _ _ _ _. right; left; reflexivity. }
  clear V R HS s.
  assert (J : (todo (srv (start 7 (two [r] [KeyEvict 7; KeyCache 8])) 0) = [r] /\
               seen (srv (start 7 (two [r] [KeyEvict 7; KeyCache 8])) 0) = []) \/
              (todo (srv (start 7 (two [r] [KeyEvict 7; KeyCache 8])) 0) = [] /\
               ~ In 108 (seen (srv (start 7 (two [r] [KeyEvict 7; KeyCache 8])) 0)))).
  { left. split; reflexivity. }
  revert J S0. generalize (start 7 (two [r] [KeyEvict 7; KeyCache 8])) HO. clear HO.
  intros s0 HO. induction HO as [s|s i vs q s1 s2 HR HF HF1 Hi Hi1 Ht HO IH]; intros J S0.
  - destruct J as [[_ E]|[_ E]]; [rewrite E in S0; destruct S0|exact (E S0)].
  - apply IH; [|exact S0]. clear IH S0.
    destruct (Nat.eq_dec i 0) as [->|Hn].
    + right. destruct J as [[E1 E2]|[E _]]; [|rewrite E in Ht; discriminate].
      rewrite E1 in Ht. injection Ht as <- Ht. split; [congruence|].
      destruct (alone_turn Z toy g vs 0 r s s1 (fun seen _ _ => ~ In 108 seen) HR Hi Hi1)
        as (rc & _ & A).
      * rewrite E1, <- Ht. reflexivity.
      * rewrite E2. apply ecc_alone, Hr.
      * exact A.
    + rewrite (whole_other g i vs s s1 HR 0%nat) by congruence. exact J.
Qed.

(** A request of two visits is not atomic as a whole: with key 7 in the slot, a
    server has read it for an operation that uses a key up (it is to be evicted
    afterwards); before the eviction another server replaces key 7, and is told
    that it succeeded; the eviction then removes the replacement.  No order of
    whole requests both uses the old key and loses the new one. *)
Definition evict_sched : list (nat * Z) := v0 14 ++ v1 23 ++ v0 7.

Lemma use_alone : forall g x, x = 7 \/ x = 107 ->
  alone Z toy 0 (handler g (UseKey 7)) x []
        (fun seen _ x' => (x = 107 -> ~ In 7 seen) /\ (x' = 0 \/ x' = x)).
Proof.
  intros g x [-> | ->]; walk.
  all: cbn [In]; split; [intros E|]; intuition; try discriminate.
  Qed.

Lemma cache_alone : forall g x, x = 0 \/ x = 7 ->
  alone Z toy 1 (handler g (KeyCache 7)) x []
        (fun _ rc x' => (rc = 0 -> x' = 107) /\ (x = 7 -> x' = 7 \/ x' = 107)).
Proof.
  intros g x [-> | ->]; walk.
  all: split; intros E; try congruence; subst; try discriminate.
  all: vm_compute; auto.
Qed.

Theorem C76_evict_refuted : forall g,
  exists s,
    run toy g evict_sched (start 7 (two [UseKey 7] [KeyCache 7])) = Some s /\
    finished s /\
    forall s', one_at_a_time toy g (start 7 (two [UseKey 7] [KeyCache 7])) s' -> ~ same s s'.
Proof.
  intros g.
  assert (V : view (run toy g evict_sched (start 7 (two [UseKey 7] [KeyCache 7]))) =
              Some (0, None, None, ([], [0; 7; 0; 7; 7; 0; 0], [0]),
                    ([], [0; 7; 0; 7; 0; 0; 0; 0; 0; 0; 0], [0]), true)).
  { destruct g; vm_compute; reflexivity. }
  destruct (run toy g evict_sched (start 7 (two [UseKey 7] [KeyCache 7]))) as [s|] eqn:R;
    [|discriminate].
  exists s. split; [reflexivity|]. split; [exact (two_finished _ _ _ _ _ _ _ _ _ _ _ _ _ R V)|].
  intros s' HO HS.
  assert (S0 : store_of s' = 0 /\ In 7 (seen (srv s' 0)) /\ done (srv s' 1) = [0]).
  { destruct HS as (E0 & _ & _ & E). rewrite <- E0, <- !E. cbn [view] in V.
    injection V as -> _ _ _ -> _ _ _ -> _. repeat split. right; left; reflexivity. }
  clear V R HS s.
  set (J := fun s : sys Z => (forall i, todo (srv s (S (S i))) = []) /\ (
    (todo (srv s 0) = [UseKey 7] /\ seen (srv s 0) = [] /\
     todo (srv s 1) = [KeyCache 7] /\ seen (srv s 1) = [] /\ done (srv s 1) = [] /\
     store_of s = 7) \/
    (todo (srv s 0) = [UseKey 7] /\ seen (srv s 0) = [] /\ todo (srv s 1) = [] /\
     (store_of s = 7 \/ store_of s = 107) /\ (done (srv s 1) = [0] -> store_of s = 107)) \/
    (todo (srv s 0) = [] /\ todo (srv s 1) = [KeyCache 7] /\ seen (srv s 1) = [] /\
     done (srv s 1) = [] /\ (store_of s = 0 \/ store_of s = 7)) \/
    (todo (srv s 0) = [] /\ todo (srv s 1) = [] /\
     (done (srv s 1) = [0] -> In 7 (seen (srv s 0)) -> store_of s = 107)))).
  assert (HJ : J (start 7 (two [UseKey 7] [KeyCache 7]))).
  { split; [reflexivity|]. left. repeat split. }
  revert HJ S0. generalize (start 7 (two [UseKey 7] [KeyCache 7])) HO. clear HO.
  intros s0 HO. induction HO as [s|s i vs q s1 s2 HR HF HF1 Hi Hi1 Ht HO IH]; intros HJ S0.
  - unfold J in HJ.
    destruct HJ as [_ [HJ|[HJ|[HJ|HJ]]]]; destruct S0 as (A & B & C).
    + destruct HJ as (_ & E & _). rewrite E in B. destruct B.
    + destruct HJ as (_ & E & _). rewrite E in B. destruct B.
    + destruct HJ as (_ & _ & _ & E & _). congruence.
    + destruct HJ as (_ & _ & E). specialize (E C B). congruence.
  - apply IH; [|exact S0]. clear IH S0. unfold J in HJ |- *.
    destruct HJ as [HN HJ].
    destruct i as [|[|i]]; [| |rewrite HN in Ht; discriminate].
    all: split; [intros j; rewrite (whole_other g _ vs s s1 HR _) by lia; apply HN|].
    + (* server 0 *)
      pose proof (whole_other g 0 vs s s1 HR 1%nat ltac:(lia)) as O1. rewrite O1.
      assert (A : forall x, x = 7 \/ x = 107 -> store_of s = x -> seen (srv s 0) = [] ->
                  q = UseKey 7 -> (x = 107 -> ~ In 7 (seen (srv s1 0))) /\
                                  (store_of s1 = 0 \/ store_of s1 = x)).
      { intros x Hx Ex Es Eq. subst q.
        destruct (alone_turn Z toy g vs 0 (UseKey 7) s s1
                    (fun seen _ x' => (x = 107 -> ~ In 7 seen) /\ (x' = 0 \/ x' = x)) HR Hi Hi1 Ht)
          as (rc & _ & A); [|exact A].
        rewrite Es, Ex. apply use_alone, Hx. }
      destruct HJ as [HJ|[HJ|[HJ|HJ]]].
      * destruct HJ as (T & Sn & T1 & Sn1 & D1 & St). rewrite T in Ht. injection Ht as Eq Ht.
        right; right; left. destruct (A 7 (or_introl eq_refl) St Sn (eq_sym Eq)) as (_ & A2). auto 10.
      * destruct HJ as (T & Sn & T1 & St & D1). rewrite T in Ht. injection Ht as Eq Ht.
        right; right; right. split; [congruence|]. split; [exact T1|]. intros D I7.
        specialize (D1 D). destruct (A 107 (or_intror eq_refl) D1 Sn (eq_sym Eq)) as (A1 & _).
        destruct (A1 eq_refl I7).
      * destruct HJ as (T & _). rewrite T in Ht. discriminate.
      * destruct HJ as (T & _). rewrite T in Ht. discriminate.
    + (* server 1 *)
      pose proof (whole_other g 1 vs s s1 HR 0%nat ltac:(lia)) as O0. rewrite O0.
      assert (A : store_of s = 0 \/ store_of s = 7 -> seen (srv s 1) = [] -> done (srv s 1) = [] ->
                  q = KeyCache 7 ->
                  (done (srv s1 1) = [0] -> store_of s1 = 107) /\
                  (store_of s = 7 -> store_of s1 = 7 \/ store_of s1 = 107)).
      { intros Hx Es Ed Eq. subst q.
        destruct (alone_turn Z toy g vs 1 (KeyCache 7) s s1
                    (fun _ rc x' => (rc = 0 -> x' = 107) /\
                                    (store_of s = 7 -> x' = 7 \/ x' = 107)) HR Hi Hi1 Ht)
          as (rc & D & A1 & A2).
        - rewrite Es. apply cache_alone, Hx.
        - split; [|exact A2]. intros E. apply A1. rewrite Ed in D. cbn [app] in D. congruence. }
      destruct HJ as [HJ|[HJ|[HJ|HJ]]].
      * destruct HJ as (T & Sn & T1 & Sn1 & D1 & St). rewrite T1 in Ht. injection Ht as Eq Ht.
        right; left. destruct (A (or_intror St) Sn1 D1 (eq_sym Eq)) as (A1 & A2). auto 10.
      * destruct HJ as (T & Sn & T1 & _). rewrite T1 in Ht. discriminate.
      * destruct HJ as (T & T1 & Sn1 & D1 & St). rewrite T1 in Ht. injection Ht as Eq Ht.
        right; right; right. destruct (A St Sn1 D1 (eq_sym Eq)) as (A1 & A2). auto 10.
      * destruct HJ as (T & T1 & _). rewrite T1 in Ht. discriminate.
Qed.

(** Image verification does not take the lock itself: an application that calls
    it while other servers run, without bracketing it, reads the store unlocked. *)
Theorem C76_image_refuted : forall g key sg root leaf, exists o t b,
  trace (img_verify g key sg root leaf) o = (t, b) /\ ~ guarded t.
Proof.
  intros g key sg root leaf. exists [0; 0; 0; 0; 0], [EUse KFind; EUse KGet], false. split.
  - destruct g; reflexivity.
  - intros G. specialize (G [] KFind [EUse KGet] eq_refl). discriminate.
Qed.

(* ------------------------------------------------------------------ *)
(** ** Concrete cases *)

Module LkExamples.

(** A request's trace: adding an object under the lock. *)
Example add_trace : trace (handler false (NvmAdd 5)) (repeat 0 9) =
  ([EAcq Nvm; EUse NMeta; EUse NAdd; ERel Nvm], true).
Proof. vm_compute. reflexivity. Qed.

(** A key used and then evicted: two visits, as the bound says. *)
Example use_trace : exists t,
  trace (handler false (UseKey 7)) (repeat 0 30) = (t, true) /\
  visits_of t = visits (UseKey 7).
Proof. eexists. split; [vm_compute; reflexivity|reflexivity]. Qed.

(** Two servers whose moves interleave, one caching a key and one evicting it:
    the hypotheses of the theorems about schedules are met by a run that ends. *)
Definition qs := two [KeyCache 7] [KeyEvict 7].
Definition mixed : list (nat * Z) := [(0%nat, 0); (1%nat, 0); (0%nat, 0); (1%nat, 0)] ++ v0 14 ++ v1 13.

Example mixed_run : exists s, run toy false mixed (start 0 qs) = Some s /\ finished s.
Proof.
  assert (V : view (run toy false mixed (start 0 qs)) =
              Some (0, None, None, ([], [-2104; -2104; -2104; 0; 0; 0; 0], [0]),
                    ([], [0; 107; 0; 107; 0; 0], [0]), true)).
  { vm_compute. reflexivity. }
  destruct (run toy false mixed (start 0 qs)) as [s|] eqn:R; [|discriminate].
  exists s. split; [reflexivity|]. exact (two_finished _ _ _ _ _ _ _ _ _ _ _ _ _ R V).
Qed.
Example mixed_adm : forall i r, In r (qs i) ->
  unlocked_req r = false /\ cache_only false r = false /\ (visits r <= 1)%nat.
Proof. intros [|[|i]] r H; [| |destruct H]; destruct H as [<-|[]]; cbn; auto. Qed.
Example mixed_one : exists s s', run toy false mixed (start 0 qs) = Some s /\
  one_at_a_time toy false (start 0 qs) s' /\ same s s'.
Proof.
  destruct mixed_run as (s & R & F).
  destruct (C76_one_at_a_time Z toy false 0 qs mixed s mixed_adm R F) as (s' & A & B). eauto.
Qed.

(** While the first server holds the lock and the second waits, the second
    cannot move. *)
Example waits : exists s,
  run toy false (v0 3 ++ v1 2) (start 0 qs) = Some s /\
  nvm_own s = Some 0%nat /\ step toy false 1 0 s = None.
Proof.
  destruct (run toy false (v0 3 ++ v1 2) (start 0 qs)) as [s|] eqn:R.
  - exists s. split; [reflexivity|].
    assert (E : match run toy false (v0 3 ++ v1 2) (start 0 qs) with
                | Some s => (nvm_own s, match step toy false 1 0 s with None => true | _ => false end)
                | None => (None, false) end = (Some 0%nat, true)) by (vm_compute; reflexivity).
    rewrite R in E. injection E as E1 E2. split; [exact E1|].
    destruct (step toy false 1 0 s); [discriminate|reflexivity].
  - exfalso.
    assert (E : match run toy false (v0 3 ++ v1 2) (start 0 qs) with
                | Some _ => true | None => false end = true) by (vm_compute; reflexivity).
    rewrite R in E. discriminate.
Qed.

End LkExamples.

Print Assumptions C76_locked.
Print Assumptions C76_balanced.
Print Assumptions C76_visits.
Print Assumptions C76_image.
Print Assumptions C76_exclusive.
Print Assumptions C76_completes.
Print Assumptions C76_in_turns.
Print Assumptions C76_one_at_a_time.
Print Assumptions C76_ecc_refuted.
Print Assumptions C76_evict_refuted.
Print Assumptions C76_image_refuted.
