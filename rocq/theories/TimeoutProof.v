(** Proofs about timeouts and locks. *)
From Verif Require Import Base TimeoutModel.
Local Open Scope N_scope.

(** ** Specification: what the calls made so far say. *)
(** The limit in force: the last one set, or the configured one. *)
Definition limit_now (cfg : N) (h : list tcall) : N :=
  fold_left (fun l c => match c with TSet l' => l' | _ => l end) h cfg.
(** When the timer was last started, unless it was stopped since. *)
Definition start_now (h : list tcall) : option N :=
  fold_left (fun s c => match c with TStart n => Some n | TStop => None | _ => s end) h None.
(** Clock readings are never zero and fit 64 bits. *)
Definition clock_ok (c : tcall) : Prop :=
  match c with TStart n | TExpired n => 0 < n < 2 ^ 64 | _ => True end.

Lemma trun_app a b t : trun (a ++ b) t =
  let '(tr1, t1) := trun a t in let '(tr2, t2) := trun b t1 in (tr1 ++ tr2, t2).
Proof.
  revert t; induction a as [|c a IH]; intros t; cbn [app trun].
  - destruct (trun b t). reflexivity.
  - destruct (tcall_step c t) as [rc t1]. rewrite IH.
    destruct (trun a t1) as [tr1 t2]. destruct (trun b t2). reflexivity.
Qed.

Lemma trun_state cfg h : Forall clock_ok h ->
  let t := snd (trun h (timeout_init (Some cfg))) in
  t_init t = true /\ t_cb t = true /\ t_limit t = limit_now cfg h /\
  match start_now h with Some n => t_run t = true /\ t_start t = n | None => t_run t = false end.
Proof.
  induction h as [|c h IH] using rev_ind; intros F.
  - cbn. auto.
  - apply Forall_app in F as [F1 F2]. inversion F2 as [|? ? Fc _]; subst. specialize (IH F1).
    rewrite trun_app. unfold limit_now, start_now in *. rewrite !fold_left_app. cbn [fold_left].
    destruct (trun h (timeout_init (Some cfg))) as [tr1 t1]. cbn [snd] in IH. cbn zeta in IH.
    destruct IH as (I1 & I2 & I3 & I4).
    cbn [trun]. destruct c as [l|n| |n]; cbn [tcall_step].
    + unfold timeout_set. rewrite I1, I2. cbn. auto.
    + unfold timeout_start. rewrite I1, I2. cbn in Fc. replace (n =? 0) with false by (symmetry; apply N.eqb_neq; lia).
      cbn. auto.
    + unfold timeout_stop. rewrite I1, I2. cbn. auto.
    + assert (E : snd (timeout_expired None n t1) = t1).
      { unfold timeout_expired. rewrite I1, I2. cbn [negb orb].
        destruct (posix_expired n t1) as [rc ex]. destruct (negb (is_ok rc)); [reflexivity|].
        destruct (Z.eqb ex 0); reflexivity. }
      destruct (timeout_expired None n t1) as [rc t2]. cbn [snd] in *. subst t2. auto.
Qed.

Theorem expired_exact cfg h now :
  Forall clock_ok h -> clock_ok (TExpired now) -> (forall t0, start_now h = Some t0 -> t0 <= now) ->
  let rc := fst (timeout_expired None now (snd (trun h (timeout_init (Some cfg))))) in
  (rc = 1%Z <-> exists t0, start_now h = Some t0 /\ limit_now cfg h <> 0 /\ limit_now cfg h <= now - t0) /\
  (rc = 0%Z \/ rc = 1%Z).
Proof.
  intros F C M. destruct (trun_state cfg h F) as (I1 & I2 & I3 & I4).
  set (t := snd (trun h (timeout_init (Some cfg)))) in *. cbn in C.
  unfold timeout_expired. rewrite I1, I2. cbn [negb orb]. unfold posix_expired. rewrite I3.
  destruct (start_now h) as [t0|] eqn:Es.
  - destruct I4 as [R S]. rewrite R, S. cbn [negb orb]. specialize (M t0 eq_refl).
    destruct (limit_now cfg h =? 0) eqn:E0.
    + apply N.eqb_eq in E0. cbn. split; [|auto]. split; [discriminate|]. intros (t1 & _ & X & _). congruence.
    + apply N.eqb_neq in E0. replace (now =? 0) with false by (symmetry; apply N.eqb_neq; lia).
      assert (D : (now + U64 - t0) mod U64 = now - t0).
      { unfold U64. replace (now + 2 ^ 64 - t0) with ((now - t0) + 1 * 2 ^ 64) by lia.
        rewrite N.mod_add by lia. apply N.mod_small. lia. }
      rewrite D. destruct (limit_now cfg h <=? now - t0) eqn:E1; cbn.
      * apply N.leb_le in E1. split; [|auto]. split; [|auto]. intros _. exists t0. auto.
      * apply N.leb_gt in E1. split; [|auto]. split; [discriminate|]. intros (t1 & [= <-] & _ & X). lia.
  - rewrite I4. cbn. split; [|auto]. split; [discriminate|]. intros (t1 & X & _). discriminate.
Qed.

(** Without a configuration nothing ever expires. *)
Theorem noop_never h now : fst (timeout_expired None now (snd (trun h (timeout_init None)))) = 0%Z.
Proof.
  assert (E : snd (trun h (timeout_init None)) = timeout_init None).
  { induction h as [|c h IH]; [reflexivity|]. cbn [trun].
    assert (X : snd (tcall_step c (timeout_init None)) = timeout_init None) by (destruct c; reflexivity).
    destruct (tcall_step c (timeout_init None)) as [rc t1]. cbn [snd] in X. subst t1.
    destruct (trun h (timeout_init None)). cbn [snd] in *. auto. }
  rewrite E. reflexivity.
Qed.

(** ** Locks *)
Definition fresh_lock : plock := mkL true true true None.
Lemma lock_init_fresh l : l_minit l = false -> snd (lock_init true 0 l) = fresh_lock.
Proof. intros H. unfold lock_init. rewrite H. reflexivity. Qed.

Fixpoint lstate (k : mkind) (cs : list (nat * lcall)) (l : plock) : plock :=
  match cs with [] => l | (me, c) :: cs' => lstate k cs' (snd (lock_step k me c l)) end.

(** Who holds the lock according to the calls that returned OK. *)
Definition hold1 (h : option nat) (e : nat * lcall * lout) : option nat :=
  match e with
  | (me, LAcq, LRet 0%Z) => Some me
  | (me, LRel, LRet 0%Z) => None
  | _ => h
  end.
Definition holder (tr : list (nat * lcall * lout)) : option nat := fold_left hold1 tr None.

Definition working (l : plock) : Prop := l_init l = true /\ l_cb l = true /\ l_minit l = true.
Lemma step_working k me c l o l' : working l -> lock_step k me c l = (o, l') ->
  working l' /\
  match c, o with
  | LAcq, LRet 0%Z => l_owner l = None /\ l_owner l' = Some me
  | LRel, LRet 0%Z => l_owner l = Some me /\ l_owner l' = None
  | _, _ => l_owner l' = l_owner l
  end.
Proof.
  intros (I1 & I2 & I3). unfold lock_step, lock_acquire, lock_release. rewrite I1, I2, I3. cbn [negb].
  unfold working.
  destruct c; destruct (l_owner l) as [w|] eqn:Eo.
  - destruct (Nat.eqb w me); [destruct k|]; intros [= <- <-]; cbn; auto.
  - intros [= <- <-]. cbn. auto.
  - destruct (Nat.eqb w me) eqn:E; [|destruct k; intros [= <- <-]; cbn; auto].
    apply Nat.eqb_eq in E. subst w. intros [= <- <-]. cbn. auto.
  - destruct k; intros [= <- <-]; cbn; auto.
Qed.

Lemma lrun_app k a b l : lrun k (a ++ b) l = lrun k a l ++ lrun k b (lstate k a l).
Proof.
  revert l; induction a as [|[me c] a IH]; intros l; [reflexivity|].
  cbn [app lrun lstate]. destruct (lock_step k me c l) as [o l1]. cbn [snd app]. now rewrite IH.
Qed.
Lemma lrun_length k cs l : length (lrun k cs l) = length cs.
Proof.
  revert l; induction cs as [|[me c] cs IH]; intros l; [reflexivity|].
  cbn [lrun]. destruct (lock_step k me c l). cbn. now rewrite IH.
Qed.

(** The owner of the mutex is the holder. *)
Lemma owner_holder k cs : working (lstate k cs fresh_lock) /\
  l_owner (lstate k cs fresh_lock) = holder (lrun k cs fresh_lock).
Proof.
  induction cs as [|[me c] cs [W IH]] using rev_ind; [repeat split|].
  rewrite lrun_app. unfold holder in *. rewrite fold_left_app, <- IH.
  assert (A : forall l, lstate k (cs ++ [(me, c)]) l = snd (lock_step k me c (lstate k cs l))).
  { clear. induction cs as [|[m x] cs IH]; intros l; [reflexivity|]. cbn [app lstate]. apply IH. }
  rewrite A. cbn [lrun].
  destruct (lock_step k me c (lstate k cs fresh_lock)) as [o l1] eqn:E. cbn [snd fold_left].
  destruct (step_working _ _ _ _ _ _ W E) as [W1 S]. split; [auto|]. unfold hold1 at 1.
  destruct c, o as [rc| |]; auto; destruct rc; tauto.
Qed.

(** A successful acquisition happens only when nobody holds the lock; a
    successful release only by the holder. *)
Theorem lock_exclusive k cs me c rest :
  lrun k (cs ++ (me, c) :: rest) fresh_lock =
    lrun k cs fresh_lock ++ (me, c, fst (lock_step k me c (lstate k cs fresh_lock))) ::
      lrun k rest (snd (lock_step k me c (lstate k cs fresh_lock))) /\
  (fst (lock_step k me c (lstate k cs fresh_lock)) = LRet OK ->
   holder (lrun k cs fresh_lock) = match c with LAcq => None | LRel => Some me end).
Proof.
  split.
  - rewrite lrun_app. cbn [lrun]. destruct (lock_step k me c (lstate k cs fresh_lock)). reflexivity.
  - intros H. destruct (owner_holder k cs) as [W E]. rewrite <- E.
    destruct (lock_step k me c (lstate k cs fresh_lock)) as [o l1] eqn:Es. cbn [fst] in H. subst o.
    destruct (step_working _ _ _ _ _ _ W Es) as [_ S]. unfold OK in S. destruct c; tauto.
Qed.

(** Index form. *)
Lemma holder_some tr me : holder tr = Some me ->
  exists i, nth_error tr i = Some (me, LAcq, LRet OK) /\
    forall j m, (i < j)%nat -> nth_error tr j <> Some (m, LRel, LRet OK) /\ nth_error tr j <> Some (m, LAcq, LRet OK).
Proof.
  unfold holder. induction tr as [|[[m c] o] tr IH] using rev_ind; [discriminate|].
  rewrite fold_left_app. cbn [fold_left]. intros H.
  assert (D : (c = LAcq /\ o = LRet OK /\ m = me) \/
     (fold_left hold1 tr None = Some me
      /\ ~ (o = LRet OK))).
  { unfold hold1 in H at 1. destruct c, o as [rc| |]; try destruct rc; try discriminate;
      try (right; split; [exact H|discriminate]).
    left. injection H as ->. auto. }
  destruct D as [(-> & -> & ->)|[H' N]].
  - exists (length tr). split; [rewrite nth_error_app2, Nat.sub_diag by lia; reflexivity|].
    intros j m Hj. replace (nth_error (tr ++ [(me, LAcq, LRet OK)]) j) with (@None (nat * lcall * lout))
      by (symmetry; apply nth_error_None; rewrite app_length; cbn; lia). split; discriminate.
  - destruct (IH H') as (i & Hi & Hj). exists i.
    assert (i < length tr)%nat by (apply nth_error_Some; congruence).
    split; [rewrite nth_error_app1 by lia; auto|].
    intros j m' Hl. destruct (Nat.lt_ge_cases j (length tr)) as [L|L].
    + rewrite nth_error_app1 by lia. apply Hj; auto.
    + destruct (Nat.eq_dec j (length tr)) as [->|NE].
      * rewrite nth_error_app2, Nat.sub_diag by lia. cbn. split; congruence.
      * replace (nth_error (tr ++ [(m, c, o)]) j) with (@None (nat * lcall * lout))
          by (symmetry; apply nth_error_None; rewrite app_length; cbn; lia). split; discriminate.
Qed.
Lemma holder_none tr i me : holder tr = None -> nth_error tr i = Some (me, LAcq, LRet OK) ->
  exists j m, (i < j)%nat /\ nth_error tr j = Some (m, LRel, LRet OK).
Proof.
  unfold holder. induction tr as [|[[m c] o] tr IH] using rev_ind.
  { destruct i; discriminate. }
  rewrite fold_left_app. cbn [fold_left]. intros H Hi.
  destruct (Nat.lt_ge_cases i (length tr)) as [L|L].
  - rewrite nth_error_app1 in Hi by lia.
    assert (D : (c = LRel /\ o = LRet OK) \/
      fold_left hold1 tr None = None).
    { unfold hold1 in H at 1. destruct c, o as [rc| |]; try destruct rc; try discriminate; auto. }
    destruct D as [[-> ->]|D].
    + exists (length tr), m. split; [auto|]. rewrite nth_error_app2, Nat.sub_diag by lia. reflexivity.
    + destruct (IH D Hi) as (j & m' & Hj & Hn). exists j, m'. split; [auto|].
      rewrite nth_error_app1; auto. apply nth_error_Some. congruence.
  - assert (i < length (tr ++ [(m, c, o)]))%nat by (apply nth_error_Some; congruence).
    rewrite app_length in *. cbn in *. assert (i = length tr) by lia. subst i.
    rewrite nth_error_app2, Nat.sub_diag in Hi by lia. cbn in Hi. injection Hi as -> -> ->.
    cbn in H. discriminate.
Qed.

Theorem mutual_exclusion k cs i j a b :
  let tr := lrun k cs fresh_lock in
  (i < j)%nat -> nth_error tr i = Some (a, LAcq, LRet OK) -> nth_error tr j = Some (b, LAcq, LRet OK) ->
  exists n m, (i < n < j)%nat /\ nth_error tr n = Some (m, LRel, LRet OK).
Proof.
  intros tr Hij Hi Hj.
  assert (Lj : (j < length cs)%nat) by (rewrite <- (lrun_length k cs fresh_lock); apply nth_error_Some; unfold tr in *; congruence).
  destruct (nth_error cs j) as [[me c]|] eqn:Ej; [|apply nth_error_None in Ej; lia].
  apply nth_error_split in Ej as (l1 & l2 & -> & L1).
  destruct (lock_exclusive k l1 me c l2) as [E H]. unfold tr in *. rewrite E in *.
  rewrite nth_error_app2, lrun_length, L1, Nat.sub_diag in Hj by (rewrite lrun_length; lia).
  cbn in Hj. injection Hj as -> -> Ho. specialize (H Ho). cbn in H.
  rewrite nth_error_app1 in Hi by (rewrite lrun_length; lia).
  destruct (holder_none _ _ _ H Hi) as (n & m & Hn & HN). exists n, m.
  assert (n < length (lrun k l1 fresh_lock))%nat by (apply nth_error_Some; congruence).
  rewrite lrun_length in *. split; [lia|]. rewrite nth_error_app1 by (rewrite lrun_length; lia). auto.
Qed.

Theorem release_by_holder k cs j b :
  let tr := lrun k cs fresh_lock in
  nth_error tr j = Some (b, LRel, LRet OK) ->
  exists i, (i < j)%nat /\ nth_error tr i = Some (b, LAcq, LRet OK) /\
    forall n m, (i < n < j)%nat -> nth_error tr n <> Some (m, LRel, LRet OK) /\ nth_error tr n <> Some (m, LAcq, LRet OK).
Proof.
  intros tr Hj.
  assert (Lj : (j < length cs)%nat) by (rewrite <- (lrun_length k cs fresh_lock); apply nth_error_Some; unfold tr in *; congruence).
  destruct (nth_error cs j) as [[me c]|] eqn:Ej; [|apply nth_error_None in Ej; lia].
  apply nth_error_split in Ej as (l1 & l2 & -> & L1).
  destruct (lock_exclusive k l1 me c l2) as [E H]. unfold tr in *. rewrite E in *.
  rewrite nth_error_app2, lrun_length, L1, Nat.sub_diag in Hj by (rewrite lrun_length; lia).
  cbn in Hj. injection Hj as -> -> Ho. specialize (H Ho). cbn in H.
  destruct (holder_some _ _ H) as (i & Hi & HN). exists i.
  assert (i < length (lrun k l1 fresh_lock))%nat by (apply nth_error_Some; congruence).
  rewrite lrun_length in *. split; [lia|]. split; [rewrite nth_error_app1 by (rewrite lrun_length; lia); auto|].
  intros n m Hn. rewrite nth_error_app1 by (rewrite lrun_length; lia). apply HN. lia.
Qed.
