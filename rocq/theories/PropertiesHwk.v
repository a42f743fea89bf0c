(** C94: the hardware keystore. *)
From Verif Require Import Base BaseLemmas NvmSpec Store HwkModel HwkSpec.

Section Seq.
Variable ts : bool.
Definition transcript (ks : list hcall) (h : hctx) : list entry := combine ks (fst (hw_run ts ks h)).
(** The context between calls, and the monitor that goes with it. *)
Definition shape (h : hctx) : Prop :=
  h = h_zero \/ exists cb lk, cb_get cb = true /\ h = mkH (Some cb) (if ts then Some lk else None) true.
Definition mon_of (h : hctx) : mon := mkM (h_up h) (match h_lock h with Some true => true | _ => false end) false.
Lemma ok_ok : is_ok OK = true. Proof. reflexivity. Qed.
Lemma one k h rc h1 evs : shape h -> (match k with HInit _ _ _ => h_up h = false | _ => True end) -> hw_do ts k h = (rc, h1, evs) ->
  shape h1 /\ h_up h1 = used1 (h_up h) (k, (rc, evs)) /\
  (ts = true -> m_lock (mon_of h1) = guarded1 (m_lock (mon_of h)) (k, (rc, evs))) /\
  exists m, watch_all evs (mon_of h) = Some m /\ settle m (k, (rc, evs)) = mon_of h1.
Proof.
  intros SH NU H. destruct k as [conf lrc brc|null brc|ok key arc grc rrc]; cbn [hw_do] in H.
  - destruct SH as [->|(cb & lk & _ & ->)]; [|discriminate NU].
    assert (B : is_ok BADARGS = false) by reflexivity.
    unfold hw_init in H. destruct conf as [[[cb|] lk]|].
    2:{ injection H as <- <- <-. split; [left; reflexivity|]. split; [reflexivity|]. split; [reflexivity|]. exists mon0. split; reflexivity. }
    2:{ injection H as <- <- <-. split; [left; reflexivity|]. split; [reflexivity|]. split; [reflexivity|]. exists mon0. split; reflexivity. }
    destruct (cb_get cb) eqn:G; cbn [negb] in H.
    2:{ injection H as <- <- <-. split; [left; reflexivity|]. split; [reflexivity|]. split; [reflexivity|]. exists mon0. split; reflexivity. }
    assert (SU : shape (mkH (Some cb) (if ts then Some lk else None) true)) by (right; eauto).
    destruct ts, lk; cbn [andb] in H; unfold used1, settle, mon_of; cbn [fst snd];
      destruct (is_ok lrc) eqn:EL; cbn [negb] in H; try (injection H as <- <- <-; split; [left; reflexivity|]; rewrite EL; split; [reflexivity|]; split; [intros T; first [discriminate T|cbn; now rewrite ?EL]|]; eexists; split; [cbn; reflexivity|cbn; now rewrite ?EL]; fail);
      destruct (cb_init cb), (is_ok brc) eqn:EB; cbn [negb app] in H; injection H as <- <- <-; rewrite ?EL, ?EB, ?ok_ok;
      (split; [try exact SU; try (left; reflexivity)|]); (split; [reflexivity|]); (split; [intros T; first [discriminate T|cbn; now rewrite ?EL, ?EB]|]); eexists; (split; [cbn; rewrite ?EL, ?EB; reflexivity|reflexivity]).
  - unfold hw_cleanup in H. destruct null.
    { injection H as <- <- <-. split; auto. split; [reflexivity|]. split; [reflexivity|]. eexists. split; reflexivity. }
    injection H as <- <- <-. split; [left; reflexivity|]. split; [reflexivity|]. split; [reflexivity|].
    destruct SH as [->|(cb & lk & _ & ->)]; [eexists; split; reflexivity|]. cbn [h_cb h_lock].
    destruct (cb_clean cb), ts, lk; eexists; split; reflexivity.
  - destruct (hw_get ts ok key arc grc rrc h) as [rc0 evs0] eqn:E. injection H as <- <- <-. split; auto. split; [reflexivity|]. split; [reflexivity|].
    exists (mon_of h). split; [|reflexivity]. unfold hw_get in E.
    destruct SH as [->|(cb & lk & G & ->)].
    { cbn [h_up h_cb h_zero negb] in E. rewrite Bool.orb_true_r in E. cbn [orb] in E. injection E as <- <-. reflexivity. }
    cbn [h_cb h_up] in E. rewrite G in E. destruct ok; cbn [negb orb] in E; [|injection E as <- <-; reflexivity].
    unfold lock_rc, lock_ev in E. cbn [h_lock] in E.
    destruct ts, lk; cbn [negb] in E.
    + destruct (is_ok arc) eqn:EA; cbn [negb app] in E; injection E as <- <-; cbn; rewrite ?EA; reflexivity.
    + injection E as <- <-. reflexivity.
    + injection E as <- <-. reflexivity.
    + injection E as <- <-. reflexivity.
Qed.
Lemma all ks : forall h, shape h -> careful (transcript ks h) (h_up h) ->
  let h' := snd (hw_run ts ks h) in
  shape h' /\ h_up h' = fold_left used1 (transcript ks h) (h_up h) /\
  (ts = true -> m_lock (mon_of h') = fold_left guarded1 (transcript ks h) (m_lock (mon_of h))) /\ obeys (transcript ks h) (mon_of h) = Some (mon_of h').
Proof.
  unfold transcript. induction ks as [|k ks IH]; intros h SH CA; [repeat split; auto|]. cbn [hw_run] in *.
  destruct (hw_do ts k h) as [[rc h1] evs] eqn:E. destruct (hw_run ts ks h1) as [t h2] eqn:R.
  cbn [fst snd combine careful] in *. destruct CA as [CA1 CA2].
  destruct (one k h rc h1 evs SH CA1 E) as (S1 & U1 & GU1 & m & W & ST).
  specialize (IH h1 S1). rewrite R in IH. cbn [fst snd] in IH. rewrite U1 in IH. destruct (IH CA2) as (S2 & U2 & GU2 & O2).
  split; auto. cbn [fold_left]. split; auto. split; [intros T; rewrite <- (GU1 T); auto|]. cbn [obeys snd]. rewrite W, ST. exact O2.
Qed.
End Seq.

(** In any history of a keystore, with any answers of its back end and its lock, the
    callbacks come in the order they may: the back end is initialized and cleaned up
    alternately, gives keys only while it is up and, when there is a lock, under the
    lock; the lock is used only while it is initialized, never taken twice and always
    given back; a threadsafe build has the lock it was given.  Whenever the keystore is not in use, after a failed Init as after a
    Cleanup, nothing is left: the back end is down and the lock is cleaned up. *)
Theorem C94_order : forall ts ks, let t := transcript ts ks h_zero in careful t false ->
  exists m, obeys t mon0 = Some m /\ m_back m = used t /\ m_held m = false /\ (ts = true -> m_lock m = guarded t) /\ (used t = false -> m = mon0).
Proof.
  intros ts ks t CA. destruct (all ts ks h_zero (or_introl eq_refl) CA) as (S & U & GU & O). fold t in U, GU, O.
  exists (mon_of (snd (hw_run ts ks h_zero))). split; [exact O|]. split; [exact U|]. split; [reflexivity|]. split; [exact GU|].
  intros N. change (used t) with (fold_left used1 t (h_up h_zero)) in N. rewrite <- U in N.
  destruct S as [->|(cb & lk & _ & E)]; [reflexivity|]. rewrite E in N. discriminate N.
Qed.
Print Assumptions C94_order.

(** GetKey: nothing happens on a keystore that is not in use; otherwise the back end is
    asked once, for this key, unless the lock cannot be taken; success means that the
    back end gave the key, and an error of the back end is never hidden. *)
Theorem C94_get : forall ts ks ok key arc grc rrc, let t := transcript ts ks h_zero in careful t false ->
  let '(rc, evs) := hw_get ts ok key arc grc rrc (snd (hw_run ts ks h_zero)) in
  let asked := filter (fun e => match e with BGet _ => true | _ => false end) evs in
  (ok && used t = false -> rc = BADARGS /\ evs = []) /\
  (ok && used t = true -> asked = [BGet key] /\ (grc <> OK -> rc = grc) /\ (rc <> OK -> grc = OK -> rc = rrc) \/
                          asked = [] /\ rc = arc /\ arc <> OK) /\
  (rc = OK -> asked = [BGet key] /\ grc = OK).
Proof.
  intros ts ks ok key arc grc rrc t CA. destruct (all ts ks h_zero (or_introl eq_refl) CA) as (S & U & _ & _). fold t in U.
  change (fold_left used1 t (h_up h_zero)) with (used t) in U. rewrite <- U.
  set (h := snd (hw_run ts ks h_zero)) in *. clearbody h. clear U CA t ks. unfold hw_get.
  assert (BO : BADARGS <> OK) by discriminate.
  destruct S as [->|(cb & lk & G & ->)].
  { cbn [h_up h_cb h_zero negb]. rewrite Bool.orb_true_r, Bool.andb_false_r. cbn [orb]. split; auto. split; [discriminate|intros; contradiction]. }
  cbn [h_cb h_up]. rewrite G, Bool.andb_true_r. destruct ok; cbn [negb orb]; [|split; auto; split; [discriminate|intros; contradiction]].
  assert (ID : forall z, is_ok z = true /\ z = OK \/ is_ok z = false /\ z <> OK).
  { intros z. destruct (is_ok z) eqn:E; [left|right]; split; auto; [now apply is_ok_iff|now apply is_ok_false]. }
  unfold lock_rc, lock_ev. cbn [h_lock]. destruct ts, lk; cbn [negb is_ok].
  - destruct (ID arc) as [[-> EA]|[-> EA]]; cbn [negb].
    + cbn [app filter]. split; [discriminate|]. destruct (ID grc) as [[-> EG]|[-> EG]].
      * split; [intros _; left; split; auto; split; [intros; contradiction|auto]|]. auto.
      * split; [intros _; left; split; auto; split; auto; intros; contradiction|]. intros; contradiction.
    + cbn [filter]. split; [discriminate|]. split; [intros _; right; auto|]. intros; contradiction.
  - change (is_ok OK) with true. cbn [negb app filter]. split; [discriminate|]. destruct (ID grc) as [[-> EG]|[-> EG]].
    + split; [intros _; left; split; auto; split; intros; contradiction|]. auto.
    + split; [intros _; left; split; auto; split; auto; intros; contradiction|]. intros; contradiction.
  - cbn [filter]. split; [discriminate|]. split; [intros _; left; split; auto; split; auto; intros; contradiction|]. auto.
  - cbn [filter]. split; [discriminate|]. split; [intros _; left; split; auto; split; auto; intros; contradiction|]. auto.
Qed.
Print Assumptions C94_get.

(** A second Init while the keystore is in use is not refused: the back end and the
    lock are initialized again over a running one, and one Cleanup is all they get. *)
Definition full : hconf := mkHc (Some (mkHcb true true true)) true.
Theorem C94_double_init_refuted : forall lrc, lrc = OK ->
  let t := transcript true [HInit (Some full) lrc OK; HInit (Some full) lrc OK; HClean false OK] h_zero in
  map (fun x => fst (snd x)) t = [OK; OK; OK] /\ used t = false /\
  concat (map (fun x => snd (snd x)) t) = [LInit OK; BInit OK; LInit OK; BInit OK; BClean; LClean] /\ obeys t mon0 = None.
Proof. intros lrc ->. vm_compute. repeat split. Qed.
Print Assumptions C94_double_init_refuted.

(** ** Threads *)
Definition busy (p : pc) : bool := match p with Locked | Inside | Left => true | _ => false end.
Definition excl (s : tst) : Prop :=
  (forall i j, busy (t_pc s i) = true -> busy (t_pc s j) = true -> i = j) /\
  (t_clean s = CNone \/ t_clean s = CTorn -> forall i, busy (t_pc s i) = true -> t_own s = Some i).
Lemma at_eq f i p : at_ f i p i = p. Proof. unfold at_. now rewrite Nat.eqb_refl. Qed.
Lemma at_ne f i p j : j <> i -> at_ f i p j = f j. Proof. intros N. unfold at_. now apply Nat.eqb_neq in N as ->. Qed.
Lemma excl_reach s : treach true s -> excl s.
Proof.
  induction 1 as [|s s' R IH ST]; [split; intros; discriminate|]. destruct IH as [E1 E2].
  assert (K : forall i p, busy p = busy (t_pc s i) -> forall j, busy (at_ (t_pc s) i p j) = busy (t_pc s j)).
  { intros i p B j. destruct (Nat.eq_dec j i) as [->|N]; [now rewrite at_eq|now rewrite at_ne]. }
  assert (D : forall i p, busy p = false -> forall j, busy (at_ (t_pc s) i p j) = true -> busy (t_pc s j) = true /\ j <> i).
  { intros i p B j. destruct (Nat.eq_dec j i) as [->|N]; [rewrite at_eq; congruence|rewrite at_ne; auto]. }
  destruct ST as [s i P _|s i P O C|s i P|s i P|s i P|s i P|s P _|s P|s P]; unfold excl; cbn [t_pc t_own t_clean].
  - assert (B : busy Checked = busy (t_pc s i)) by now rewrite P. split; intros; rewrite ?(K _ _ B) in *; auto.
  - specialize (O eq_refl). assert (NB : forall j, busy (t_pc s j) = false).
    { intros j. destruct (busy (t_pc s j)) eqn:B; auto. rewrite (E2 C j B) in O. discriminate O. }
    assert (J : forall j, busy (at_ (t_pc s) i Locked j) = true -> j = i).
    { intros j. destruct (Nat.eq_dec j i) as [->|N]; auto. rewrite at_ne by auto. now rewrite NB. }
    split; [intros j k B1 B2; rewrite (J j B1), (J k B2); reflexivity|intros _ j B1; now rewrite (J j B1)].
  - assert (B : busy Idle = busy (t_pc s i)) by now rewrite P. split; intros; rewrite ?(K _ _ B) in *; auto.
  - assert (B : busy Inside = busy (t_pc s i)) by now rewrite P. split; intros; rewrite ?(K _ _ B) in *; auto.
  - assert (B : busy Left = busy (t_pc s i)) by now rewrite P. split; intros; rewrite ?(K _ _ B) in *; auto.
  - split; [intros j k B1 B2; apply (D i Idle eq_refl) in B1 as [B1 _]; apply (D i Idle eq_refl) in B2 as [B2 _]; auto|].
    intros _ j B1. apply (D i Idle eq_refl) in B1 as [B1 N]. exfalso. apply N. apply E1; auto. now rewrite P.
  - split; auto.
  - split; auto. intros [C|C]; discriminate C.
  - split; auto. intros [C|C]; discriminate C.
Qed.
(** With a lock that works, no two threads are ever in the back end at once, however
    many there are, whatever their schedule, and even while one calls Cleanup. *)
Theorem C94_alone : forall s i j, treach true s -> t_pc s i = Inside -> t_pc s j = Inside -> i = j.
Proof. intros s i j R A B. apply (proj1 (excl_reach s R)); [now rewrite A|now rewrite B]. Qed.
Print Assumptions C94_alone.
(** Cleanup takes no lock: the back end can be torn down while it gives a key, and be
    asked for a key after that. *)
Theorem C94_teardown_refuted :
  (exists s s' i, treach true s /\ t_pc s i = Inside /\ t_torn s = false /\ tstep true s s' /\ t_pc s' i = Inside /\ t_torn s' = true) /\
  (exists s s' i, treach true s /\ t_pc s i = Locked /\ t_torn s = true /\ tstep true s s' /\ t_pc s' i = Inside).
Proof.
  pose (s1 := mkT (at_ (fun _ => Idle) 0 Checked) None true CNone).
  pose (s2 := mkT (at_ (t_pc s1) 0 Locked) (Some 0) true CNone).
  pose (s3 := mkT (at_ (t_pc s2) 0 Inside) (Some 0) true CNone).
  assert (R1 : treach true s1) by (apply (tr_step _ t_start); [constructor|apply (t_check true t_start 0); reflexivity]).
  assert (R2 : treach true s2) by (apply (tr_step _ s1); [auto|apply (t_acquire true s1 0); auto]).
  assert (R3 : treach true s3) by (apply (tr_step _ s2); [auto|apply (t_enter true s2 0); auto]).
  split.
  - exists s3, (mkT (t_pc s3) (Some 0) true CTorn), 0. split; auto. split; auto. split; auto. split; auto. apply (t_tear true s3); auto.
  - exists (mkT (t_pc s2) (Some 0) true CTorn), (mkT (at_ (t_pc s2) 0 Inside) (Some 0) true CTorn), 0.
    split; [apply (tr_step _ s2); auto; apply (t_tear true s2); auto|]. split; auto. split; auto. split; auto.
    apply (t_enter true (mkT (t_pc s2) (Some 0) true CTorn) 0). reflexivity.
Qed.
Print Assumptions C94_teardown_refuted.

(** ** Concrete cases *)
(** A history with a failed Init, two keys, a back end that refuses one, a lock that
    cannot be taken, and a Cleanup. *)
Definition life : list hcall :=
  [HInit (Some full) OK ABORTED; HGet true 3 OK OK OK; HInit (Some full) OK OK; HGet true 3 OK OK OK; HGet true 4 OK ACCESS OK;
   HGet true 5 ABORTED OK OK; HGet true 6 OK OK ABORTED; HClean false OK; HClean false OK; HGet true 3 OK OK OK].
Example C94_order_ex : careful (transcript true life h_zero) false /\
  map (fun x => fst (snd x)) (transcript true life h_zero) = [ABORTED; BADARGS; OK; OK; ACCESS; ABORTED; ABORTED; OK; OK; BADARGS] /\
  obeys (transcript true life h_zero) mon0 = Some mon0 /\ guarded (transcript true (firstn 7 life) h_zero) = true /\
  used (transcript true (firstn 7 life) h_zero) = true.
Proof. vm_compute. repeat split. Qed.
(** A thread does get into the back end; without a lock two do. *)
Example C94_alone_ex : exists s, treach true s /\ t_pc s 0 = Inside.
Proof. destruct C94_teardown_refuted as [(s & s' & i & R & A & _) _]. destruct i; [eauto|].
  exists (mkT (at_ (t_pc (mkT (at_ (t_pc (mkT (at_ (fun _ => Idle) 0 Checked) None true CNone)) 0 Locked) (Some 0) true CNone)) 0 Inside) (Some 0) true CNone).
  split; [|reflexivity]. eapply tr_step; [|apply t_enter; reflexivity]. eapply tr_step; [|apply (t_acquire true (mkT (at_ (fun _ => Idle) 0 Checked) None true CNone) 0); auto].
  eapply tr_step; [apply tr_start|]. apply (t_check true t_start 0); reflexivity.
Qed.
Example C94_unlocked_ex : exists s, treach false s /\ t_pc s 0 = Inside /\ t_pc s 1 = Inside.
Proof.
  eexists. split; [|split].
  { eapply tr_step; [eapply tr_step; [eapply tr_step; [eapply tr_step; [eapply tr_step; [eapply tr_step; [apply tr_start|]|]|]|]|]|].
    - apply (t_check false _ 0); reflexivity.
    - apply (t_acquire false _ 0); [reflexivity|discriminate|auto].
    - apply (t_enter false _ 0); reflexivity.
    - apply (t_check false _ 1); reflexivity.
    - apply (t_acquire false _ 1); [reflexivity|discriminate|auto].
    - apply (t_enter false _ 1); reflexivity. }
  all: reflexivity.
Qed.
