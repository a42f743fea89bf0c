(** The bridge: proofs. *)
From Verif Require Import NscModel NscSpec.

Section P.
Variable MTU : nat.
Hypothesis MTU16 : (N.of_nat MTU < 65536)%N.
Variable W : Type.
Variable v : veneer_fn W.
Notation run := (run MTU W v).
Notation do_call := (do_call MTU W v).
Notation cl := (cl).

Lemma run_at h : forall s l s1 j x, run h s = (l, s1) -> nth_error l j = Some x ->
  exists s2 y, run (firstn j h) s = (firstn j l, s2) /\ nth_error h j = Some y /\ fst (do_call y s2) = x.
Proof.
  induction h as [|y h IH]; intros s l s1 j x E X; cbn [NscModel.run] in E.
  - injection E as <- <-. destruct j; discriminate X.
  - destruct (do_call y s) as [t sa] eqn:D. destruct (run h sa) as [l2 sb] eqn:R. injection E as <- <-.
    destruct j as [|j]; cbn [nth_error] in X.
    + injection X as <-. exists s, y. cbn [firstn NscModel.run nth_error]. rewrite D. auto.
    + destruct (IH sa l2 sb j x R X) as (s2 & z & E2 & H2 & F2). exists s2, z.
      cbn [firstn NscModel.run nth_error]. rewrite D, E2. auto.
Qed.

(** What the trace tells of the client's context. *)
Record tells (tr : list step) (c : cl) : Prop := {
  t_use : initialized c = in_use tr;
  t_owed : owed tr = if (last_rsp_size c =? 0)%nat then None else Some (firstn (last_rsp_size c) (rsp_buf c));
  t_from : last_rsp_size c <> 0%nat -> exists i x d n, nth_error tr i = Some x /\
    sent_ok x d (rsp_buf c) n /\ N.to_nat n = last_rsp_size c /\ (0 < N.to_nat n <= MTU)%nat /\
    forall k y, i < k -> nth_error tr k = Some y -> quiet y }.

Lemma nth_app_old {A} (l : list A) x k y : nth_error l k = Some y -> nth_error (l ++ [x]) k = Some y.
Proof. intros H. rewrite nth_error_app1; [exact H|]. apply nth_error_Some. congruence. Qed.
Lemma from_snoc tr (b : list N) m (z : step) : quiet z ->
  (exists i x d n, nth_error tr i = Some x /\ sent_ok x d b n /\ N.to_nat n = m /\ (0 < N.to_nat n <= MTU)%nat /\
    forall k y, i < k -> nth_error tr k = Some y -> quiet y) ->
  exists i x d n, nth_error (tr ++ [z]) i = Some x /\ sent_ok x d b n /\ N.to_nat n = m /\ (0 < N.to_nat n <= MTU)%nat /\
    forall k y, i < k -> nth_error (tr ++ [z]) k = Some y -> quiet y.
Proof.
  intros Q (i & x & d & n & X & S & M & B & K). exists i, x, d, n. split; [now apply nth_app_old|].
  split; [exact S|]. split; [exact M|]. split; [exact B|]. intros k y Hk Y.
  destruct (Nat.lt_ge_cases k (length tr)).
  - rewrite nth_error_app1 in Y by assumption. eauto.
  - rewrite nth_error_app2 in Y by assumption. destruct (k - length tr) as [|[|r]]; cbn [nth_error] in Y; try discriminate.
    now injection Y as <-.
Qed.
Lemma tells_step tr s y t s1 : tells tr (fst s) -> do_call y s = (t, s1) -> tells (tr ++ [t]) (fst s1).
Proof.
  intros [U O F] E. destruct s as [c w]. cbn [fst] in *.
  assert (QU : forall z, what z <> Init -> what z <> Cleanup -> in_use (tr ++ [z]) = in_use tr).
  { intros z Z1 Z2. unfold in_use. rewrite fold_left_app. cbn [fold_left]. unfold use_step. destruct (what z); congruence. }
  assert (OW : forall z, owed (tr ++ [z]) = owe_step (owed tr) z) by (intros z; unfold owed; now rewrite fold_left_app).
  destruct y as [|d|room|]; cbn [NscModel.do_call] in E.
  - injection E as <- <-. cbn [fst]. split.
    + unfold in_use. rewrite fold_left_app. reflexivity.
    + rewrite OW. reflexivity.
    + cbn [cl_init last_rsp_size]. congruence.
  - assert (REF : forall r s2, (mkStep (Send d) r None None, (c, w)) = (t, s2) -> tells (tr ++ [t]) (fst s2)).
    { intros r s2 E2. injection E2 as <- <-. cbn [fst]. split.
      - rewrite QU by (cbn [what]; congruence). exact U.
      - rewrite OW. exact O.
      - intros H. apply from_snoc; [repeat split; cbn; congruence|]. exact (F H). }
    unfold cl_send in E.
    destruct (initialized c) eqn:I; cbn [negb] in E; [|exact (REF _ _ E)].
    destruct (_ || _) eqn:Z; [exact (REF _ _ E)|].
    destruct (last_rsp_size c =? 0)%nat eqn:L; cbn [negb] in E; [|exact (REF _ _ E)].
    destruct (v w d) as [[[r b] n] w1] eqn:V.
    destruct (r =? 0)%Z eqn:R; cbn [negb] in E.
    + destruct ((n =? 0)%N || (N.of_nat MTU <? n)%N) eqn:B; injection E as <- <-; cbn [fst].
      * split; cbn [initialized last_rsp_size rsp_buf].
        -- rewrite QU by (cbn [what]; congruence). congruence.
        -- rewrite OW. cbn [owe_step what ran rc Nat.eqb]. unfold owe_step. cbn [what ran rc]. rewrite O. reflexivity.
        -- congruence.
      * assert (HN : (n mod 65536 = n)%N) by lia.
        split; cbn [initialized last_rsp_size rsp_buf].
        -- rewrite QU by (cbn [what]; congruence). congruence.
        -- rewrite OW. unfold owe_step. cbn [what ran rc]. rewrite Z.eqb_refl, HN.
           destruct (N.to_nat n =? 0)%nat eqn:N0; [|reflexivity]. exfalso. lia.
        -- intros _. rewrite HN. exists (length tr), (mkStep (Send d) OK (Some (r, b, n)) None), d, n.
           split; [rewrite nth_error_app2, Nat.sub_diag by lia; reflexivity|].
           split; [repeat split; cbn [ran]; apply Z.eqb_eq in R; now subst r|].
           split; [reflexivity|]. split; [lia|]. intros k y Hk Y.
           assert (K : nth_error (tr ++ [mkStep (Send d) OK (Some (r, b, n)) None]) k <> None) by congruence.
           apply nth_error_Some in K. rewrite app_length in K. cbn [length] in K. lia.
    + injection E as <- <-. cbn [fst]. split; cbn [initialized last_rsp_size rsp_buf].
      * rewrite QU by (cbn [what]; congruence). congruence.
      * rewrite OW. unfold owe_step. cbn [what ran rc]. rewrite O.
        destruct (known r) eqn:K; [|reflexivity].
        destruct (r =? OK)%Z eqn:RO; [|reflexivity]. unfold OK in RO. congruence.
      * congruence.
  - assert (REF : forall r s2, (let '(t0, c1) := (mkStep (Recv room) r None None, c) in (t0, (c1, w))) = (t, s2) ->
      tells (tr ++ [t]) (fst s2)).
    { intros r s2 E2. injection E2 as <- <-. cbn [fst]. split.
      - rewrite QU by (cbn [what]; congruence). exact U.
      - rewrite OW. exact O.
      - intros H. apply from_snoc; [repeat split; cbn; congruence|]. exact (F H). }
    unfold cl_recv in E.
    destruct (initialized c) eqn:I; cbn [negb] in E; [|exact (REF _ _ E)].
    destruct (last_rsp_size c =? 0)%nat eqn:L; [exact (REF _ _ E)|].
    destruct (room <? last_rsp_size c)%nat eqn:L2; [exact (REF _ _ E)|].
    injection E as <- <-. cbn [fst]. split; cbn [initialized last_rsp_size rsp_buf].
    + rewrite QU by (cbn [what]; congruence). congruence.
    + rewrite OW. reflexivity.
    + congruence.
  - injection E as <- <-. cbn [fst]. split; cbn [cl_cleanup initialized last_rsp_size rsp_buf].
    + unfold in_use. rewrite fold_left_app. reflexivity.
    + rewrite OW. exact O.
    + intros H. apply from_snoc; [repeat split; cbn; congruence|]. exact (F H).
Qed.
Lemma tells_run h : forall s l s1 tr, tells tr (fst s) -> run h s = (l, s1) -> tells (tr ++ l) (fst s1).
Proof.
  induction h as [|y h IH]; intros s l s1 tr T E; cbn [NscModel.run] in E.
  - injection E as <- <-. now rewrite app_nil_r.
  - destruct (do_call y s) as [t sa] eqn:D. destruct (run h sa) as [l2 sb] eqn:R. injection E as <- <-.
    specialize (tells_step tr s y t sa T D) as T2. specialize (IH sa l2 sb _ T2 R).
    rewrite <- app_assoc in IH. exact IH.
Qed.

Lemma tells_fresh c : fresh c -> tells [] c.
Proof. intros [I L]. split; [exact I| |congruence]. rewrite L. reflexivity. Qed.
Lemma at_state h c w l s1 j x : fresh c -> run h (c, w) = (l, s1) -> nth_error l j = Some x ->
  exists c2 w2 y, tells (firstn j l) c2 /\ nth_error h j = Some y /\ fst (do_call y (c2, w2)) = x.
Proof.
  intros F E X. destruct (run_at h (c, w) l s1 j x E X) as ([c2 w2] & y & E2 & H & D).
  exists c2, w2, y. split; [|auto]. exact (tells_run (firstn j h) (c, w) (firstn j l) (c2, w2) [] (tells_fresh c F) E2).
Qed.
Lemma nth_firstn {A} (l : list A) j i x : nth_error (firstn j l) i = Some x -> nth_error l i = Some x /\ i < j.
Proof.
  intros H. assert (L : i < length (firstn j l)) by (apply nth_error_Some; congruence).
  pose proof L as L2. rewrite firstn_length in L2. split; [|lia].
  rewrite <- (firstn_skipn j l). rewrite nth_error_app1; assumption.
Qed.
Lemma nth_firstn_back {A} (l : list A) j i x : nth_error l i = Some x -> i < j -> nth_error (firstn j l) i = Some x.
Proof.
  intros H L. assert (i < length l) by (apply nth_error_Some; congruence).
  rewrite <- (firstn_skipn j l) in H. rewrite nth_error_app1 in H; [exact H|]. rewrite firstn_length. lia.
Qed.

Theorem received_ok h c w l s1 j x a : fresh c -> run h (c, w) = (l, s1) -> nth_error l j = Some x -> given x = Some a ->
  rc x = OK /\ exists i y d b n, i < j /\ nth_error l i = Some y /\ sent_ok y d b n /\
    (0 < N.to_nat n <= MTU)%nat /\ a = firstn (N.to_nat n) b /\ between l i j quiet.
Proof.
  intros F E X G. destruct (at_state h c w l s1 j x F E X) as (c2 & w2 & y & T & _ & D).
  destruct y as [|d|room|]; cbn [NscModel.do_call] in D; try (subst x; discriminate G).
  - unfold cl_send in D. repeat match type of D with
      | context [if ?b then _ else _] => destruct b
      | context [let '(_, _) := ?p in _] => destruct p as [[[? ?] ?] ?]
      end; subst x; discriminate G.
  - unfold cl_recv in D. destruct (initialized c2); cbn [negb fst] in D; [|subst x; discriminate G].
    destruct (last_rsp_size c2 =? 0)%nat eqn:L; [subst x; discriminate G|].
    destruct (room <? _)%nat; [subst x; discriminate G|]. subst x. cbn [given fst] in G. injection G as <-.
    split; [reflexivity|]. destruct (t_from _ _ T) as (i & y & d & n & Y & S & M & B & K); [lia|].
    apply nth_firstn in Y as [Y HI]. exists i, y, d, (rsp_buf c2), n. rewrite <- M. repeat split; auto; try apply S; try lia.
    + apply (K k x); [lia|]. apply nth_firstn_back; [assumption|lia].
    + apply (K k x); [lia|]. apply nth_firstn_back; [assumption|lia].
    + apply (K k x); [lia|]. apply nth_firstn_back; [assumption|lia].
Qed.
Lemma call_what y s : what (fst (do_call y s)) = y.
Proof.
  destruct s as [c w], y as [|d|room|]; cbn [NscModel.do_call]; try reflexivity.
  - unfold cl_send. repeat match goal with
      | |- context [if ?b then _ else _] => destruct b
      | |- context [let '(_, _) := ?p in _] => destruct p as [[[? ?] ?] ?]
      end; reflexivity.
  - unfold cl_recv. repeat match goal with |- context [if ?b then _ else _] => destruct b end; reflexivity.
Qed.
(** Receiving hands over what is owed, whole, as soon as there is room for it. *)
Theorem recv_ok h c w l s1 j x room : fresh c -> run h (c, w) = (l, s1) -> nth_error l j = Some x -> what x = Recv room ->
  (forall w d, length (snd (fst (fst (v w d)))) = MTU) -> length (rsp_buf c) = MTU ->
  if in_use (firstn j l) then
    match owed (firstn j l) with
    | Some a => if (length a <=? room)%nat then rc x = OK /\ given x = Some a else rc x = BADARGS /\ given x = None
    | None => rc x = NOTREADY /\ given x = None
    end
  else rc x = BADARGS /\ given x = None.
Proof.
  intros F E X WH V LB.
  destruct (run_at h (c, w) l s1 j x E X) as ([c2 w2] & y & E2 & H & D).
  pose proof (tells_run (firstn j h) (c, w) (firstn j l) (c2, w2) [] (tells_fresh c F) E2) as T. cbn [app fst] in T.
  assert (LEN : length (rsp_buf c2) = MTU).
  { clear - V LB E2. revert c w LB E2. generalize (firstn j l) as tr. generalize (firstn j h) as q.
    induction q as [|y q IH]; intros tr c w LB E2; cbn [NscModel.run] in E2; [now injection E2 as _ <- _|].
    destruct (do_call y (c, w)) as [t [ca wa]] eqn:D. destruct (run q (ca, wa)) as [l2 sb] eqn:R. injection E2 as _ ->.
    apply (IH l2 ca wa); [|exact R].
    destruct y as [|d|room|]; cbn [NscModel.do_call] in D.
    - injection D as _ <- _. cbn [cl_init rsp_buf]. apply repeat_length.
    - unfold cl_send in D. specialize (V w d). destruct (v w d) as [[[r b] n] w1]. cbn [fst snd] in V.
      repeat match type of D with context [if ?b then _ else _] => destruct b end; injection D as _ <- _; cbn [rsp_buf]; auto.
    - unfold cl_recv in D. repeat match type of D with context [if ?b then _ else _] => destruct b end;
        injection D as _ <- _; cbn [rsp_buf]; auto.
    - injection D as _ <- _. exact LB. }
  pose proof (call_what y (c2, w2)) as CW. rewrite D, WH in CW. subst y.
  cbn [NscModel.do_call] in D. unfold cl_recv in D. rewrite <- (t_use _ _ T), (t_owed _ _ T).
  destruct (initialized c2); cbn [negb fst] in D; [|subst x; auto].
  destruct (last_rsp_size c2 =? 0)%nat eqn:L; [subst x; auto|].
  destruct (t_from _ _ T) as (i & y & d & n & _ & _ & M & B & _); [lia|].
  rewrite firstn_length, LEN, Nat.min_l by lia.
  destruct (Nat.ltb_spec room (last_rsp_size c2)), (Nat.leb_spec (last_rsp_size c2) room); try lia; subst x; auto.
Qed.
(** Sending reaches the veneer just if the client is in use, the size is right and no
    answer is owed; it reports success just if the veneer did and the size it told is
    possible. *)
Theorem send_ok h c w l s1 j x d : fresh c -> run h (c, w) = (l, s1) -> nth_error l j = Some x -> what x = Send d ->
  given x = None /\
  (ran x <> None <-> in_use (firstn j l) = true /\ (0 < length d <= MTU)%nat /\ owed (firstn j l) = None) /\
  (ran x = None -> rc x = BADARGS \/ rc x = NOTREADY) /\
  (forall r b n, ran x = Some (r, b, n) ->
     (rc x = OK <-> r = 0%Z /\ (0 < n <= N.of_nat MTU)%N) /\ (rc x = OK \/ rc x = BADARGS \/ rc x = NOTREADY \/ rc x = ABORTED)).
Proof.
  intros F E X WH. destruct (at_state h c w l s1 j x F E X) as (c2 & w2 & y & T & _ & D).
  pose proof (call_what y (c2, w2)) as CW. rewrite D, WH in CW. subst y.
  cbn [NscModel.do_call] in D. unfold cl_send in D. rewrite <- (t_use _ _ T), (t_owed _ _ T).
  destruct (initialized c2); cbn [negb fst] in D;
    [|subst x; cbn; split; [reflexivity|]; split; [split; [congruence|intros [? _]; discriminate]|]; split; [auto|discriminate]].
  destruct (_ || _) eqn:Z;
    [subst x; cbn; split; [reflexivity|]; split; [split; [congruence|intros (_ & ? & _); lia]|]; split; [auto|discriminate]|].
  destruct (last_rsp_size c2 =? 0)%nat eqn:L; cbn [negb fst] in D;
    [|subst x; cbn; split; [reflexivity|]; split; [split; [congruence|intros (_ & _ & ?); discriminate]|]; split; [auto|discriminate]].
  destruct (v w2 d) as [[[r b] n] w1].
  assert (HR : ran x = Some (r, b, n) /\ given x = None /\
     (rc x = OK <-> r = 0%Z /\ (0 < n <= N.of_nat MTU)%N) /\ (rc x = OK \/ rc x = BADARGS \/ rc x = NOTREADY \/ rc x = ABORTED)).
  { destruct (Z.eqb_spec r 0); cbn [negb] in D.
    - destruct ((n =? 0)%N || (N.of_nat MTU <? n)%N) eqn:B; subst x; cbn [fst ran given rc].
      + split; [reflexivity|]. split; [reflexivity|]. split; [split; [discriminate|intros [_ ?]; lia]|auto].
      + split; [reflexivity|]. split; [reflexivity|]. split; [split; [intros _; split; [auto|lia]|reflexivity]|auto].
    - subst x. cbn [fst ran given rc]. split; [reflexivity|]. split; [reflexivity|].
      unfold known. destruct (r =? BADARGS)%Z eqn:K1; cbn [orb]; [apply Z.eqb_eq in K1; subst r|
        destruct (r =? NOTREADY)%Z eqn:K2; cbn [orb]; [apply Z.eqb_eq in K2; subst r|
        destruct (r =? ABORTED)%Z eqn:K3; [apply Z.eqb_eq in K3; subst r|]]];
        (split; [split; [discriminate|intros [? _]; congruence]|auto]). }
  destruct HR as (HR & HG & H3). rewrite HR. split; [exact HG|].
  split; [split; [intros _; split; [reflexivity|split; [lia|reflexivity]]|congruence]|].
  split; [discriminate|]. intros r0 b0 n0 E0. injection E0 as <- <- <-. exact H3.
Qed.

(** ** Under the packet layer *)
Variable judge : list N -> verdict.
Variable PKT : nat.
Hypothesis PKT_MTU : (MTU <= PKT)%nat.
Notation comm := (comm MTU W v judge PKT).
Notation comms := (comms MTU W v judge PKT).
Definition cinv (s : cst W) : Prop := initialized (tp W s) = true /\ (last_rsp_size (tp W s) <= MTU)%nat.
Lemma comm_inv x s t s1 : cinv s -> comm x s = (t, s1) -> cinv s1.
Proof.
  intros [I L] E. destruct x as [d|ex|]; cbn [NscModel.comm] in E.
  - destruct (pending W s); [injection E as <- <-; split; assumption|].
    unfold cl_send in E. rewrite I in E. cbn [negb] in E.
    destruct (v (world W s) d) as [[[r b] n] w1].
    repeat match type of E with context [if ?b then _ else _] => destruct b eqn:? end;
      injection E as <- <-; split; cbn; auto; lia.
  - destruct (pending W s); cbn [negb] in E; [|injection E as <- <-; split; assumption].
    unfold cl_recv in E. rewrite I in E. cbn [negb] in E.
    destruct (last_rsp_size (tp W s) =? 0)%nat; [|destruct (PKT <? _)%nat];
      injection E as <- <-; split; cbn; auto; lia.
  - injection E as <- <-. split; assumption.
Qed.
(** Without aborts: whenever no request is pending, no answer is left. *)
Definition clean (s : cst W) : Prop := cinv s /\ (pending W s = false -> last_rsp_size (tp W s) = 0%nat).
Lemma comm_clean x s t s1 : not_abort x -> clean s -> comm x s = (t, s1) -> clean s1.
Proof.
  intros NA [I C] E. split; [exact (comm_inv x s t s1 I E)|]. destruct I as [I L].
  destruct x as [d|ex|]; cbn [NscModel.comm] in E; [| |destruct NA].
  - destruct (pending W s) eqn:P; [injection E as <- <-; intros; congruence|]. specialize (C eq_refl).
    unfold cl_send in E. rewrite I, C in E. cbn [negb Nat.eqb] in E.
    destruct (v (world W s) d) as [[[r b] n] w1].
    destruct (_ || _); [injection E as <- <-; auto|].
    destruct (r =? 0)%Z; cbn [negb] in E; [|injection E as <- <-; reflexivity].
    destruct ((n =? 0)%N || _); injection E as <- <-; cbn; auto; discriminate.
  - destruct (pending W s) eqn:P; cbn [negb] in E; [|injection E as <- <-; auto].
    unfold cl_recv in E. rewrite I in E. cbn [negb] in E.
    destruct (last_rsp_size (tp W s) =? 0)%nat eqn:Z; [apply Nat.eqb_eq in Z; injection E as <- <-; cbn; auto|].
    destruct (Nat.ltb_spec PKT (last_rsp_size (tp W s))); [lia|]. injection E as <- <-. reflexivity.
Qed.
Lemma comms_clean h : forall s l s1, Forall not_abort h -> clean s -> comms h s = (l, s1) -> clean s1.
Proof.
  induction h as [|x h IH]; intros s l s1 NA C E; cbn [NscModel.comms] in E; [now injection E as <- <-|].
  destruct (comm x s) as [t sa] eqn:D. destruct (comms h sa) as [l2 sb] eqn:R. injection E as <- <-.
  inversion NA as [|? ? H1 H2]; subst. exact (IH sa l2 sb H2 (comm_clean x s t sa H1 C D) R).
Qed.
Notation opened := (opened MTU).
Lemma clean_opened w : clean (opened w).
Proof. split; [split; cbn; auto; lia|reflexivity]. Qed.
Theorem goes_on_ok h w l s1 d : Forall not_abort h -> comms h (opened w) = (l, s1) -> pending W s1 = false ->
  (0 < length d <= MTU)%nat ->
  exists t s2, comm (CSend d) s1 = (Some t, s2) /\ ran t <> None /\
    (rc t = OK -> pending W s2 = true /\ exists t2 s3, comm (CRecv false) s2 = (Some t2, s3) /\ rc t2 = OK /\ given t2 <> None).
Proof.
  intros NA E P LD. destruct (comms_clean h (opened w) l s1 NA (clean_opened w) E) as [[I L] C]. specialize (C P).
  cbn [NscModel.comm]. rewrite P. unfold cl_send at 1. rewrite I, C. cbn [negb Nat.eqb].
  destruct (_ || _) eqn:Z; [lia|]. destruct (v (world W s1) d) as [[[r b] n] w1].
  destruct (r =? 0)%Z; cbn [negb].
  - destruct ((n =? 0)%N || (N.of_nat MTU <? n)%N) eqn:B; do 2 eexists; (split; [reflexivity|]); cbn [ran rc].
    + split; [discriminate|]. discriminate.
    + split; [discriminate|]. intros _. split; [reflexivity|]. cbn [pending tp]. cbn [Z.eqb negb OK].
      unfold cl_recv. cbn [initialized negb last_rsp_size].
      assert (HN : (n mod 65536 = n)%N) by lia. rewrite HN.
      destruct (Nat.eqb_spec (N.to_nat n) 0); [lia|]. destruct (Nat.ltb_spec PKT (N.to_nat n)); [lia|].
      do 2 eexists. split; [reflexivity|]. split; [reflexivity|discriminate].
  - do 2 eexists. split; [reflexivity|]. cbn [ran rc]. split; [discriminate|].
    unfold known. destruct (r =? BADARGS)%Z eqn:K1; cbn [orb]; [apply Z.eqb_eq in K1; subst r; discriminate|
        destruct (r =? NOTREADY)%Z eqn:K2; cbn [orb]; [apply Z.eqb_eq in K2; subst r; discriminate|
        destruct (r =? ABORTED)%Z eqn:K3; [apply Z.eqb_eq in K3; subst r; discriminate|discriminate]]].
Qed.
(** An answer that was thrown away by the packet layer blocks the bridge for good. *)
Lemma stuck_ok h : forall s l s1, initialized (tp W s) = true -> last_rsp_size (tp W s) <> 0%nat -> pending W s = false ->
  comms h s = (l, s1) -> ~ reached l.
Proof.
  induction h as [|x h IH]; intros s l s1 I L P E; cbn [NscModel.comms] in E.
  - injection E as <- <-. intros (t & y & [] & _).
  - destruct (comm x s) as [t sa] eqn:D. destruct (comms h sa) as [l2 sb] eqn:R. injection E as <- <-.
    assert (H : (forall u, t = Some u -> ran u = None) /\ initialized (tp W sa) = true /\ last_rsp_size (tp W sa) <> 0%nat /\
      pending W sa = false).
    { destruct x as [d|ex|]; cbn [NscModel.comm] in D; rewrite ?P in D; cbn [negb] in D.
      - unfold cl_send in D. rewrite I in D. cbn [negb] in D. destruct (_ || _).
        + injection D as <- <-. split; [intros u Eu; now injection Eu as <-|auto].
        + destruct (Nat.eqb_spec (last_rsp_size (tp W s)) 0); [lia|]. cbn [negb] in D. injection D as <- <-.
          split; [intros u Eu; now injection Eu as <-|auto].
      - injection D as <- <-. split; [discriminate|auto].
      - injection D as <- <-. split; [discriminate|auto]. }
    destruct H as (H & I2 & L2 & P2). intros (u & y & [Hu|Hu] & Hy).
    + rewrite (H u Hu) in Hy. discriminate.
    + apply (IH sa l2 sb I2 L2 P2 R). exists u, y. auto.
Qed.
End P.

(** ** The server *)
Section S.
Variable S0 : Type.
Variable connected : S0 -> bool.
Variable serve : S0 -> list N -> option (list N) * S0.
Variable PKT : nat.
Notation veneer := (veneer S0 connected serve PKT).

Ltac fin := split; [reflexivity|]; split; [lia|]; split; [reflexivity|];
  split; [first [lia|intros _; split; [reflexivity|discriminate]]|]; split; [first [lia|auto]|auto].
Theorem server_ok cmd room x s r b n x1 s1 : veneer cmd room x s = ((r, b, n), (x1, s1)) -> cmd <> [] -> connected x = true ->
  request_pending s1 = false /\ (n <= N.of_nat (length room))%N /\ length b = length room /\
  ((length cmd <= PKT)%nat -> x1 = snd (serve x cmd) /\
     (r = OK -> exists a, fst (serve x cmd) = Some a /\ n = N.of_nat (length a) /\ firstn (length a) b = a /\ a <> [])) /\
  ((PKT < length cmd)%nat -> x1 = x /\ r = ABORTED /\ n = 0%N /\ b = room) /\
  (r <> OK -> n = 0%N /\ b = room).
Proof.
  intros E NE C. unfold NscModel.veneer, dispatch in E. rewrite C in E. cbn [negb] in E.
  unfold sv_recv in E. cbn [req req_size request_pending negb orb] in E.
  destruct cmd as [|c0 cmd']; [congruence|]. set (cmd := c0 :: cmd') in *.
  assert (HL : (length cmd =? 0)%nat = false) by reflexivity. rewrite HL in E.
  destruct (Nat.ltb_spec PKT (length cmd)) as [B|B].
  - injection E as <- <- <- <- <-. cbn [request_pending rsp_size rsp]. fin.
  - rewrite firstn_all in E. destruct (serve x cmd) as [a x2] eqn:SV. cbn [fst snd] in *.
    destruct a as [a|].
    + unfold sv_send in E. cbn [rsp_capacity rsp req req_size request_pending rsp_size] in E.
      destruct ((length a =? 0)%nat || (length room <? length a)%nat) eqn:K.
      * injection E as <- <- <- <- <-. cbn [request_pending rsp_size rsp]. fin.
      * injection E as <- <- <- <- <-. cbn [request_pending rsp_size rsp].
        split; [reflexivity|]. split; [lia|]. split; [rewrite app_length, skipn_length; lia|].
        split; [|split; [lia|congruence]]. intros _. split; [reflexivity|]. intros _. exists a.
        split; [reflexivity|]. split; [reflexivity|].
        split; [rewrite firstn_app, Nat.sub_diag, firstn_O, app_nil_r; apply firstn_all|].
        destruct a; [discriminate K|discriminate].
    + injection E as <- <- <- <- <-. cbn [request_pending rsp_size rsp]. fin.
Qed.
(** One call of the veneer is at most one request: a second dispatch finds nothing. *)
Theorem once_ok cmd room x s y x1 s1 : veneer cmd room x s = (y, (x1, s1)) -> cmd <> [] -> connected x = true ->
  connected x1 = true -> dispatch S0 connected serve PKT x1 s1 = (NOTREADY, (x1, s1)).
Proof.
  intros E NE C C1. destruct y as [[r b] n]. destruct (server_ok _ _ _ _ _ _ _ _ _ E NE C) as (P & _).
  unfold dispatch, sv_recv. rewrite C1, P. cbn [negb orb]. destruct (req s1); reflexivity.
Qed.
End S.
