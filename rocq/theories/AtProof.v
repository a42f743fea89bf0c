(** * Proofs for C77 *)

From Coq Require Import List NArith Bool Arith Lia.
From Verif Require Import AtModel AtSpec.
Import ListNotations.

Section Proof.
Context (h : pin -> list N) (admin : nat -> bool) (may : nat -> op -> bool)
        (ctx : nat -> nat) (mutex : nat -> nat).
Context (ctx_inj : forall i j, ctx i = ctx j -> i = j)
        (one : forall c d, mutex c = mutex d).

Notation step := (step h admin may ctx mutex).
Notation run := (run h admin may ctx mutex).
Notation answered := (answered h admin may).
Notation history := (history h admin may).
Notation allowed := (allowed may).
Notation body := (body h admin ctx).

Definition abs (s : sh) : book := mkBook (act s) (cred s) (fun i => sess s (ctx i)).

Fixpoint post (p : prog) (s : sh) (Q : res -> sh -> Prop) : Prop :=
  match p with
  | Ret r => Q r s
  | Do f k => forall v, post (k (snd (f v s))) (fst (f v s)) Q
  end.

Lemma upd_same : forall A (f : nat -> A) i x, upd f i x i = x.
Proof. intros. unfold upd. rewrite Nat.eqb_refl. reflexivity. Qed.
Lemma upd_other : forall A (f : nat -> A) i j x, j <> i -> upd f i x j = f j.
Proof. intros. unfold upd. apply Nat.eqb_neq in H. rewrite H. reflexivity. Qed.

Lemma agree_refl : forall b, agree b b.
Proof. repeat split. Qed.

Definition good (b : book) (i : nat) (o : op) (r : res) (s : sh) : Prop :=
  exists b', answered b i o r b' /\ agree b' (abs s) /\ buf s = None.

Lemma good_same : forall b i o r s,
  agree b (abs s) -> buf s = None -> answered b i o r b -> good b i o r s.
Proof. intros. exists b. auto. Qed.

Lemma same_bytes_true : forall a b, same_bytes a b = true -> a = b.
Proof. intros a b. unfold same_bytes. destruct (list_eq_dec N.eq_dec a b); [auto|discriminate]. Qed.
Lemma same_bytes_false : forall a b, same_bytes a b = false -> a <> b.
Proof. intros a b. unfold same_bytes. destruct (list_eq_dec N.eq_dec a b); [discriminate|auto]. Qed.

Lemma login_post : forall b i u p s,
  agree b (abs s) -> buf s = None -> allowed b i (Login u p) = true ->
  post (login h ctx i u p) s (good b i (Login u p)).
Proof.
  intros b i u p s (A1 & A2 & A3) B L. unfold abs in A1, A2, A3; cbn in A1, A2, A3.
  assert (AG : agree b (abs s)) by (repeat split; auto).
  unfold login. cbn [post]. intros ?. unfold get_sess; cbn [fst snd].
  destruct (sess s (ctx i)) as [w|] eqn:W; cbn [post].
  { apply good_same; auto. apply a_login_no; auto. intros (E & _). rewrite A3, W in E. discriminate. }
  intros ?. unfold has_cred; cbn [fst snd].
  destruct (cred s u) as [c|] eqn:C; cbn [post].
  2:{ apply good_same; auto. apply a_login_no; auto. intros (_ & E & _). rewrite A2, C in E. discriminate. }
  intros fl. unfold load. destruct fl; cbn [fst snd post].
  { intros ? ?. cbn. apply good_same; [repeat split; auto|reflexivity|constructor]. }
  rewrite C. cbn [fst snd post]. intros ? ?. unfold compare, wipe; cbn [fst snd buf set_buf].
  destruct (same_bytes c (h p)) eqn:S; cbn [post].
  - apply same_bytes_true in S. intros ?. unfold is_active; cbn [fst snd act set_buf].
    destruct (act s u) eqn:U; cbn [post].
    + apply good_same; [repeat split; auto|reflexivity|].
      apply a_login_no; auto. intros (_ & _ & E). rewrite A1, U in E. discriminate.
    + intros ? ?. cbn. exists (mkBook (upd (online b) u true) (secret b) (upd (who b) i (Some u))).
      split; [|split; [|reflexivity]].
      * apply a_login; auto; congruence.
      * split; [|split]; cbn; auto.
        -- intros x. unfold upd. rewrite A1. reflexivity.
        -- intros j. unfold upd. destruct (Nat.eqb_spec j i) as [->|Hn].
           ++ rewrite Nat.eqb_refl. reflexivity.
           ++ destruct (Nat.eqb_spec (ctx j) (ctx i)) as [E|_]; [|apply A3].
              apply ctx_inj in E. congruence.
  - apply same_bytes_false in S.
    apply good_same; [repeat split; auto|reflexivity|].
    apply a_login_no; auto. intros (_ & E & _). rewrite A2, C in E. congruence.
Qed.

Lemma logout_post : forall b i u s,
  agree b (abs s) -> buf s = None -> allowed b i (Logout u) = true ->
  post (logout admin ctx i u) s (good b i (Logout u)).
Proof.
  intros b i u s (A1 & A2 & A3) B L. unfold abs in A1, A2, A3; cbn in A1, A2, A3.
  assert (AG : agree b (abs s)) by (repeat split; auto).
  unfold logout. cbn [post]. intros ?. unfold get_sess; cbn [fst snd].
  destruct (sess s (ctx i)) as [w|] eqn:W; cbn [post].
  2:{ apply good_same; auto. apply a_logout_no; auto. intros (w & E & _). congruence. }
  destruct (Nat.eqb w u || admin w) eqn:M; cbn [post].
  - intros ? ?. cbn.
    exists (mkBook (upd (online b) u false) (secret b)
                   (if Nat.eqb w u then upd (who b) i None else who b)).
    split; [|split].
    + apply a_logout; [auto|congruence|].
      apply orb_true_iff in M. rewrite Nat.eqb_eq in M. exact M.
    + split; [|split]; cbn.
      * intros x. destruct (Nat.eqb w u); cbn; unfold upd; rewrite A1; reflexivity.
      * intros x. destruct (Nat.eqb w u); cbn; auto.
      * intros j. destruct (Nat.eqb w u); cbn; auto.
        unfold upd. destruct (Nat.eqb_spec j i) as [->|Hn].
        -- rewrite Nat.eqb_refl. reflexivity.
        -- destruct (Nat.eqb_spec (ctx j) (ctx i)) as [E|_]; [|apply A3].
           apply ctx_inj in E. congruence.
    + destruct (Nat.eqb w u); cbn; auto.
  - apply orb_false_iff in M. destruct M as [M1 M2]. apply Nat.eqb_neq in M1.
    apply good_same; auto. apply a_logout_no; auto.
    intros (w' & E & [E2|E2]); rewrite A3, W in E; injection E as <-; congruence.
Qed.

Lemma store_post : forall b i u now new had s,
  agree b (abs s) -> allowed b i (SetCred u now new) = true ->
  over admin b i u -> right h b u now ->
  (had = false -> secret b u = None /\ buf s = None) ->
  post (store_new h u had new) s (good b i (SetCred u now new)).
Proof.
  intros b i u now new had s (A1 & A2 & A3) L O R Hh. unfold abs in A1, A2, A3; cbn in A1, A2, A3.
  unfold store_new. destruct new as [n|]; cbn [post].
  - intros ? fl. cbn. destruct fl; cbn; intros ?.
    + apply good_same; [repeat split; auto|reflexivity|constructor].
    + eexists. split; [apply a_set; auto|]. split; [|reflexivity]. repeat split; cbn; auto.
      intros x. unfold upd. rewrite A2. reflexivity.
  - intros fl. destruct had; cbn [fst snd].
    + destruct fl; cbn; intros ?.
      * apply good_same; [repeat split; auto|reflexivity|constructor].
      * eexists. split; [apply a_set; auto|]. split; [|reflexivity]. repeat split; cbn; auto.
        intros x. unfold upd. rewrite A2. reflexivity.
    + cbn. intros ?. destruct (Hh eq_refl) as [Hs _].
      eexists. split; [apply a_set; auto|]. split; [|reflexivity]. repeat split; cbn; auto.
      intros x. unfold upd. destruct (Nat.eqb_spec x u) as [->|_]; [|apply A2]. congruence.
Qed.

Lemma setcred_post : forall b i u now new s,
  agree b (abs s) -> buf s = None -> allowed b i (SetCred u now new) = true ->
  post (setcred h admin ctx i u now new) s (good b i (SetCred u now new)).
Proof.
  intros b i u now new s AG B L. pose proof AG as (A1 & A2 & A3).
  unfold abs in A1, A2, A3; cbn in A1, A2, A3.
  unfold setcred. cbn [post]. intros ?. unfold get_sess; cbn [fst snd].
  destruct (sess s (ctx i)) as [w|] eqn:W; cbn [post].
  2:{ apply good_same; auto. apply a_set_no; auto. intros ((w & E & _) & _). congruence. }
  destruct (Nat.eqb w u || admin w) eqn:M; cbn [post].
  2:{ apply orb_false_iff in M. destruct M as [M1 M2]. apply Nat.eqb_neq in M1.
      apply good_same; auto. apply a_set_no; auto.
      intros ((w' & E & [E2|E2]) & _); rewrite A3, W in E; injection E as <-; congruence. }
  assert (O : over admin b i u).
  { exists w. split; [congruence|]. apply orb_true_iff in M. rewrite Nat.eqb_eq in M. exact M. }
  intros ?. unfold has_cred; cbn [fst snd].
  destruct (cred s u) as [c|] eqn:C; cbn [post].
  - destruct now as [p|]; cbn [post].
    2:{ apply good_same; auto. apply a_set_no; auto. intros (_ & R). unfold right in R.
        rewrite A2, C in R. exact R. }
    intros fl. unfold load. destruct fl; cbn [fst snd post].
    { intros ?. cbn. apply good_same; [repeat split; auto|reflexivity|constructor]. }
    rewrite C. cbn [fst snd post]. intros ?. unfold compare; cbn [fst snd buf set_buf].
    destruct (same_bytes c (h p)) eqn:S; cbn [post].
    + apply same_bytes_true in S. apply store_post; auto; [|discriminate].
      unfold right. rewrite A2, C. exact S.
    + apply same_bytes_false in S. intros ?. cbn.
      apply good_same; [repeat split; auto|reflexivity|].
      apply a_set_no; auto. intros (_ & R). unfold right in R. rewrite A2, C in R. congruence.
  - destruct now as [p|]; cbn [post].
    + apply good_same; auto. apply a_set_no; auto. intros (_ & R). unfold right in R.
      rewrite A2, C in R. exact R.
    + apply store_post; auto.
      * unfold right. rewrite A2, C. exact I.
      * intros ?. split; [congruence|exact B].
Qed.

Lemma body_post : forall b i o s,
  agree b (abs s) -> buf s = None -> allowed b i o = true ->
  post (body i o) s (good b i o).
Proof.
  intros b i [u p|u|u now new|n] s A B L; cbn [AtModel.body].
  - apply login_post; auto.
  - apply logout_post; auto.
  - apply setcred_post; auto.
  - cbn [post]. apply good_same; auto. apply a_work; auto.
Qed.

Lemma answered_other : forall b i o r b' j,
  answered b i o r b' -> j <> i -> who b' j = who b j.
Proof.
  intros b i o r b' j A Hj. destruct A; cbn; auto.
  - apply upd_other, Hj.
  - destruct (Nat.eqb w u); [apply upd_other, Hj|reflexivity].
Qed.

Lemma allowed_who : forall b b' i o, who b' i = who b i -> allowed b' i o = allowed b i o.
Proof. intros b b' i o E. unfold AtSpec.allowed. rewrite E. reflexivity. Qed.

Lemma history_snoc : forall b tr b1 i o r b2,
  history b tr b1 -> answered b1 i o r b2 -> history b (tr ++ [(i, o, r)]) b2.
Proof.
  intros b tr b1 i o r b2 H A. induction H as [b|b j o' r' c rest d A' H IH]; cbn [app].
  - econstructor; [exact A|constructor].
  - econstructor; [exact A'|apply IH, A].
Qed.

Definition inside (p : phase) : bool :=
  match p with GateIn _ | GateOut _ _ | BodyIn _ _ => true | _ => false end.

Definition L := mutex 0.

Definition clean (b : book) (s : sys) : Prop := agree b (abs (shared s)) /\ buf (shared s) = None.

Record InvB (b0 b : book) (s : sys) : Prop := mkInv {
  v_hist : history b0 (trace s) b;
  v_bodyw : forall i o, ph s i = BodyW o -> allowed b i o = true;
  v_gateo : forall i o ok, ph s i = GateOut o ok -> ok = allowed b i o;
  v_in : forall i, inside (ph s i) = true <-> own s L = Some i;
  v_free : own s L = None -> clean b s;
  v_held : forall i, own s L = Some i ->
             match ph s i with
             | BodyIn o p => post p (shared s) (good b i o)
             | _ => clean b s
             end
}.

(** A server outside its sections changes its phase to another outside them. *)
Lemma keep : forall b0 b s i p t,
  InvB b0 b s -> inside (ph s i) = false -> inside p = false ->
  (forall o, p = BodyW o -> allowed b i o = true) ->
  InvB b0 b (mkSys (shared s) (own s) (upd (ph s) i p) t (trace s)).
Proof.
  intros b0 b s i p t [H1 H2 H3 H4 H5 H6] HI HP HB. constructor; cbn; auto.
  - intros j o. unfold upd. destruct (Nat.eqb_spec j i) as [->|]; auto.
  - intros j o ok. unfold upd. destruct (Nat.eqb_spec j i) as [->|]; eauto.
    intros ->. discriminate.
  - intros j. unfold upd. destruct (Nat.eqb_spec j i) as [->|]; auto.
    rewrite HP. rewrite <- H4, HI. tauto.
  - intros j Hj. specialize (H6 j Hj). unfold upd. destruct (Nat.eqb_spec j i) as [->|]; auto.
    apply H4 in Hj. congruence.
Qed.

(** It is answered outside its sections. *)
Lemma keep_answer : forall b0 b s i o r,
  InvB b0 b s -> inside (ph s i) = false -> answered b i o r b ->
  InvB b0 b (answer i o r s).
Proof.
  intros b0 b s i o r HI Hin HA.
  assert (K := keep b0 b s i Idle (todo s) HI Hin eq_refl ltac:(discriminate)).
  destruct K as [H1 H2 H3 H4 H5 H6]. constructor; cbn in *; auto.
  eapply history_snoc; eauto.
Qed.

(** It takes the lock. *)
Lemma enter : forall b0 b s i p,
  InvB b0 b s -> own s L = None -> inside p = true ->
  (forall o ok, p <> GateOut o ok) ->
  (forall o q, p = BodyIn o q -> post q (shared s) (good b i o)) ->
  InvB b0 b (set_own L (Some i) (set_ph i p s)).
Proof.
  intros b0 b s i p [H1 H2 H3 H4 H5 H6] HF HP HG HB. specialize (H5 HF).
  assert (N : forall j, inside (ph s j) = false).
  { intros j. destruct (inside (ph s j)) eqn:E; [|reflexivity]. apply H4 in E. congruence. }
  constructor; cbn; auto.
  - intros j o. unfold upd. destruct (Nat.eqb_spec j i) as [->|]; auto.
    intros ->. discriminate.
  - intros j o ok. unfold upd. destruct (Nat.eqb_spec j i) as [->|]; eauto.
    intros ->. destruct (HG o ok eq_refl).
  - intros j. unfold upd. rewrite Nat.eqb_refl. destruct (Nat.eqb_spec j i) as [->|Hn].
    + rewrite HP. tauto.
    + rewrite N. split; [discriminate|congruence].
  - intros j. rewrite upd_same. intros E. injection E as <-. rewrite upd_same.
    destruct p; auto.
Qed.

(** The holder leaves, with its answer or with the gate passed. *)
Lemma leave : forall b0 b b' s i p tr,
  InvB b0 b s -> own s L = Some i -> inside p = false ->
  history b0 tr b' -> (forall j, j <> i -> who b' j = who b j) ->
  (forall o, p = BodyW o -> allowed b' i o = true) -> clean b' s ->
  InvB b0 b' (mkSys (shared s) (upd (own s) L None) (upd (ph s) i p) (todo s) tr).
Proof.
  intros b0 b b' s i p tr [H1 H2 H3 H4 H5 H6] HO HP HH HW HB HC.
  constructor; cbn; auto.
  - intros j o. unfold upd. destruct (Nat.eqb_spec j i) as [->|Hn]; auto.
    intros E. rewrite (allowed_who b b' j o (HW j Hn)). eauto.
  - intros j o ok. unfold upd. destruct (Nat.eqb_spec j i) as [->|Hn].
    + intros ->. discriminate.
    + intros E. rewrite (allowed_who b b' j o (HW j Hn)). eauto.
  - intros j. rewrite upd_same. unfold upd. destruct (Nat.eqb_spec j i) as [->|Hn].
    + rewrite HP. split; discriminate.
    + split; [|discriminate]. intros E. apply H4 in E. congruence.
  - intros j. rewrite upd_same. discriminate.
Qed.

Lemma step_inv : forall b0 b s i v s',
  InvB b0 b s -> step i v s = Some s' -> exists b', InvB b0 b' s'.
Proof.
  intros b0 b s i v s' HI E. pose proof HI as [H1 H2 H3 H4 H5 H6].
  unfold AtModel.step in E. rewrite (one (ctx i) 0) in E. change (mutex 0) with L in E.
  destruct (ph s i) as [|o|o|o ok|o|o p] eqn:P.
  - destruct (todo s i) as [|o rest]; [discriminate|]. injection E as <-. exists b.
    apply (keep b0 b s i (GateW o) (upd (todo s) i rest)); auto; [rewrite P; reflexivity|discriminate].
  - destruct v.
    + injection E as <-. exists b. apply keep_answer; auto; [rewrite P; reflexivity|constructor].
    + destruct (own s L) eqn:O; [discriminate|]. injection E as <-. exists b.
      apply enter; auto; intros; discriminate.
  - injection E as <-. exists b.
    assert (O : own s L = Some i) by (apply H4; rewrite P; reflexivity).
    pose proof (H6 i O) as C. rewrite P in C.
    constructor; cbn; auto.
    + intros j o'. unfold upd. destruct (Nat.eqb_spec j i) as [->|]; [discriminate|auto].
    + intros j o' ok. unfold upd. destruct (Nat.eqb_spec j i) as [->|]; [|eauto].
      intros X. injection X as <- <-. destruct C as ((_ & _ & C) & _).
      unfold AtSpec.allowed, passes. rewrite C. reflexivity.
    + intros j. unfold upd. destruct (Nat.eqb_spec j i) as [->|]; auto. cbn. tauto.
    + intros j Hj. assert (j = i) by congruence. subst j. rewrite upd_same. exact C.
  - assert (O : own s L = Some i) by (apply H4; rewrite P; reflexivity).
    pose proof (H6 i O) as C. rewrite P in C. pose proof (H3 i o ok P) as A.
    injection E as <-. exists b. destruct ok; cbn.
    + apply (leave b0 b b s i (BodyW o) (trace s)); auto. intros o' X. congruence.
    + apply (leave b0 b b s i Idle (trace s ++ [(i, o, Denied)])); auto.
      * eapply history_snoc; eauto. apply a_denied. auto.
      * discriminate.
  - pose proof (H2 i o P) as A.
    assert (G : (exists n, o = Work n) \/
                (if v then Some (answer i o Err s)
                 else match own s L with
                      | None => Some (set_own L (Some i) (set_ph i (BodyIn o (body i o)) s))
                      | Some _ => None end) = Some s').
    { destruct o; eauto. }
    destruct G as [[n ->]|G].
    + injection E as <-. exists b. apply keep_answer; auto; [rewrite P; reflexivity|].
      apply a_work, A.
    + clear E. destruct v.
      * injection G as <-. exists b. apply keep_answer; auto; [rewrite P; reflexivity|constructor].
      * destruct (own s L) eqn:O; [discriminate|]. injection G as <-. exists b.
        destruct (H5 eq_refl) as [C1 C2].
        apply enter; auto; intros; try discriminate.
        injection H as <- <-. apply body_post; auto.
  - assert (O : own s L = Some i) by (apply H4; rewrite P; reflexivity).
    pose proof (H6 i O) as C. rewrite P in C.
    destruct p as [r|f k]; cbn [post] in C.
    + injection E as <-. destruct C as (b' & A & C1 & C2). exists b'. cbn.
      apply (leave b0 b b' s i Idle (trace s ++ [(i, o, r)])); auto.
      * eapply history_snoc; eauto.
      * intros j Hj. eapply answered_other; eauto.
      * discriminate.
      * split; auto.
    + specialize (C v). destruct (f v (shared s)) as [x y]. cbn [fst snd] in C.
      injection E as <-. exists b. constructor; cbn; auto.
      * intros j o'. unfold upd. destruct (Nat.eqb_spec j i) as [->|]; [discriminate|auto].
      * intros j o' ok. unfold upd. destruct (Nat.eqb_spec j i) as [->|]; [discriminate|eauto].
      * intros j. unfold upd. destruct (Nat.eqb_spec j i) as [->|]; auto. cbn. tauto.
      * congruence.
      * intros j Hj. assert (j = i) by congruence. subst j. rewrite upd_same. exact C.
Qed.

Lemma run_inv : forall sc b0 b s s',
  InvB b0 b s -> run sc s = Some s' -> exists b', InvB b0 b' s'.
Proof.
  induction sc as [|[i v] sc IH]; intros b0 b s s' HI R; cbn [AtModel.run] in R.
  - injection R as <-. eauto.
  - destruct (step i v s) as [s1|] eqn:E; [|discriminate].
    destruct (step_inv _ _ _ _ _ _ HI E) as (b1 & H1). eauto.
Qed.

Lemma start_inv : forall c q, InvB (closed c) (closed c) (start c q).
Proof.
  intros c q. constructor; cbn; try discriminate.
  - constructor.
  - intros i. split; discriminate.
  - intros ?. split; [repeat split|reflexivity].
Qed.

(** Reading a history. *)
Lemma history_app : forall b t1 t2 b2,
  history b (t1 ++ t2) b2 -> exists b1, history b t1 b1 /\ history b1 t2 b2.
Proof.
  intros b t1. revert b. induction t1 as [|[[i o] r] t1 IH]; intros b t2 b2 H; cbn [app] in H.
  - exists b. split; [constructor|exact H].
  - inversion H as [|? ? ? ? b1 ? ? A H1]; subst. destruct (IH _ _ _ H1) as (b3 & X & Y).
    exists b3. split; [econstructor; eauto|exact Y].
Qed.

Lemma history_current : forall b tr b',
  history b tr b' -> forall u, secret b' u = current h (secret b) tr u.
Proof.
  intros b tr b' H. induction H as [b|b i o r b1 rest b2 A H IH]; intros x; [reflexivity|].
  rewrite IH. unfold current. cbn [fold_left]. destruct A; try reflexivity.
  all: destruct o; reflexivity.
Qed.

Lemma history_session : forall b tr b' i,
  history b tr b' -> who b' i =
    fold_left (fun w e => match e with
                        | (j, Login u _, LoggedIn) => if Nat.eqb j i then Some u else w
                        | (j, Logout u, Done) =>
                            match w with
                            | Some x => if Nat.eqb j i && Nat.eqb x u then None else w
                            | None => None
                            end
                        | _ => w
                        end) tr (who b i).
Proof.
  intros b tr b' i H. induction H as [b|b j o r b1 rest b2 A H IH]; [reflexivity|].
  rewrite IH. cbn [fold_left]. f_equal. destruct A; try reflexivity.
  - destruct o; reflexivity.
  - destruct o; reflexivity.
  - cbn. unfold upd. destruct (Nat.eqb_spec j i) as [->|Hn]; [rewrite Nat.eqb_refl; reflexivity|].
    destruct (Nat.eqb_spec i j); [congruence|reflexivity].
  - cbn. destruct (Nat.eqb_spec j i) as [->|Hn].
    + rewrite H1. cbn. destruct (Nat.eqb w u); [apply upd_same|reflexivity || exact H1].
    + cbn. destruct (Nat.eqb w u); [rewrite upd_other by congruence|];
        destruct (who b i); reflexivity.
Qed.

Lemma history_online : forall b tr b' u,
  history b tr b' -> online b u = true -> (forall k, ~ In (k, Logout u, Done) tr) ->
  online b' u = true.
Proof.
  intros b tr b' u H. induction H as [b|b i o r b1 rest b2 A H IH]; intros O N; [exact O|].
  apply IH; [|intros k I; apply (N k); right; exact I].
  destruct A; cbn; auto; unfold upd; destruct (Nat.eqb_spec u u0) as [->|]; auto.
  destruct (N i). left. reflexivity.
Qed.

End Proof.

Section Live.
Context (h : pin -> list N) (admin : nat -> bool) (may : nat -> op -> bool)
        (ctx : nat -> nat) (mutex : nat -> nat).
Notation step := (step h admin may ctx mutex).
Notation run := (run h admin may ctx mutex).

Definition holds (s : sys) : Prop :=
  forall l j, own s l = Some j -> inside (ph s j) = true /\ l = mutex (ctx j).

Lemma step_holds : forall s i v s', holds s -> step i v s = Some s' -> holds s'.
Proof.
  intros s i v s' H E l j. unfold AtModel.step in E.
  destruct (ph s i) as [|o|o|o ok|o|o p] eqn:P.
  - destruct (todo s i) as [|o rest]; [discriminate|]. injection E as <-. cbn. intros O.
    unfold upd. destruct (H l j O) as [X Y]. destruct (Nat.eqb_spec j i) as [->|]; [rewrite P in X; discriminate|auto].
  - destruct v.
    + injection E as <-. cbn. intros O. destruct (H l j O) as [X Y]. unfold upd.
      destruct (Nat.eqb_spec j i) as [->|]; [rewrite P in X; discriminate|auto].
    + destruct (own s (mutex (ctx i))) eqn:F; [discriminate|]. injection E as <-. cbn. unfold upd.
      destruct (Nat.eqb_spec l (mutex (ctx i))) as [->|]; intros O.
      * injection O as <-. rewrite Nat.eqb_refl. auto.
      * destruct (H l j O) as [X Y]. destruct (Nat.eqb_spec j i) as [->|]; auto.
  - injection E as <-. cbn. intros O. destruct (H l j O) as [X Y]. unfold upd.
    destruct (Nat.eqb_spec j i) as [->|]; auto.
  - injection E as <-. assert (G : upd (own s) (mutex (ctx i)) None l = Some j ->
      inside (upd (ph s) i (if ok then BodyW o else Idle) j) = true /\ l = mutex (ctx j)).
    { unfold upd. destruct (Nat.eqb_spec l (mutex (ctx i))) as [->|Hn]; [discriminate|].
      intros O. destruct (H l j O) as [X Y]. destruct (Nat.eqb_spec j i) as [->|]; [congruence|auto]. }
    destruct ok; cbn; exact G.
  - assert (G : (exists n, o = Work n) \/
                (if v then Some (answer i o Err s)
                 else match own s (mutex (ctx i)) with
                      | None => Some (set_own (mutex (ctx i)) (Some i)
                                        (set_ph i (BodyIn o (body h admin ctx i o)) s))
                      | Some _ => None end) = Some s').
    { destruct o; eauto. }
    destruct G as [[n ->]|G].
    + injection E as <-. cbn. intros O. destruct (H l j O) as [X Y]. unfold upd.
      destruct (Nat.eqb_spec j i) as [->|]; [rewrite P in X; discriminate|auto].
    + clear E. destruct v.
      * injection G as <-. cbn. intros O. destruct (H l j O) as [X Y]. unfold upd.
        destruct (Nat.eqb_spec j i) as [->|]; [rewrite P in X; discriminate|auto].
      * destruct (own s (mutex (ctx i))) eqn:F; [discriminate|]. injection G as <-. cbn. unfold upd.
        destruct (Nat.eqb_spec l (mutex (ctx i))) as [->|]; intros O.
        -- injection O as <-. rewrite Nat.eqb_refl. auto.
        -- destruct (H l j O) as [X Y]. destruct (Nat.eqb_spec j i) as [->|]; auto.
  - destruct p as [r|f k].
    + injection E as <-. cbn. unfold upd.
      destruct (Nat.eqb_spec l (mutex (ctx i))) as [->|Hn]; [discriminate|].
      intros O. destruct (H l j O) as [X Y]. destruct (Nat.eqb_spec j i) as [->|]; [congruence|auto].
    + destruct (f v (shared s)) as [x y]. injection E as <-. cbn. intros O.
      destruct (H l j O) as [X Y]. unfold upd. destruct (Nat.eqb_spec j i) as [->|]; auto.
Qed.

Lemma run_holds : forall sc s s', holds s -> run sc s = Some s' -> holds s'.
Proof.
  induction sc as [|[i v] sc IH]; intros s s' H R; cbn [AtModel.run] in R.
  - injection R as <-. exact H.
  - destruct (step i v s) as [s1|] eqn:E; [|discriminate].
    exact (IH _ _ (step_holds _ _ _ _ H E) R).
Qed.

Lemma inside_moves : forall s j, inside (ph s j) = true -> exists s', step j false s = Some s'.
Proof.
  intros s j H. unfold AtModel.step. destruct (ph s j) as [|o|o|o ok|o|o [r|f k]]; try discriminate; eauto.
  destruct (f false (shared s)). eauto.
Qed.

Lemma progress : forall s i, holds s -> (ph s i <> Idle \/ todo s i <> []) ->
  exists j s', step j false s = Some s'.
Proof.
  intros s i H HW. destruct (step i false s) as [s'|] eqn:E; [eauto|].
  assert (G : exists k, own s (mutex (ctx i)) = Some k).
  { unfold AtModel.step in E. destruct (ph s i) as [|o|o|o ok|o|o [r|f k]]; try discriminate.
    - destruct (todo s i); [destruct HW; congruence|discriminate].
    - destruct (own s (mutex (ctx i))); [eauto|discriminate].
    - destruct o; try discriminate; destruct (own s (mutex (ctx i))); try discriminate; eauto.
    - destruct (f false (shared s)). discriminate. }
  destruct G as (k & O). destruct (H _ _ O) as [X _].
  destruct (inside_moves s k X) as (s' & F). eauto.
Qed.

End Live.
