(** * Proofs about several servers sharing one NVM *)

From Coq Require Import List ZArith Lia Bool.
From Verif Require Import Base LkModel LkSpec LkProof.
Import ListNotations.
Local Open Scope Z_scope.

(* ------------------------------------------------------------------ *)
(** ** From the discipline to the trace of one request *)

Definition heldf (l : lk) (h : bool) (t : list ev) : bool :=
  fold_left (fun h e => match e with
                        | EAcq l' => if lk_eqb l l' then true else h
                        | ERel l' => if lk_eqb l l' then false else h
                        | EUse _ => h
                        end) t h.

Definition base (n v : bool) (l : lk) : bool := match l with Nvm => n | Vc => v end.

Lemma ok_trace : forall u w p n v c Q o t b,
  ok u w n v c p Q -> trace p o = (t, b) ->
  (u = true -> forall pre a post, t = pre ++ EUse a :: post ->
     heldf (guard a) (base n v (guard a)) pre = true) /\
  (forall pre l post, t = pre ++ EAcq l :: post -> heldf l (base n v l) pre = false) /\
  (forall pre l post, t = pre ++ EAcq l :: post -> heldf Vc v pre = false) /\
  (forall pre l post, t = pre ++ ERel l :: post -> heldf l (base n v l) pre = true) /\
  (visits_of t <= c)%nat /\
  (b = true -> exists c' r, Q (heldf Nvm n t) (heldf Vc v t) c' r).
Proof.
  intros u w. induction p as [r|l k IH|l k IH|a g k IH|k IH];
    intros n v c Q o t b H E; cbn [ok trace] in *.
  - injection E as <- <-. repeat split; try (intros; destruct pre; discriminate).
    + cbn; lia.
    + intros _. exists c, r. exact H.
  - destruct o as [|x o].
    { injection E as <- <-. repeat split; try (intros; destruct pre; discriminate);
        [cbn; lia|discriminate]. }
    destruct (trace (k x) o) as [t' b'] eqn:Et. injection E as <- <-.
    destruct (Z.eqb_spec x 0) as [->|Hx].
    + destruct l.
      * destruct H as (Hn & Hv & _ & H). destruct c as [|c]; [contradiction|].
        destruct (IH 0 true v c Q o t' b' H Et) as (I1 & I2 & I3 & I4 & I5 & I6). subst n v.
        split; [|split; [|split; [|split; [|split]]]].
        -- intros Hu [|e pre] a post; intros EE; [discriminate|]. injection EE as <- EE.
           cbn [heldf fold_left]. specialize (I1 Hu _ _ _ EE).
           destruct (guard a); cbn [lk_eqb base] in *; auto.
        -- intros [|e pre] l post EE.
           ++ injection EE as <- _. reflexivity.
           ++ injection EE as <- EE. specialize (I2 _ _ _ EE).
              cbn [heldf fold_left]. destruct l; cbn [lk_eqb base] in *; auto.
        -- intros [|e pre] l post EE; [reflexivity|]. injection EE as <- EE.
           exact (I3 _ _ _ EE).
        -- intros [|e pre] l post EE; [discriminate|]. injection EE as <- EE.
           specialize (I4 _ _ _ EE). cbn [heldf fold_left].
           destruct l; cbn [lk_eqb base] in *; auto.
        -- unfold visits_of in *. cbn [filter length]. lia.
        -- intros Hb. exact (I6 Hb).
      * destruct H as (Hv & _ & _ & H).
        destruct (IH 0 n true c Q o t' b' H Et) as (I1 & I2 & I3 & I4 & I5 & I6). subst v.
        split; [|split; [|split; [|split; [|split]]]].
        -- intros Hu [|e pre] a post; intros EE; [discriminate|]. injection EE as <- EE.
           cbn [heldf fold_left]. specialize (I1 Hu _ _ _ EE).
           destruct (guard a); cbn [lk_eqb base] in *; auto.
        -- intros [|e pre] l post EE.
           ++ injection EE as <- _. reflexivity.
           ++ injection EE as <- EE. specialize (I2 _ _ _ EE).
              cbn [heldf fold_left]. destruct l; cbn [lk_eqb base] in *; auto.
        -- intros [|e pre] l post EE; [reflexivity|]. injection EE as <- EE.
           exact (I3 _ _ _ EE).
        -- intros [|e pre] l post EE; [discriminate|]. injection EE as <- EE.
           specialize (I4 _ _ _ EE). cbn [heldf fold_left].
           destruct l; cbn [lk_eqb base] in *; auto.
        -- unfold visits_of in *. cbn [filter]. exact I5.
        -- intros Hb. exact (I6 Hb).
    + destruct l.
      * destruct H as (Hn & Hv & H & _). exact (IH x n v c Q o t' b' (H x Hx) Et).
      * destruct H as (Hv & _ & H & _). exact (IH x n v c Q o t' b' (H x Hx) Et).
  - destruct (trace k o) as [t' b'] eqn:Et. injection E as <- <-.
    destruct l.
    + destruct H as (Hn & Hv & H).
      destruct (IH false v c Q o t' b' H Et) as (I1 & I2 & I3 & I4 & I5 & I6). subst n v.
      split; [|split; [|split; [|split; [|split]]]].
      * intros Hu [|e pre] a post; intros EE; [discriminate|]. injection EE as <- EE.
        cbn [heldf fold_left]. specialize (I1 Hu _ _ _ EE).
        destruct (guard a); cbn [lk_eqb base] in *; auto.
      * intros [|e pre] l post EE; [discriminate|].
        injection EE as <- EE. specialize (I2 _ _ _ EE).
        cbn [heldf fold_left]. destruct l; cbn [lk_eqb base] in *; auto.
      * intros [|e pre] l post EE; [discriminate|]. injection EE as <- EE.
        exact (I3 _ _ _ EE).
      * intros [|e pre] l post EE.
        -- injection EE as <- _. reflexivity.
        -- injection EE as <- EE. specialize (I4 _ _ _ EE). cbn [heldf fold_left].
           destruct l; cbn [lk_eqb base] in *; auto.
      * unfold visits_of in *. cbn [filter]. exact I5.
      * intros Hb. exact (I6 Hb).
    + destruct H as (Hv & H).
      destruct (IH n false c Q o t' b' H Et) as (I1 & I2 & I3 & I4 & I5 & I6). subst v.
      split; [|split; [|split; [|split; [|split]]]].
      * intros Hu [|e pre] a post; intros EE; [discriminate|]. injection EE as <- EE.
        cbn [heldf fold_left]. specialize (I1 Hu _ _ _ EE).
        destruct (guard a); cbn [lk_eqb base] in *; auto.
      * intros [|e pre] l post EE; [discriminate|].
        injection EE as <- EE. specialize (I2 _ _ _ EE).
        cbn [heldf fold_left]. destruct l; cbn [lk_eqb base] in *; auto.
      * intros [|e pre] l post EE; [discriminate|]. injection EE as <- EE.
        exact (I3 _ _ _ EE).
      * intros [|e pre] l post EE.
        -- injection EE as <- _. reflexivity.
        -- injection EE as <- EE. specialize (I4 _ _ _ EE). cbn [heldf fold_left].
           destruct l; cbn [lk_eqb base] in *; auto.
      * unfold visits_of in *. cbn [filter]. exact I5.
      * intros Hb. exact (I6 Hb).
  - destruct o as [|x o].
    { injection E as <- <-. repeat split; try (intros; destruct pre; discriminate);
        [cbn; lia|discriminate]. }
    destruct (trace (k x) o) as [t' b'] eqn:Et. injection E as <- <-.
    destruct H as (HG & H).
    destruct (IH x n v c Q o t' b' (H x) Et) as (I1 & I2 & I3 & I4 & I5 & I6).
    split; [|split; [|split; [|split; [|split]]]].
    + intros Hu [|e pre] a' post; intros EE.
      * injection EE as <- _. cbn [heldf fold_left]. specialize (HG Hu).
        destruct (guard a); cbn [base]; exact HG.
      * injection EE as <- EE. exact (I1 Hu _ _ _ EE).
    + intros [|e pre] l post EE; [discriminate|]. injection EE as <- EE. exact (I2 _ _ _ EE).
    + intros [|e pre] l post EE; [discriminate|]. injection EE as <- EE. exact (I3 _ _ _ EE).
    + intros [|e pre] l post EE; [discriminate|]. injection EE as <- EE. exact (I4 _ _ _ EE).
    + unfold visits_of in *. cbn [filter]. exact I5.
    + intros Hb. exact (I6 Hb).
  - destruct o as [|x o].
    { injection E as <- <-. repeat split; try (intros; destruct pre; discriminate);
        [cbn; lia|discriminate]. }
    exact (IH x n v c Q o t b (H x) E).
Qed.

Lemma takes_trace : forall u w m p o t b,
  takes u w m p -> trace p o = (t, b) ->
  (u = true -> guarded t) /\ no_self_wait t /\ ordered t /\ paired t /\
  (visits_of t <= m)%nat /\
  (b = true -> held Nvm t = false /\ held Vc t = false).
Proof.
  intros u w m p o t b H E.
  specialize (H m (le_n m)).
  destruct (ok_trace u w p false false m _ o t b H E) as (I1 & I2 & I3 & I4 & I5 & I6).
  split; [|split; [|split; [|split; [|split]]]].
  - intros Hu pre a post EE. specialize (I1 Hu _ _ _ EE). destruct (guard a); exact I1.
  - intros pre l post EE. specialize (I2 _ _ _ EE). destruct l; exact I2.
  - intros pre l post EE. exact (I3 _ _ _ EE).
  - intros pre l post EE. specialize (I4 _ _ _ EE). destruct l; exact I4.
  - exact I5.
  - intros Hb. destruct (I6 Hb) as (c' & r & A & B & _). split; assumption.
Qed.

(* ------------------------------------------------------------------ *)
(** ** Several servers *)

Section Conc.
Variable X : Type.
Variable sem : nat -> acc -> Z -> X -> Z * X.
Variable g : bool.

Notation sysX := (sys X).
Notation stepX := (step sem g).
Notation runX := (run sem g).
Definition run1 (i : nat) (vs : list Z) (s : sysX) := runX (map (pair i) vs) s.

Lemma upd_same : forall A (f : nat -> A) i x, upd f i x i = x.
Proof. intros; unfold upd; now rewrite Nat.eqb_refl. Qed.
Lemma upd_other : forall A (f : nat -> A) i j x, j <> i -> upd f i x j = f j.
Proof. intros; unfold upd. apply Nat.eqb_neq in H. now rewrite H. Qed.

Lemma run_app : forall a b s, runX (a ++ b) s =
  match runX a s with None => None | Some s' => runX b s' end.
Proof.
  induction a as [|[i v] a IH]; intros b s; cbn [app run]; [reflexivity|].
  destruct (stepX i v s); auto.
Qed.

Lemma run1_snoc : forall i vs v s s1,
  run1 i vs s = Some s1 -> run1 i (vs ++ [v]) s = stepX i v s1.
Proof.
  intros i vs v s s1 H. unfold run1 in *. rewrite map_app, run_app, H. cbn [map run].
  destruct (stepX i v s1); reflexivity.
Qed.

(** Two states that agree on everything but the servers outside [P]. *)
Definition agree (P : nat -> Prop) (s s' : sysX) : Prop :=
  store_of s = store_of s' /\ nvm_own s = nvm_own s' /\ vc_own s = vc_own s' /\
  forall j, P j -> srv s j = srv s' j.

Lemma step_other : forall i v s s' j, stepX i v s = Some s' -> j <> i -> srv s' j = srv s j.
Proof.
  intros i v s s' j H N. unfold step in H.
  destruct (cur (srv s i)) as [[rc|l k|l k|a x k|k]|].
  - injection H as <-. cbn. now apply upd_other.
  - destruct (v =? 0).
    + destruct (own l s); [discriminate|]. injection H as <-. destruct l; cbn; now apply upd_other.
    + injection H as <-. cbn. now apply upd_other.
  - injection H as <-. destruct l; cbn; now apply upd_other.
  - destruct (sem i a x (store_of s)). injection H as <-. cbn. now apply upd_other.
  - injection H as <-. cbn. now apply upd_other.
  - destruct (todo (srv s i)); [discriminate|]. injection H as <-. cbn. now apply upd_other.
Qed.

Lemma step_agree : forall (P : nat -> Prop) i v s s' s1,
  P i -> agree P s s' -> stepX i v s = Some s1 ->
  exists s2, stepX i v s' = Some s2 /\ agree P s1 s2.
Proof.
  intros P i v s s' s1 Pi (A1 & A2 & A3 & A4) H. unfold step in *.
  rewrite <- (A4 i Pi).
  assert (U : forall t j, P j -> upd (srv s) i t j = upd (srv s') i t j).
  { intros t j Pj. unfold upd. destruct (Nat.eqb j i); auto. }
  destruct (cur (srv s i)) as [[rc|l k|l k|a x k|k]|].
  - injection H as <-. eexists; split; [reflexivity|]. repeat split; cbn; auto.
  - destruct (v =? 0).
    + destruct l; cbn [own] in *; [rewrite <- A2|rewrite <- A3].
      * destruct (nvm_own s); [discriminate|]. injection H as <-.
        eexists; split; [reflexivity|]. repeat split; cbn; auto.
      * destruct (vc_own s); [discriminate|]. injection H as <-.
        eexists; split; [reflexivity|]. repeat split; cbn; auto.
    + injection H as <-. eexists; split; [reflexivity|]. repeat split; cbn; auto.
  - injection H as <-. eexists; split; [reflexivity|]. destruct l; repeat split; cbn; auto.
  - rewrite <- A1. destruct (sem i a x (store_of s)). injection H as <-.
    eexists; split; [reflexivity|]. repeat split; cbn; auto.
  - injection H as <-. eexists; split; [reflexivity|]. repeat split; cbn; auto.
  - destruct (todo (srv s i)); [discriminate|]. injection H as <-.
    eexists; split; [reflexivity|]. repeat split; cbn; auto.
Qed.

Lemma run1_other : forall i vs s s' j, run1 i vs s = Some s' -> j <> i -> srv s' j = srv s j.
Proof.
  intros i vs. induction vs as [|v vs IH]; intros s s' j H N; unfold run1 in *; cbn [map run] in H.
  - injection H as <-. reflexivity.
  - destruct (stepX i v s) as [s1|] eqn:E; [|discriminate].
    rewrite (IH _ _ _ H N). eapply step_other; eauto.
Qed.

Lemma run1_agree : forall (P : nat -> Prop) i vs s s' s1,
  P i -> agree P s s' -> run1 i vs s = Some s1 ->
  exists s2, run1 i vs s' = Some s2 /\ agree P s1 s2.
Proof.
  intros P i vs. induction vs as [|v vs IH]; intros s s' s1 Pi A H; unfold run1 in *; cbn [map run] in *.
  - injection H as <-. eauto.
  - destruct (stepX i v s) as [sa|] eqn:E; [|discriminate].
    destruct (step_agree P i v s s' sa Pi A E) as (sb & E' & A').
    rewrite E'. eapply IH; eauto.
Qed.

(** A private move: it neither takes, releases nor uses anything shared. *)
Definition lstep (v : Z) (t : server) : option server :=
  match cur t with
  | None => match todo t with
            | [] => None
            | q :: r => Some (mkSrv r (Some (handler g q)) (seen t) (done t))
            end
  | Some (Ret rc) => Some (mkSrv (todo t) None (seen t) (done t ++ [rc]))
  | Some (Env k) => Some (with_cur t (k v))
  | Some (Acq l k) => if v =? 0 then None else Some (with_cur t (k v))
  | _ => None
  end.
Fixpoint lrun (vs : list Z) (t : server) : option server :=
  match vs with
  | [] => Some t
  | v :: r => match lstep v t with None => None | Some t' => lrun r t' end
  end.

Lemma lrun_snoc : forall vs v t t1, lrun vs t = Some t1 -> lrun (vs ++ [v]) t = lstep v t1.
Proof.
  induction vs as [|x vs IH]; intros v t t1 H; cbn [lrun app] in *.
  - injection H as ->. destruct (lstep v t1); reflexivity.
  - destruct (lstep x t); [|discriminate]. eauto.
Qed.

Lemma lstep_step : forall i v s t', lstep v (srv s i) = Some t' -> stepX i v s = Some (set_srv i t' s).
Proof.
  intros i v s t' H. unfold step, lstep in *.
  destruct (cur (srv s i)) as [[rc|l k|l k|a x k|k]|]; try discriminate.
  - injection H as <-. reflexivity.
  - destruct (v =? 0); [discriminate|]. injection H as <-. reflexivity.
  - injection H as <-. reflexivity.
  - destruct (todo (srv s i)); [discriminate|]. injection H as <-. reflexivity.
Qed.

Lemma lrun_run : forall i vs s t', lrun vs (srv s i) = Some t' ->
  exists s', run1 i vs s = Some s' /\ store_of s' = store_of s /\ nvm_own s' = nvm_own s /\
             vc_own s' = vc_own s /\ srv s' i = t'.
Proof.
  intros i vs. induction vs as [|v vs IH]; intros s t' H; unfold run1 in *; cbn [lrun map run] in *.
  - injection H as <-. exists s. repeat split.
  - destruct (lstep v (srv s i)) as [t1|] eqn:E; [|discriminate].
    rewrite (lstep_step _ _ _ _ E).
    destruct (IH (set_srv i t1 s) t') as (s' & R & A & B & C & D).
    { cbn. rewrite upd_same. exact H. }
    exists s'. repeat split; auto.
Qed.

(** What remains of a request takes no lock any more. *)
Definition QF (n v : bool) (c : nat) (r : Z) : Prop := n = false /\ v = false.
Notation okX := (ok true true).
Definition quiet (c : option prog) : Prop :=
  match c with None => True | Some p => okX false false 0 p QF end.

Definition rturn (i : nat) (vs : list Z) (s s' : sysX) : Prop :=
  run1 i vs s = Some s' /\ free s /\ free s' /\
  match cur (srv s i) with
  | None => exists q, todo (srv s i) = q :: todo (srv s' i) /\
                      ((visits q <= 1)%nat -> quiet (cur (srv s' i)))
  | Some p => (exists k, p = Acq Nvm k) /\ todo (srv s' i) = todo (srv s i)
  end.

Inductive rt : sysX -> list (nat * list Z) -> sysX -> Prop :=
| rt_nil : forall s, rt s [] s
| rt_cons : forall s i vs s1 rest s2, rturn i vs s s1 -> rt s1 rest s2 -> rt s ((i, vs) :: rest) s2.

Lemma rt_snoc : forall s B s1 i vs s2, rt s B s1 -> rturn i vs s1 s2 -> rt s (B ++ [(i, vs)]) s2.
Proof.
  intros s B s1 i vs s2 H. revert i vs s2. induction H; intros j ws s3 T; cbn [app].
  - econstructor; [exact T|constructor].
  - econstructor; [exact H|auto].
Qed.

Lemma rt_other : forall s B s' i, rt s B s' -> ~ In i (map fst B) -> srv s' i = srv s i.
Proof.
  intros s B s' i H. induction H as [|s j vs s1 rest s2 (R & _) H IH]; intros N; auto.
  cbn [map fst In] in N. rewrite IH by tauto.
  eapply run1_other; eauto.
Qed.

Lemma rturn_agree : forall (P : nat -> Prop) i vs s s' s1,
  P i -> agree P s s' -> rturn i vs s s1 ->
  exists s2, rturn i vs s' s2 /\ agree P s1 s2.
Proof.
  intros P i vs s s' s1 Pi A (R & F1 & F2 & M).
  destruct (run1_agree P i vs s s' s1 Pi A R) as (s2 & R' & A').
  exists s2. split; [|exact A']. destruct A as (A1 & A2 & A3 & A4).
  destruct A' as (B1 & B2 & B3 & B4). unfold rturn, free in *.
  split; [exact R'|]. split; [rewrite <- A2, <- A3; exact F1|].
  split; [rewrite <- B2, <- B3; exact F2|].
  rewrite <- (A4 i Pi), <- (B4 i Pi). exact M.
Qed.

Lemma rt_agree : forall (P : nat -> Prop) s B s1, rt s B s1 -> forall s',
  (forall i, In i (map fst B) -> P i) -> agree P s s' ->
  exists s2, rt s' B s2 /\ agree P s1 s2.
Proof.
  intros P s B s1 H. induction H as [s|s i vs s1 rest s2 T H IH]; intros s' HP A.
  - exists s'. split; [constructor|exact A].
  - destruct (rturn_agree P i vs s s' s1) as (sx & T' & A'); auto.
    { apply HP. left. reflexivity. }
    destruct (IH sx) as (sy & H' & A''); auto.
    { intros j Hj. apply HP. right. exact Hj. }
    exists sy. split; [econstructor; eauto|exact A''].
Qed.

Lemma lstep_quiet : forall v t t' p, cur t = Some p -> lstep v t = Some t' ->
  todo t' = todo t /\ (quiet (cur t) -> quiet (cur t')).
Proof.
  intros v t t' p E H. unfold lstep in H. rewrite E in *.
  destruct p as [rc|l k|l k|a x k|k]; try discriminate.
  - injection H as <-. split; [reflexivity|]. intros _. exact I.
  - destruct (Z.eqb_spec v 0); [discriminate|]. injection H as <-. split; [reflexivity|].
    cbn [quiet ok with_cur cur]. destruct l.
    + intros (_ & _ & Hk & _). exact (Hk v n).
    + intros (_ & _ & Hk & _). exact (Hk v n).
  - injection H as <-. split; [reflexivity|]. cbn [quiet ok with_cur cur]. auto.
Qed.

(** A private move made in the middle of a request can be made at the end of
    that server's last turn. *)
Lemma rt_extend : forall s B sb i v t' p, rt s B sb -> In i (map fst B) ->
  cur (srv sb i) = Some p -> lstep v (srv sb i) = Some t' ->
  exists B' sb', rt s B' sb' /\ agree (fun _ => True) (set_srv i t' sb) sb'.
Proof.
  intros s B sb i v t' p H. induction H as [s|s j vs s1 rest s2 T H IH]; intros HI HC HL.
  - destruct HI.
  - destruct (in_dec Nat.eq_dec i (map fst rest)) as [Hr|Hr].
    + destruct (IH Hr HC HL) as (B' & sb' & H' & A).
      exists ((j, vs) :: B'), sb'. split; [econstructor; eauto|exact A].
    + cbn [map fst In] in HI. destruct HI as [->|HI]; [|contradiction].
      pose proof (rt_other _ _ _ _ H Hr) as E.
      rewrite E in HC, HL.
      assert (T' : rturn i (vs ++ [v]) s (set_srv i t' s1)).
      { destruct T as (R & F1 & F2 & M). destruct (lstep_quiet _ _ _ _ HC HL) as (L1 & L2).
        split; [rewrite (run1_snoc _ _ _ _ _ R); now apply lstep_step|].
        split; [exact F1|]. split; [exact F2|].
        cbn [set_srv srv]. rewrite upd_same. rewrite L1.
        destruct (cur (srv s i)) as [p0|].
        - exact M.
        - destruct M as (q & M1 & M2). exists q. split; [exact M1|]. intros V. apply L2, M2, V. }
      destruct (rt_agree (fun k => k <> i) _ _ _ H (set_srv i t' s1)) as (s3 & H' & A).
      { intros k Hk ->. contradiction. }
      { repeat split. intros k Hk. cbn. now rewrite upd_other. }
      exists ((i, vs ++ [v]) :: rest), s3. split; [econstructor; eauto|].
      destruct A as (A1 & A2 & A3 & A4). repeat split; auto.
      intros k _. cbn. destruct (Nat.eq_dec k i) as [->|N].
      * rewrite upd_same. rewrite (rt_other _ _ _ _ H' Hr). cbn. now rewrite upd_same.
      * rewrite upd_other by exact N. auto.
Qed.

(** A server whose remaining request takes no lock has no further turn before
    it is idle. *)
Lemma quiet_stays : forall s B sb i p, rt s B sb -> cur (srv s i) = Some p ->
  okX false false 0 p QF -> srv sb i = srv s i.
Proof.
  intros s B sb i p H. induction H as [s|s j vs s1 rest s2 T H IH]; intros HC HO; auto.
  destruct (Nat.eq_dec j i) as [->|N].
  - destruct T as (_ & _ & _ & M). rewrite HC in M. destruct M as ((k & ->) & _).
    cbn [ok] in HO. destruct HO as (_ & _ & _ & []).
  - assert (E : srv s1 i = srv s i).
    { destruct T as (R & _). eapply run1_other; eauto. }
    rewrite <- E in HC. rewrite IH; auto.
Qed.

Lemma rt_strict : forall s B sb, rt s B sb -> (forall i, idle (srv sb i)) -> in_turns sem g s B sb.
Proof.
  intros s B sb H. induction H as [s|s i vs s1 rest s2 T H IH]; intros HI.
  - constructor.
  - econstructor; [|apply IH, HI]. destruct T as (R & F1 & F2 & M).
    split; [exact R|]. split; [exact F1|]. split; [exact F2|].
    destruct (cur (srv s i)) as [p0|].
    + apply M.
    + destruct M as (q & M1 & M2). exists q. split; [exact M1|]. intros V.
      specialize (M2 V). unfold idle. destruct (cur (srv s1 i)) as [p|] eqn:E; [|reflexivity].
      exfalso. cbn [quiet] in M2. pose proof (quiet_stays _ _ _ _ _ H E M2) as E2.
      specialize (HI i). unfold idle in HI. rewrite E2, E in HI. discriminate.
Qed.

(** ** The invariant *)

Definition adm (q : req) : Prop := unlocked_req q = false /\ cache_only g q = false.

Definition held_by (o : option nat) : bool := match o with Some _ => true | None => false end.

(** A server without the lock: [tb] is it after its last turn, [ts] now, [pd]
    the private moves in between. *)
Definition TN (tb ts : server) (pd : list Z) : Prop :=
  match cur ts with
  | None => pd = []
  | Some p =>
      match cur tb with
      | None => exists q, todo tb = q :: todo ts /\ okX false false (visits q) p QF
      | Some _ => pd = [] /\ exists c, okX false false c p QF
      end
  end.

(** The server with the lock. *)
Definition TH (tb ts : server) (v : bool) : Prop :=
  exists p, cur ts = Some p /\
  match cur tb with
  | None => exists q c, todo tb = q :: todo ts /\ visits q = S c /\ okX true v c p QF
  | Some p0 => (exists k, p0 = Acq Nvm k) /\ todo ts = todo tb /\
               exists c, okX true v c p QF
  end.

Definition Inv (s0 s : sysX) : Prop :=
  exists B sb (pend : nat -> list Z),
    rt s0 B sb /\ free sb /\
    (forall i, Forall adm (todo (srv s i))) /\
    (forall i, nvm_own s <> Some i ->
       lrun (pend i) (srv sb i) = Some (srv s i) /\ TN (srv sb i) (srv s i) (pend i)) /\
    match nvm_own s with
    | None => vc_own s = None /\ store_of s = store_of sb
    | Some h => exists sh, run1 h (pend h) sb = Some sh /\ store_of sh = store_of s /\
        nvm_own sh = Some h /\ vc_own sh = vc_own s /\ srv sh h = srv s h /\
        (vc_own s = None \/ vc_own s = Some h) /\
        TH (srv sb h) (srv s h) (held_by (vc_own s))
    end.

Lemma handler_ok : forall q, adm q -> okX false false (visits q) (handler g q) QF.
Proof.
  intros q (A & B). pose proof (handler_takes true true g q) as H.
  eapply ok_mono; [apply H; [rewrite A; discriminate|rewrite B; discriminate|lia]|].
  cbn beta. intros n v c r (X1 & X2 & _). split; auto.
Qed.

(** The private part of a step: the server's state after [step] is its state
    after [lstep] and nothing else changes. *)
Lemma own_none : forall (s : sysX) i, nvm_own s = None -> nvm_own s <> Some i.
Proof. intros s i -> E; discriminate. Qed.

(** A server that moves privately. *)
Lemma inv_private : forall s0 s i v t',
  (forall j, cur (srv s0 j) = None) ->
  Inv s0 s -> nvm_own s <> Some i -> lstep v (srv s i) = Some t' ->
  Inv s0 (set_srv i t' s).
Proof.
  intros s0 s i v t' H0 (B & sb & pend & HB & HF & HA & HN & HH) Ho HL.
  destruct (HN i Ho) as (HLi & HTi).
  assert (HA' : forall j, Forall adm (todo (srv (set_srv i t' s) j))).
  { intros j. cbn. destruct (Nat.eq_dec j i) as [->|N]; [|rewrite upd_other; auto].
    rewrite upd_same. specialize (HA i). unfold lstep in HL.
    destruct (cur (srv s i)) as [[rc|l k|l k|a x k|k]|]; try discriminate.
    - injection HL as <-. exact HA.
    - destruct (v =? 0); [discriminate|]. injection HL as <-. exact HA.
    - injection HL as <-. exact HA.
    - destruct (todo (srv s i)); [discriminate|]. injection HL as <-. cbn. now inversion HA. }
  (* the last part for a holder: unaffected by another server's move *)
  assert (HHgen : forall sb' , agree (fun j => j <> i) sb sb' ->
            match nvm_own (set_srv i t' s) with
            | None => vc_own (set_srv i t' s) = None /\ store_of (set_srv i t' s) = store_of sb'
            | Some h => exists sh, run1 h (pend h) sb' = Some sh /\ store_of sh = store_of (set_srv i t' s) /\
                nvm_own sh = Some h /\ vc_own sh = vc_own (set_srv i t' s) /\ srv sh h = srv (set_srv i t' s) h /\
                (vc_own (set_srv i t' s) = None \/ vc_own (set_srv i t' s) = Some h) /\
                TH (srv sb' h) (srv (set_srv i t' s) h) (held_by (vc_own (set_srv i t' s)))
            end).
  { intros sb' AG. cbn [set_srv nvm_own vc_own store_of srv].
    destruct (nvm_own s) as [h|] eqn:Eo.
    - assert (Nh : h <> i) by congruence.
      destruct HH as (sh & R & S1 & S2 & S3 & S4 & S5 & S6).
      destruct (run1_agree (fun j => j <> i) h (pend h) sb sb' sh Nh AG R) as (sh' & R' & (A1 & A2 & A3 & A4)).
      exists sh'. rewrite upd_other by exact Nh.
      split; [exact R'|]. split; [congruence|]. split; [congruence|]. split; [congruence|].
      split; [rewrite <- (A4 h Nh); exact S4|]. split; [exact S5|].
      destruct AG as (_ & _ & _ & AG). rewrite <- (AG h Nh). exact S6.
    - destruct HH as (V & ST). split; [exact V|]. destruct AG as (AG & _). congruence. }
  destruct (cur (srv s i)) as [p|] eqn:Ec.
  2:{ (* a request is taken *)
      unfold TN in HTi. rewrite Ec in HTi. rewrite HTi in HLi. cbn [lrun] in HLi.
      injection HLi as HLi.
      exists B, sb, (upd pend i [v]). split; [exact HB|]. split; [exact HF|]. split; [exact HA'|].
      split.
      - intros j Hj. cbn [set_srv nvm_own] in Hj. cbn [set_srv srv].
        destruct (Nat.eq_dec j i) as [->|N].
        + rewrite !upd_same. rewrite HLi. cbn [lrun]. rewrite HL. split; [reflexivity|].
          unfold TN. rewrite Ec. unfold lstep in HL. rewrite Ec in HL.
          destruct (todo (srv s i)) as [|q r] eqn:Et; [discriminate|]. injection HL as <-.
          cbn [cur todo]. exists q. split; [congruence|]. apply handler_ok.
          specialize (HA i). rewrite Et in HA. now inversion HA.
        + rewrite !upd_other by exact N. apply HN. exact Hj.
      - specialize (HHgen sb). 
        destruct (nvm_own (set_srv i t' s)) as [h|] eqn:Eo.
        + assert (Nh : h <> i) by (cbn in Eo; congruence).
          rewrite upd_other by exact Nh. apply HHgen. repeat split; auto.
        + apply HHgen. repeat split; auto. }
  assert (HT' := HTi). unfold TN in HTi. rewrite Ec in HTi.
  destruct (cur (srv sb i)) as [p0|] eqn:Eb.
  - (* in the middle of a request, after a turn *)
    destruct HTi as (Hp & c & Hok). rewrite Hp in HLi. cbn [lrun] in HLi. injection HLi as HLi.
    destruct (in_dec Nat.eq_dec i (map fst B)) as [HI|HI].
    2:{ rewrite (rt_other _ _ _ _ HB HI), H0 in Eb. discriminate. }
    rewrite <- HLi in HL.
    destruct (rt_extend _ _ _ _ _ _ _ HB HI Eb HL) as (B' & sb' & HB' & AG).
    assert (AG' := AG). destruct AG as (A1 & A2 & A3 & A4).
    exists B', sb', pend. split; [exact HB'|].
    split; [unfold free in *; cbn in A2, A3; rewrite <- A2, <- A3; exact HF|].
    split; [exact HA'|]. split.
    + intros j Hj. cbn [set_srv nvm_own] in Hj. cbn [set_srv srv] in *.
      rewrite <- (A4 j I). destruct (Nat.eq_dec j i) as [->|N].
      * rewrite !upd_same. rewrite Hp. cbn [lrun]. split; [reflexivity|].
        unfold TN. rewrite HLi in Eb. rewrite Ec in Eb. injection Eb as <-.
        unfold lstep in HL. rewrite HLi, Ec in HL.
        destruct p as [rc|l k|l k|a x k|k]; try discriminate.
        -- injection HL as <-. reflexivity.
        -- destruct (Z.eqb_spec v 0); [discriminate|]. injection HL as <-. cbn [with_cur cur].
           split; [reflexivity|]. exists c. cbn [ok] in Hok. destruct l.
           ++ destruct Hok as (_ & _ & Hk & _). exact (Hk v n).
           ++ destruct Hok as (_ & _ & Hk & _). exact (Hk v n).
        -- injection HL as <-. cbn [with_cur cur]. split; [reflexivity|]. exists c. exact (Hok v).
      * rewrite !upd_other by exact N. apply HN. exact Hj.
    + apply HHgen. cbn [set_srv store_of nvm_own vc_own srv] in *. repeat split; auto.
      intros j N. rewrite <- (A4 j I). now rewrite upd_other.
  - (* before the first turn of this request *)
    destruct HTi as (q & Hq & Hok).
    assert (Hrun := lrun_snoc _ v _ _ HLi). rewrite HL in Hrun.
    destruct p as [rc|l k|l k|a x k|k];
      try (unfold lstep in HL; rewrite Ec in HL; discriminate).
    + (* it ends: one whole turn *)
      unfold lstep in HL; rewrite Ec in HL. injection HL as <-.
      destruct (lrun_run i _ sb _ Hrun) as (sb' & R & E1 & E2 & E3 & E4).
      assert (AG : agree (fun j => j <> i) sb sb').
      { repeat split; auto. intros j N. symmetry. eapply run1_other; eauto. }
      exists (B ++ [(i, pend i ++ [v])]), sb', (upd pend i []).
      split.
      { eapply rt_snoc; [exact HB|]. split; [exact R|]. split; [exact HF|].
        split; [unfold free in *; rewrite E2, E3; exact HF|].
        rewrite Eb, E4. exists q. split; [exact Hq|]. intros _. exact I. }
      split; [unfold free in *; rewrite E2, E3; exact HF|]. split; [exact HA'|]. split.
      * intros j Hj. cbn [set_srv nvm_own] in Hj. cbn [set_srv srv].
        destruct (Nat.eq_dec j i) as [->|N].
        -- rewrite !upd_same. rewrite E4. cbn [lrun]. split; reflexivity.
        -- rewrite !upd_other by exact N. destruct AG as (_ & _ & _ & AG).
           rewrite <- (AG j N). apply HN. exact Hj.
      * specialize (HHgen sb' AG).
        destruct (nvm_own (set_srv i _ s)) as [h|] eqn:Eo.
        -- assert (Nh : h <> i) by (cbn in Eo; congruence).
           rewrite upd_other by exact Nh. exact HHgen.
        -- exact HHgen.
    + (* a failed acquisition *)
      unfold lstep in HL; rewrite Ec in HL. destruct (Z.eqb_spec v 0) as [|Nv]; [discriminate|].
      injection HL as <-.
      exists B, sb, (upd pend i (pend i ++ [v])).
      split; [exact HB|]. split; [exact HF|]. split; [exact HA'|]. split.
      * intros j Hj. cbn [set_srv nvm_own] in Hj. cbn [set_srv srv].
        destruct (Nat.eq_dec j i) as [->|N].
        -- rewrite !upd_same. split; [exact Hrun|]. unfold TN. cbn [with_cur cur]. rewrite Eb.
           exists q. split; [exact Hq|]. cbn [ok] in Hok. destruct l.
           ++ destruct Hok as (_ & _ & Hk & _). exact (Hk v Nv).
           ++ destruct Hok as (_ & _ & Hk & _). exact (Hk v Nv).
        -- rewrite !upd_other by exact N. apply HN. exact Hj.
      * specialize (HHgen sb).
        destruct (nvm_own (set_srv i _ s)) as [h|] eqn:Eo.
        -- assert (Nh : h <> i) by (cbn in Eo; congruence).
           rewrite upd_other by exact Nh. apply HHgen. repeat split; auto.
        -- apply HHgen. repeat split; auto.
    + (* a private choice *)
      unfold lstep in HL; rewrite Ec in HL. injection HL as <-.
      exists B, sb, (upd pend i (pend i ++ [v])).
      split; [exact HB|]. split; [exact HF|]. split; [exact HA'|]. split.
      * intros j Hj. cbn [set_srv nvm_own] in Hj. cbn [set_srv srv].
        destruct (Nat.eq_dec j i) as [->|N].
        -- rewrite !upd_same. split; [exact Hrun|]. unfold TN. cbn [with_cur cur]. rewrite Eb.
           exists q. split; [exact Hq|]. exact (Hok v).
        -- rewrite !upd_other by exact N. apply HN. exact Hj.
      * specialize (HHgen sb).
        destruct (nvm_own (set_srv i _ s)) as [h|] eqn:Eo.
        -- assert (Nh : h <> i) by (cbn in Eo; congruence).
           rewrite upd_other by exact Nh. apply HHgen. repeat split; auto.
        -- apply HHgen. repeat split; auto.
Qed.

(** The holder moves without giving the lock back. *)
Lemma inv_holder : forall s0 s h v s' p',
  Inv s0 s -> nvm_own s = Some h -> stepX h v s = Some s' ->
  nvm_own s' = Some h -> (vc_own s' = None \/ vc_own s' = Some h) ->
  cur (srv s' h) = Some p' -> todo (srv s' h) = todo (srv s h) ->
  (forall p c, cur (srv s h) = Some p -> okX true (held_by (vc_own s)) c p QF ->
               okX true (held_by (vc_own s')) c p' QF) ->
  Inv s0 s'.
Proof.
  intros s0 s h v s' p' (B & sb & pend & HB & HF & HA & HN & HH) Eo HS Eo' Ev Ec' Et Hok.
  rewrite Eo in HH. destruct HH as (sh & R & S1 & S2 & S3 & S4 & S5 & S6).
  assert (AG : agree (fun j => j = h) s sh).
  { repeat split; try congruence; intros j ->; congruence. }
  destruct (step_agree _ h v s sh s' eq_refl AG HS) as (sh' & HS' & (A1 & A2 & A3 & A4)).
  exists B, sb, (upd pend h (pend h ++ [v])).
  split; [exact HB|]. split; [exact HF|]. split.
  { intros j. destruct (Nat.eq_dec j h) as [->|N]; [rewrite Et; auto|].
    rewrite (step_other _ _ _ _ _ HS N). auto. }
  split.
  - intros j Hj. rewrite Eo' in Hj. assert (N : j <> h) by congruence.
    rewrite upd_other by exact N. rewrite (step_other _ _ _ _ _ HS N). apply HN. congruence.
  - rewrite Eo'. exists sh'. rewrite upd_same.
    split; [rewrite (run1_snoc _ _ _ _ _ R); exact HS'|].
    split; [congruence|]. split; [congruence|]. split; [congruence|].
    split; [symmetry; apply A4; reflexivity|]. split; [exact Ev|].
    destruct S6 as (p & Ep & M). exists p'. split; [exact Ec'|]. rewrite Et.
    destruct (cur (srv sb h)) as [p0|].
    + destruct M as (M1 & M2 & c & M3). split; [exact M1|]. split; [exact M2|].
      exists c. eapply Hok; eauto.
    + destruct M as (q & c & M1 & M2 & M3). exists q, c. split; [exact M1|]. split; [exact M2|].
      eapply Hok; eauto.
Qed.

Lemma step_inv : forall s0 s i v s',
  (forall j, cur (srv s0 j) = None) ->
  Inv s0 s -> stepX i v s = Some s' -> Inv s0 s'.
Proof.
  intros s0 s i v s' H0 HI HS.
  assert (HI' := HI). destruct HI' as (B & sb & pend & HB & HF & HA & HN & HH).
  destruct (option_map (Nat.eqb i) (nvm_own s)) as [b|] eqn:Eb; [destruct b|].
  - (* the holder *)
    destruct (nvm_own s) as [h|] eqn:Eo; [|discriminate]. cbn [option_map] in Eb.
    injection Eb as Eb. apply Nat.eqb_eq in Eb. subst h.
    destruct HH as (sh & R & S1 & S2 & S3 & S4 & S5 & S6).
    destruct S6 as (p & Ep & M).
    assert (HS2 := HS). unfold step in HS2. rewrite Ep in HS2.
    assert (Mo : exists c, okX true (held_by (vc_own s)) c p QF).
    { destruct (cur (srv sb i)); [destruct M as (_ & _ & c & M)|destruct M as (_ & c & _ & _ & M)];
        exists c; exact M. }
    destruct p as [rc|l k|l k|a x k|k].
    + destruct Mo as (c & Mo). cbn [ok] in Mo. destruct Mo as (Mo & _). discriminate.
    + destruct l.
      * destruct Mo as (c & Mo). cbn [ok] in Mo. destruct Mo as (Mo & _). discriminate.
      * destruct (Z.eqb_spec v 0) as [->|Nv].
        -- cbn [own] in HS2. destruct (vc_own s) eqn:Ev; [discriminate|]. injection HS2 as <-.
           apply (inv_holder s0 s i 0 _ (k 0)); auto; cbn; rewrite ?upd_same; auto.
           intros p c E Hk. rewrite Ep in E. injection E as <-. rewrite Ev in Hk. cbn [ok held_by] in *.
           apply Hk.
        -- injection HS2 as <-.
           apply (inv_holder s0 s i v _ (k v)); auto; cbn; rewrite ?upd_same; auto.
           intros p c E Hk. rewrite Ep in E. injection E as <-. cbn [ok] in *.
           destruct Hk as (_ & _ & Hk & _). exact (Hk v Nv).
    + destruct l.
      * (* the NVM lock is given back: a turn is complete *)
        injection HS2 as <-.
        assert (AG : agree (fun j => j = i) s sh).
        { repeat split; try congruence; intros j ->; congruence. }
        destruct (step_agree _ i v s sh _ eq_refl AG HS) as (sh' & HS' & (A1 & A2 & A3 & A4)).
        cbn [set_own set_srv nvm_own vc_own store_of srv] in *.
        assert (Hv : vc_own s = None).
        { destruct Mo as (c & Mo). cbn [ok] in Mo. destruct Mo as (_ & Mo & _).
          destruct (vc_own s); [discriminate|reflexivity]. }
        assert (R' : run1 i (pend i ++ [v]) sb = Some sh').
        { rewrite (run1_snoc _ _ _ _ _ R). exact HS'. }
        specialize (A4 i eq_refl). rewrite upd_same in A4.
        exists (B ++ [(i, pend i ++ [v])]), sh', (upd pend i []).
        split.
        { eapply rt_snoc; [exact HB|]. split; [exact R'|]. split; [exact HF|].
          split; [split; congruence|].
          rewrite <- A4. cbn [with_cur cur todo].
          destruct (cur (srv sb i)) as [p0|] eqn:Eb.
          - destruct M as (M1 & M2 & _). split; assumption.
          - destruct M as (q & c & M1 & M2 & M3). exists q. split; [exact M1|].
            intros V. cbn [quiet]. cbn [ok] in M3. destruct M3 as (_ & _ & M3).
            rewrite Hv in M3. cbn [held_by] in M3. assert (c = 0)%nat by lia. subst c. exact M3. }
        split; [split; congruence|]. split.
        { intros j. cbn [srv]. destruct (Nat.eq_dec j i) as [->|N].
          - rewrite upd_same. cbn [with_cur todo]. auto.
          - rewrite upd_other by exact N. auto. }
        split.
        { intros j _. cbn [srv]. destruct (Nat.eq_dec j i) as [->|N].
          - rewrite !upd_same. rewrite <- A4. cbn [lrun]. split; [reflexivity|].
            unfold TN. cbn [with_cur cur]. split; [reflexivity|].
            destruct Mo as (c & Mo). cbn [ok] in Mo. destruct Mo as (_ & _ & Mo).
            rewrite Hv in Mo. exists c. exact Mo.
          - rewrite !upd_other by exact N. rewrite (run1_other _ _ _ _ _ R' N).
            apply HN. congruence. }
        cbn [nvm_own vc_own store_of]. split; congruence.
      * injection HS2 as <-.
        apply (inv_holder s0 s i v _ k); auto; cbn; rewrite ?upd_same; auto.
        intros p c E Hk. rewrite Ep in E. injection E as <-. cbn [ok held_by] in *.
        destruct Hk as (_ & Hk). exact Hk.
    + destruct (sem i a x (store_of s)) as [r y] eqn:Es. injection HS2 as <-.
      apply (inv_holder s0 s i v _ (k r)); auto; cbn; rewrite ?upd_same; auto.
      intros p c E Hk. rewrite Ep in E. injection E as <-. cbn [ok] in *.
      destruct Hk as (_ & Hk). apply Hk.
    + injection HS2 as <-.
      apply (inv_holder s0 s i v _ (k v)); auto; cbn; rewrite ?upd_same; auto.
      intros p c E Hk. rewrite Ep in E. injection E as <-. cbn [ok] in *. apply Hk.
  - (* another server holds the lock *)
    destruct (nvm_own s) as [h|] eqn:Eo; [|discriminate]. cbn [option_map] in Eb.
    injection Eb as Eb. apply Nat.eqb_neq in Eb.
    assert (No : nvm_own s <> Some i) by congruence.
    destruct (lstep v (srv s i)) as [t'|] eqn:EL.
    + rewrite (lstep_step _ _ _ _ EL) in HS. injection HS as <-.
      eapply inv_private; eauto.
    + exfalso. destruct (HN i) as (_ & HT); [congruence|].
      unfold step in HS. unfold lstep in EL. unfold TN in HT.
      destruct (cur (srv s i)) as [[rc|l k|l k|a x k|k]|]; try discriminate.
      * destruct (Z.eqb_spec v 0); [|discriminate]. destruct l; cbn [own] in HS.
        -- rewrite Eo in HS. discriminate.
        -- assert (Ho : exists c, okX false false c (Acq Vc k) QF).
           { destruct (cur (srv sb i)); [destruct HT as (_ & c & HT)|destruct HT as (q & _ & HT)]; eauto. }
           destruct Ho as (c & Ho). cbn [ok] in Ho. destruct Ho as (_ & Ho & _).
           specialize (Ho eq_refl). discriminate.
      * assert (Ho : exists c, okX false false c (Rel l k) QF).
        { destruct (cur (srv sb i)); [destruct HT as (_ & c & HT)|destruct HT as (q & _ & HT)]; eauto. }
        destruct Ho as (c & Ho). cbn [ok] in Ho. destruct l; destruct Ho as (Ho & _); discriminate.
      * assert (Ho : exists c, okX false false c (Use a x k) QF).
        { destruct (cur (srv sb i)); [destruct HT as (_ & c & HT)|destruct HT as (q & _ & HT)]; eauto. }
        destruct Ho as (c & Ho). cbn [ok] in Ho. destruct Ho as (Ho & _). specialize (Ho eq_refl).
        destruct (guard a); discriminate.
      * destruct (todo (srv s i)); discriminate.
  - (* the lock is free *)
    destruct (nvm_own s) as [h|] eqn:Eo; [discriminate|].
    assert (No : nvm_own s <> Some i) by congruence.
    destruct (lstep v (srv s i)) as [t'|] eqn:EL.
    + rewrite (lstep_step _ _ _ _ EL) in HS. injection HS as <-.
      eapply inv_private; eauto.
    + destruct (HN i) as (HLi & HT); [congruence|]. destruct HH as (Hv & Hst).
      assert (HS2 := HS). unfold step in HS2. unfold lstep in EL. unfold TN in HT.
      destruct (cur (srv s i)) as [[rc|l k|l k|a x k|k]|] eqn:Ec; try discriminate.
      * destruct (Z.eqb_spec v 0) as [->|]; [|discriminate]. destruct l; cbn [own] in HS2.
        -- (* the lock is taken *)
           rewrite Eo in HS2. injection HS2 as <-.
           destruct (lrun_run i _ sb _ HLi) as (s1 & R & E1 & E2 & E3 & E4).
           assert (AG : agree (fun j => j = i) s s1).
           { destruct HF as (F1 & F2). repeat split; try congruence; intros j ->; congruence. }
           destruct (step_agree _ i 0 s s1 _ eq_refl AG HS) as (sh' & HS' & (A1 & A2 & A3 & A4)).
           cbn [set_own set_srv nvm_own vc_own store_of srv] in *.
           specialize (A4 i eq_refl). rewrite upd_same in A4.
           exists B, sb, (upd pend i (pend i ++ [0])).
           split; [exact HB|]. split; [exact HF|]. split.
           { intros j. cbn [srv]. destruct (Nat.eq_dec j i) as [->|N].
             - rewrite upd_same. cbn [with_cur todo]. auto.
             - rewrite upd_other by exact N. auto. }
           split.
           { intros j Hj. cbn [nvm_own] in Hj. cbn [srv]. assert (N : j <> i) by congruence.
             rewrite !upd_other by exact N. apply HN. congruence. }
           cbn [nvm_own vc_own store_of srv]. exists sh'. rewrite !upd_same.
           split; [rewrite (run1_snoc _ _ _ _ _ R); exact HS'|].
           split; [congruence|]. split; [congruence|]. split; [congruence|].
           split; [congruence|]. split; [left; exact Hv|].
           rewrite Hv. cbn [held_by]. exists (k 0). split; [reflexivity|]. cbn [with_cur todo].
           destruct (cur (srv sb i)) as [p0|] eqn:Eb0.
           ++ destruct HT as (Hp & c & Ho). rewrite Hp in HLi. cbn [lrun] in HLi.
              injection HLi as HLi. rewrite HLi in *. rewrite Ec in Eb0. injection Eb0 as <-.
              split; [exists k; reflexivity|]. split; [reflexivity|].
              cbn [ok] in Ho. destruct Ho as (_ & _ & _ & Ho). destruct c; [contradiction|].
              exists c. exact Ho.
           ++ destruct HT as (q & Hq & Ho). cbn [ok] in Ho. destruct Ho as (_ & _ & _ & Ho).
              destruct (visits q) as [|c] eqn:Ev; [contradiction|].
              exists q, c. split; [exact Hq|]. split; [exact Ev|]. exact Ho.
        -- exfalso. assert (Ho : exists c, okX false false c (Acq Vc k) QF).
           { destruct (cur (srv sb i)); [destruct HT as (_ & c & HT)|destruct HT as (q & _ & HT)]; eauto. }
           destruct Ho as (c & Ho). cbn [ok] in Ho. destruct Ho as (_ & Ho & _).
           specialize (Ho eq_refl). discriminate.
      * exfalso. assert (Ho : exists c, okX false false c (Rel l k) QF).
        { destruct (cur (srv sb i)); [destruct HT as (_ & c & HT)|destruct HT as (q & _ & HT)]; eauto. }
        destruct Ho as (c & Ho). cbn [ok] in Ho. destruct l; destruct Ho as (Ho & _); discriminate.
      * exfalso. assert (Ho : exists c, okX false false c (Use a x k) QF).
        { destruct (cur (srv sb i)); [destruct HT as (_ & c & HT)|destruct HT as (q & _ & HT)]; eauto. }
        destruct Ho as (c & Ho). cbn [ok] in Ho. destruct Ho as (Ho & _). specialize (Ho eq_refl).
        destruct (guard a); discriminate.
      * exfalso. destruct (todo (srv s i)); discriminate.
Qed.

Lemma run_inv : forall s0 sc s s', (forall j, cur (srv s0 j) = None) ->
  Inv s0 s -> runX sc s = Some s' -> Inv s0 s'.
Proof.
  intros s0 sc. induction sc as [|[i v] sc IH]; intros s s' H0 HI H; cbn [run] in H.
  - injection H as <-. exact HI.
  - destruct (stepX i v s) as [s1|] eqn:E; [|discriminate].
    apply (IH s1 s' H0); [exact (step_inv s0 s i v s1 H0 HI E)|exact H].
Qed.

Lemma start_inv : forall x q, (forall i, Forall adm (q i)) -> Inv (start x q) (start x q).
Proof.
  intros x q H. exists [], (start x q), (fun _ => []).
  split; [constructor|]. split; [split; reflexivity|]. split; [exact H|]. split.
  - intros i _. split; reflexivity.
  - cbn. split; reflexivity.
Qed.

Theorem serial : forall x q sc s,
  (forall i, Forall adm (q i)) ->
  runX sc (start x q) = Some s -> finished s ->
  exists turns s', in_turns sem g (start x q) turns s' /\ same s s'.
Proof.
  intros x q sc s HA HR HFin.
  pose proof (run_inv (start x q) sc _ s (fun _ => eq_refl) (start_inv x q HA) HR) as HI.
  destruct HI as (B & sb & pend & HB & HF & _ & HN & HH).
  destruct (nvm_own s) as [h|] eqn:Eo.
  { destruct HH as (sh & _ & _ & _ & _ & _ & _ & (p & Ep & _)).
    destruct (HFin h) as (Hh & _). unfold idle in Hh. congruence. }
  assert (ES : forall i, srv sb i = srv s i).
  { intros i. destruct (HN i) as (HL & HT); [discriminate|].
    destruct (HFin i) as (Hi & _). unfold idle in Hi. unfold TN in HT. rewrite Hi in HT.
    rewrite HT in HL. cbn [lrun] in HL. congruence. }
  exists B, sb. split.
  - apply rt_strict; [exact HB|]. intros i. rewrite ES. apply HFin.
  - destruct HH as (Hv & Hst). destruct HF as (F1 & F2).
    repeat split; try congruence; intros; symmetry; apply ES.
Qed.

(** If every request takes at most one visit, every turn is a whole request. *)
Lemma step_todo : forall i v s s' q, stepX i v s = Some s' -> forall j,
  In q (todo (srv s' j)) -> In q (todo (srv s j)).
Proof.
  intros i v s s' q H j HI. destruct (Nat.eq_dec j i) as [->|N].
  2:{ now rewrite <- (step_other _ _ _ _ _ H N). }
  unfold step in H. destruct (cur (srv s i)) as [[rc|l k|l k|a x k|k]|].
  - injection H as <-. cbn in HI. rewrite upd_same in HI. exact HI.
  - destruct (v =? 0).
    + destruct (own l s); [discriminate|]. injection H as <-.
      destruct l; cbn in HI; rewrite upd_same in HI; exact HI.
    + injection H as <-. cbn in HI. rewrite upd_same in HI. exact HI.
  - injection H as <-. destruct l; cbn in HI; rewrite upd_same in HI; exact HI.
  - destruct (sem i a x (store_of s)). injection H as <-. cbn in HI. rewrite upd_same in HI. exact HI.
  - injection H as <-. cbn in HI. rewrite upd_same in HI. exact HI.
  - destruct (todo (srv s i)) eqn:E; [discriminate|]. injection H as <-. cbn in HI.
    rewrite upd_same in HI. cbn [todo] in HI. right. exact HI.
Qed.

Lemma run_todo : forall sc s s' q, runX sc s = Some s' -> forall j,
  In q (todo (srv s' j)) -> In q (todo (srv s j)).
Proof.
  induction sc as [|[i v] sc IH]; intros s s' q H j HI; cbn [run] in H.
  - now injection H as <-.
  - destruct (stepX i v s) as [s1|] eqn:E; [|discriminate].
    eapply step_todo; eauto.
Qed.

Lemma turns_whole : forall s B s', in_turns sem g s B s' ->
  (forall i, idle (srv s i)) ->
  (forall i q, In q (todo (srv s i)) -> (visits q <= 1)%nat) ->
  one_at_a_time sem g s s'.
Proof.
  intros s B s' H. induction H as [s|s i vs s1 rest s2 T H IH]; intros HI HV.
  - constructor.
  - destruct T as (R & F1 & F2 & M).
    pose proof (HI i) as Hi. unfold idle in Hi. rewrite Hi in M.
    destruct M as (q & M1 & M2).
    assert (Hq : idle (srv s1 i)).
    { apply M2. apply (HV i). rewrite M1. left. reflexivity. }
    eapply one_cons; eauto. apply IH.
    + intros j. destruct (Nat.eq_dec j i) as [->|N]; [exact Hq|].
      unfold idle. rewrite (run1_other _ _ _ _ _ R N). apply HI.
    + intros j q' Hj. apply (HV j). eapply run_todo; eauto.
Qed.

Theorem serial_whole : forall x q sc s,
  (forall i, Forall adm (q i)) ->
  (forall i r, In r (q i) -> (visits r <= 1)%nat) ->
  runX sc (start x q) = Some s -> finished s ->
  exists s', one_at_a_time sem g (start x q) s' /\ same s s'.
Proof.
  intros x q sc s HA HV HR HF.
  destruct (serial x q sc s HA HR HF) as (B & s' & HT & HS).
  exists s'. split; [|exact HS]. eapply turns_whole; [exact HT| |].
  - intros i. reflexivity.
  - intros i r Hr. apply (HV i). exact Hr.
Qed.

(* ------------------------------------------------------------------ *)
(** ** Progress and exclusion, for all requests *)

Section Any.
Variables u : bool.

Definition okA := ok u false.
Definition admA (q : req) : Prop := u = true -> unlocked_req q = false.

Definition mineb (o : option nat) (i : nat) : bool :=
  match o with Some j => Nat.eqb j i | None => false end.

Definition InvA (s : sysX) : Prop :=
  forall i, Forall admA (todo (srv s i)) /\
    match cur (srv s i) with
    | None => mineb (nvm_own s) i = false /\ mineb (vc_own s) i = false
    | Some p => exists c, okA (mineb (nvm_own s) i) (mineb (vc_own s) i) c p QF
    end.

Lemma mineb_other : forall o i j, mineb o i = true -> j <> i -> mineb o j = false.
Proof.
  intros [k|] i j H N; cbn in *; [|reflexivity].
  apply Nat.eqb_eq in H. subst. now apply Nat.eqb_neq, not_eq_sym.
Qed.

Lemma admA_ok : forall q, admA q -> okA false false (visits q) (handler g q) QF.
Proof.
  intros q A. eapply ok_mono; [apply (handler_takes u false g q)|].
  - intros U. split; [|reflexivity]. unfold admA in A. destruct u; [|reflexivity]. rewrite (A eq_refl) in U. discriminate.
  - reflexivity.
  - lia.
  - cbn beta. intros n v c r (X1 & X2 & _). split; auto.
Qed.

Lemma step_invA : forall i v s s', InvA s -> stepX i v s = Some s' -> InvA s'.
Proof.
  intros i v s s' HI HS.
  pose proof (HI i) as (HAi & HCi).
  unfold step in HS.
  destruct (cur (srv s i)) as [[rc|l k|l k|a x k|k]|] eqn:Ec.
  - injection HS as <-. intros j. cbn [set_srv srv nvm_own vc_own].
    destruct (Nat.eq_dec j i) as [->|N]; [|rewrite upd_other by exact N; apply HI].
    rewrite upd_same. cbn [todo cur]. split; [exact HAi|].
    destruct HCi as (c & Hc). exact Hc.
  - destruct (Z.eqb_spec v 0) as [->|Nv].
    + destruct (own l s) eqn:Eo; [discriminate|]. injection HS as <-.
      intros j. destruct HCi as (c & Hc). destruct l; cbn [own] in Eo;
        cbn [set_own set_srv srv nvm_own vc_own].
      * cbn [okA ok] in Hc. destruct Hc as (Hn & Hv & _ & Hc). destruct c as [|c]; [contradiction|].
        destruct (Nat.eq_dec j i) as [->|N].
        -- rewrite upd_same. cbn [with_cur todo cur]. split; [exact HAi|].
           exists c. cbn [mineb]. rewrite Nat.eqb_refl. exact Hc.
        -- rewrite upd_other by exact N. destruct (HI j) as (A & C). split; [exact A|].
           rewrite Eo in C. cbn [mineb] in *. rewrite (proj2 (Nat.eqb_neq i j)) by congruence. exact C.
      * cbn [okA ok] in Hc. destruct Hc as (Hv & _ & _ & Hc).
        destruct (Nat.eq_dec j i) as [->|N].
        -- rewrite upd_same. cbn [with_cur todo cur]. split; [exact HAi|].
           exists c. cbn [mineb]. rewrite Nat.eqb_refl. exact Hc.
        -- rewrite upd_other by exact N. destruct (HI j) as (A & C). split; [exact A|].
           rewrite Eo in C. cbn [mineb] in *. rewrite (proj2 (Nat.eqb_neq i j)) by congruence. exact C.
    + injection HS as <-. intros j. cbn [set_srv srv nvm_own vc_own].
      destruct (Nat.eq_dec j i) as [->|N]; [|rewrite upd_other by exact N; apply HI].
      rewrite upd_same. cbn [with_cur todo cur]. split; [exact HAi|].
      destruct HCi as (c & Hc). exists c. cbn [okA ok] in Hc. destruct l.
      * destruct Hc as (_ & _ & Hc & _). exact (Hc v Nv).
      * destruct Hc as (_ & _ & Hc & _). exact (Hc v Nv).
  - injection HS as <-. intros j. destruct HCi as (c & Hc). destruct l;
      cbn [set_own set_srv srv nvm_own vc_own]; cbn [okA ok] in Hc.
    + destruct Hc as (Hn & Hv & Hc). destruct (Nat.eq_dec j i) as [->|N].
      * rewrite upd_same. cbn [with_cur todo cur]. split; [exact HAi|].
        exists c. cbn [mineb]. exact Hc.
      * rewrite upd_other by exact N. destruct (HI j) as (A & C). split; [exact A|].
        rewrite (mineb_other _ _ _ Hn N) in C. cbn [mineb]. exact C.
    + destruct Hc as (Hv & Hc). destruct (Nat.eq_dec j i) as [->|N].
      * rewrite upd_same. cbn [with_cur todo cur]. split; [exact HAi|].
        exists c. cbn [mineb]. exact Hc.
      * rewrite upd_other by exact N. destruct (HI j) as (A & C). split; [exact A|].
        rewrite (mineb_other _ _ _ Hv N) in C. cbn [mineb]. exact C.
  - destruct (sem i a x (store_of s)) as [r y]. injection HS as <-. intros j.
    cbn [set_store set_srv srv nvm_own vc_own].
    destruct (Nat.eq_dec j i) as [->|N]; [|rewrite upd_other by exact N; apply HI].
    rewrite upd_same. cbn [with_seen todo cur]. split; [exact HAi|].
    destruct HCi as (c & Hc). exists c. cbn [okA ok] in Hc. apply Hc.
  - injection HS as <-. intros j. cbn [set_srv srv nvm_own vc_own].
    destruct (Nat.eq_dec j i) as [->|N]; [|rewrite upd_other by exact N; apply HI].
    rewrite upd_same. cbn [with_cur todo cur]. split; [exact HAi|].
    destruct HCi as (c & Hc). exists c. exact (Hc v).
  - destruct (todo (srv s i)) as [|q r] eqn:Et; [discriminate|]. injection HS as <-. intros j.
    cbn [set_srv srv nvm_own vc_own].
    destruct (Nat.eq_dec j i) as [->|N]; [|rewrite upd_other by exact N; apply HI].
    rewrite upd_same. cbn [todo cur]. inversion HAi; subst. split; [assumption|].
    destruct HCi as (-> & ->). exists (visits q). now apply admA_ok.
Qed.

Lemma run_invA : forall sc s s', InvA s -> runX sc s = Some s' -> InvA s'.
Proof.
  induction sc as [|[i v] sc IH]; intros s s' HI H; cbn [run] in H.
  - now injection H as <-.
  - destruct (stepX i v s) as [s1|] eqn:E; [|discriminate].
    apply (IH s1 s'); [exact (step_invA i v s s1 HI E)|exact H].
Qed.

Lemma start_invA : forall x q, (forall i, Forall admA (q i)) -> InvA (start x q).
Proof. intros x q H i. split; [apply H|]. split; reflexivity. Qed.

(** An owner is a server in the middle of a request. *)
Lemma owner_busy : forall s h, InvA s -> nvm_own s = Some h \/ vc_own s = Some h ->
  exists p c, cur (srv s h) = Some p /\
              okA (mineb (nvm_own s) h) (mineb (vc_own s) h) c p QF.
Proof.
  intros s h HI Ho. destruct (HI h) as (_ & C).
  destruct (cur (srv s h)) as [p|].
  - destruct C as (c & C). eauto.
  - exfalso. destruct C as (C1 & C2). destruct Ho as [E|E]; rewrite E in *; cbn in *;
      rewrite Nat.eqb_refl in *; discriminate.
Qed.

Lemma some_step : forall s i, InvA s ->
  (cur (srv s i) <> None \/ todo (srv s i) <> []) ->
  (forall l, own l s = None \/ own l s = Some i) ->
  exists v s', stepX i v s = Some s'.
Proof.
  intros s i HI HB HO. destruct (HI i) as (_ & C). exists 0. unfold step.
  destruct (cur (srv s i)) as [[rc|l k|l k|a x k|k]|].
  - eauto.
  - cbn [Z.eqb]. destruct C as (c & C). cbn [okA ok] in C.
    destruct (HO l) as [E|E]; rewrite E.
    + eauto.
    + exfalso. destruct l; cbn [own] in E; rewrite E in C; cbn [mineb] in C;
        rewrite Nat.eqb_refl in C; destruct C as (C1 & _); discriminate.
  - eauto.
  - destruct (sem i a x (store_of s)). eauto.
  - eauto.
  - destruct HB as [HB|HB]; [congruence|]. destruct (todo (srv s i)); [congruence|eauto].
Qed.

(** The lock holder can move, and if no lock is held everyone can. *)
Theorem progressA : forall s, InvA s -> ~ finished s ->
  (exists i, cur (srv s i) <> None \/ todo (srv s i) <> []) ->
  exists i v s', stepX i v s = Some s'.
Proof.
  intros s HI _ (i & Hi).
  destruct (vc_own s) as [h|] eqn:Ev.
  - (* the verify cache's lock is held: its holder waits for nothing *)
    destruct (owner_busy s h HI (or_intror Ev)) as (p & c & Ec & Hc).
    exists h, 0. unfold step. rewrite Ec. rewrite Ev in Hc. cbn [mineb] in Hc.
    rewrite Nat.eqb_refl in Hc.
    destruct p as [rc|l k|l k|a x k|k].
    + eauto.
    + exfalso. cbn [okA ok] in Hc. destruct l.
      * destruct Hc as (_ & Hc & _). discriminate.
      * destruct Hc as (Hc & _). discriminate.
    + eauto.
    + destruct (sem h a x (store_of s)). eauto.
    + eauto.
  - destruct (nvm_own s) as [h|] eqn:En.
    + destruct (owner_busy s h HI (or_introl En)) as (p & c & Ec & _).
      destruct (some_step s h HI) as (v & s' & E).
      * left. congruence.
      * intros [|]; cbn [own]; auto.
      * eauto.
    + destruct (some_step s i HI Hi) as (v & s' & E).
      * intros [|]; cbn [own]; auto.
      * eauto.
Qed.

(** A server about to touch something shared holds the lock for it. *)
Theorem exclusiveA : forall s i a x k, u = true -> InvA s ->
  cur (srv s i) = Some (Use a x k) -> own (guard a) s = Some i.
Proof.
  intros s i a x k Hu HI Ec. destruct (HI i) as (_ & C). rewrite Ec in C.
  destruct C as (c & C). cbn [okA ok] in C. destruct C as (C & _). specialize (C Hu).
  destruct (guard a); cbn [own].
  - destruct (nvm_own s) as [j|]; cbn [mineb] in C; [|discriminate].
    apply Nat.eqb_eq in C. now subst.
  - destruct (vc_own s) as [j|]; cbn [mineb] in C; [|discriminate].
    apply Nat.eqb_eq in C. now subst.
Qed.

(** The holder of the verify cache's lock can go on until it gives it back. *)
Lemma solo_vc : forall p s h, InvA s -> vc_own s = Some h -> cur (srv s h) = Some p ->
  exists vs s', run1 h vs s = Some s' /\ vc_own s' = None /\ nvm_own s' = nvm_own s.
Proof.
  induction p as [r|l k IH|l k IH|a x k IH|k IH]; intros s h HI Hv Hc;
    pose proof (HI h) as (_ & C); rewrite Hc in C; destruct C as (c & C);
    rewrite Hv in C; cbn [mineb] in C; rewrite Nat.eqb_refl in C; cbn [okA ok] in C.
  - destruct C as (_ & C). discriminate.
  - exfalso. destruct l; [destruct C as (_ & C & _)|destruct C as (C & _)]; discriminate.
  - destruct l.
    + destruct C as (_ & C & _). discriminate.
    + exists [0], (set_own Vc None (set_srv h (with_cur (srv s h) k) s)).
      unfold run1. cbn [map run]. unfold step. rewrite Hc. repeat split.
  - destruct (sem h a x (store_of s)) as [r y] eqn:Es.
    assert (E : stepX h 0 s = Some (set_store y (set_srv h (with_seen (srv s h) r (k r)) s))).
    { unfold step. rewrite Hc, Es. reflexivity. }
    destruct (IH r (set_store y (set_srv h (with_seen (srv s h) r (k r)) s)) h) as (vs & s' & R & V & N).
    + eapply step_invA; eauto.
    + exact Hv.
    + cbn. rewrite upd_same. reflexivity.
    + exists (0 :: vs), s'. unfold run1 in *. cbn [map run]. rewrite E. auto.
  - assert (E : stepX h 0 s = Some (set_srv h (with_cur (srv s h) (k 0)) s)).
    { unfold step. rewrite Hc. reflexivity. }
    destruct (IH 0 (set_srv h (with_cur (srv s h) (k 0)) s) h) as (vs & s' & R & V & N).
    + eapply step_invA; eauto.
    + exact Hv.
    + cbn. rewrite upd_same. reflexivity.
    + exists (0 :: vs), s'. unfold run1 in *. cbn [map run]. rewrite E. auto.
Qed.

(** A server that nobody else keeps from a lock can finish its request. *)
Lemma solo_end : forall p s i, InvA s -> cur (srv s i) = Some p ->
  (forall l, own l s = None \/ own l s = Some i) ->
  exists vs s', run1 i vs s = Some s' /\ cur (srv s' i) = None /\
                todo (srv s' i) = todo (srv s i) /\ free s'.
Proof.
  induction p as [r|l k IH|l k IH|a x k IH|k IH]; intros s i HI Hc HO;
    pose proof (HI i) as (_ & C); rewrite Hc in C; destruct C as (c & C); cbn [okA ok] in C.
  - exists [0], (set_srv i (mkSrv (todo (srv s i)) None (seen (srv s i)) (done (srv s i) ++ [r])) s).
    unfold run1. cbn [map run]. unfold step. rewrite Hc. split; [reflexivity|].
    cbn. rewrite upd_same. cbn. split; [reflexivity|]. split; [reflexivity|].
    destruct C as (C1 & C2). split; cbn.
    + destruct (HO Nvm) as [E|E]; cbn in E; [exact E|]. rewrite E in C1. cbn in C1.
      rewrite Nat.eqb_refl in C1. discriminate.
    + destruct (HO Vc) as [E|E]; cbn in E; [exact E|]. rewrite E in C2. cbn in C2.
      rewrite Nat.eqb_refl in C2. discriminate.
  - assert (Eo : own l s = None).
    { destruct (HO l) as [E|E]; [exact E|]. exfalso. destruct l; cbn [own] in E; rewrite E in C;
        cbn [mineb] in C; rewrite Nat.eqb_refl in C; destruct C as (C & _); discriminate. }
    set (s1 := set_own l (Some i) (set_srv i (with_cur (srv s i) (k 0)) s)).
    assert (E : stepX i 0 s = Some s1).
    { unfold step. rewrite Hc. cbn [Z.eqb]. rewrite Eo. reflexivity. }
    destruct (IH 0 s1 i) as (vs & s' & R & A & B & F).
    + eapply step_invA; eauto.
    + subst s1. destruct l; cbn; rewrite upd_same; reflexivity.
    + subst s1. intros l'. destruct (HO Nvm) as [E1|E1], (HO Vc) as [E2|E2];
        destruct l, l'; cbn in *; auto.
    + exists (0 :: vs), s'. unfold run1 in *. cbn [map run]. rewrite E. repeat split; auto; try apply F.
      rewrite B. subst s1. destruct l; cbn; rewrite upd_same; reflexivity.
  - set (s1 := set_own l None (set_srv i (with_cur (srv s i) k) s)).
    assert (E : stepX i 0 s = Some s1).
    { unfold step. rewrite Hc. reflexivity. }
    destruct (IH s1 i) as (vs & s' & R & A & B & F).
    + eapply step_invA; eauto.
    + subst s1. destruct l; cbn; rewrite upd_same; reflexivity.
    + subst s1. intros l'. destruct (HO Nvm) as [E1|E1], (HO Vc) as [E2|E2];
        destruct l, l'; cbn in *; auto.
    + exists (0 :: vs), s'. unfold run1 in *. cbn [map run]. rewrite E. repeat split; auto; try apply F.
      rewrite B. subst s1. destruct l; cbn; rewrite upd_same; reflexivity.
  - destruct (sem i a x (store_of s)) as [r y] eqn:Es.
    set (s1 := set_store y (set_srv i (with_seen (srv s i) r (k r)) s)).
    assert (E : stepX i 0 s = Some s1).
    { unfold step. rewrite Hc, Es. reflexivity. }
    destruct (IH r s1 i) as (vs & s' & R & A & B & F).
    + eapply step_invA; eauto.
    + subst s1. cbn. rewrite upd_same. reflexivity.
    + intros l'. specialize (HO l'). destruct l'; exact HO.
    + exists (0 :: vs), s'. unfold run1 in *. cbn [map run]. rewrite E. repeat split; auto; try apply F.
      rewrite B. subst s1. cbn. rewrite upd_same. reflexivity.
  - set (s1 := set_srv i (with_cur (srv s i) (k 0)) s).
    assert (E : stepX i 0 s = Some s1).
    { unfold step. rewrite Hc. reflexivity. }
    destruct (IH 0 s1 i) as (vs & s' & R & A & B & F).
    + eapply step_invA; eauto.
    + subst s1. cbn. rewrite upd_same. reflexivity.
    + intros l'. specialize (HO l'). destruct l'; exact HO.
    + exists (0 :: vs), s'. unfold run1 in *. cbn [map run]. rewrite E. repeat split; auto; try apply F.
      rewrite B. subst s1. cbn. rewrite upd_same. reflexivity.
Qed.

(** ... and then all the requests in its queue. *)
Lemma solo_all : forall n s i, InvA s -> free s -> cur (srv s i) = None ->
  length (todo (srv s i)) = n ->
  exists vs s', run1 i vs s = Some s' /\ cur (srv s' i) = None /\
                todo (srv s' i) = [] /\ free s'.
Proof.
  induction n as [|n IH]; intros s i HI HF Hc Hn.
  - exists [], s. destruct (todo (srv s i)) eqn:E; [|discriminate].
    unfold run1. cbn [map run]. repeat split; auto; apply HF.
  - destruct (todo (srv s i)) as [|q r] eqn:Et; [discriminate|].
    set (s1 := set_srv i (mkSrv r (Some (handler g q)) (seen (srv s i)) (done (srv s i))) s).
    assert (E : stepX i 0 s = Some s1).
    { unfold step. rewrite Hc, Et. reflexivity. }
    assert (I1 : InvA s1) by (eapply step_invA; eauto).
    destruct (solo_end (handler g q) s1 i I1) as (vs & s2 & R & A & B & F).
    + subst s1. cbn. rewrite upd_same. reflexivity.
    + intros l. left. destruct l; apply HF.
    + assert (I2 : InvA s2).
      { unfold run1 in R. exact (run_invA _ _ _ I1 R). }
      destruct (IH s2 i I2 F A) as (ws & s3 & R3 & A3 & B3 & F3).
      { rewrite B. subst s1. cbn. rewrite upd_same. cbn. cbn in Hn. lia. }
      exists (0 :: vs ++ ws), s3. unfold run1 in *. cbn [map run]. rewrite E.
      rewrite map_app, run_app, R. auto.
Qed.

Definition quiesced (s : sysX) (i : nat) : Prop := cur (srv s i) = None /\ todo (srv s i) = [].

Lemma finish_all : forall n s, InvA s -> free s ->
  exists sc s', runX sc s = Some s' /\ free s' /\
    (forall i, (i < n)%nat -> quiesced s' i) /\
    (forall i, (n <= i)%nat -> srv s' i = srv s i).
Proof.
  induction n as [|n IH]; intros s HI HF.
  - exists [], s. cbn [run]. repeat split; auto; try apply HF; lia.
  - destruct (IH s HI HF) as (sc & s1 & R & F & Q & O).
    assert (I1 : InvA s1) by exact (run_invA _ _ _ HI R).
    assert (E : exists vs s2, run1 n vs s1 = Some s2 /\ cur (srv s2 n) = None /\ free s2).
    { destruct (cur (srv s1 n)) as [p|] eqn:Ec.
      - destruct (solo_end p s1 n I1 Ec) as (vs & s2 & R2 & A & _ & F2); [|eauto].
        intros l. left. destruct l; apply F.
      - exists [], s1. unfold run1. cbn [map run]. auto. }
    destruct E as (vs & s2 & R2 & A2 & F2).
    assert (I2 : InvA s2) by (unfold run1 in R2; exact (run_invA _ _ _ I1 R2)).
    destruct (solo_all _ s2 n I2 F2 A2 eq_refl) as (ws & s3 & R3 & A3 & B3 & F3).
    exists (sc ++ map (pair n) vs ++ map (pair n) ws), s3.
    split; [unfold run1 in R2, R3; rewrite run_app, R, run_app, R2; exact R3|].
    split; [exact F3|]. split.
    + intros i Hi. destruct (Nat.eq_dec i n) as [->|N]; [split; auto|].
      unfold quiesced. rewrite (run1_other _ _ _ _ _ R3 N), (run1_other _ _ _ _ _ R2 N).
      apply Q. lia.
    + intros i Hi. assert (N : i <> n) by lia.
      rewrite (run1_other _ _ _ _ _ R3 N), (run1_other _ _ _ _ _ R2 N). apply O. lia.
Qed.

(** From any state of a run, all requests can still be answered. *)
Theorem completesA : forall n s, InvA s -> (forall i, (n <= i)%nat -> quiesced s i) ->
  exists sc s', runX sc s = Some s' /\ finished s' /\ free s'.
Proof.
  intros n s HI HQ.
  assert (E1 : exists sc s1, runX sc s = Some s1 /\ vc_own s1 = None /\
                (forall i, (n <= i)%nat -> quiesced s1 i)).
  { destruct (vc_own s) as [h|] eqn:Ev.
    - destruct (owner_busy s h HI (or_intror Ev)) as (p & c & Ec & _).
      destruct (solo_vc p s h HI Ev Ec) as (vs & s1 & R & V & _).
      exists (map (pair h) vs), s1. split; [exact R|]. split; [exact V|].
      intros i Hi. assert (N : i <> h).
      { intros ->. destruct (HQ h Hi) as (X1 & _). congruence. }
      unfold quiesced. rewrite (run1_other _ _ _ _ _ R N). apply HQ, Hi.
    - exists [], s. cbn [run]. auto. }
  destruct E1 as (sc1 & s1 & R1 & V1 & Q1).
  assert (I1 : InvA s1) by exact (run_invA _ _ _ HI R1).
  assert (E2 : exists sc s2, runX sc s1 = Some s2 /\ free s2 /\
                (forall i, (n <= i)%nat -> quiesced s2 i)).
  { destruct (nvm_own s1) as [h|] eqn:En.
    - destruct (owner_busy s1 h I1 (or_introl En)) as (p & c & Ec & _).
      destruct (solo_end p s1 h I1 Ec) as (vs & s2 & R & A & _ & F).
      { intros [|]; cbn; auto. }
      exists (map (pair h) vs), s2. split; [exact R|]. split; [exact F|].
      intros i Hi. assert (N : i <> h).
      { intros ->. destruct (Q1 h Hi) as (X1 & _). congruence. }
      unfold quiesced. rewrite (run1_other _ _ _ _ _ R N). apply Q1, Hi.
    - exists [], s1. cbn [run]. repeat split; auto; apply Q1; auto. }
  destruct E2 as (sc2 & s2 & R2 & F2 & Q2).
  assert (I2 : InvA s2) by exact (run_invA _ _ _ I1 R2).
  destruct (finish_all n s2 I2 F2) as (sc3 & s3 & R3 & F3 & Q3 & O3).
  exists (sc1 ++ sc2 ++ sc3), s3. split; [rewrite run_app, R1, run_app, R2; exact R3|].
  split; [|exact F3]. intros i. destruct (Nat.lt_ge_cases i n) as [Hi|Hi].
  - apply Q3, Hi.
  - unfold idle. rewrite (O3 i Hi). apply Q2, Hi.
Qed.

End Any.

(** A run of servers below [n] leaves the others as they were. *)
Lemma run_others : forall sc s s' n, runX sc s = Some s' ->
  (forall i, (n <= i)%nat -> cur (srv s i) = None /\ todo (srv s i) = []) ->
  forall i, (n <= i)%nat -> cur (srv s' i) = None /\ todo (srv s' i) = [].
Proof.
  induction sc as [|[j v] sc IH]; intros s s' n H HQ i Hi; cbn [run] in H.
  - injection H as <-. auto.
  - destruct (stepX j v s) as [s1|] eqn:E; [|discriminate].
    apply (IH s1 s' n H); [|exact Hi]. intros k Hk.
    destruct (Nat.eq_dec k j) as [->|N].
    + destruct (HQ j Hk) as (A & B). unfold step in E. rewrite A, B in E. discriminate.
    + rewrite (step_other _ _ _ _ _ E N). auto.
Qed.

(* ------------------------------------------------------------------ *)
(** ** A request handled alone *)

(** [Q answers rc store] holds whatever happens when server [i] runs [p] alone. *)
Fixpoint alone (i : nat) (p : prog) (x : X) (acc : list Z)
    (Q : list Z -> Z -> X -> Prop) : Prop :=
  match p with
  | Ret r => Q acc r x
  | Acq _ k => forall r, alone i (k r) x acc Q
  | Rel _ k => alone i k x acc Q
  | Use a arg k => alone i (k (fst (sem i a arg x))) (snd (sem i a arg x))
                         (acc ++ [fst (sem i a arg x)]) Q
  | Env k => forall v, alone i (k v) x acc Q
  end.

Lemma alone_run : forall vs i p s s' Q,
  run1 i vs s = Some s' -> cur (srv s i) = Some p -> idle (srv s' i) ->
  todo (srv s' i) = todo (srv s i) ->
  alone i p (store_of s) (seen (srv s i)) Q ->
  exists rc, done (srv s' i) = done (srv s i) ++ [rc] /\
             Q (seen (srv s' i)) rc (store_of s').
Proof.
  induction vs as [|v vs IH]; intros i p s s' Q R Hc Hi Ht HA; unfold run1 in R; cbn [map run] in R.
  - injection R as <-. unfold idle in Hi. congruence.
  - destruct (stepX i v s) as [s1|] eqn:E; [|discriminate].
    unfold step in E. rewrite Hc in E.
    destruct p as [r|l k|l k|a x k|k]; cbn [alone] in HA.
    + injection E as <-. destruct vs as [|v2 vs].
      * cbn [map run] in R. injection R as <-. cbn. rewrite upd_same. cbn. eauto.
      * exfalso. cbn [map run] in R.
        destruct (stepX i v2 _) as [s2|] eqn:E2 in R; [|discriminate].
        unfold step in E2. cbn in E2. rewrite upd_same in E2. cbn in E2.
        destruct (todo (srv s i)) as [|q rest] eqn:Et; [discriminate|].
        injection E2 as <-.
        assert (L : (length (todo (srv s' i)) <= length rest)%nat).
        { clear - R. revert R.
          assert (G : forall sc s s', runX sc s = Some s' ->
                    (length (todo (srv s' i)) <= length (todo (srv s i)))%nat).
          { clear. induction sc as [|[j v] sc IH]; intros s s' R; cbn [run] in R.
            - injection R as <-. lia.
            - destruct (stepX j v s) as [s1|] eqn:E; [|discriminate].
              specialize (IH _ _ R). destruct (Nat.eq_dec i j) as [<-|N].
              2:{ rewrite (step_other _ _ _ _ _ E N) in IH. exact IH. }
              unfold step in E. destruct (cur (srv s i)) as [[r|l k|l k|a x k|k]|].
              + injection E as <-. cbn in IH. rewrite upd_same in IH. exact IH.
              + destruct (v =? 0).
                * destruct (own l s); [discriminate|]. injection E as <-.
                  destruct l; cbn in IH; rewrite upd_same in IH; exact IH.
                * injection E as <-. cbn in IH. rewrite upd_same in IH. exact IH.
              + injection E as <-. destruct l; cbn in IH; rewrite upd_same in IH; exact IH.
              + destruct (sem i a x (store_of s)). injection E as <-. cbn in IH.
                rewrite upd_same in IH. exact IH.
              + injection E as <-. cbn in IH. rewrite upd_same in IH. exact IH.
              + destruct (todo (srv s i)) eqn:Et; [discriminate|]. injection E as <-. cbn in IH.
                rewrite upd_same in IH. cbn in IH. cbn. lia. }
          intros R. apply G in R. cbn in R. rewrite upd_same in R. exact R. }
        rewrite Ht in L. cbn in L. lia.
    + destruct (v =? 0).
      * destruct (own l s); [discriminate|]. injection E as <-.
        destruct (IH i (k 0) _ s' Q R) as (rc & A & B).
        -- destruct l; cbn; rewrite upd_same; reflexivity.
        -- exact Hi.
        -- rewrite Ht. destruct l; cbn; rewrite upd_same; reflexivity.
        -- destruct l; cbn; rewrite upd_same; cbn; apply HA.
        -- exists rc. split; [|exact B]. rewrite A. destruct l; cbn; rewrite upd_same; reflexivity.
      * injection E as <-.
        destruct (IH i (k v) _ s' Q R) as (rc & A & B).
        -- cbn; rewrite upd_same; reflexivity.
        -- exact Hi.
        -- rewrite Ht. cbn; rewrite upd_same; reflexivity.
        -- cbn; rewrite upd_same; cbn; apply HA.
        -- exists rc. split; [|exact B]. rewrite A. cbn; rewrite upd_same; reflexivity.
    + injection E as <-.
      destruct (IH i k _ s' Q R) as (rc & A & B).
      * destruct l; cbn; rewrite upd_same; reflexivity.
      * exact Hi.
      * rewrite Ht. destruct l; cbn; rewrite upd_same; reflexivity.
      * destruct l; cbn; rewrite upd_same; cbn; apply HA.
      * exists rc. split; [|exact B]. rewrite A. destruct l; cbn; rewrite upd_same; reflexivity.
    + destruct (sem i a x (store_of s)) as [r y] eqn:Es. cbn [fst snd] in HA. injection E as <-.
      destruct (IH i (k r) _ s' Q R) as (rc & A & B).
      * cbn; rewrite upd_same; reflexivity.
      * exact Hi.
      * rewrite Ht. cbn; rewrite upd_same; reflexivity.
      * cbn; rewrite upd_same; cbn; apply HA.
      * exists rc. split; [|exact B]. rewrite A. cbn; rewrite upd_same; reflexivity.
    + injection E as <-.
      destruct (IH i (k v) _ s' Q R) as (rc & A & B).
      * cbn; rewrite upd_same; reflexivity.
      * exact Hi.
      * rewrite Ht. cbn; rewrite upd_same; reflexivity.
      * cbn; rewrite upd_same; cbn; apply HA.
      * exists rc. split; [|exact B]. rewrite A. cbn; rewrite upd_same; reflexivity.
Qed.

Lemma alone_turn : forall vs i q s s' Q,
  run1 i vs s = Some s' -> idle (srv s i) -> idle (srv s' i) ->
  todo (srv s i) = q :: todo (srv s' i) ->
  alone i (handler g q) (store_of s) (seen (srv s i)) Q ->
  exists rc, done (srv s' i) = done (srv s i) ++ [rc] /\
             Q (seen (srv s' i)) rc (store_of s').
Proof.
  intros [|v vs] i q s s' Q R Hi Hi' Ht HA; unfold run1 in R; cbn [map run] in R.
  - injection R as <-. exfalso. assert (L := f_equal (@length _) Ht). cbn in L. lia.
  - destruct (stepX i v s) as [s1|] eqn:E; [|discriminate].
    unfold step in E. rewrite Hi, Ht in E. injection E as <-.
    destruct (alone_run vs i (handler g q) _ s' Q R) as (rc & A & B).
    + cbn. rewrite upd_same. reflexivity.
    + exact Hi'.
    + cbn. rewrite upd_same. reflexivity.
    + cbn. rewrite upd_same. exact HA.
    + exists rc. split; [|exact B]. rewrite A. cbn. rewrite upd_same. reflexivity.
Qed.

End Conc.
