(** Lives of a device that uses the log backend. *)
From Verif Require Import Base Flash BaseLemmas NvmSpec Store LogModel LogSpec LogRam LogProof LogOps LogLife.

(** A device never written: both partition headers are blank. *)
Definition lnew (C : lcfg) (f : flash) : Prop :=
  forall o, o < l_g C \/ l_psz C <= o < l_psz C + l_g C -> f o = l_eb C.

Definition not_failed (r : nvm_res) : Prop := match r with RCode rc => rc = OK | _ => True end.

(** Life of a device, latest event first: memory contents and, when powered, the
    session context.  Any write may fail at any time.  An operation that then
    reports success is an operation as any other.  One that reports an error is
    a cut: the user restarts, or goes on with the same session when the store
    was not empty ([lx_size] is the number of bytes in use). *)
Inductive llife (C : lcfg) (f0 : flash) : list event -> flash -> option lctx -> Prop :=
| ll_new : llife C f0 [] f0 None
| ll_boot evs f f' x fl :
    llife C f0 evs f None -> lexec C fl (lg_init C) f (OK, x) f' -> llife C f0 (EvBoot :: evs) f' (Some x)
| ll_boot_crash evs f f' :
    llife C f0 evs f None -> lcrash C true (lg_init C) f f' -> llife C f0 (EvBootCut :: evs) f' None
| ll_boot_fault evs f f' rx :
    llife C f0 evs f None -> lexec C true (lg_init C) f rx f' -> llife C f0 (EvBootCut :: evs) f' None
| ll_op evs f x o r x' f' :
    llife C f0 evs f (Some x) -> lop_ok o -> lexec C false (lg_run C x o) f (r, x') f' ->
    llife C f0 (EvOp o r :: evs) f' (Some x')
| ll_op_fault evs f x o r x' f' :
    llife C f0 evs f (Some x) -> lop_ok o -> lexec C true (lg_run C x o) f (r, x') f' -> not_failed r ->
    llife C f0 (EvOp o r :: evs) f' (Some x')
| ll_crash evs f x o f' :
    llife C f0 evs f (Some x) -> lop_ok o -> lcrash C true (lg_run C x o) f f' -> llife C f0 (EvCut o :: evs) f' None
| ll_fault evs f x o rx f' :
    llife C f0 evs f (Some x) -> lop_ok o -> lexec C true (lg_run C x o) f rx f' -> llife C f0 (EvCut o :: evs) f' None
| ll_fault_on evs f x o r x' f' :
    llife C f0 evs f (Some x) -> lop_ok o -> lexec C true (lg_run C x o) f (r, x') f' ->
    ~ not_failed r -> lx_size x <> 0%N -> llife C f0 (EvCut o :: evs) f' (Some x')
| ll_off evs f ox : llife C f0 evs f ox -> llife C f0 (EvOff :: evs) f None.

(** * The specification: store versus map *)
Lemma lhist_map K evs s : lg_hist K evs s -> forallb (fun e => negb (is_cut e)) evs = true ->
  forall id, sp_find s id = map_after evs id.
Proof.
  induction 1 as [|evs s H IH|evs s H IH|evs s H IH|evs s o r s' H IH ST|evs s o s' H IH ST];
    cbn [forallb is_cut negb andb]; intros NC id; auto; try discriminate; try exact (IH NC id).
  specialize (IH NC).
  destruct o as [m data|m data|ids|i off len|i|start|]; cbn [lg_step] in ST; cbn [map_after].
  - destruct ST as [(_ & -> & ->)|(_ & -> & ->)]; [change (is_ok OK) with true|change (is_ok NOSPACE) with false]; cbv iota; auto.
    rewrite find_add, IH. reflexivity.
  - destruct ST as [(_ & _ & -> & ->)|(_ & -> & ->)]; [change (is_ok OK) with true|change (is_ok NOSPACE) with false]; cbv iota; auto.
    rewrite find_add, IH. reflexivity.
  - destruct ST as [-> ->]. change (is_ok OK) with true. cbv iota. rewrite find_destroy, IH. reflexivity.
  - destruct ST as [-> ->]. destruct (sp_find s i) as [[? d]|]; auto. 
  - destruct ST as [-> ->]. destruct (sp_find s i) as [[? ?]|]; auto.
  - destruct ST as [-> ->]. auto.
  - destruct ST as [-> ->]. auto.
Qed.
Lemma lstep_answer K s o r s' : lg_step K s o r s' -> lmap_answer (sp_find s) o r.
Proof. destruct o; cbn [lg_step lmap_answer]; tauto. Qed.
Lemma lmap_answer_ext M M' o r : (forall id, M id = M' id) -> lmap_answer M o r -> lmap_answer M' o r.
Proof. intros E. destruct o; cbn [lmap_answer]; auto; rewrite E; auto. Qed.
Lemma lhist_boots K boots evs s : forallb is_boot boots = true -> lg_hist K (boots ++ evs) s -> lg_hist K evs s.
Proof.
  induction boots as [|b bs IH]; cbn [app forallb]; auto.
  intros H S1. apply andb_prop in H as [H1 H2]. apply IH; auto. inversion S1; subst; auto; discriminate.
Qed.
Lemma lquery_step K s o r s' : is_query o = true -> lg_step K s o r s' -> s' = s.
Proof. destruct o; try discriminate; cbn [lg_step]; tauto. Qed.
Lemma lhist_asked K qs evs s : forallb (fun q => is_query (fst q)) qs = true ->
  lg_hist K (asked qs ++ evs) s -> lg_hist K evs s /\ lg_answers K s qs.
Proof.
  induction qs as [|[o r] qs IH]; cbn [asked map app forallb fst snd].
  - intros _ S1. split; auto. intros ? ? [].
  - intros H S1. apply andb_prop in H as [H1 H2].
    inversion S1 as [| | | |evs0 s1 o0 r0 s2 S2 S3|]; subst.
    assert (E : s = s1) by (eapply lquery_step; eauto). subst s1.
    destruct (IH H2 S2) as [A1 A2]. split; auto.
    intros o' r' [E|E]; [injection E as <- <-; auto|apply A2; auto].
Qed.

(** * Lives *)
Section Life.
Variable C : lcfg.
Hypothesis HC : lcfg_ok C.
Notation K := (lcap_of C).

Definition lpowered (n : N) (f : flash) (ox : option lctx) (s : store) : Prop :=
  match ox with Some x => Sess C n f x s | None => Rep C n f s end.
Lemma lfailed_not r : ~ not_failed r -> lfailed r.
Proof. destruct r; cbn [not_failed lfailed]; tauto. Qed.
Lemma not_failed_l r : not_failed r -> lfailed r -> False.
Proof. destruct r; cbn [not_failed lfailed]; tauto. Qed.
Lemma lnew_rep f : lnew C f -> Rep C 0 f [].
Proof.
  intros H. left. split; [|split; auto]; intros o Ho; apply H.
  - left. change (lpart C false) with 0 in Ho. lia.
  - right. change (lpart C true) with (l_psz C) in Ho. lia.
Qed.

Theorem llife_hist f0 evs f ox :
  lnew C f0 -> llife C f0 evs f ox -> (writes evs < 2 ^ 32)%N ->
  exists s, lg_hist K evs s /\ lpowered (writes evs) f ox s.
Proof.
  intros P L.
  induction L as [|evs f f' x fl L IH E|evs f f' L IH E|evs f f' rx L IH E|evs f x o r x' f' L IH O E
                 |evs f x o r x' f' L IH O E NF|evs f x o f' L IH O E|evs f x o rx f' L IH O E
                 |evs f x o r x' f' L IH O E NF NZ|evs f ox L IH];
    intros Hn; cbn [writes] in *; try (fold (wcost o) in * ).
  - exists []. split; [constructor|]. apply lnew_rep. auto.
  - destruct IH as (s & H & R); [lia|]. exists s. split; [constructor; auto|].
    eapply lwp_exec in E; [|apply wp_boot; [exact HC|exact R|lia]]. destruct E as [[_ S1]|(_ & A & _)]; [exact S1|cbn [fst] in A; congruence].
  - destruct IH as (s & H & R); [lia|]. exists s. split; [constructor; auto|].
    eapply lwp_crash in E; [|apply wp_boot; [exact HC|exact R|lia]]. exact E.
  - destruct IH as (s & H & R); [lia|]. exists s. split; [constructor; auto|].
    eapply lwp_exec in E; [|apply wp_boot; [exact HC|exact R|lia]].
    destruct E as [[_ S1]|(_ & _ & S1)]; [eapply Sess_Rep; eauto|exact S1].
  - destruct IH as (s & H & R); [lia|].
    eapply lwp_exec in E; [|apply wp_lop; [exact HC|exact R|exact O|lia]].
    destruct E as [(s' & ST & S1)|(A & _)]; [|discriminate]. cbn [fst snd] in *.
    exists s'. split; [econstructor; eauto|]. cbn [lpowered]. rewrite N.add_comm. exact S1.
  - destruct IH as (s & H & R); [lia|].
    eapply lwp_exec in E; [|apply wp_lop; [exact HC|exact R|exact O|lia]].
    destruct E as [(s' & ST & S1)|(_ & A & _)]; [|destruct (not_failed_l _ NF A)]. cbn [fst snd] in *.
    exists s'. split; [econstructor; eauto|]. cbn [lpowered]. rewrite N.add_comm. exact S1.
  - destruct IH as (s & H & R); [lia|].
    eapply lwp_crash in E; [|apply wp_lop; [exact HC|exact R|exact O|lia]].
    destruct E as (s' & ST & S1). exists s'. split; [econstructor; eauto|]. cbn [lpowered]. rewrite N.add_comm. exact S1.
  - destruct IH as (s & H & R); [lia|].
    eapply lwp_exec in E; [|apply wp_lop; [exact HC|exact R|exact O|lia]].
    destruct E as [(s' & ST & S1)|(_ & _ & S1 & _)]; [exists s'|exists s].
    + split; [econstructor; [exact H|right; eauto]|]. cbn [lpowered]. rewrite N.add_comm. eapply Sess_Rep; eauto. lia.
    + split; [econstructor; [exact H|left; auto]|]. cbn [lpowered]. rewrite N.add_comm. exact S1.
  - destruct IH as (s & H & R); [lia|]. pose proof R as R0.
    eapply lwp_exec in E; [|apply wp_lop; [exact HC|exact R|exact O|lia]].
    destruct E as [(s' & ST & S1)|(_ & _ & _ & S1)]; [exists s'|exists s].
    + split; [econstructor; [exact H|right; eauto]|]. cbn [lpowered]. rewrite N.add_comm. exact S1.
    + split; [econstructor; [exact H|left; auto]|]. cbn [lpowered]. rewrite N.add_comm. apply S1.
      intros ->. apply NZ. destruct R0 as (bs & _ & (I & _ & _ & SZ & _) & _). inversion I; subst bs. exact SZ.
  - destruct IH as (s & H & R); [lia|]. exists s. split; [constructor; auto|].
    destruct ox; [eapply Sess_Rep; eauto|exact R].
Qed.

Theorem llife_boots f0 evs f rc x f' :
  lnew C f0 -> llife C f0 evs f None -> (writes evs < 2 ^ 32)%N ->
  lexec C false (lg_init C) f (rc, x) f' -> rc = OK.
Proof.
  intros P L Hn E. destruct (llife_hist _ _ _ _ P L Hn) as (s & _ & R).
  eapply lwp_exec in E; [|apply wp_boot; [exact HC|exact R|exact Hn]]. destruct E as [[A _]|(A & _)]; [exact A|discriminate].
Qed.
Theorem llife_map f0 evs o r f ox :
  lnew C f0 -> llife C f0 (EvOp o r :: evs) f ox -> (writes (EvOp o r :: evs) < 2 ^ 32)%N ->
  forallb (fun e => negb (is_cut e)) evs = true -> lmap_answer (map_after evs) o r.
Proof.
  intros P L Hn NC. destruct (llife_hist _ _ _ _ P L Hn) as (s & H & _).
  inversion H as [| | | |evs0 s1 o0 r0 s2 S1 S2|]; subst.
  eapply lmap_answer_ext; [|eapply lstep_answer; exact S2]. eapply lhist_map; eauto.
Qed.
Theorem llife_cut f0 qs boots o evs f ox :
  lnew C f0 -> llife C f0 (asked qs ++ boots ++ EvCut o :: evs) f ox ->
  (writes (asked qs ++ boots ++ EvCut o :: evs) < 2 ^ 32)%N ->
  forallb (fun q => is_query (fst q)) qs = true -> forallb is_boot boots = true ->
  exists s s', lg_hist K evs s /\ lg_cut K s o s' /\ lg_answers K s' qs.
Proof.
  intros P L Hn Q B. destruct (llife_hist _ _ _ _ P L Hn) as (s' & H & _).
  apply lhist_asked in H as [H A]; auto. apply lhist_boots in H; auto. inversion H; subst. eauto.
Qed.
Theorem llife_bounds_op f0 evs f x o g c :
  lnew C f0 -> llife C f0 evs f (Some x) -> (writes evs + 1 < 2 ^ 32)%N ->
  lop_ok o -> lissues C true (lg_run C x o) f g c -> lokcall C g c.
Proof.
  intros P L Hn O I. destruct (llife_hist _ _ _ _ P L ltac:(lia)) as (s & _ & R).
  eapply lwp_issues; [|exact I]. apply (wp_lop C HC true (writes evs) f x s o R O). unfold wcost. destruct (is_query o); lia.
Qed.
Theorem llife_bounds_boot f0 evs f g c :
  lnew C f0 -> llife C f0 evs f None -> (writes evs < 2 ^ 32)%N ->
  lissues C true (lg_init C) f g c -> lokcall C g c.
Proof.
  intros P L Hn I. destruct (llife_hist _ _ _ _ P L Hn) as (s & _ & R).
  eapply lwp_issues; [|exact I]. apply (wp_boot C HC true (writes evs) f s R Hn).
Qed.

(** A failed operation left the old contents. *)
Theorem llife_failed f0 evs f x o rc x' f' :
  lnew C f0 -> llife C f0 evs f (Some x) -> (writes evs + 1 < 2 ^ 32)%N ->
  lop_ok o -> lexec C true (lg_run C x o) f (RCode rc, x') f' -> rc <> OK ->
  exists s, lg_hist K evs s /\ Rep C (writes evs + wcost o) f' s /\
    (lx_size x <> 0%N -> Sess C (writes evs + wcost o) f' x' s).
Proof.
  intros P L Hn O E NE. destruct (llife_hist _ _ _ _ P L ltac:(lia)) as (s & H & R). exists s. split; [exact H|].
  assert (W : (writes evs + wcost o < 2 ^ 32)%N) by (unfold wcost; destruct (is_query o); lia).
  eapply lwp_exec in E; [|apply (wp_lop C HC true (writes evs) f x s o R O W)].
  assert (NZ : lx_size x <> 0%N -> s <> []).
  { intros X ->. apply X. destruct R as (bs & _ & (I & _ & _ & SZ & _) & _). inversion I; subst bs. exact SZ. }
  destruct E as [(s' & ST & S1)|(_ & _ & R1 & S1)]; [|split; auto].
  cbn [fst snd] in *. assert (s' = s) as ->; [|split; [eapply Sess_Rep; eauto|auto]].
  destruct o; cbn [lg_step] in ST.
  - destruct ST as [(_ & X & _)|(_ & _ & X)]; [congruence|auto].
  - destruct ST as [(_ & _ & X & _)|(_ & _ & X)]; [congruence|auto].
  - destruct ST as [X _]. congruence.
  - tauto.
  - tauto.
  - tauto.
  - tauto.
Qed.

(** What a session answers. *)
Lemma sess_query n f x s o r x' f' : Sess C n f x s -> (n < 2 ^ 32)%N -> is_query o = true ->
  lexec C false (lg_run C x o) f (r, x') f' -> lg_step K s o r s /\ f' = f /\ x' = x.
Proof.
  intros S1 Hn Q E.
  assert (EQ : f' = f /\ x' = x) by (destruct o; try discriminate; cbn [lg_run] in E; inversion E; auto). split; auto.
  assert (O : lop_ok o) by (destruct o; try discriminate; split; exact I).
  assert (W : (n + wcost o < 2 ^ 32)%N) by (unfold wcost; rewrite Q; lia).
  eapply lwp_exec in E; [|apply (wp_lop C HC false n f x s o S1 O W)].
  destruct E as [(s' & ST & _)|(A & _)]; [|discriminate]. cbn [fst] in ST.
  rewrite <- (lquery_step K s o r s' Q ST) at 2. exact ST.
Qed.
Lemma rep_query n f s rc x f1 o r x' f' : Rep C n f s -> (n < 2 ^ 32)%N -> is_query o = true ->
  lexec C false (lg_init C) f (rc, x) f1 -> lexec C false (lg_run C x o) f1 (r, x') f' -> rc = OK /\ lg_step K s o r s.
Proof.
  intros R Hn Q E E2. eapply lwp_exec in E; [|apply (wp_boot C HC false n f s R Hn)].
  destruct E as [[A S1]|(A & _)]; [|discriminate]. cbn [fst snd] in *. split; auto. eapply sess_query; eauto.
Qed.
Theorem llife_failed_queries f0 evs f x o rc x' f' :
  lnew C f0 -> llife C f0 evs f (Some x) -> (writes evs + 1 < 2 ^ 32)%N ->
  lop_ok o -> lexec C true (lg_run C x o) f (RCode rc, x') f' -> rc <> OK ->
  exists s, lg_hist K evs s /\
    (forall rc1 x1 f1 q r x2 f2, lexec C false (lg_init C) f' (rc1, x1) f1 -> is_query q = true ->
       lexec C false (lg_run C x1 q) f1 (r, x2) f2 -> rc1 = OK /\ lg_step K s q r s) /\
    (lx_size x <> 0%N -> forall q r x2 f2, is_query q = true -> lexec C false (lg_run C x' q) f' (r, x2) f2 -> lg_step K s q r s).
Proof.
  intros P L Hn O E NE. destruct (llife_failed _ _ _ _ _ _ _ _ P L Hn O E NE) as (s & H & R & S1).
  assert (W : (writes evs + wcost o < 2 ^ 32)%N) by (unfold wcost; destruct (is_query o); lia).
  exists s. split; [exact H|]. split.
  - intros rc1 x1 f1 q r x2 f2 E1 Q E2. eapply rep_query; eauto.
  - intros NZ q r x2 f2 Q E2. eapply sess_query; eauto.
Qed.

(** A refused operation and a question change nothing. *)
Theorem llife_refused f0 evs f x o r x' f' :
  lnew C f0 -> llife C f0 evs f (Some x) -> (writes evs + 1 < 2 ^ 32)%N ->
  lop_ok o -> lexec C false (lg_run C x o) f (r, x') f' ->
  is_query o = true \/ (exists rc, r = RCode rc /\ rc <> OK) -> f' = f /\ x' = x.
Proof.
  intros P L Hn O E HR. destruct (llife_hist _ _ _ _ P L ltac:(lia)) as (s & H & R).
  destruct (is_query o) eqn:Q; [eapply sess_query; eauto; lia|]. destruct HR as [HR|(rc & -> & NE)]; [discriminate|].
  pose proof R as (bs & F & RB & EP).
  set (QQ := fun (rx : nvm_res * lctx) (g : flash) => (exists rc, fst rx = RCode rc /\ rc <> OK) -> g = f /\ snd rx = x).
  enough (W : lwp C false (lg_run C x o) f QQ (fun _ => True)) by (eapply lwp_exec in E; [|exact W]; exact (E (ex_intro _ rc (conj eq_refl NE)))).
  clear E NE rc x' f'.
  assert (QOK : forall x' g, QQ (RCode OK, x') g) by (intros x' g (rc & A & B); injection A as <-; congruence).
  assert (QR : forall r, QQ (r, x) f) by (intros r _; auto).
  assert (ADD : forall m data, lop_ok (OAdd m data) -> lwp C false (lg_add C x m data) f (fun rx g => QQ (RCode (fst rx), snd rx) g) (fun _ => True)).
  { intros m data [(M1 & M2 & M3) NZ]. set (d := data_of data) in *.
    pose proof (add_test C HC x s bs (m_id m) (length d) RB) as T. cbv zeta in T.
    unfold lg_add. cbv zeta. fold d.
    destruct (_ <? pad_size C (length d) + msz C) eqn:T1; [apply lwp_ret; auto|].
    match goal with |- LogProof.lwp _ _ (if ?c then _ else _) _ _ _ => destruct c eqn:T2 end; [apply lwp_ret; auto|].
    cbn [orb] in T. destruct T as [[_ FI]|[T _]]; [|discriminate].
    assert (DES : exists x' bs', match obj_find C x (m_id m) with Some _ => obj_destroy C x (m_id m) | None => (OK, x) end = (OK, x') /\
       ramb C x' (sp_destroy [m_id m] s) bs' /\ lx_act x' = lx_act x /\ lx_epoch x' = lx_epoch x).
    { pose proof (find_spec C HC x s bs (m_id m) RB) as FS. destruct (sp_find s (m_id m)) as [o0|] eqn:FO.
      - destruct FS as (s1 & s2 & b1 & b2 & b3 & _ & _ & _ & _ & _ & _ & _ & ->). eapply destroy_spec; eauto.
      - rewrite FS. exists x, bs. rewrite (destroy_absent s _ FO). auto. }
    destruct DES as (x1 & bs1 & -> & R1 & A1 & E1). change (is_ok OK) with true. cbv iota.
    set (m' := with_len m (N.of_nat (length d))). fold m'. change (with_data x1 _ _) with (push C x1 m' d).
    pose proof R1 as (I1 & GD1 & LB1 & _). pose proof FI as [FI1 FI2]. unfold lcap_of in FI1, FI2. cbn [lk_objs lk_bytes lk_gran] in FI1, FI2.
    destruct (push_spec C HC x1 (sp_destroy [m_id m] s) bs1 m' d R1) as [bs2 R2].
    - unfold m', with_len, meta_ok in *. cbn [m_id m_access m_flags m_len m_label]. intuition.
    - unfold m', with_len. cbn [m_len]. apply Nat2N.id.
    - exact NZ.
    - apply find_destroyed.
    - auto.
    - rewrite (img_len C HC _ _ I1). unfold obj_bytes in FI2. rewrite msz_round, pad_eq. auto.
    - pose proof RB as (_ & _ & LB0 & _).
      eapply (wp_fallback C false HC (push C x1 m' d) _ bs2 bs); [| |exact R2| | | |]; unfold push; cbn [lx_act lx_epoch with_data]; rewrite ?A1, ?E1; auto; [lia|discriminate]. }
  destruct o as [m data|m data|ids|id off len|id|start|]; try discriminate; cbn [lg_run].
  - apply lwp_bind. eapply lwp_mono; [apply ADD; exact O| |auto]. intros [rc x'] g Hq. apply lwp_ret; auto.
  - apply lwp_bind. unfold lg_add_reclaim. destruct (lg_avail C x) as [asz aobj]. apply lwp_bind.
    assert (NX : lwp C false (Ret (OK, x)) f (fun a0 g => lwp C false (let '(rc, x0) := a0 in if is_ok rc then lg_add C x0 m data else Ret (rc, x0)) g
       (fun a1 g0 => lwp C false (let '(rc, x') := a1 in Ret (RCode rc, x')) g0 QQ (fun _ => True)) (fun _ => True)) (fun _ => True)).
    { apply lwp_ret; auto. cbv iota. change (is_ok OK) with true. cbv iota.
      eapply lwp_mono; [apply ADD; exact O| |auto]. intros [rc x'] g Hq. apply lwp_ret; auto. }
    destruct ((asz <? _) || _); [|exact NX].
    destruct (_ && _); [exact NX|]. apply lwp_ret; auto. cbv iota. change (is_ok NOSPACE) with false. cbv iota.
    apply lwp_ret; auto. cbv iota. apply lwp_ret; auto.
  - apply lwp_bind. unfold lg_destroy. destruct ids as [|id0 ids0]; [apply lwp_ret; auto; apply lwp_ret; auto|].
    set (ids := id0 :: ids0) in *. destruct O as [_ Z0]. destruct (destroy_all_spec C HC ids x s bs RB Z0) as (x1 & bs1 & -> & R1 & A1 & E1).
    change (is_ok OK) with true. cbv iota. pose proof RB as (_ & _ & LB0 & _).
    eapply (wp_fallback C false HC x1 _ bs1 bs); [| |exact R1| | | |]; rewrite ?A1, ?E1; auto; [lia| |discriminate].
    intros g _. cbv iota. apply lwp_ret; auto.
Qed.
End Life.
