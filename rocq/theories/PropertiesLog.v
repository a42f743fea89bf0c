(** C47: the log backend of the store (src/wh_nvm_flash_log.c).

    [llife C f0 evs f ox] (LogHist.v) says that a device configured by [C],
    whose memory was [f0] when first powered, can show the history [evs] (latest
    event first), leaving memory [f] and, when powered, the session [ox].  The
    events are those of NvmSpec.v.  Power may fail at any point, inside a write
    too, and any write may report a failure.  [lop_ok] excludes object id 0.
    [lcfg_ok] asks among others that the device programs a whole header as one.
    [writes] counts the operations that advance the 32-bit epoch. *)
From Verif Require Import Base Flash BaseLemmas NvmSpec LogModel LogSpec LogRam LogProof LogOps LogLife LogHist.

(** ** Every answer is the one a map from ids to objects would give. *)
Theorem C47_map_partial : forall C f0 evs o r f ox,
  lcfg_ok C -> lnew C f0 -> llife C f0 (EvOp o r :: evs) f ox ->
  (writes (EvOp o r :: evs) < 2 ^ 32)%N ->
  forallb (fun e => negb (is_cut e)) evs = true ->
  lmap_answer (map_after evs) o r.
Proof. intros. eapply llife_map; eauto. Qed.
Print Assumptions C47_map_partial.

(** ** An interrupted operation happened completely or not at all: all questions
    asked after the restarts are answered from one of the two stores. *)
Theorem C47_atomic_partial : forall C f0 qs boots o evs f ox,
  lcfg_ok C -> lnew C f0 ->
  llife C f0 (asked qs ++ boots ++ EvCut o :: evs) f ox ->
  (writes (asked qs ++ boots ++ EvCut o :: evs) < 2 ^ 32)%N ->
  forallb (fun q => is_query (fst q)) qs = true -> forallb is_boot boots = true ->
  exists s, lg_hist (lcap_of C) evs s /\
    (lg_answers (lcap_of C) s qs \/
     match o with
     | OAdd m data | OAddR m data => lg_answers (lcap_of C) (sp_add m (data_of data) s) qs
     | ODestroy ids => lg_answers (lcap_of C) (sp_destroy ids s) qs
     | _ => False
     end).
Proof.
  intros C f0 qs boots o evs f ox HC P L Hn Q B.
  destruct (llife_cut C HC _ _ _ _ _ _ _ P L Hn Q B) as (s & s' & H & [->|[r ST]] & A); exists s; (split; [auto|]); auto.
  destruct o; cbn [lg_step] in ST.
  - destruct ST as [(_ & _ & ->)|(_ & _ & ->)]; auto.
  - destruct ST as [(_ & _ & _ & ->)|(_ & _ & ->)]; auto.
  - destruct ST as [_ ->]; auto.
  - destruct ST as [_ ->]; auto.
  - destruct ST as [_ ->]; auto.
  - destruct ST as [_ ->]; auto.
  - destruct ST as [_ ->]; auto.
Qed.
Print Assumptions C47_atomic_partial.

(** ** Every life is a history of a store with atomic operations, and a restart
    always succeeds. *)
Theorem C47_histories_partial : forall C f0 evs f ox,
  lcfg_ok C -> lnew C f0 -> llife C f0 evs f ox -> (writes evs < 2 ^ 32)%N ->
  (exists s, lg_hist (lcap_of C) evs s) /\
  (ox = None -> forall rc x f', lexec C false (lg_init C) f (rc, x) f' -> rc = OK).
Proof.
  intros C f0 evs f ox HC P L Hn. split.
  - destruct (llife_hist C HC _ _ _ _ P L Hn) as (s & H & _). eauto.
  - intros -> rc x f' E. eapply llife_boots; eauto.
Qed.
Print Assumptions C47_histories_partial.

(** ** An operation that reports a device failure changed nothing: questions
    after a restart, and in the same session unless the store was empty, are
    answered from the objects there before. *)
Theorem C47_failed_partial : forall C f0 evs f x o rc x' f',
  lcfg_ok C -> lnew C f0 -> llife C f0 evs f (Some x) -> (writes evs + 1 < 2 ^ 32)%N ->
  lop_ok o -> lexec C true (lg_run C x o) f (RCode rc, x') f' -> rc <> OK ->
  exists s, lg_hist (lcap_of C) evs s /\
    (forall rc1 x1 f1 q r x2 f2, lexec C false (lg_init C) f' (rc1, x1) f1 -> is_query q = true ->
       lexec C false (lg_run C x1 q) f1 (r, x2) f2 -> rc1 = OK /\ lg_step (lcap_of C) s q r s) /\
    (lx_size x <> 0%N -> forall q r x2 f2, is_query q = true ->
       lexec C false (lg_run C x' q) f' (r, x2) f2 -> lg_step (lcap_of C) s q r s).
Proof. intros. eapply llife_failed_queries; eauto. Qed.
Print Assumptions C47_failed_partial.

(** ** A refused operation, and every question, leaves memory and session as they
    were. *)
Theorem C47_refused_changes_nothing : forall C f0 evs f x o r x' f',
  lcfg_ok C -> lnew C f0 -> llife C f0 evs f (Some x) -> (writes evs + 1 < 2 ^ 32)%N ->
  lop_ok o -> lexec C false (lg_run C x o) f (r, x') f' ->
  is_query o = true \/ (exists rc, r = RCode rc /\ rc <> OK) -> f' = f /\ x' = x.
Proof. intros. eapply llife_refused; eauto. Qed.
Print Assumptions C47_refused_changes_nothing.

(** ** Every callback stays inside the two partitions, programs only blank bytes
    in whole units of the write granularity, and erases only a whole partition,
    also when callbacks fail. *)
Theorem C47_operation_bounds : forall C f0 evs f x o g c,
  lcfg_ok C -> lnew C f0 -> llife C f0 evs f (Some x) -> (writes evs + 1 < 2 ^ 32)%N ->
  lop_ok o -> lissues C true (lg_run C x o) f g c -> lokcall C g c.
Proof. intros. eapply llife_bounds_op; eauto. Qed.
Print Assumptions C47_operation_bounds.
Theorem C47_boot_bounds : forall C f0 evs f g c,
  lcfg_ok C -> lnew C f0 -> llife C f0 evs f None -> (writes evs < 2 ^ 32)%N ->
  lissues C true (lg_init C) f g c -> lokcall C g c.
Proof. intros. eapply llife_bounds_boot; eauto. Qed.
Print Assumptions C47_boot_bounds.

Module LogExamples.
(** * Computable lives *)
(** What becomes of the successive writes of a program: done, refused by the
    device with nothing written, or done but reported as failed. *)
Inductive wact := WDo | WFail | WDoneFail.
Fixpoint lrun {A} (C : lcfg) (ws : list wact) (p : prog A) (f : flash) : A * flash :=
  match p with
  | Ret a => (a, f)
  | Call c k =>
      if is_write c then
        match ws with
        | WFail :: r => lrun C r (k (ABORTED, [])) f
        | WDoneFail :: r => lrun C r (k (ABORTED, [])) (fst (lstep C f c))
        | _ :: r => lrun C r (k (snd (lstep C f c))) (fst (lstep C f c))
        | [] => lrun C [] (k (snd (lstep C f c))) (fst (lstep C f c))
        end
      else lrun C ws (k (snd (lstep C f c))) (fst (lstep C f c))
  end.
(** Memory when power is lost after [n] callbacks, the next one, if a write,
    being done on the atoms chosen by [S1] only. *)
Fixpoint lcut {A} (C : lcfg) (ws : list wact) (n : nat) (S1 : nat -> bool) (p : prog A) (f : flash) {struct p} : flash :=
  match p with
  | Ret _ => f
  | Call c k =>
      match n with
      | 0 => if is_write c then fun o => if S1 (o / l_atom C) then fst (lstep C f c) o else f o else f
      | S n =>
          if is_write c then
            match ws with
            | WFail :: r => lcut C r n S1 (k (ABORTED, [])) f
            | WDoneFail :: r => lcut C r n S1 (k (ABORTED, [])) (fst (lstep C f c))
            | _ :: r => lcut C r n S1 (k (snd (lstep C f c))) (fst (lstep C f c))
            | [] => lcut C [] n S1 (k (snd (lstep C f c))) (fst (lstep C f c))
            end
          else lcut C ws n S1 (k (snd (lstep C f c))) (fst (lstep C f c))
      end
  end.
Definition honest (w : wact) : bool := match w with WDoneFail => false | _ => true end.

Lemma lrun_exec {A} C : forall (p : prog A) ws f, forallb honest ws = true ->
  lexec C true p f (fst (lrun C ws p f)) (snd (lrun C ws p f)).
Proof.
  assert (NA : ABORTED <> OK) by discriminate.
  induction p as [a|c k IH]; intros ws f H; cbn [lrun]; [constructor|].
  destruct (is_write c) eqn:W; [|apply lexec_ok, IH; auto].
  destruct ws as [|[]  ws]; cbn [forallb honest andb] in H; try discriminate; try (apply lexec_ok, IH; auto; fail).
  eapply lexec_fault; [reflexivity|exact W|left; reflexivity|exact NA|apply IH; auto].
Qed.
Lemma lrun_clean {A} C : forall (p : prog A) f, lexec C false p f (fst (lrun C [] p f)) (snd (lrun C [] p f)).
Proof.
  induction p as [a|c k IH]; intros f; cbn [lrun]; [constructor|]. destruct (is_write c); apply lexec_ok, IH.
Qed.
Lemma lcut_crash {A} C S1 : forall (p : prog A) n f, lcrash C true p f (lcut C [] n S1 p f).
Proof.
  induction p as [a|c k IH]; intros n f; cbn [lcut]; [constructor|].
  destruct n as [|n].
  - destruct (is_write c) eqn:W; [|constructor]. apply lcrash_torn; auto. exists S1. auto.
  - destruct (is_write c); apply lcrash_next, IH.
Qed.

Inductive laction :=
| LBoot | LOp (o : nvm_op) | LCut (o : nvm_op) (n : nat) (S1 : nat -> bool) | LBootCut (n : nat)
| LFault (o : nvm_op) (ws : list wact) | LOff.
Definition lsim_state : Type := (flash * option lctx * list event)%type.
(** Actions that do not apply are skipped. *)
Definition lsim_step (C : lcfg) (st : lsim_state) (a : laction) : lsim_state :=
  let '(f, ox, evs) := st in
  match a, ox with
  | LBoot, None => let '((rc, x), f') := lrun C [] (lg_init C) f in
                   if Z.eqb rc OK then (f', Some x, EvBoot :: evs) else st
  | LOp o, Some x => let '((r, x'), f') := lrun C [] (lg_run C x o) f in (f', Some x', EvOp o r :: evs)
  | LCut o n S1, Some x => (lcut C [] n S1 (lg_run C x o) f, None, EvCut o :: evs)
  | LBootCut n, None => (lcut C [] n (fun _ => true) (lg_init C) f, None, EvBootCut :: evs)
  | LFault o ws, Some x => if forallb honest ws
                           then (snd (lrun C ws (lg_run C x o) f), None, EvCut o :: evs) else st
  | LOff, _ => (f, None, EvOff :: evs)
  | _, _ => st
  end.
Definition lsim (C : lcfg) (f0 : flash) (acts : list laction) : lsim_state := fold_left (lsim_step C) acts (f0, None, []).
Definition laction_ok (a : laction) : Prop := match a with LOp o | LCut o _ _ | LFault o _ => lop_ok o | _ => True end.

Lemma lsim_step_life C f0 st a : laction_ok a ->
  llife C f0 (snd st) (fst (fst st)) (snd (fst st)) ->
  llife C f0 (snd (lsim_step C st a)) (fst (fst (lsim_step C st a))) (snd (fst (lsim_step C st a))).
Proof.
  intros Ha L. destruct st as [[f ox] evs]. cbn [fst snd] in L.
  destruct a as [|o|o n S1|n|o ws|], ox as [x|]; cbn [lsim_step fst snd]; auto.
  - pose proof (lrun_clean C (lg_init C) f) as E. destruct (lrun C [] (lg_init C) f) as [[rc x] f'] eqn:R. cbn [fst snd] in E.
    destruct (Z.eqb_spec rc OK) as [->|]; cbn [fst snd]; auto. eapply ll_boot; eauto.
  - pose proof (lrun_clean C (lg_run C x o) f) as E. destruct (lrun C [] (lg_run C x o) f) as [[r x'] f'] eqn:R. cbn [fst snd] in *.
    eapply ll_op; eauto.
  - eapply ll_crash; eauto. apply lcut_crash.
  - eapply ll_boot_crash; eauto. apply lcut_crash.
  - destruct (forallb honest ws) eqn:H; cbn [fst snd]; auto. eapply ll_fault; eauto. apply lrun_exec; auto.
  - eapply ll_off; eauto.
  - eapply ll_off; eauto.
Qed.
Lemma lsim_life C f0 acts : Forall laction_ok acts ->
  llife C f0 (snd (lsim C f0 acts)) (fst (fst (lsim C f0 acts))) (snd (fst (lsim C f0 acts))).
Proof.
  intros H. unfold lsim.
  assert (G : forall st, llife C f0 (snd st) (fst (fst st)) (snd (fst st)) ->
    let st' := fold_left (lsim_step C) acts st in llife C f0 (snd st') (fst (fst st')) (snd (fst st'))).
  { induction H as [|a acts Ha H IH]; intros st L; cbn [fold_left]; auto. apply IH. apply lsim_step_life; auto. }
  apply G. constructor.
Qed.

(** Partitions of 256 bytes, 3 objects. *)
Definition L0 : lcfg := mkLcfg 3 256 8 255 8.
Definition lblank : flash := fun _ => 255%N.
Lemma L0_ok : lcfg_ok L0.
Proof. unfold lcfg_ok, L0. cbn [l_g l_psz l_atom l_oc l_eb]. repeat split; try lia; try (vm_compute; reflexivity). Qed.
Lemma lblank_new : lnew L0 lblank.
Proof. intros o _. reflexivity. Qed.
Definition lm (id : N) : meta := mkMeta id 0 0 0 (repeat 0%N 24).

Definition lacts : list laction :=
  [LBoot; LOp (OAdd (lm 7) (Some [1;2;3]%N)); LOp (OAdd (lm 9) (Some [4]%N)); LOp (OAdd (lm 7) (Some [5;6]%N));
   LOp (OAdd (lm 8) (Some (repeat 9%N 150))); LOp (OAdd (lm 8) (Some (repeat 9%N 100))); LOp (ORead 7 1 1); LOp (ORead 7 1 9); LOp (OMeta 9);
   LOp (OList 0); LOp (OList 9); LOp OAvail; LOp (OAddR (lm 7) (Some [1]%N));
   LCut (ODestroy [9]%N) 1 (fun o => Nat.even o); LBootCut 5; LBoot; LOp (ORead 9 0 1);
   LFault (ODestroy [9]%N) [WDo; WFail]; LBoot; LOp (ORead 9 0 1);
   LCut (ODestroy [9]%N) 9 (fun o => true); LBoot; LOp (ORead 9 0 1); LOp (OList 0)].

Example lacts_ok : Forall laction_ok lacts.
Proof.
  assert (M : forall id, (id < 65536)%N -> meta_ok (lm id)).
  { intros id H. unfold meta_ok, lm. cbn [m_id m_access m_flags m_len m_label]. repeat split; try lia; try (repeat constructor); auto. }
  unfold lacts. repeat (constructor; [try exact I; cbn [laction_ok]; unfold lop_ok; cbn [op_ok data_of];
    repeat split; try exact I; try (apply M; reflexivity); try (vm_compute; reflexivity); try (vm_compute; discriminate);
    try (repeat constructor; fail); try (intros [X|[]]; discriminate X)|]).
  constructor.
Qed.
Example lacts_life : llife L0 lblank (snd (lsim L0 lblank lacts)) (fst (fst (lsim L0 lblank lacts))) (snd (fst (lsim L0 lblank lacts))).
Proof. apply lsim_life, lacts_ok. Qed.
Example lacts_answers :
  map (fun e => match e with EvOp _ r => Some r | _ => None end) (rev (snd (lsim L0 lblank lacts))) =
  [None; Some (RCode OK); Some (RCode OK); Some (RCode OK); Some (RCode NOSPACE); Some (RCode OK);
   Some (RData OK [6]%N); Some (RData BADARGS []); Some (RMeta OK (Some (with_len (lm 9) 1)));
   Some (RList OK 3 9%N); Some (RList OK 2 7%N); Some (RAvail OK 32 0 0 0); Some (RCode NOSPACE);
   None; None; None; Some (RData OK [4]%N); None; None; Some (RData OK [4]%N); None; None;
   Some (RData NOTFOUND []); Some (RList OK 2 7%N)].
Proof. vm_compute. reflexivity. Qed.

(** A device whose header is programmed as one, in a state where the store is not
    empty and an operation fails: the hypotheses of [C47_failed_partial]. *)
Definition state_after (acts : list laction) : flash * lctx :=
  let st := lsim L0 lblank acts in (fst (fst st), match snd (fst st) with Some x => x | None => lx_zero L0 end).
Lemma after_life acts : Forall laction_ok acts -> snd (fst (lsim L0 lblank acts)) <> None ->
  llife L0 lblank (snd (lsim L0 lblank acts)) (fst (state_after acts)) (Some (snd (state_after acts))).
Proof.
  intros H N0. pose proof (lsim_life L0 lblank acts H) as L. unfold state_after. cbn [fst snd].
  destruct (snd (fst (lsim L0 lblank acts))); [exact L|congruence].
Qed.
Lemma lm_ok id : (id < 65536)%N -> meta_ok (lm id).
Proof. intros H. unfold meta_ok, lm. cbn [m_id m_access m_flags m_len m_label]. repeat split; try lia; try (repeat constructor); auto. Qed.
Lemma add_ok id b : (id < 65536)%N -> (b < 256)%N -> id <> 0%N -> lop_ok (OAdd (lm id) (Some [b])).
Proof. intros H1 H2 H3. split; [|exact H3]. cbn [op_ok data_of]. split; [apply lm_ok; auto|]. split; [repeat constructor; auto|vm_compute; reflexivity]. Qed.
Definition one5 : list laction := [LBoot; LOp (OAdd (lm 5) (Some [1]%N))].
Lemma one5_ok : Forall laction_ok one5.
Proof. constructor; [exact I|]. constructor; [|constructor]. apply add_ok; [reflexivity|reflexivity|discriminate]. Qed.

Example failed_case : exists f x x' f',
  llife L0 lblank (snd (lsim L0 lblank one5)) f (Some x) /\ lx_size x <> 0%N /\ lop_ok (OAdd (lm 6) (Some [2]%N)) /\
  lexec L0 true (lg_run L0 x (OAdd (lm 6) (Some [2]%N))) f (RCode ABORTED, x') f'.
Proof.
  set (f := fst (state_after one5)). set (x := snd (state_after one5)).
  pose proof (after_life one5 one5_ok ltac:(vm_compute; discriminate)) as L.
  pose proof (lrun_exec L0 (lg_run L0 x (OAdd (lm 6) (Some [2]%N))) [WDo; WFail] f eq_refl) as E.
  set (res := lrun L0 [WDo; WFail] _ f) in *.
  exists f, x, (snd (fst res)), (snd res).
  split; [exact L|]. split; [vm_compute; discriminate|]. split; [apply add_ok; [reflexivity|reflexivity|discriminate]|].
  assert (W1 : fst (fst res) = RCode ABORTED) by (vm_compute; reflexivity).
  rewrite <- W1, <- surjective_pairing. exact E.
Qed.

(** ** What fails *)
(** R1: an add that fails on an empty store leaves the object visible in the
    session; destroying it then moves memory outside the buffer. *)
Theorem C47_failed_add_on_empty_refuted : exists C f0 evs f x m d x' f' x2 x3,
  lcfg_ok C /\ lnew C f0 /\ llife C f0 evs f (Some x) /\ lop_ok (OAdd m (Some d)) /\ writes evs = 0%N /\
  lexec C true (lg_run C x (OAdd m (Some d))) f (RCode ABORTED, x') f' /\
  lexec C false (lg_run C x' (ORead (m_id m) 0 (length d))) f' (RData OK d, x2) f' /\
  lexec C false (lg_run C x' (ODestroy [m_id m])) f' (RCode OOB, x3) f'.
Proof.
  set (f := fst (state_after [LBoot])). set (x := snd (state_after [LBoot])).
  set (o := OAdd (lm 5) (Some [1]%N)).
  pose proof (after_life [LBoot] ltac:(repeat constructor) ltac:(vm_compute; discriminate)) as L.
  pose proof (lrun_exec L0 (lg_run L0 x o) [WFail] f eq_refl) as E.
  set (res := lrun L0 [WFail] (lg_run L0 x o) f) in *.
  set (x' := snd (fst res)). set (f' := snd res).
  pose proof (lrun_clean L0 (lg_run L0 x' (ORead 5 0 1)) f') as E2.
  pose proof (lrun_clean L0 (lg_run L0 x' (ODestroy [5%N])) f') as E3.
  assert (Q2 : snd (lrun L0 [] (lg_run L0 x' (ORead 5 0 1)) f') = f') by reflexivity.
  assert (Q3 : snd (lrun L0 [] (lg_run L0 x' (ODestroy [5%N])) f') = f').
  { assert (D : obj_destroy L0 x' 5 = (OOB, x')) by (vm_compute; reflexivity).
    cbn [lg_run lg_destroy destroy_all]. rewrite D. reflexivity. }
  rewrite Q2 in E2. rewrite Q3 in E3.
  exists L0, lblank, (snd (lsim L0 lblank [LBoot])), f, x, (lm 5), [1]%N, x', f',
    (snd (fst (lrun L0 [] (lg_run L0 x' (ORead 5 0 1)) f'))), (snd (fst (lrun L0 [] (lg_run L0 x' (ODestroy [5%N])) f'))).
  split; [apply L0_ok|]. split; [apply lblank_new|]. split; [exact L|]. split; [apply add_ok; [reflexivity|reflexivity|discriminate]|]. split; [reflexivity|].
  assert (W1 : fst (fst res) = RCode ABORTED) by (vm_compute; reflexivity).
  assert (W2 : fst (fst (lrun L0 [] (lg_run L0 x' (ORead 5 0 1)) f')) = RData OK [1]%N) by (vm_compute; reflexivity).
  assert (W3 : fst (fst (lrun L0 [] (lg_run L0 x' (ODestroy [5%N])) f')) = RCode OOB) by (vm_compute; reflexivity).
  split; [rewrite <- W1; unfold x'; rewrite <- surjective_pairing; exact E|].
  split; [rewrite <- W2; change (length [1]%N) with 1; rewrite <- surjective_pairing; exact E2|].
  rewrite <- W3, <- surjective_pairing. exact E3.
Qed.
Print Assumptions C47_failed_add_on_empty_refuted.

(** R2: destroying the ids 5 and 0 is refused with object 5 removed from the
    session; it is back after a restart. *)
Theorem C47_refused_destroy_refuted : exists C f0 evs f x x' f' x2 x3 f3 x4 m,
  lcfg_ok C /\ lnew C f0 /\ llife C f0 evs f (Some x) /\ writes evs = 1%N /\
  lexec C false (lg_run C x (ODestroy [5; 0]%N)) f (RCode BADARGS, x') f' /\
  lexec C false (lg_run C x' (OMeta 5)) f' (RMeta NOTFOUND None, x2) f' /\
  lexec C false (lg_init C) f' (OK, x3) f3 /\
  lexec C false (lg_run C x3 (OMeta 5)) f3 (RMeta OK (Some m), x4) f3.
Proof.
  set (f := fst (state_after one5)). set (x := snd (state_after one5)).
  pose proof (after_life one5 one5_ok ltac:(vm_compute; discriminate)) as L.
  pose proof (lrun_clean L0 (lg_run L0 x (ODestroy [5; 0]%N)) f) as E. set (res := lrun L0 [] _ f) in *.
  set (x' := snd (fst res)) in *. set (f' := snd res) in *.
  pose proof (lrun_clean L0 (lg_run L0 x' (OMeta 5)) f') as E2. set (res2 := lrun L0 [] (lg_run L0 x' (OMeta 5)) f') in *.
  pose proof (lrun_clean L0 (lg_init L0) f') as E3. set (res3 := lrun L0 [] (lg_init L0) f') in *.
  set (x3 := snd (fst res3)) in *. set (f3 := snd res3) in *.
  pose proof (lrun_clean L0 (lg_run L0 x3 (OMeta 5)) f3) as E4. set (res4 := lrun L0 [] (lg_run L0 x3 (OMeta 5)) f3) in *.
  exists L0, lblank, (snd (lsim L0 lblank one5)), f, x, x', f', (snd (fst res2)), x3, f3, (snd (fst res4)), (with_len (lm 5) 1).
  split; [apply L0_ok|]. split; [apply lblank_new|]. split; [exact L|]. split; [vm_compute; reflexivity|].
  assert (W1 : fst (fst res) = RCode BADARGS) by (vm_compute; reflexivity).
  assert (W2 : fst (fst res2) = RMeta NOTFOUND None) by (vm_compute; reflexivity).
  assert (W3 : fst (fst res3) = OK) by (vm_compute; reflexivity).
  assert (W4 : fst (fst res4) = RMeta OK (Some (with_len (lm 5) 1))) by (vm_compute; reflexivity).
  split; [rewrite <- W1; unfold x'; rewrite <- surjective_pairing; exact E|].
  split; [rewrite <- W2, <- surjective_pairing; exact E2|].
  split; [rewrite <- W3; unfold x3; rewrite <- surjective_pairing; exact E3|].
  rewrite <- W4, <- surjective_pairing. exact E4.
Qed.
Print Assumptions C47_refused_destroy_refuted.

(** R3: an object of id 0 hides the objects added after it. *)
Theorem C47_id_zero_refuted : exists C f0 f x x1 f1 x2 f2 x3 m0 m5 d0 d5,
  lcfg_ok C /\ lnew C f0 /\ llife C f0 [EvBoot] f (Some x) /\ m_id m0 = 0%N /\ m_id m5 = 5%N /\
  lexec C false (lg_run C x (OAdd m0 d0)) f (RCode OK, x1) f1 /\
  lexec C false (lg_run C x1 (OAdd m5 d5)) f1 (RCode OK, x2) f2 /\
  lexec C false (lg_run C x2 (OMeta 5)) f2 (RMeta NOTFOUND None, x3) f2.
Proof.
  set (f := fst (state_after [LBoot])). set (x := snd (state_after [LBoot])).
  pose proof (after_life [LBoot] ltac:(repeat constructor) ltac:(vm_compute; discriminate)) as L.
  pose proof (lrun_clean L0 (lg_run L0 x (OAdd (lm 0) (Some [1]%N))) f) as E1. set (r1 := lrun L0 [] _ f) in *.
  set (x1 := snd (fst r1)) in *. set (f1 := snd r1) in *.
  pose proof (lrun_clean L0 (lg_run L0 x1 (OAdd (lm 5) (Some [2]%N))) f1) as E2. set (r2 := lrun L0 [] _ f1) in *.
  set (x2 := snd (fst r2)) in *. set (f2 := snd r2) in *.
  pose proof (lrun_clean L0 (lg_run L0 x2 (OMeta 5)) f2) as E3. set (r3 := lrun L0 [] (lg_run L0 x2 (OMeta 5)) f2) in *.
  exists L0, lblank, f, x, x1, f1, x2, f2, (snd (fst r3)), (lm 0), (lm 5), (Some [1]%N), (Some [2]%N).
  split; [apply L0_ok|]. split; [apply lblank_new|]. split; [exact L|]. split; [reflexivity|]. split; [reflexivity|].
  assert (W1 : fst (fst r1) = RCode OK) by (vm_compute; reflexivity).
  assert (W2 : fst (fst r2) = RCode OK) by (vm_compute; reflexivity).
  assert (W3 : fst (fst r3) = RMeta NOTFOUND None) by (vm_compute; reflexivity).
  split; [rewrite <- W1; unfold x1; rewrite <- surjective_pairing; exact E1|].
  split; [rewrite <- W2; unfold x2; rewrite <- surjective_pairing; exact E2|].
  rewrite <- W3, <- surjective_pairing. exact E3.
Qed.
Print Assumptions C47_id_zero_refuted.

Lemma lexec_det {A} C (p : prog A) f a f' : lexec C false p f a f' -> (a, f') = lrun C [] p f.
Proof.
  intros H. remember false as fl eqn:E. induction H as [a f|c k f a f' H IH|c k f f1 rc a f' H1 H2 H3 H4 H5 IH]; cbn [lrun]; auto.
  - destruct (is_write c); auto.
  - congruence.
Qed.

(** R4: on a device that programs 8 bytes as one, with the granularity 64, a
    power loss while the header is programmed leaves a store that cannot be
    started. *)
Definition L1 : lcfg := mkLcfg 3 512 64 255 8.
Theorem C47_torn_header_refuted : exists C f0 f x o f',
  8 <= l_g C /\ l_psz C mod l_g C = 0 /\ l_atom C = 8 /\ lnew C f0 /\
  llife C f0 [EvBoot] f (Some x) /\ lop_ok o /\ lcrash C true (lg_run C x o) f f' /\
  forall rc x' f'', lexec C false (lg_init C) f' (rc, x') f'' -> rc = ABORTED.
Proof.
  set (st := lrun L1 [] (lg_init L1) lblank). set (o := OAdd (lm 5) (Some [1]%N)).
  set (x := snd (fst st)). set (f := snd st).
  set (f' := lcut L1 [] 7 (fun a => a =? 65) (lg_run L1 x o) f).
  exists L1, lblank, f, x, o, f'.
  split; [cbn [l_g L1]; lia|]. split; [reflexivity|]. split; [reflexivity|]. split; [intros i _; reflexivity|].
  split.
  { apply ll_boot with (f := lblank) (fl := false); [constructor|].
    assert (W : fst (fst st) = OK) by (vm_compute; reflexivity). rewrite <- W. unfold x. rewrite <- surjective_pairing. apply lrun_clean. }
  split; [apply add_ok; [reflexivity|reflexivity|discriminate]|].
  split; [apply lcut_crash|].
  intros rc x' f'' E. apply lexec_det in E. apply (f_equal (fun r => fst (fst r))) in E. cbn [fst] in E. rewrite E. vm_compute. reflexivity.
Qed.
Print Assumptions C47_torn_header_refuted.

(** R5: outside the fault model above, a device that programs the new header but
    reports a failure.  Power lost during the erase that follows can leave that
    header over erased data: the restart succeeds with neither the old nor the
    new contents. *)
Definition r5_state : flash * lctx := state_after one5.
Definition r5_mem : flash :=
  lcut L0 [WDo; WDo; WDoneFail] 10 (fun a => negb (a =? 0)) (lg_run L0 (snd r5_state) (OAdd (lm 6) (Some [2]%N))) (fst r5_state).
Theorem C47_done_but_failed_refuted :
  llife L0 lblank (snd (lsim L0 lblank one5)) (fst r5_state) (Some (snd r5_state)) /\
  forall rc x f, lexec L0 false (lg_init L0) r5_mem (rc, x) f ->
    rc = OK /\ lg_meta L0 x 5 = (NOTFOUND, None) /\ lg_meta L0 x 6 = (NOTFOUND, None).
Proof.
  split; [apply after_life; [apply one5_ok|vm_compute; discriminate]|].
  intros rc x f E. apply lexec_det in E.
  pose proof (f_equal (fun r => fst (fst r)) E) as E1. pose proof (f_equal (fun r => snd (fst r)) E) as E2. cbn [fst snd] in E1, E2.
  rewrite E1, E2. split; [vm_compute; reflexivity|]. split; vm_compute; reflexivity.
Qed.
Print Assumptions C47_done_but_failed_refuted.
End LogExamples.
