(** Proofs of the NVM properties over lives of a device. *)
From Verif Require Import Base Flash BaseLemmas FlashWp NvmFlashModel NvmSpec NvmInv
  NvmFlashProof NvmFlashOps NvmHistory Store.

(** * The specification: store versus map *)
Lemma hist_map K evs s : sp_hist K evs s -> forallb (fun e => negb (is_cut e)) evs = true ->
  forall id, sp_find s id = map_after evs id.
Proof.
  induction 1 as [|evs s H IH|evs s H IH|evs s H IH|evs s o r s' H IH ST|evs s o s' H IH ST];
    cbn [forallb is_cut negb andb]; intros NC id; auto; try discriminate; try exact (IH NC id).
  specialize (IH NC).
  destruct o as [m data|m data|ids|i off len|i|start|]; cbn [sp_step] in ST; cbn [map_after].
  - destruct ST as [(_ & -> & ->)|[-> ->]]; [change (is_ok OK) with true|change (is_ok NOSPACE) with false]; cbv iota; auto.
    rewrite find_add, IH. reflexivity.
  - destruct ST as [(_ & -> & ->)|(_ & -> & ->)]; [change (is_ok OK) with true|change (is_ok NOSPACE) with false]; cbv iota; auto.
    rewrite find_add, IH. reflexivity.
  - destruct ST as [-> ->]. change (is_ok OK) with true. cbv iota. rewrite find_destroy, IH. reflexivity.
  - destruct ST as [-> ->]. auto.
  - destruct ST as [-> ->]. destruct (sp_find s i) as [[? ?]|]; auto.
  - destruct ST as [(n & j & -> & _) ->]. auto.
  - destruct ST as [(ab & ao & rb & ro & -> & _) ->]. auto.
Qed.

Lemma step_answer K s o r s' : sp_step K s o r s' -> map_answer (sp_find s) o r.
Proof.
  destruct o as [m data|m data|ids|i off len|i|start|]; cbn [sp_step map_answer]; try tauto.
  - intros [-> _]. unfold sp_read. destruct (sp_find s i) as [[? d]|]; auto.
    destruct (_ && _); reflexivity.
Qed.

Lemma map_answer_ext M M' o r : (forall id, M id = M' id) -> map_answer M o r -> map_answer M' o r.
Proof. intros E. destruct o; cbn [map_answer]; auto; rewrite E; auto. Qed.

Lemma hist_boots K boots evs s : forallb is_boot boots = true ->
  sp_hist K (boots ++ evs) s -> sp_hist K evs s.
Proof.
  induction boots as [|b bs IH]; cbn [app forallb]; auto.
  intros H S. apply andb_prop in H as [H1 H2]. apply IH; auto. inversion S; subst; auto; discriminate.
Qed.

Lemma hist_asked K qs evs s : forallb (fun q => is_query (fst q)) qs = true ->
  sp_hist K (asked qs ++ evs) s -> sp_hist K evs s /\ answers K s qs.
Proof.
  induction qs as [|[o r] qs IH]; cbn [asked map app forallb fst snd].
  - intros _ S. split; auto. intros ? ? [].
  - intros H S. apply andb_prop in H as [H1 H2].
    inversion S as [| | | |evs0 s1 o0 r0 s2 S1 S2|]; subst.
    assert (E : s = s1) by (destruct o; try discriminate; cbn [sp_step] in S2; tauto).
    subst s1. destruct (IH H2 S1) as [A1 A2]. split; auto.
    intros o' r' [E|E]; [injection E as <- <-; auto|apply A2; auto].
Qed.

(** * Lives *)
Section Life.
Variable C : cfg.
Hypothesis HC : cfg_ok C.
Notation K := (cap_of C).

Lemma wp_boot fl n f s : Rep C n f s ->
  wp C fl (nf_init C) f
    (fun rx g => (fst rx = OK /\ Sess C n g (snd rx) s) \/ (fl = true /\ fst rx <> OK /\ Rep C n g s))
    (fun g => Rep C n g s).
Proof.
  intros [[P ->]|(a & ep & es & F & L & E)].
  - apply wp_init_pre; auto.
    + intros g [P'|F]; [left; auto|]. right. exists false, 0%N, []. split; [auto|]. split; [auto|lia].
    + intros x g X F. left. split; auto. exists false, 0%N, []. split; [auto|]. split; [auto|]. split; [auto|]. cbn [snd]. lia.
    + intros Hfl rc x g Hrc D. right. split; auto. split; [exact Hrc|].
      destruct D as [P'|F]; [left; auto|]. right. exists false, 0%N, []. split; [auto|]. split; [auto|lia].
  - apply wp_init_ok with (a := a) (ep := ep) (es := es); auto.
    + right. exists a, ep, es. auto.
    + intros x X. left. split; auto. exists a, ep, es. auto.
Qed.

Definition powered (n : N) (f : flash) (ox : option ctx) (s : store) : Prop :=
  match ox with Some x => Sess C n f x s | None => Rep C n f s end.

Theorem life_hist f0 evs f ox :
  Pre_ok C f0 -> life C f0 evs f ox -> (compactions evs < W32)%N ->
  exists s, sp_hist K evs s /\ powered (compactions evs) f ox s.
Proof.
  intros P L. 
  induction L as [|evs f f' x L IH E|evs f f' L IH E|evs f f' rx L IH E|evs f x o r x' f' L IH O E
                 |evs f x o f' L IH O E|evs f x o rx f' L IH O E|evs f ox L IH];
    intros Hn; cbn [compactions] in *.
  - exists []. split; [constructor|]. left. auto.
  - destruct IH as (s & H & R); [lia|]. exists s. split; [constructor; auto|].
    eapply wp_exec in E; [|apply wp_boot; exact R].
    destruct E as [[_ S]|(A & _)]; [|discriminate]. eapply Sess_mono; [|exact S]. lia.
  - destruct IH as (s & H & R); [lia|]. exists s. split; [constructor; auto|].
    eapply wp_crash in E; [|apply wp_boot; exact R]. eapply Rep_mono; [|exact E]. lia.
  - destruct IH as (s & H & R); [lia|]. exists s. split; [constructor; auto|].
    eapply wp_exec in E; [|apply wp_boot; exact R].
    eapply Rep_mono; [|destruct E as [[_ S]|(_ & _ & S)]; [eapply Sess_Rep; exact S|exact S]]. lia.
  - destruct IH as (s & H & R); [lia|].
    eapply wp_exec in E; [|apply wp_op; [exact HC|exact R|exact O|lia]].
    destruct E as [(s' & ST & S)|(A & _)]; [|discriminate].
    exists s'. split; [econstructor; eauto|]. eapply Sess_mono; [|exact S]. lia.
  - destruct IH as (s & H & R); [lia|].
    eapply wp_crash in E; [|apply wp_op; [exact HC|exact R|exact O|lia]].
    destruct E as (s' & ST & S).
    exists s'. split; [econstructor; eauto|]. eapply Rep_mono; [|exact S]. lia.
  - destruct IH as (s & H & R); [lia|].
    eapply wp_exec in E; [|apply wp_op; [exact HC|exact R|exact O|lia]].
    destruct E as [(s' & ST & S)|(_ & _ & s' & ST & S)]; exists s'.
    + split; [econstructor; eauto; right; eauto|]. eapply Rep_mono; [|eapply Sess_Rep; exact S]. lia.
    + split; [econstructor; eauto|]. eapply Rep_mono; [|exact S]. lia.
  - destruct IH as (s & H & R); [lia|]. exists s. split; [constructor; auto|].
    eapply Rep_mono; [|destruct ox; [eapply Sess_Rep|]; exact R]. lia.
Qed.

(** Initialisation succeeds after any life. *)
Theorem life_boots f0 evs f rc x f' :
  Pre_ok C f0 -> life C f0 evs f None -> (compactions evs < W32)%N ->
  exec C false (nf_init C) f (rc, x) f' -> rc = OK.
Proof.
  intros P L Hn E. destruct (life_hist _ _ _ _ P L Hn) as (s & _ & R).
  eapply wp_exec in E; [|apply wp_boot; exact R]. destruct E as [[A _]|(A & _)]; [exact A|discriminate].
Qed.

Theorem life_map f0 evs o r f ox :
  Pre_ok C f0 -> life C f0 (EvOp o r :: evs) f ox -> (compactions (EvOp o r :: evs) < W32)%N ->
  forallb (fun e => negb (is_cut e)) evs = true ->
  map_answer (map_after evs) o r.
Proof.
  intros P L Hn NC. destruct (life_hist _ _ _ _ P L Hn) as (s & H & _).
  inversion H as [| | | |evs0 s1 o0 r0 s2 S1 S2|]; subst.
  eapply map_answer_ext; [|eapply step_answer; exact S2].
  eapply hist_map; eauto.
Qed.

Lemma life_cut f0 qs boots o evs f ox :
  Pre_ok C f0 -> life C f0 (asked qs ++ boots ++ EvCut o :: evs) f ox ->
  (compactions (asked qs ++ boots ++ EvCut o :: evs) < W32)%N ->
  forallb (fun q => is_query (fst q)) qs = true -> forallb is_boot boots = true ->
  exists s s', sp_hist K evs s /\ sp_cut K s o s' /\ answers K s' qs.
Proof.
  intros P L Hn Q B. destruct (life_hist _ _ _ _ P L Hn) as (s' & H & _).
  apply hist_asked in H as [H A]; auto. apply hist_boots in H; auto.
  inversion H; subst. eauto.
Qed.

Theorem life_add_cut f0 qs boots m data evs f ox :
  Pre_ok C f0 -> life C f0 (asked qs ++ boots ++ EvCut (OAdd m data) :: evs) f ox ->
  (compactions (asked qs ++ boots ++ EvCut (OAdd m data) :: evs) < W32)%N ->
  forallb (fun q => is_query (fst q)) qs = true -> forallb is_boot boots = true ->
  exists s, sp_hist K evs s /\ (answers K s qs \/ answers K (sp_add m (data_of data) s) qs).
Proof.
  intros P L Hn Q B. destruct (life_cut _ _ _ _ _ _ _ P L Hn Q B) as (s & s' & H & [->|[r ST]] & A);
    exists s; split; auto.
  destruct ST as [(_ & _ & ->)|[_ ->]]; auto.
Qed.
Theorem life_addr_cut f0 qs boots m data evs f ox :
  Pre_ok C f0 -> life C f0 (asked qs ++ boots ++ EvCut (OAddR m data) :: evs) f ox ->
  (compactions (asked qs ++ boots ++ EvCut (OAddR m data) :: evs) < W32)%N ->
  forallb (fun q => is_query (fst q)) qs = true -> forallb is_boot boots = true ->
  exists s, sp_hist K evs s /\ (answers K s qs \/ answers K (sp_add m (data_of data) s) qs).
Proof.
  intros P L Hn Q B. destruct (life_cut _ _ _ _ _ _ _ P L Hn Q B) as (s & s' & H & [->|[r ST]] & A);
    exists s; split; auto.
  destruct ST as [(_ & _ & ->)|(_ & _ & ->)]; auto.
Qed.

Theorem life_destroy_cut f0 qs boots ids evs f ox :
  Pre_ok C f0 -> life C f0 (asked qs ++ boots ++ EvCut (ODestroy ids) :: evs) f ox ->
  (compactions (asked qs ++ boots ++ EvCut (ODestroy ids) :: evs) < W32)%N ->
  forallb (fun q => is_query (fst q)) qs = true -> forallb is_boot boots = true ->
  exists s, sp_hist K evs s /\ (answers K s qs \/ answers K (sp_destroy ids s) qs).
Proof.
  intros P L Hn Q B. destruct (life_cut _ _ _ _ _ _ _ P L Hn Q B) as (s & s' & H & [->|[r ST]] & A);
    exists s; split; auto.
  destruct ST as [_ ->]; auto.
Qed.

(** Refused operations and questions change neither memory nor session. *)
Theorem life_refused f0 evs f x o r x' f' :
  Pre_ok C f0 -> life C f0 evs f (Some x) -> (compactions evs + 1 < W32)%N ->
  op_ok o -> exec C false (op_run C x o) f (r, x') f' ->
  is_query o = true \/ (exists rc, r = RCode rc /\ rc <> OK) ->
  f' = f /\ x' = x.
Proof.
  intros P L Hn O E HR. destruct (life_hist _ _ _ _ P L ltac:(lia)) as (s & H & S).
  destruct S as (a & ep & es & F & X & LV & EP).
  pose proof F as (F1 & F2 & F3). pose proof F2 as (B1 & B2 & _).
  set (Q := fun (rx : nvm_res * ctx) (g : flash) =>
     is_query o = true \/ (exists rc, fst rx = RCode rc /\ rc <> OK) -> g = f /\ snd rx = x).
  enough (W : wp C false (op_run C x o) f Q (fun _ => True)) by (eapply wp_exec in E; [|exact W]; apply E; auto).
  clear E HR r x' f'.
  assert (QOK : forall x' g, is_query o = false -> Q (RCode OK, x') g).
  { intros x' g H1 [A|(rc & A & B)]; [congruence|]. injection A as <-. congruence. }
  assert (QR : forall r, Q (r, x) f) by (intros r _; auto).
  destruct o as [m data|m data|ids|id off len|id|start|]; cbn [op_run op_ok] in *.
  - destruct O as (M1 & M2 & M3). rewrite <- data_of_dbytes in M2, M3.
    apply wp_bind. apply wp_add with (a := a) (ep := ep) (es := es); auto; try discriminate.
    + intros _. apply wp_ret; auto.
    + intros g x' eo _ _ _. apply wp_ret; auto.
  - destruct O as (M1 & M2 & M3). rewrite <- data_of_dbytes in M2, M3.
    unfold nvm_add_reclaim.
    destruct (avail_spec C x a ep es X B1 B2) as (asz & aobj & rsz & robj & EA & A1 & A2 & A3 & A4).
    rewrite EA. change (is_ok OK) with true. cbv iota.
    assert (EL : dlen data = length (dbytes data)) by (destruct data; reflexivity). rewrite EL.
    assert (ADD : forall g x1 a1 ep1 es1, Flash_ok C g a1 ep1 es1 -> ctx_ok C x1 a1 ep1 es1 ->
        room C es1 (length (dbytes data)) ->
        wp C false (nf_add C x1 m data) g (fun rx g => wp C false (let '(rc, x') := rx in Ret (RCode rc, x')) g Q (fun _ => True)) (fun _ => True)).
    { intros g x1 a1 ep1 es1 F1' X1' R1.
      apply wp_add with (a := a1) (ep := ep1) (es := es1); auto; try discriminate.
      + intros NR; contradiction.
      + intros g0 x' eo _ _ _. apply wp_ret; auto. }
    destruct ((asz <? length (dbytes data)) || (aobj =? 0)) eqn:E1.
    + destruct ((length (dbytes data) <=? asz + rsz) && (0 <? aobj + robj)) eqn:E2.
      * assert (FI : fits K (live es) (length (dbytes data))).
        { unfold fits, cap_of. cbn [cap_objs cap_units].
          pose proof (nbad_live [] es). pose proof (ubad_live [] es).
          change (livek [] es) with (live es) in *.
          pose proof (units_le' (length (dbytes data)) (dmax C - sp_units (live es))). lia. }
        apply wp_bind. apply wp_bind. apply wp_destroy with (a := a) (ep := ep) (es := es); auto; try discriminate; try lia.
        -- congruence.
        -- intros g x' _ FG XG. change (is_ok OK) with true. cbv iota.
           apply (ADD g x' _ _ _ FG XG). apply room_keep; auto.
      * apply wp_bind. apply wp_bind. apply wp_ret; [|auto]. change (is_ok NOSPACE) with false. cbv iota.
        apply wp_ret; [|auto]. apply wp_ret; auto.
    + apply wp_bind. apply wp_bind. apply wp_ret; [|auto]. change (is_ok OK) with true. cbv iota.
      apply (ADD f x a ep es F X). unfold room; pose proof (units_le' (length (dbytes data)) (dmax C - total es)); lia.
  - apply wp_bind. apply wp_destroy with (a := a) (ep := ep) (es := es); auto; try discriminate; try lia.
    + intros _ _. apply wp_ret; auto.
    + intros g x' _ _ _. apply wp_ret; auto.
  - apply wp_bind. apply wp_read with (a := a) (ep := ep) (es := es); auto.
    destruct (sp_read (live es) id off len). apply wp_ret; auto.
  - apply wp_ret; auto.
  - apply wp_ret; auto.
  - apply wp_ret; auto.
Qed.

(** Free space. *)
Theorem life_avail_add f0 evs f x ab ao rb ro f1 x1 m data r x' f' :
  Pre_ok C f0 -> life C f0 evs f (Some x) -> (compactions evs + 1 < W32)%N ->
  exec C false (op_run C x OAvail) f (RAvail OK ab ao rb ro, x1) f1 ->
  op_ok (OAdd m data) -> exec C false (op_run C x (OAdd m data)) f (r, x') f' ->
  (r = RCode OK <-> length (data_of data) <= ab /\ 0 < ao).
Proof.
  intros P L Hn EA O E. destruct (life_hist _ _ _ _ P L ltac:(lia)) as (s & H & S).
  destruct S as (a & ep & es & F & X & LV & EP).
  pose proof F as (F1 & F2 & F3). pose proof F2 as (B1 & B2 & _).
  destruct (avail_spec C x a ep es X B1 B2) as (asz & aobj & rsz & robj & EA' & A1 & A2 & A3 & A4).
  cbn [op_run] in EA. rewrite EA' in EA. inversion EA; subst ab ao rb ro.
  destruct O as (M1 & M2 & M3). rewrite <- data_of_dbytes in *.
  eapply wp_exec in E.
  2:{ cbn [op_run]. apply wp_bind.
      apply wp_add with (a := a) (ep := ep) (es := es)
        (Q := fun rx g => wp C false (let '(rc, x') := rx in Ret (RCode rc, x')) g
            (fun rx _ => fst rx = RCode OK <-> room C es (length (dbytes data))) (fun _ => True))
        (Cr := fun _ => True); auto; try discriminate.
      - intros NR. apply wp_ret; auto. cbn [fst]. split; [discriminate|contradiction].
      - intros g x0 eo R _ _. apply wp_ret; auto. cbn [fst]. split; auto. }
  cbn [fst] in E. rewrite E. unfold room.
  pose proof (units_le' (length (dbytes data)) (dmax C - total es)). lia.
Qed.

Theorem life_reclaim f0 evs m data r f ox :
  Pre_ok C f0 -> life C f0 (EvOp (OAddR m data) r :: evs) f ox ->
  (compactions (EvOp (OAddR m data) r :: evs) < W32)%N ->
  exists s, sp_hist K evs s /\
    (r = RCode OK <-> fits K s (length (data_of data))) /\
    (r = RCode NOSPACE <-> ~ fits K s (length (data_of data))).
Proof.
  intros P L Hn. destruct (life_hist _ _ _ _ P L Hn) as (s' & H & _).
  inversion H as [| | | |evs0 s1 o0 r0 s2 S1 S2|]; subst. exists s1. split; auto.
  destruct S2 as [(A & -> & _)|(A & -> & _)]; split; split; auto; try discriminate; try contradiction.
Qed.

(** Bounds. *)
Theorem life_bounds_op f0 evs f x o g c :
  Pre_ok C f0 -> life C f0 evs f (Some x) -> (compactions evs + 1 < W32)%N ->
  op_ok o -> issues C true (op_run C x o) f g c -> okcall C g c.
Proof.
  intros P L Hn O I. destruct (life_hist _ _ _ _ P L ltac:(lia)) as (s & H & S).
  eapply wp_issues; [|exact I]. apply wp_op with (n := compactions evs) (s := s); auto.
  destruct o; cbn [compacts]; lia.
Qed.
Theorem life_bounds_boot f0 evs f g c :
  Pre_ok C f0 -> life C f0 evs f None -> (compactions evs < W32)%N ->
  issues C true (nf_init C) f g c -> okcall C g c.
Proof.
  intros P L Hn I. destruct (life_hist _ _ _ _ P L Hn) as (s & H & S).
  eapply wp_issues; [|exact I]. apply wp_boot with (n := compactions evs) (s := s); auto.
Qed.

(** Enumeration. *)
Definition ask_list (x : ctx) (start : N) : nat * N :=
  let '(_, n, id) := nf_list x start in (n, id).

Lemma sp_after_app a o b : NoDup (map oid (a ++ o :: b)) -> sp_after (a ++ o :: b) (oid o) = b.
Proof.
  induction a as [|x a IH]; cbn [app map sp_after]; intros ND.
  - rewrite N.eqb_refl. auto.
  - inversion ND as [|? ? NI ND']; subst. destruct (N.eqb_spec (oid x) (oid o)) as [E|E]; auto.
    exfalso. apply NI. rewrite E, map_app. apply in_or_app. right. left. auto.
Qed.

(** What an exact enumeration returns: ids in order, each with the number of
    objects left including it. *)
Fixpoint countdown (s : store) : list (nat * N) :=
  match s with [] => [] | o :: r => (length s, oid o) :: countdown r end.

Lemma sp_list_rest s start b : (if N.eqb start 0 then s else sp_after s start) = b ->
  sp_list s start = match b with [] => (0, 0%N) | o :: _ => (length b, oid o) end.
Proof. intros <-. reflexivity. Qed.

Lemma enum_spec ask s : NoDup (map oid s) -> (forall o, In o s -> oid o <> 0%N) ->
  (forall i, ask i = sp_list s i) ->
  forall fuel b a start, length b < fuel -> s = a ++ b ->
    ((a = [] /\ start = 0%N) \/ (exists a' o, a = a' ++ [o] /\ start = oid o)) ->
    enumerate ask fuel start = countdown b.
Proof.
  intros ND NZ HA. induction fuel as [|k IH]; intros b a start HL E ST; [lia|].
  cbn [enumerate]. rewrite HA.
  assert (ER : (if N.eqb start 0 then s else sp_after s start) = b).
  { destruct ST as [[-> ->]|(a' & o & -> & ->)].
    - rewrite E. reflexivity.
    - destruct (N.eqb_spec (oid o) 0) as [Z|_].
      + exfalso. apply (NZ o); auto. rewrite E. apply in_or_app. left. apply in_or_app. right. left. auto.
      + rewrite E, <- app_assoc. cbn [app]. apply sp_after_app. rewrite <- app_assoc in E. cbn [app] in E. rewrite <- E. auto. }
  rewrite (sp_list_rest _ _ _ ER). destruct b as [|o b]; [reflexivity|].
  cbn [length Nat.eqb countdown]. f_equal. apply IH with (a := a ++ [o]).
  - cbn [length] in HL. lia.
  - rewrite <- app_assoc. exact E.
  - right. exists a, o. auto.
Qed.

Theorem life_list f0 evs f x :
  Pre_ok C f0 -> life C f0 evs f (Some x) -> (compactions evs < W32)%N ->
  exists s, sp_hist K evs s /\ NoDup (map oid s) /\
    (sp_find s 0 = None -> forall fuel, length s < fuel ->
       enumerate (ask_list x) fuel 0 = countdown s).
Proof.
  intros P L Hn. destruct (life_hist _ _ _ _ P L Hn) as (s & H & S).
  exists s. split; auto. destruct S as (a & ep & es & F & X & LV & EP).
  assert (ND : NoDup (map oid s)) by (rewrite <- LV; apply livek_nodup). split; auto.
  intros NZ fuel Hf.
  assert (NZ' : forall o, In o s -> oid o <> 0%N).
  { clear - NZ. induction s as [|o s IH]; [intros ? []|]. cbn [sp_find] in NZ.
    destruct (N.eqb_spec (oid o) 0); try discriminate. intros o' [<-|I]; auto. }
  apply enum_spec with (s := s) (a := []); auto.
  intros i. unfold ask_list. destruct (list_spec C x a ep es i X) as (n & id & EL & HL). rewrite EL.
  rewrite LV in HL. auto.
Qed.
End Life.

(** * The unit layer *)
Section Unit.
Variable C : cfg.
Notation DU := (dev_units C).

Lemma run_bind {A B} (p : prog A) (k : A -> prog B) : forall f,
  run C (bind p k) f = run C (k (fst (run C p f))) (snd (run C p f)).
Proof.
  induction p as [a|c kk IH]; intros f; cbn [run bind]; auto.
  destruct (fstep C f c) as [g r]. apply IH.
Qed.

(** Complete description of a program of units. *)
Lemma run_fu_program f off us :
  run C (fu_program off us) f =
    if off + length us <=? DU
    then if blankb C f off (length us) then (OK, put_units f off us) else (NOTBLANK, f)
    else (BADARGS, f).
Proof.
  unfold fu_program. cbn [run fstep].
  destruct (off + length us <=? DU) eqn:E1; [|reflexivity].
  destruct (blankb C f off (length us)) eqn:E2; [|reflexivity].
  cbn [fst]. change (is_ok OK) with true. cbv iota. cbn [run fstep]. rewrite E1, E2. cbn [fst].
  change (is_ok OK) with true. cbv iota. cbn [run fstep]. rewrite E1, read_put_units, list_eqb_refl. reflexivity.
Qed.

(** A device that may also fail silently: any program or erase may be applied
    in part and may return any code. *)
Inductive vexec {A} : prog A -> flash -> A -> flash -> Prop :=
| vexec_ret a f : vexec (Ret a) f a f
| vexec_read c k f a f' :
    is_write c = false ->
    vexec (k (snd (fstep C f c))) (fst (fstep C f c)) a f' -> vexec (Call c k) f a f'
| vexec_write c k f f1 rc a f' :
    is_write c = true -> torn C c f f1 -> vexec (k (rc, [])) f1 a f' -> vexec (Call c k) f a f'.

Lemma vexec_bind {A B} (p : prog A) (k : A -> prog B) : forall f b f',
  vexec (bind p k) f b f' -> exists a g, vexec p f a g /\ vexec (k a) g b f'.
Proof.
  induction p as [a|c kk IH]; intros f b f' V; cbn [bind] in V.
  - exists a, f. split; [constructor|auto].
  - inversion V; subst.
    + match goal with H : vexec (bind _ _) _ _ _ |- _ => apply IH in H as (a & g & V1 & V2) end.
      exists a, g. split; auto. apply vexec_read; auto.
    + match goal with H : vexec (bind _ _) _ _ _ |- _ => apply IH in H as (a & g & V1 & V2) end.
      exists a, g. split; auto. eapply vexec_write; eauto.
Qed.

Lemma list_eqb_eq a : forall b, list_eqb a b = true -> a = b.
Proof.
  induction a as [|x a IH]; intros [|y b]; cbn [list_eqb]; try discriminate; auto.
  intros H. apply andb_prop in H as [H1 H2]. apply N.eqb_eq in H1. rewrite (IH _ H2), H1. auto.
Qed.

Lemma vexec_program f off us rc f' : vexec (fu_program off us) f rc f' ->
  (forall o, o < off \/ off + length us <= o -> f' o = f o) /\
  (rc = OK -> read_units f' off (length us) = us /\ off + length us <= DU /\ blank C f off (length us)).
Proof.
  unfold fu_program. intros V. inversion V as [|? ? ? ? ? _ V1|]; subst; [|discriminate]. clear V.
  cbn [fstep] in V1. destruct (Nat.leb_spec (off + length us) DU) as [R|R]; cbn [fst snd] in V1.
  2:{ change (is_ok BADARGS) with false in V1. inversion V1; subst. split; auto. discriminate. }
  destruct (blankb C f off (length us)) eqn:EB.
  2:{ change (is_ok NOTBLANK) with false in V1. inversion V1; subst. split; auto. discriminate. }
  change (is_ok OK) with true in V1. cbv iota in V1.
  inversion V1 as [| |? ? ? f1 rc1 ? ? _ T V2]; subst; [discriminate|]. clear V1. cbn [fst] in V2.
  assert (OUT : forall o, o < off \/ off + length us <= o -> f1 o = f o).
  { intros o Ho. destruct (T o) as [E|E]; auto. rewrite E. cbn [fstep].
    rewrite (proj2 (Nat.leb_le _ _) R), EB. cbn [fst]. rewrite put_units_out by lia. auto. }
  destruct (is_ok rc1) eqn:EO.
  - inversion V2 as [|? ? ? ? ? _ V3|]; subst; [|discriminate]. clear V2.
    cbn [fstep] in V3. rewrite (proj2 (Nat.leb_le _ _) R) in V3. cbn [fst snd] in V3.
    inversion V3; subst. split; auto.
    destruct (list_eqb _ _) eqn:EE; [|discriminate]. intros _. split; [apply list_eqb_eq; auto|].
    split; auto. apply blankb_spec; auto.
  - inversion V2; subst. split; auto. intros ->. discriminate.
Qed.

Lemma read_units_ext f g off n : (forall o, off <= o < off + n -> f o = g o) -> read_units f off n = read_units g off n.
Proof. intros H. unfold read_units. apply map_ext_in. intros o I. apply in_seq in I. apply H; lia. Qed.

Lemma vexec_program_bytes f off bs rc f' : vexec (fu_program_bytes (8 * off) bs) f rc f' ->
  (forall o, o < off \/ off + units (length bs) <= o -> f' o = f o) /\
  (rc = OK -> read_units f' off (units (length bs)) = pack bs
     /\ (bs = [] \/ off + units (length bs) <= DU) /\ blank C f off (units (length bs))).
Proof.
  unfold fu_program_bytes.
  replace ((8 * off) mod 8) with 0 by lia. rewrite skipn_O. replace (8 * off / 8) with off by lia.
  set (c := length bs / 8). set (r := length bs mod 8).
  assert (Hc : length (firstn (8 * c) bs) = 8 * c) by (rewrite firstn_length; unfold c; lia).
  assert (Hr : length (skipn (8 * c) bs) = r) by (rewrite skipn_length; unfold c, r; lia).
  assert (Hr2 : firstn r (skipn (8 * c) bs) = skipn (8 * c) bs) by (apply firstn_all2; lia).
  rewrite Hr2.
  assert (Hb : pack bs = pack (firstn (8 * c) bs) ++ pack (skipn (8 * c) bs)).
  { rewrite <- (firstn_skipn (8 * c) bs) at 1. apply (pack_app8 c); auto. }
  set (a := firstn (8 * c) bs) in *. set (t := skipn (8 * c) bs) in *.
  assert (La : length (pack a) = c) by (rewrite pack_length, Hc; apply units_mul8).
  assert (Lt : length (pack t) = units r) by (rewrite pack_length, Hr; auto).
  assert (Lu : units (length bs) = c + units r) by (rewrite <- pack_length, Hb, app_length; lia).
  intros V. apply vexec_bind in V as (rc1 & g & V1 & V2).
  assert (P1 : (forall o, o < off \/ off + c <= o -> g o = f o) /\
    (rc1 = OK -> read_units g off c = pack a /\ (c = 0 \/ off + c <= DU) /\ blank C f off c)).
  { destruct (Nat.eqb_spec c 0) as [E|E].
    - inversion V1; subst. split; auto. intros _. rewrite E in *. split; [|split; auto; intros o Ho; lia].
      destruct (pack a); [reflexivity|discriminate].
    - apply vexec_program in V1 as [O1 O2]. rewrite La in *. split; auto. intros ER.
      destruct (O2 ER) as (? & ? & ?). auto. }
  destruct P1 as [O1 K1].
  destruct (is_ok rc1) eqn:EO; cbn [andb] in V2.
  - apply Z.eqb_eq in EO. destruct (K1 EO) as (R1 & D1 & B1).
    destruct (Nat.eqb_spec r 0) as [E|E]; cbn [negb] in V2.
    + inversion V2; subst. rewrite Lu, E, units_0, Nat.add_0_r. split; [exact O1|]. intros _.
      split; [|split; [|exact B1]].
      * rewrite R1, Hb. destruct (pack t) eqn:Et; [rewrite app_nil_r; auto|]. rewrite E, units_0 in Lt. discriminate.
      * destruct D1; auto. left. destruct bs; auto. cbn [length] in *. unfold c, r in *. lia.
    + assert (Ur : units r = 1) by (pose proof (units_spec r); unfold r in *; lia).
      apply vexec_program in V2 as [O2 K2]. rewrite Lt, Ur in *. rewrite Lu. split.
      * intros o Ho. rewrite O2, O1 by lia. auto.
      * intros ER. destruct (K2 ER) as (R2 & D2 & B2). split; [|split].
        -- rewrite read_units_app, Hb. f_equal; auto. rewrite <- R1. apply read_units_ext. intros o Ho. apply O2. lia.
        -- right. lia.
        -- intros o Ho. destruct (le_lt_dec (off + c) o); [|apply B1; lia].
           rewrite <- O1 by lia. apply B2. lia.
  - inversion V2; subst. split; [intros o Ho; apply O1; lia|]. intros ->. discriminate.
Qed.

(** Success means the bytes are there, nothing else changed and the place was
    blank, whatever the device does. *)
Theorem unit_program_ok f off bs f' :
  bytes_ok bs -> vexec (fu_program_bytes (8 * off) bs) f OK f' ->
  (forall b n, 8 * off <= b -> b + n <= 8 * off + length bs ->
     run C (fu_read_bytes b n) f' = (OK, firstn n (skipn (b - 8 * off) bs), f')) /\
  (forall o, o < off \/ off + units (length bs) <= o -> f' o = f o) /\
  (forall o, off <= o < off + units (length bs) -> f o = erased_unit C).
Proof.
  intros Hb V. apply vexec_program_bytes in V as [O1 K1]. destruct (K1 eq_refl) as (R1 & D1 & B1).
  split; [|split; auto]. intros b n H1 H2.
  destruct D1 as [->|D1].
  - cbn [length] in H2. assert (b = 8 * off) as -> by lia. assert (n = 0) as -> by lia.
    unfold fu_read_bytes. replace ((8 * off) mod 8) with 0 by lia. reflexivity.
  - pose proof (units_spec (length bs)).
    assert (RB : rbytes f' b n = firstn n (skipn (b - 8 * off) bs)).
    { rewrite <- (rbytes_pack f' off bs Hb R1) at 1. rewrite skipn_rbytes, firstn_rbytes. f_equal; lia. }
    pose proof (wp_run C false (fu_read_bytes b n) f' (fun r g => r = (OK, rbytes f' b n) /\ g = f') (fun _ => True)) as W.
    destruct (run C (fu_read_bytes b n) f') as [r g]. cbn [fst snd] in W. rewrite <- RB.
    destruct W as [-> ->]; auto. apply wp_fu_read_bytes; auto; lia.
Qed.

(** Without faults, programming succeeds exactly when the place is blank and in
    range. *)
Theorem unit_program_iff f off bs : bs <> [] ->
  (fst (run C (fu_program_bytes (8 * off) bs) f) = OK <->
   off + units (length bs) <= DU /\ (forall o, off <= o < off + units (length bs) -> f o = erased_unit C)).
Proof.
  intros NE. split.
  - intros E.
    assert (V : forall A (p : prog A) g, vexec p g (fst (run C p g)) (snd (run C p g))).
    { clear. intros A p. induction p as [a|c k IH]; intros g; cbn [run]; [constructor|].
      specialize (IH (snd (fstep C g c)) (fst (fstep C g c))).
      destruct (fstep C g c) as [g' [rc d]] eqn:Ef. cbn [fst snd] in IH.
      destruct (is_write c) eqn:W.
      - eapply vexec_write with (f1 := g') (rc := rc); auto.
        + intros o. right. rewrite Ef. reflexivity.
        + assert (d = []) as ->; auto. destruct c; try discriminate; cbn [fstep] in Ef;
            repeat match type of Ef with (if ?b then _ else _) = _ => destruct b end; congruence.
      - apply vexec_read; auto. rewrite Ef. exact IH. }
    specialize (V _ (fu_program_bytes (8 * off) bs) f). apply vexec_program_bytes in V as [_ K].
    destruct (K E) as (_ & [?|D] & B); [contradiction|]. split; auto.
  - intros [D B]. apply (wp_run C false _ f (fun rc _ => rc = OK) (fun _ => True)).
    rewrite Nat.mul_comm. apply wp_fu_program_bytes; auto; discriminate.
Qed.
End Unit.
