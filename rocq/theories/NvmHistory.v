(** Lives of a device: operations, power cuts and write faults, and their
    relation to the abstract store. *)
From Verif Require Import Base Flash BaseLemmas FlashWp NvmFlashModel NvmSpec NvmInv
  NvmFlashProof NvmFlashOps.

(** The operations as programs over a session context.  Dispatch only:
    wh_nvm.c forwards to the callbacks of wh_nvm_flash.c. *)
Definition op_run (C : cfg) (x : ctx) (o : nvm_op) : prog (nvm_res * ctx) :=
  match o with
  | OAdd m data => do '(rc, x') <- nf_add C x m data ;; Ret (RCode rc, x')
  | OAddR m data => do '(rc, x') <- nvm_add_reclaim C x m data ;; Ret (RCode rc, x')
  | ODestroy ids => do '(rc, x') <- nf_destroy C x ids ;; Ret (RCode rc, x')
  | ORead id off len => do '(rc, bs) <- nf_read C x id off len ;; Ret (RData rc bs, x)
  | OMeta id => Ret (let '(rc, m) := nf_meta x id in RMeta rc m, x)
  | OList start => Ret (let '(rc, n, id) := nf_list x start in RList rc n id, x)
  | OAvail => Ret (let '(rc, (a, b, c, d)) := nf_avail C x in RAvail rc a b c d, x)
  end.

(** Life of a device, latest event first: memory contents and, when powered,
    the session context.  A cut is a loss of power at any point, or a write
    fault after which the device is restarted. *)
Inductive life (C : cfg) (f0 : flash) : list event -> flash -> option ctx -> Prop :=
| life_new : life C f0 [] f0 None
| life_boot evs f f' x :
    life C f0 evs f None -> exec C false (nf_init C) f (OK, x) f' ->
    life C f0 (EvBoot :: evs) f' (Some x)
| life_boot_crash evs f f' :
    life C f0 evs f None -> crash C true (nf_init C) f f' ->
    life C f0 (EvBootCut :: evs) f' None
| life_boot_fault evs f f' rx :
    life C f0 evs f None -> exec C true (nf_init C) f rx f' ->
    life C f0 (EvBootCut :: evs) f' None
| life_op evs f x o r x' f' :
    life C f0 evs f (Some x) -> op_ok o -> exec C false (op_run C x o) f (r, x') f' ->
    life C f0 (EvOp o r :: evs) f' (Some x')
| life_crash evs f x o f' :
    life C f0 evs f (Some x) -> op_ok o -> crash C true (op_run C x o) f f' ->
    life C f0 (EvCut o :: evs) f' None
| life_fault evs f x o rx f' :
    life C f0 evs f (Some x) -> op_ok o -> exec C true (op_run C x o) f rx f' ->
    life C f0 (EvCut o :: evs) f' None
| life_off evs f ox :
    life C f0 evs f ox -> life C f0 (EvOff :: evs) f None.

Definition cap_of (C : cfg) : capacity := mkCap (c_oc C) (dmax C).

Lemma units_le' b k : units b <= k <-> b <= 8 * k.
Proof. unfold units. destruct (Nat.eqb_spec (b mod 8) 0); lia. Qed.

Section Hist.
Variable C : cfg.
Hypothesis HC : cfg_ok C.
Notation K := (cap_of C).

(** Memory [f] holds the objects [s]; the partition epoch is at most [n]. *)
Definition Rep (n : N) (f : flash) (s : store) : Prop :=
  (Pre_ok C f /\ s = []) \/
  (exists a ep es, Flash_ok C f a ep es /\ live es = s /\ (ep <= n)%N).
(** The same with an open session. *)
Definition Sess (n : N) (f : flash) (x : ctx) (s : store) : Prop :=
  exists a ep es, Flash_ok C f a ep es /\ ctx_ok C x a ep es /\ live es = s /\ (ep <= n)%N.

Lemma Sess_Rep n f x s : Sess n f x s -> Rep n f s.
Proof. intros (a & ep & es & F & _ & L & E). right. exists a, ep, es. auto. Qed.
Lemma Rep_mono n n' f s : (n <= n')%N -> Rep n f s -> Rep n' f s.
Proof. intros H [P|(a & ep & es & F & L & E)]; [left; auto|right]. exists a, ep, es. split; [auto|]. split; [auto|lia]. Qed.
Lemma Sess_mono n n' f x s : (n <= n')%N -> Sess n f x s -> Sess n' f x s.
Proof. intros H (a & ep & es & F & X & L & E). exists a, ep, es. split; [auto|]. split; [auto|]. split; [auto|lia]. Qed.

Lemma data_of_dbytes data : dbytes data = data_of data.
Proof. destruct data; reflexivity. Qed.

(** ** List *)
Lemma list_count_mk es st tl : list_count (mk C [] st es ++ tl) (length es) = length (live es).
Proof.
  unfold live. revert st. induction es as [|e r IH]; intros st; cbn [mk app length list_count].
  - destruct tl; reflexivity.
  - rewrite IH. destruct (dead [] e r) eqn:D.
    + rewrite set_st_used. destruct e; cbn [livek]; rewrite ?D; reflexivity.
    + rewrite raw_used. destruct e; cbn [eused livek]; rewrite ?D; reflexivity.
Qed.

Lemma list_next_mk es st tl :
  match list_next (mk C [] st es ++ tl) (length es) with
  | None => live es = []
  | Some (id, os, k) => exists m d, m_id m = id /\ live es = (m, d) :: skipn 1 (live es)
       /\ list_count os k = length (live es) - 1
  end.
Proof.
  revert st. unfold live. induction es as [|e r IH]; intros st; cbn [mk app length list_next].
  - destruct tl; reflexivity.
  - destruct (dead [] e r) eqn:D.
    + rewrite set_st_used. destruct e; cbn [livek]; rewrite ?D; apply IH.
    + rewrite raw_used. destruct e as [eo m d|eo m|]; cbn [eused livek]; rewrite ?D; try apply IH.
      exists m, d. cbn [skipn length]. rewrite raw_id. rewrite list_count_mk. unfold live. 
      repeat split; auto; lia.
Qed.

Lemma list_spec x a ep es start : ctx_ok C x a ep es ->
  exists n id, nf_list x start = (OK, n, id) /\
    ((forall o, In o (live es) -> oid o <> 0%N) -> (n, id) = sp_list (live es) start).
Proof.
  intros (X1 & X2 & X3 & _). unfold nf_list. rewrite X2, X3.
  unfold dir_of. cbn [d_objs d_nfo].
  generalize (frees C es) as tl. intros tl.
  assert (G : forall st,
    match list_start (mk C [] st es ++ tl) (length es) start with
    | None => (if N.eqb start 0 then live es = [] else sp_after (live es) start = [])
    | Some (id, os, k) =>
       exists m d rest, m_id m = id /\ In (m, d) (live es) /\
         (if N.eqb start 0 then live es = (m, d) :: rest else id = start /\ sp_after (live es) start = rest)
         /\ list_count os k = length rest
         /\ match list_next os k with
            | None => rest = []
            | Some (id', os', k') => exists m' d', m_id m' = id' /\ rest = (m', d') :: skipn 1 rest
                    /\ list_count os' k' = length rest - 1
            end
    end).
  { clear X3. unfold live. induction es as [|e r IH]; intros st; cbn [mk app length list_start].
    - destruct tl; cbn; destruct (N.eqb start 0); reflexivity.
    - destruct (dead [] e r) eqn:D.
      + rewrite set_st_used. cbn [andb]. destruct e; cbn [livek]; rewrite ?D; apply IH; auto.
      + rewrite raw_used. destruct e as [eo m d|eo m|]; cbn [eused livek andb]; rewrite ?D; try (apply IH; auto).
        rewrite raw_id.
        destruct (N.eqb_spec start 0) as [E0|E0]; cbn [orb].
        * exists m, d, (livek [] r). split; [auto|]. split; [left; auto|]. split; [auto|].
          split; [apply list_count_mk|].
          apply list_next_mk.
        * cbn [sp_after]. unfold oid at 1 2; cbn [fst]. rewrite (N.eqb_sym (m_id m) start).
          destruct (N.eqb_spec start (m_id m)) as [E|E].
          -- exists m, d, (livek [] r). split; [auto|]. split; [left; auto|]. split; [auto|].
             split; [apply list_count_mk|]. apply list_next_mk.
          -- cbn [orb]. specialize (IH (st + esize (EUsed eo m d))).
             destruct (list_start _ (length r) start) as [[[id os] k]|]; auto.
             destruct IH as (m1 & d1 & rest & I1 & I2 & I3 & I4 & I5).
             exists m1, d1, rest. split; [auto|]. split; [right; auto|]. auto. }
  specialize (G 0).
  destruct (list_start (mk C [] 0 es ++ tl) (length es) start) as [[[id os] k]|].
  - destruct G as (m & d & rest & I1 & I2 & I3 & I4 & I5).
    unfold sp_list. destruct (N.eqb_spec start 0) as [E0|E0].
    + do 2 eexists. split; [reflexivity|]. intros NZ. rewrite I3. cbn [length].
      specialize (NZ _ I2). unfold oid in *; cbn [fst] in *.
      destruct (N.eqb_spec id 0); [congruence|]. rewrite I4, I1. f_equal.
    + destruct I3 as [-> I3]. destruct (list_next os k) as [[[id' os'] k']|].
      * do 2 eexists. split; [reflexivity|]. intros NZ. 
        destruct I5 as (m' & d' & J1 & J2 & J3). rewrite I3. destruct rest as [|o1 rest]; [discriminate|].
        injection J2 as ->. unfold oid; cbn [fst].
        destruct (N.eqb_spec start 0); [congruence|].
        rewrite J3, J1. cbn [length]. f_equal. rewrite Nat.sub_succ, Nat.sub_0_r. reflexivity.
      * do 2 eexists. split; [reflexivity|]. intros NZ. rewrite I3, I5. reflexivity.
  - do 2 eexists. split; [reflexivity|]. intros _. unfold sp_list.
    destruct (N.eqb start 0); rewrite G; reflexivity.
Qed.

(** ** One operation *)
Definition is_fail (r : nvm_res) : Prop := match r with RCode rc => rc <> OK | _ => False end.

Lemma sp_destroy_nil s : sp_destroy [] s = s.
Proof.
  unfold sp_destroy. induction s as [|o s IH]; auto.
  cbn [filter existsb negb]. exact (f_equal (cons o) IH).
Qed.

Lemma fits_live es n : length es <= c_oc C -> total es <= dmax C -> room C es n -> fits K (live es) n.
Proof.
  intros H1 H2 [R1 R2]. unfold fits, cap_of. cbn [cap_objs cap_units].
  pose proof (nbad_live [] es). pose proof (ubad_live [] es). unfold live. lia.
Qed.

Lemma room_keep es n : fits K (live es) n -> room C (keepk [] es) n.
Proof.
  intros [H1 H2]. unfold room, cap_of in *. cbn [cap_objs cap_units] in *.
  destruct (keepk_nobad [] es) as [N1 N2].
  pose proof (nbad_live [] (keepk [] es)) as A. pose proof (ubad_live [] (keepk [] es)) as B.
  change (livek [] (keepk [] es)) with (live (keepk [] es)) in A, B.
  rewrite live_keepk in A, B.
  rewrite sp_destroy_nil in A, B. lia.
Qed.

Definition op_post (fl : bool) (n : N) (s : store) (o : nvm_op) (rx : nvm_res * ctx) (g : flash) : Prop :=
  (exists s', sp_step K s o (fst rx) s' /\ Sess (n + compacts o) g (snd rx) s')
  \/ (fl = true /\ is_fail (fst rx) /\ exists s', sp_cut K s o s' /\ Rep (n + compacts o) g s').
Definition op_cut (n : N) (s : store) (o : nvm_op) (g : flash) : Prop :=
  exists s', sp_cut K s o s' /\ Rep (n + compacts o) g s'.

Lemma wp_op fl n f x s o :
  Sess n f x s -> op_ok o -> (n + compacts o < W32)%N ->
  wp C fl (op_run C x o) f (op_post fl n s o) (op_cut n s o).
Proof.
  intros S Hok Hn. pose proof S as (a & ep & es & F & X & L & E).
  assert (S1 : Sess (n + compacts o) f x s) by (eapply Sess_mono; [|exact S]; lia).
  assert (CF : op_cut n s o f) by (exists s; split; [left; auto|eapply Sess_Rep; exact S1]).
  pose proof F as (F1 & F2 & F3). pose proof F2 as (B1 & B2 & _).
  assert (E' : (ep <= n + compacts o)%N) by lia.
  (* images of an add *)
  assert (AI : forall m d a ep es g, live es = s -> (ep <= n + compacts o)%N ->
       length es <= c_oc C -> total es <= dmax C -> add_img C a ep es m d g ->
       exists s', (s' = s \/ (fits K s (length d) /\ s' = sp_add m d s)) /\ Rep (n + compacts o) g s').
  { intros m d a0 ep0 es0 g L0 E0 BL BT (es' & FG & LG).
    exists (live es'). split; [|right; exists a0, ep0, es'; auto].
    rewrite <- L0. destruct LG as [LG|[R LG]]; auto. right. split; auto. apply fits_live; auto. }
  destruct o as [m data|m data|ids|id off len|id|start|]; cbn [op_run op_ok compacts] in *.
  - destruct Hok as (M1 & M2 & M3). rewrite <- data_of_dbytes in M2, M3.
    assert (AC : forall g, add_img C a ep es m (dbytes data) g -> op_cut n s (OAdd m data) g).
    { intros g Hg. destruct (AI _ _ _ _ _ _ L E' B1 B2 Hg) as (s' & Hs & R). exists s'. split; auto.
      destruct Hs as [->|[Fi ->]]; [left; auto|right; exists (RCode OK)]. cbn [sp_step].
      rewrite <- data_of_dbytes. auto. }
    apply wp_bind. apply wp_add with (a := a) (ep := ep) (es := es); auto.
    + intros _. apply wp_ret; auto. left. exists s. split; [right; auto|exact S1].
    + intros g x' eo R FG XG. 
      assert (LV : live (es ++ [EUsed eo (with_len m (N.of_nat (length (dbytes data)))) (dbytes data)])
                   = sp_add m (dbytes data) s) by (rewrite live_snoc_used, L; reflexivity).
      assert (SS : Sess (n + 0) g x' (sp_add m (dbytes data) s)).
      { do 3 eexists. split; [exact FG|]. split; [exact XG|]. split; [exact LV|lia]. }
      assert (ST : sp_step K s (OAdd m data) (RCode OK) (sp_add m (dbytes data) s)).
      { left. rewrite <- data_of_dbytes. split; auto. rewrite <- L. apply fits_live; auto. }
      apply wp_ret.
      * left. eexists. split; [exact ST|exact SS].
      * eexists. split; [right; eexists; exact ST|eapply Sess_Rep; exact SS].
    + intros Hfl rc g Hrc Hg. apply wp_ret; auto. right. split; auto. split; [exact Hrc|]. apply AC; auto.
  - destruct Hok as (M1 & M2 & M3). rewrite <- data_of_dbytes in M2, M3.
    unfold nvm_add_reclaim.
    destruct (avail_spec C x a ep es X B1 B2) as (asz & aobj & rsz & robj & EA & A1 & A2 & A3 & A4).
    rewrite EA. change (is_ok OK) with true. cbv iota.
    assert (EL : dlen data = length (dbytes data)) by (destruct data; reflexivity). rewrite EL.
    (* the add itself, from any directory holding s *)
    assert (ADD : forall g x1 a1 ep1 es1, Flash_ok C g a1 ep1 es1 -> ctx_ok C x1 a1 ep1 es1 ->
        live es1 = s -> (ep1 <= n + 1)%N -> room C es1 (length (dbytes data)) ->
        wp C fl (do '(rc, x') <- nf_add C x1 m data ;; Ret (RCode rc, x')) g
          (op_post fl n s (OAddR m data)) (op_cut n s (OAddR m data))).
    { intros g x1 a1 ep1 es1 F1' X1' L1 E1 R1. pose proof F1' as (_ & (B1' & B2' & _) & _).
      assert (FI : fits K s (length (dbytes data))) by (rewrite <- L1; apply fits_live; auto).
      assert (ST : sp_step K s (OAddR m data) (RCode OK) (sp_add m (dbytes data) s)).
      { left. rewrite <- data_of_dbytes. auto. }
      assert (AC : forall g, add_img C a1 ep1 es1 m (dbytes data) g -> op_cut n s (OAddR m data) g).
      { intros g0 Hg. destruct (AI _ _ _ _ _ _ L1 E1 B1' B2' Hg) as (s' & Hs & R). exists s'. split; auto.
        destruct Hs as [->|[_ ->]]; [left; auto|right; exists (RCode OK)]. exact ST. }
      apply wp_bind. apply wp_add with (a := a1) (ep := ep1) (es := es1); auto.
      + intros NR; contradiction.
      + intros g0 x' eo R FG XG. 
        assert (LV : live (es1 ++ [EUsed eo (with_len m (N.of_nat (length (dbytes data)))) (dbytes data)])
                     = sp_add m (dbytes data) s) by (rewrite live_snoc_used, L1; reflexivity).
        assert (SS : Sess (n + 1) g0 x' (sp_add m (dbytes data) s)).
        { do 3 eexists. split; [exact FG|]. split; [exact XG|]. split; [exact LV|lia]. }
        apply wp_ret.
        * left. eexists. split; [exact ST|exact SS].
        * eexists. split; [right; eexists; exact ST|eapply Sess_Rep; exact SS].
      + intros Hfl rc g0 Hrc Hg. apply wp_ret; auto. right. split; auto. split; [exact Hrc|]. apply AC; auto. }
    destruct ((asz <? length (dbytes data)) || (aobj =? 0)) eqn:E1.
    + destruct ((length (dbytes data) <=? asz + rsz) && (0 <? aobj + robj)) eqn:E2.
      * assert (FI : fits K s (length (dbytes data))).
        { rewrite <- L. unfold fits, cap_of. cbn [cap_objs cap_units].
          pose proof (nbad_live [] es). pose proof (ubad_live [] es).
          change (livek [] es) with (live es) in *.
          pose proof (units_le' (length (dbytes data)) (dmax C - sp_units (live es))). lia. }
        assert (DC : forall g, destroy_img C a ep es [] g -> op_cut n s (OAddR m data) g).
        { intros g [D|D]; exists s; (split; [left; reflexivity|]); right.
          - exists a, ep, es. split; [auto|split; [auto|cbn [compacts]; lia]].
          - exists (negb a), (ep + 1)%N, (keepk [] es). split; [auto|].
            rewrite live_keepk, sp_destroy_nil. split; [auto|cbn [compacts]; lia]. }
        apply wp_bind. apply wp_bind. apply wp_destroy with (a := a) (ep := ep) (es := es); auto; try lia.
        -- congruence.
        -- intros g x' _ FG XG. change (is_ok OK) with true. cbv iota.
           match goal with |- wp _ _ ?p _ _ _ => idtac end.
           pose proof (ADD g x' _ _ _ FG XG) as AD.
           rewrite live_keepk, sp_destroy_nil in AD. specialize (AD L ltac:(lia)).
           assert (RK : room C (keepk [] es) (length (dbytes data))) by (apply room_keep; rewrite L; auto).
           specialize (AD RK). apply wp_bind_inv in AD. exact AD.
        -- intros Hfl rc x' g Hrc Hg. rewrite (not_ok_false rc) by auto.
           apply wp_ret; [apply wp_ret|]; auto. right. split; auto. split; [exact Hrc|]. apply DC; auto.
      * apply wp_bind. apply wp_bind. change (is_ok NOSPACE) with false.
        apply wp_ret; [|auto]. cbv iota. change (is_ok NOSPACE) with false. cbv iota.
        apply wp_ret; [|auto]. apply wp_ret; [|auto].
        left. exists s. split; [|exact S1]. right. rewrite <- data_of_dbytes. split; auto.
        rewrite <- L. unfold fits, cap_of. cbn [cap_objs cap_units].
        pose proof (nbad_live [] es). pose proof (ubad_live [] es).
        change (livek [] es) with (live es) in *.
        pose proof (units_le' (length (dbytes data)) (dmax C - sp_units (live es))). lia.
    + apply wp_bind. apply wp_bind. apply wp_ret; [|auto]. cbv iota. change (is_ok OK) with true. cbv iota.
      assert (R : room C es (length (dbytes data))) by (unfold room; pose proof (units_le' (length (dbytes data)) (dmax C - total es)); lia).
      pose proof (ADD f x a ep es F X L ltac:(lia) R) as AD. apply wp_bind_inv in AD. exact AD.
  - apply wp_bind.
    assert (DC : forall g, destroy_img C a ep es ids g -> op_cut n s (ODestroy ids) g).
    { intros g [D|D].
      - exists s. split; [left; auto|]. right. exists a, ep, es. split; [auto|split; [auto|cbn [compacts]; lia]].
      - exists (sp_destroy ids s). split; [right; exists (RCode OK); split; auto|].
        right. exists (negb a), (ep + 1)%N, (keepk ids es). split; [auto|].
        rewrite live_keepk, L. split; [auto|cbn [compacts]; lia]. }
    apply wp_destroy with (a := a) (ep := ep) (es := es); auto; try lia.
    + intros _ NP. apply wp_ret; auto. left. exists s. split; [|exact S1].
      split; auto. rewrite destroy_absent; auto. congruence.
    + intros g x' _ FG XG. apply wp_ret; [|apply DC; right; auto].
      left. exists (sp_destroy ids s). split; [split; auto|].
      exists (negb a), (ep + 1)%N, (keepk ids es). rewrite live_keepk, L. split; [auto|]. split; [auto|]. split; [auto|cbn [compacts]; lia].
    + intros Hfl rc x' g Hrc Hg. apply wp_ret; auto. right. split; auto. split; [exact Hrc|]. apply DC; auto.
  - apply wp_bind. apply wp_read with (a := a) (ep := ep) (es := es); auto. rewrite L.
    destruct (sp_read s id off len) as [rc bs] eqn:ER. apply wp_ret; auto.
    left. exists s. split; [|exact S1]. cbn [sp_step fst]. rewrite ER. auto.
  - apply wp_ret; auto. left. exists s. split; [|exact S1]. cbn [sp_step fst].
    rewrite (meta_spec C x a ep es id X), L. destruct (sp_find s id) as [[m0 d0]|]; auto.
  - apply wp_ret; auto. left. exists s. split; [|exact S1]. cbn [sp_step fst].
    destruct (list_spec x a ep es start X) as (c & id & EL & HL). rewrite EL. split; auto.
    exists c, id. split; auto. rewrite <- L. auto.
  - apply wp_ret; auto. left. exists s. split; [|exact S1]. cbn [sp_step fst].
    destruct (avail_spec C x a ep es X B1 B2) as (asz & aobj & rsz & robj & EA & A1 & A2 & A3 & A4).
    rewrite EA. split; auto. exists asz, aobj, rsz, robj. rewrite <- L. auto.
Qed.
End Hist.
