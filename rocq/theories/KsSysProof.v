(** What one event changes in the key system, key by key. *)
From Verif Require Import Base BaseLemmas NvmSpec Flags KeyId Store NvmReqModel NvmReqProof CounterModel CounterProof KsModel KsCache KsReq KsEff KsStep KsSys.
Local Open Scope N_scope.

Lemma empty_wf c : wf_cache (empty_cache c).
Proof.
  unfold wf_cache, nz_ids, flat, empty_cache. cbn [c_reg c_big]. rewrite <- map_app.
  induction (c_reg c ++ c_big c) as [|x l IH]; cbn [map filter]; [constructor|exact IH].
Qed.
Lemma zero_wf r b : wf_cache (zero_cache r b).
Proof.
  unfold wf_cache, nz_ids, flat, zero_cache. cbn [c_reg c_big]. rewrite <- repeat_app.
  induction (r + b)%nat as [|n IH]; cbn [repeat map filter]; [constructor|exact IH].
Qed.
Lemma empty_find c j : j <> 0 -> cfind (empty_cache c) j = None.
Proof.
  intros NZ. rewrite cfind_flat. unfold flat, empty_cache. cbn [c_reg c_big]. rewrite <- map_app.
  induction (c_reg c ++ c_big c) as [|x l IH]; cbn [map find]; auto.
  unfold is_id at 1. change (sl_id slot_zero) with 0. destruct (N.eqb_spec 0 j); congruence.
Qed.
Lemma zero_find r b j : j <> 0 -> cfind (zero_cache r b) j = None.
Proof.
  intros NZ. rewrite cfind_flat. unfold flat, zero_cache. cbn [c_reg c_big]. rewrite <- repeat_app.
  induction (r + b)%nat as [|n IH]; cbn [repeat find]; auto.
  unfold is_id at 1. change (sl_id slot_zero) with 0. destruct (N.eqb_spec 0 j); congruence.
Qed.

(** ** NVM and counter requests *)
Inductive st_step (named : N -> Prop) (s : store) : store -> Prop :=
| st_same : st_step named s s
| st_add m d : named (m_id m) -> st_step named s (sp_add m d s)
| st_del ids : (forall i, In i ids -> named i) -> st_step named s (sp_destroy ids s).
Definition nvm_names (q : nvm_request) (j : N) : Prop :=
  match q with
  | QAdd m _ => m_id m = j
  | QAddDma _ m2 _ _ => m_id m2 = j
  | QDestroy count ids => In j (firstn count ids)
  | _ => False
  end.
Lemma add_checked_st (named : N -> Prop) r m1 m2 d s : named (m_id m2) -> st_step named s (snd (add_checked r m1 m2 d s)).
Proof.
  intros H. unfold add_checked, nv_add. destruct (fatal _); [apply st_same|]. destruct (is_ok r); [|apply st_same].
  cbn [snd]. apply st_add. exact H.
Qed.
Lemma nvm_handle_st mx st e q s : st_step (nvm_names q) s (snd (nvm_handle mx st e q s)).
Proof.
  destruct q; cbn [nvm_handle]; try apply st_same.
  - destruct (is_ok _); apply st_same.
  - destruct (is_ok _); [destruct (nv_list s start)|]; apply st_same.
  - destruct (is_ok _); [destruct (nv_meta s id)|]; apply st_same.
  - destruct (N.eqb _ _); [|apply st_same]. destruct (st && _); [apply st_same|]. destruct (is_ok _); [|apply st_same].
    pose proof (add_checked_st (nvm_names (QAdd m data)) (e_nvm e) m m data s eq_refl) as X.
    destruct (add_checked _ _ _ _ _) as [rc s']. exact X.
  - destruct (count <=? 19)%nat; [|apply st_same]. destruct (is_ok _); [|apply st_same].
    destruct (destroy_checked _ _ s) as [rc s'] eqn:E. cbn [snd]. revert E. unfold destroy_checked, nv_destroy.
    destruct (is_ok (destroy_policy s _)); [|intros E; injection E as _ <-; apply st_same].
    destruct (is_ok (e_nvm e)); intros E; injection E as _ <-; [|apply st_same]. apply st_del. auto.
  - destruct (is_ok _); [destruct (handle_read mx s id off len)|]; apply st_same.
  - destruct (negb _); [apply st_same|]. destruct (negb _); [apply st_same|]. destruct (st && _); [apply st_same|].
    destruct (is_ok _); [|apply st_same].
    pose proof (add_checked_st (nvm_names (QAddDma m1 m2 d1 d2)) (e_nvm e) m1 m2 d2 s eq_refl) as X.
    destruct (add_checked _ _ _ _ _) as [rc s']. exact X.
  - destruct (is_ok _); [|apply st_same]. destruct (nv_meta s id) as [rc m]. destruct (negb _); [apply st_same|].
    destruct (_ <=? _)%nat; [apply st_same|]. destruct (negb _); [apply st_same|].
    destruct (read_checked s id off _); apply st_same.
Qed.
Lemma counter_type client id : kid_type (counter_id client id) = KT_COUNTER.
Proof. apply mk_type. reflexivity. Qed.
Lemma counter_handle_st e client q s :
  st_step (fun j => kid_type j = KT_COUNTER) s (snd (counter_handle e client q s)).
Proof.
  assert (AD : forall r m d, kid_type (m_id m) = KT_COUNTER -> st_step (fun j => kid_type j = KT_COUNTER) s (snd (nv_add r m d s))).
  { intros r m d H. unfold nv_add. destruct (is_ok r); [|apply st_same]. apply st_add. exact H. }
  destruct q; cbn [counter_handle]; try apply st_same.
  - destruct (negb _); [apply st_same|]. pose proof (AD (ce_nvm e) (set_counter (with_id meta_zero (counter_id client id)) v) [] (counter_type _ _)) as X.
    destruct (nv_add _ _ _ _). exact X.
  - destruct (negb _); [apply st_same|]. rewrite nv_meta_find. destruct (sp_find s (counter_id client id)) as [[m d]|] eqn:F.
    2:{ apply st_same. }
    change (is_ok OK) with true. cbn [negb fst]. destruct (_ =? 0); [apply st_same|].
    apply find_id in F. cbn [fst] in F. pose proof (AD (ce_nvm e) (set_counter m ((get_counter m + 1) mod 4294967296)) []) as X.
    destruct (nv_add _ _ _ _) as [rc s']. apply X. cbn [set_counter m_id]. rewrite F. apply counter_type.
  - destruct (negb _); [apply st_same|]. rewrite nv_meta_find. destruct (sp_find s (counter_id client id)) as [[m d]|]; apply st_same.
  - destruct (negb _); [apply st_same|]. unfold nv_destroy. destruct (is_ok (ce_nvm e)); [|apply st_same]. cbn [snd].
    apply st_del. intros i [<-|[]]. apply counter_type.
Qed.
Lemma st_good (named : N -> Prop) s s' : st_step named s s' -> good_store s -> good_store s'.
Proof.
  intros [|m d H|ids H] G; auto.
  - intros id m' d' NZ. rewrite find_add. destruct (N.eqb id (m_id m)); [|apply G; auto].
    intros E; injection E as <- <-. reflexivity.
  - intros id m' d' NZ. rewrite find_destroy. destruct (existsb _ _); [discriminate|apply G; auto].
Qed.
Lemma st_find (named : N -> Prop) s s' j : st_step named s s' -> ~ named j -> sp_find s' j = sp_find s j.
Proof.
  intros [|m d H|ids H] NN; auto.
  - rewrite find_add. destruct (N.eqb_spec j (m_id m)); [subst; contradiction|auto].
  - rewrite find_destroy. destruct (existsb (N.eqb j) ids) eqn:E; auto. apply existsb_exists in E as (i & I & E).
    apply N.eqb_eq in E; subst i. destruct (NN (H _ I)).
Qed.

Section Sys.
Variable C : kscfg.
Variable crypt : cop -> list N -> list N -> Z * list N.
Variable pub : N -> list N -> Z * list N.
Variable ots : list N -> list N -> option (list N * list N).
Variable gcm_enc : list N -> list N -> N -> list N -> option (list N).
Variable gcm_dec : list N -> list N -> N -> list N -> option (list N).
Variable she_count : list N -> N.
Variable mx : nat.
Notation step := (sys_step C crypt pub ots gcm_enc gcm_dec she_count mx).
Notation run := (sys_run C crypt pub ots gcm_enc gcm_dec she_count mx).
Notation after := (sys_after C crypt pub ots gcm_enc gcm_dec she_count mx).
Notation kcell := (cell C ots).
Notation fc := (from_client (kc C) KT_CRYPTO).

(** The copy of key [j] that server context [i] sees in a cache. *)
Definition copy (Y : sys) (i : nat) (j : N) : option slot := find_cache C (ks_of Y i) j.
Definition stored (Y : sys) (j : N) : option object := sp_find (y_st Y) j.
(** No key is in a cache twice; recorded lengths are right. *)
Definition sys_ok (Y : sys) : Prop := forall i, wf (ks_of Y i) /\ good C (ks_of Y i).

Lemma ks_put Y i S : ks_of (put_ks Y i S) i = S.
Proof. unfold ks_of, put_ks. cbn [y_st y_glob y_loc]. rewrite Nat.eqb_refl. destruct S; reflexivity. Qed.
Lemma copy_put Y i S i' j : copy (put_ks Y i S) i' j =
  if Nat.eqb i' i || is_global C j then find_cache C S j else copy Y i' j.
Proof.
  unfold copy, find_cache, get_ctx, ks_of, put_ks. cbn [k_glob k_loc y_glob y_loc].
  destruct (is_global C j); rewrite ?Bool.orb_true_r, ?Bool.orb_false_r; auto. destruct (Nat.eqb i' i); reflexivity.
Qed.
Lemma copy_global Y i i' j : is_global C j = true -> copy Y i j = copy Y i' j.
Proof. intros H. unfold copy, find_cache, get_ctx. rewrite H. reflexivity. Qed.

Lemma good_glob Y i S : sys_ok Y -> wf S -> good C S -> sys_ok (put_ks Y i S).
Proof.
  intros O W G i'. destruct (Nat.eqb_spec i' i) as [->|NE]; [rewrite ks_put; auto|].
  destruct (O i') as [[W1 W2] [G1 G2]]. split.
  - split; cbn [ks_of put_ks k_glob k_loc y_glob y_loc]; [apply W|]. apply Nat.eqb_neq in NE. rewrite NE. exact W2.
  - split; [exact (proj1 G)|]. intros j s NJ V. change (copy (put_ks Y i S) i' j = Some s) in V. rewrite copy_put in V.
    apply Nat.eqb_neq in NE. rewrite NE in V. cbn [orb] in V. destruct (is_global C j); [apply (proj2 G j); auto|apply (G2 j); auto].
Qed.

(** The effect of an event on one key. *)
Theorem step_effect ev Y r Y' : sys_ok Y -> step ev Y = (r, Y') ->
  sys_ok Y' /\ forall j, j <> 0 ->
  match ev with
  | SKey i client e q =>
      kcell client j (stored Y j) (copy Y i j) q (stored Y' j) (copy Y' i j) /\
      (is_global C j = false -> forall i', i' <> i -> copy Y' i' j = copy Y i' j)
  | SNvm e q => st_step (nvm_names q) (y_st Y) (y_st Y') /\ forall i, copy Y' i j = copy Y i j
  | SCounter _ _ _ => st_step (fun j => kid_type j = KT_COUNTER) (y_st Y) (y_st Y') /\ forall i, copy Y' i j = copy Y i j
  | SServer x => stored Y' j = stored Y j /\ forall i,
      copy Y' i j = if Nat.eqb i x && negb (is_global C j) then None else copy Y i j
  | SReset => stored Y' j = stored Y j /\ forall i, copy Y' i j = None
  end.
Proof.
  intros O H. destruct ev as [i client e q|e q|client e q|x|]; cbn [sys_step] in H.
  - destruct (ks_step _ _ _ _ _ _ _ e client q (ks_of Y i)) as [r0 S] eqn:E. injection H as <- <-.
    destruct (O i) as [W G]. destruct (step_cells _ _ _ _ _ _ _ _ _ _ _ _ _ W G E) as [[W' K] G'].
    split; [apply good_glob; auto|]. intros j NJ. split.
    + unfold copy, stored. rewrite ks_put. change (y_st (put_ks Y i S)) with (k_st S). exact (K j NJ).
    + intros GL i' NE. rewrite copy_put, GL. apply Nat.eqb_neq in NE. rewrite NE. reflexivity.
  - injection H as <- <-. pose proof (nvm_handle_st mx (have_st C) e q (y_st Y)) as X.
    split.
    + intros i. destruct (O i) as [W [G1 G2]]. split; [exact W|]. split; [|exact G2]. cbn [ks_of k_st y_st]. eapply st_good; eauto.
    + intros j NJ. split; [exact X|reflexivity].
  - injection H as <- <-. pose proof (counter_handle_st e client q (y_st Y)) as X.
    split.
    + intros i. destruct (O i) as [W [G1 G2]]. split; [exact W|]. split; [|exact G2]. cbn [ks_of k_st y_st]. eapply st_good; eauto.
    + intros j NJ. split; [exact X|reflexivity].
  - injection H as <- <-.
    assert (CP : forall i j, j <> 0 -> copy (mkSys (y_st Y) (y_glob Y) (fun x0 => if Nat.eqb x0 x then empty_cache (y_loc Y x0) else y_loc Y x0)) i j =
       if Nat.eqb i x && negb (is_global C j) then None else copy Y i j).
    { intros i j NJ. unfold copy, find_cache, get_ctx, ks_of. cbn [k_glob k_loc y_glob y_loc].
      destruct (is_global C j); rewrite ?Bool.andb_false_r, ?Bool.andb_true_r; auto. destruct (Nat.eqb i x); auto. apply empty_find; auto. }
    split.
    + intros i. destruct (O i) as [[W1 W2] [G1 G2]]. split; [|split].
      * split; [exact W1|]. cbn [ks_of k_loc y_loc]. destruct (Nat.eqb i x); [apply empty_wf|exact W2].
      * exact G1.
      * intros j s NJ V. change (copy (mkSys (y_st Y) (y_glob Y) (fun x0 => if Nat.eqb x0 x then empty_cache (y_loc Y x0) else y_loc Y x0)) i j = Some s) in V. rewrite CP in V by auto.
        destruct (Nat.eqb i x && negb (is_global C j)); [discriminate|]. apply (G2 j); auto.
    + intros j NJ. split; [reflexivity|]. intros i. apply CP; auto.
  - injection H as <- <-.
    assert (CP : forall i j, j <> 0 -> copy (mkSys (y_st Y) (empty_cache (y_glob Y)) (fun x0 => empty_cache (y_loc Y x0))) i j = None).
    { intros i j NJ. unfold copy, find_cache, get_ctx, ks_of. cbn [k_glob k_loc y_glob y_loc].
      destruct (is_global C j); apply empty_find; auto. }
    split.
    + intros i. destruct (O i) as [_ [G1 G2]]. split; [split; apply empty_wf|]. split; [exact G1|].
      intros j s NJ V. change (copy (mkSys (y_st Y) (empty_cache (y_glob Y)) (fun x0 => empty_cache (y_loc Y x0))) i j = Some s) in V.
      rewrite CP in V by auto. discriminate.
    + intros j NJ. split; [reflexivity|]. intros i. apply CP; auto.
Qed.

Lemma run_inv (P : sys -> Prop) (E : sev -> Prop) :
  (forall ev Y r Y', E ev -> sys_ok Y -> P Y -> step ev Y = (r, Y') -> P Y') ->
  forall evs Y rs Y', Forall E evs -> sys_ok Y -> P Y -> run evs Y = (rs, Y') -> sys_ok Y' /\ P Y'.
Proof.
  intros HP. induction evs as [|ev evs IH]; intros Y rs Y' F O H R; cbn [sys_run] in R.
  { injection R as <- <-. auto. }
  inversion F as [|? ? F1 F2]; subst. destruct (step ev Y) as [a Y1] eqn:E1. destruct (run evs Y1) as [rs2 Y2] eqn:E2.
  injection R as <- <-. destruct (step_effect _ _ _ _ O E1) as [O1 _]. eapply IH; eauto.
Qed.
Lemma run_ok evs Y rs Y' : sys_ok Y -> run evs Y = (rs, Y') -> sys_ok Y'.
Proof.
  intros O H. apply (run_inv (fun _ => True) (fun _ => True)) with (evs := evs) (Y := Y) (rs := rs); auto.
  apply Forall_forall. auto.
Qed.
Lemma fresh_ok st r b : good_store st -> sys_ok (fresh_sys st r b).
Proof.
  intros G i. split; [split; apply zero_wf|]. split; [exact G|]. intros j s NJ V.
  unfold find_cache, get_ctx, ks_of, fresh_sys in V. cbn [k_glob k_loc y_glob y_loc] in V.
  destruct (is_global C j); rewrite zero_find in V by auto; discriminate.
Qed.
End Sys.
