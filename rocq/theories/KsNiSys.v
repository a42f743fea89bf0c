(** Two histories of the key system that differ only in the bytes of some keys. *)
From Verif Require Import Base BaseLemmas NvmSpec Flags KeyId Store NvmReqModel NvmReqProof CounterModel KsModel KsCache KsReq KsEff KsStep KsSys KsSysProof KsNi KsNiReq.
Local Open Scope N_scope.

Section NiSys.
Variable C : kscfg.
Variable crypt : cop -> list N -> list N -> Z * list N.
Variable pub : N -> list N -> Z * list N.
Variable ots : list N -> list N -> option (list N * list N).
Variable gcm_enc : list N -> list N -> N -> list N -> option (list N).
Variable gcm_dec : list N -> list N -> N -> list N -> option (list N).
Variable she_count : list N -> N.
Variable mx : nat.
Variable sec : meta -> bool.
Hypothesis sec_len : forall m n, sec (with_len m n) = sec m.
Hypothesis sec_rev : forall m, sec (with_flags m (revoke_flags (m_flags m))) = sec m.
Hypothesis sec_zero : sec meta_zero = false.
Notation step := (sys_step C crypt pub ots gcm_enc gcm_dec she_count mx).
Notation run := (sys_run C crypt pub ots gcm_enc gcm_dec she_count mx).
Notation orel := (orel sec).
Notation crel := (crel sec).

Definition yrel (Y Z : sys) : Prop :=
  Forall2 orel (y_st Y) (y_st Z) /\ crel (y_glob Y) (y_glob Z) /\ forall i, crel (y_loc Y i) (y_loc Z i).
(** Requests that work with no key bytes that may differ. *)
Definition fine (ev : sev) : Prop :=
  match ev with
  | SKey i client e q => (forall k, touched C client q k -> plain sec k) /\ (forall k, handed C client q k -> closed sec k)
  | _ => True
  end.

Lemma nvm_add_rel r m d s1 s2 : Forall2 orel s1 s2 ->
  fst (nv_add r m d s1) = fst (nv_add r m d s2) /\ Forall2 orel (snd (nv_add r m d s1)) (snd (nv_add r m d s2)).
Proof. intros H. apply (nvadd_rel sec sec_len); auto. apply alike_refl. Qed.
Lemma del_rel r ids s1 s2 : Forall2 orel s1 s2 ->
  fst (nv_destroy r ids s1) = fst (nv_destroy r ids s2) /\ Forall2 orel (snd (nv_destroy r ids s1)) (snd (nv_destroy r ids s2)).
Proof. intros H. unfold nv_destroy. destruct (is_ok r); split; auto. cbn [snd]. apply odestroy_rel; auto. Qed.
Lemma addc_rel r m1 m2 d s1 s2 : Forall2 orel s1 s2 ->
  Forall2 orel (snd (add_checked r m1 m2 d s1)) (snd (add_checked r m1 m2 d s2)).
Proof.
  intros H. unfold add_checked. rewrite (policy_rel sec NvAdd s1 s2 (m_id m1) H). destruct (fatal _); auto. apply nvm_add_rel; auto.
Qed.
Lemma delc_rel r ids s1 s2 : Forall2 orel s1 s2 -> Forall2 orel (snd (destroy_checked r ids s1)) (snd (destroy_checked r ids s2)).
Proof.
  intros H. unfold destroy_checked. rewrite (destroy_policy_rel sec s1 s2 ids H). destruct (is_ok _); auto. apply del_rel; auto.
Qed.
Lemma handle_rel st e q s1 s2 : Forall2 orel s1 s2 ->
  Forall2 orel (snd (nvm_handle mx st e q s1)) (snd (nvm_handle mx st e q s2)).
Proof.
  intros H.
  assert (K : forall (f : store -> nvm_resp * store), (forall s, snd (f s) = s) -> Forall2 orel (snd (f s1)) (snd (f s2))).
  { intros f E. rewrite !E. exact H. }
  destruct q; try (cbn [nvm_handle]; exact H).
  - apply (K (nvm_handle mx st e QAvail)). intros s. cbn [nvm_handle]. destruct (is_ok _); auto.
  - apply (K (nvm_handle mx st e (QList start))). intros s. cbn [nvm_handle]. destruct (is_ok _); auto. destruct (nv_list s start); auto.
  - apply (K (nvm_handle mx st e (QMeta id))). intros s. cbn [nvm_handle]. destruct (is_ok _); auto. destruct (nv_meta s id); auto.
  - cbn [nvm_handle]. destruct (N.eqb _ _); auto. destruct (st && _); auto. destruct (is_ok _); auto.
    pose proof (addc_rel (e_nvm e) m m data s1 s2 H) as X. destruct (add_checked _ _ _ _ s1), (add_checked _ _ _ _ s2). exact X.
  - cbn [nvm_handle]. destruct (_ <=? _)%nat; auto. destruct (is_ok _); auto.
    pose proof (delc_rel (e_nvm e) (firstn count ids) s1 s2 H) as X. destruct (destroy_checked _ _ s1), (destroy_checked _ _ s2). exact X.
  - apply (K (nvm_handle mx st e (QRead id off len))). intros s. cbn [nvm_handle]. destruct (is_ok _); auto. destruct (handle_read mx s id off len); auto.
  - cbn [nvm_handle]. destruct (negb _); auto. destruct (negb _); auto. destruct (st && _); auto. destruct (is_ok _); auto.
    pose proof (addc_rel (e_nvm e) m1 m2 d2 s1 s2 H) as X. destruct (add_checked _ _ _ _ s1), (add_checked _ _ _ _ s2). exact X.
  - apply (K (nvm_handle mx st e (QReadDma id off len))). intros s. cbn [nvm_handle]. destruct (is_ok _); auto. destruct (nv_meta s id). destruct (negb _); auto.
    destruct (_ <=? _)%nat; auto. destruct (negb _); auto. destruct (read_checked s id off _); auto.
Qed.
Lemma counter_rel e client q s1 s2 : Forall2 orel s1 s2 ->
  Forall2 orel (snd (counter_handle e client q s1)) (snd (counter_handle e client q s2)).
Proof.
  intros H. destruct q; cbn [counter_handle]; auto.
  - destruct (negb _); auto. match goal with |- context [nv_add ?r ?m ?d s1] => destruct (nvm_add_rel r m d s1 s2 H) as [_ X]; destruct (nv_add r m d s1), (nv_add r m d s2) end. exact X.
  - destruct (negb _); auto. rewrite (nvmeta_rel sec s1 s2 (counter_id client id) H). destruct (nv_meta s2 _) as [rc m]. destruct (negb _); auto.
    destruct (_ =? 0); auto. match goal with |- context [nv_add ?r ?m ?d s1] => destruct (nvm_add_rel r m d s1 s2 H) as [_ X]; destruct (nv_add r m d s1), (nv_add r m d s2) end. exact X.
  - destruct (negb _); auto. rewrite (nvmeta_rel sec s1 s2 (counter_id client id) H). destruct (nv_meta s2 _) as [rc m]. auto.
  - destruct (negb _); auto. destruct (del_rel (ce_nvm e) [counter_id client id] s1 s2 H) as [_ X].
    destruct (nv_destroy _ _ s1), (nv_destroy _ _ s2). exact X.
Qed.
Lemma empty_rel c1 c2 : crel c1 c2 -> crel (empty_cache c1) (empty_cache c2).
Proof.
  assert (M : forall l1 l2, Forall2 (lrel sec) l1 l2 -> Forall2 (lrel sec) (map (fun _ => slot_zero) l1) (map (fun _ => slot_zero) l2)).
  { intros l1 l2 H. induction H; cbn [map]; constructor; auto. apply lrel_refl. }
  intros [A B]. split; cbn [empty_cache c_reg c_big]; apply M; auto.
Qed.

Lemma ystep_rel ev Y Z : sys_ok C Y -> yrel Y Z -> fine ev ->
  fst (step ev Y) = fst (step ev Z) /\ yrel (snd (step ev Y)) (snd (step ev Z)).
Proof.
  intros O (A & B & D) F. destruct ev; cbn [sys_step fine] in *.
  - destruct F as [F1 F2]. destruct (O i) as [W G].
    pose proof (step_rel C crypt pub ots gcm_enc gcm_dec she_count sec sec_len sec_rev sec_zero e client q (ks_of Y i) (ks_of Z i) W G
      (conj A (conj B (D i))) F1 F2) as [E K].
    destruct (ks_step C crypt pub ots gcm_enc gcm_dec she_count e client q (ks_of Y i)) as [r1 X1],
      (ks_step C crypt pub ots gcm_enc gcm_dec she_count e client q (ks_of Z i)) as [r2 X2]. cbn [fst snd] in E, K |- *.
    split; [congruence|]. destruct K as (K1 & K2 & K3). split; [auto|]. split; [auto|]. intros x. cbn [put_ks y_loc]. destruct (Nat.eqb x i); auto.
  - split; auto. cbn [snd]. split; [|split; auto]. cbn [y_st]. apply handle_rel; auto.
  - split; auto. cbn [snd]. split; [|split; auto]. cbn [y_st]. apply counter_rel; auto.
  - split; auto. cbn [snd]. split; [auto|split; auto]. intros x. cbn [y_loc]. destruct (Nat.eqb x i); auto. apply empty_rel; auto.
  - split; auto. cbn [snd]. split; [auto|split]. { apply empty_rel; auto. } intros x. cbn [y_loc]. apply empty_rel; auto.
Qed.
Theorem run_rel evs : forall Y Z, sys_ok C Y -> yrel Y Z -> Forall fine evs -> fst (run evs Y) = fst (run evs Z).
Proof.
  induction evs as [|ev evs IH]; intros Y Z O R F; [reflexivity|]. inversion F as [|x y F1 F2]; subst. cbn [sys_run].
  destruct (ystep_rel ev Y Z O R F1) as [E K]. destruct (step ev Y) as [a Y1] eqn:S1, (step ev Z) as [b Z1]. cbn [fst snd] in E, K. subst b.
  destruct (step_effect C crypt pub ots gcm_enc gcm_dec she_count mx ev Y a Y1 O S1) as [O1 _].
  specialize (IH Y1 Z1 O1 K F2). destruct (run evs Y1), (run evs Z1). cbn [fst] in *. congruence.
Qed.
End NiSys.
