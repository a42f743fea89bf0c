(** Revocation and non-modifiable keys: C29, C30.  Vocabulary: KsSpec.v. *)
From Verif Require Import Base BaseLemmas NvmSpec Flags KeyId Store NvmReqModel NvmReqProof CounterModel KsModel KsCache KsReq KsEff KsStep KsSys KsSysProof KsSpec KsKeep KsResp KsGuard PropertiesKeyId PropertiesKeys PropertiesUse.
Local Open Scope N_scope.

Section Props.
Variable C : kscfg.
Variable crypt : cop -> list N -> list N -> Z * list N.
Variable pub : N -> list N -> Z * list N.
Variable ots : list N -> list N -> option (list N * list N).
Variable gcm_enc : list N -> list N -> N -> list N -> option (list N).
Variable gcm_dec : list N -> list N -> N -> list N -> option (list N).
Variable she_count : list N -> N.
Variable mx : nat.
Notation step := (sys_step C crypt pub ots gcm_enc gcm_dec she_count mx).
Notation run := (sys_run C crypt pub ots gcm_enc gcm_dec she_count mx).
Notation after := (sys_after C crypt pub ots gcm_enc gcm_dec she_count mx).
Notation ok := (reachable C crypt pub ots gcm_enc gcm_dec she_count mx).
Notation kstep := (ks_step C crypt pub ots gcm_enc gcm_dec she_count).
Notation key_of := (key_of C).
Notation cached := (cached C).
Notation key_now := (key_now C).

(** Server contexts [i] and [i'] look for key [k] in the same cache. *)
Definition shares_cache (i' i : nat) (k : N) : Prop := i' = i \/ (k_global (kc C) = true /\ kid_user k = 0).
Lemma glob_iff k : is_global C k = true <-> k_global (kc C) = true /\ kid_user k = 0.
Proof. unfold is_global. rewrite Bool.andb_true_iff, N.eqb_eq. tauto. Qed.
Lemma shares_same i' i k : shares_cache i' i k <-> same_cache C i' i k.
Proof. unfold shares_cache, same_cache. rewrite <- (glob_iff k). tauto. Qed.

(** Events of a history after which the claims are made: any requests of any
    clients, resets included, but no NVM DMA request whose object id the client
    changes while it runs (C10). *)
Definition no_race (ev : sev) : Prop := match ev with SNvm _ q => race_free q | _ => True end.

(** ** C29 *)
Lemma revoked_spec fl : is_revoked fl = true <-> has fl F_NONMODIFIABLE = true /\ has fl F_USAGE_ANY = false.
Proof. unfold is_revoked. rewrite Bool.andb_true_iff, Bool.negb_true_iff. tauto. Qed.
Lemma revoke_revoked m : is_revoked (m_flags (revoked_meta m)) = true.
Proof.
  apply revoked_spec. cbn [revoked_meta with_flags m_flags]. unfold revoke_flags. split.
  - change F_NONMODIFIABLE with (2 ^ 0). rewrite has_pow2. unfold clear, setf. rewrite N.ldiff_spec, N.lor_spec.
    change (N.testbit (2 ^ 0) 0) with true. change (N.testbit F_USAGE_ANY 0) with false. rewrite Bool.orb_true_r. reflexivity.
  - unfold has, clear. apply Bool.negb_false_iff, N.eqb_eq. apply N.bits_inj. intros n. rewrite N.land_spec, N.ldiff_spec, N.bits_0.
    destruct (N.testbit F_USAGE_ANY n); rewrite ?Bool.andb_false_r; auto.
Qed.
Lemma no_usage fl n : has fl F_USAGE_ANY = false -> 5 <= n <= 10 -> has fl (2 ^ n) = false.
Proof.
  intros H L. unfold has in H. apply Bool.negb_false_iff, N.eqb_eq in H. rewrite has_pow2.
  pose proof (f_equal (fun x => N.testbit x n) H) as X. cbv beta in X. rewrite N.land_spec, N.bits_0 in X.
  assert (B : N.testbit F_USAGE_ANY n = true).
  { assert (n = 5 \/ n = 6 \/ n = 7 \/ n = 8 \/ n = 9 \/ n = 10) as [->|[->|[->|[->|[->| ->]]]]] by lia; reflexivity. }
  rewrite B, Bool.andb_true_r in X. exact X.
Qed.
Lemma no_purpose fl p : has fl F_USAGE_ANY = false -> has fl (purpose_flag p) = false.
Proof.
  intros H. destruct p; cbn [purpose_flag];
    [apply (no_usage fl 5)|apply (no_usage fl 6)|apply (no_usage fl 7)|apply (no_usage fl 8)|apply (no_usage fl 10)]; auto; lia.
Qed.

(** All copies of key [k] are revoked, and there is one. *)
Definition all_revoked (Y : sys) (k : N) : Prop :=
  (forall m d, in_nvm Y k = Some (m, d) -> is_revoked (m_flags m) = true) /\
  (forall i s, cached Y i k = Some s -> is_revoked (m_flags (sl_meta s)) = true).
(** The key [k] is of no use to anyone: every operation that needs a usage flag,
    and every wrapping with it, is refused with an error code. *)
Definition unusable (Y : sys) (k : N) : Prop :=
  (forall i client e id o alt inp r Y', step (SKey i client e (KUse id o alt inp)) Y = (Some r, Y') ->
     key_of client id = k -> purposes o <> [] -> exists rc, rc <> OK /\ r = rrc rc) /\
  (forall i client e q kek r Y', step (SKey i client e q) Y = (Some r, Y') ->
     wraps_with q = Some kek -> key_of client kek = k -> r_rc r <> OK /\ r_data r = []).

Lemma revoked_unusable Y k : ok Y -> kid_type k = KT_CRYPTO -> all_revoked Y k -> unusable Y k.
Proof.
  intros R T [A B]. assert (NZ : k <> 0) by (intros ->; discriminate).
  assert (NOW : forall i m d, key_now Y i k = Some (m, d) -> has (m_flags m) F_USAGE_ANY = false).
  { intros i m d. unfold KsSpec.key_now. destruct (cached Y i k) as [s|] eqn:V.
    - intros E. injection E as <- <-. apply B in V. apply revoked_spec in V. tauto.
    - intros E. apply A in E. apply revoked_spec in E. tauto. }
  split.
  - intros i client e id o alt inp r Y' H KO NP.
    destruct (C28_use_needs_flags _ _ _ _ _ _ _ _ _ _ _ _ _ _ _ _ _ _ R H) as [X|(m & d & X & _ & [X1|(p & _ & X1)])]; auto; [contradiction|].
    exfalso. rewrite KO in X. apply NOW in X. rewrite (no_purpose _ p X) in X1. discriminate.
  - intros i client e q kek r Y' H WQ KO.
    assert (NX : ~ (r_rc r = OK \/ r_data r <> [])).
    { intros D. destruct (C28_kek_needs_flag _ _ _ _ _ _ _ _ _ _ _ _ _ _ _ _ R H WQ D) as [[_ X]|(m & d & X & X1)].
      - rewrite KO. auto.
      - rewrite KO, T in X. discriminate.
      - rewrite KO in X. assert (Z : has (m_flags m) F_USAGE_ANY = false).
        { destruct X as [X|X]; [eapply NOW; eauto|]. apply A in X. apply revoked_spec in X. tauto. }
        change F_USAGE_WRAP with (2 ^ 9) in X1. rewrite (no_usage _ 9 Z) in X1; [discriminate|lia]. }
    split; [intros E; apply NX; auto|]. destruct (r_data r); auto. exfalso. apply NX. right. discriminate.
Qed.

Definition Prev (m : meta) (d : list N) : Prop := is_revoked (m_flags m) = true.
Lemma Prev_nonmod m d : Prev m d -> has (m_flags m) F_NONMODIFIABLE = true.
Proof. intros H. apply revoked_spec in H. tauto. Qed.
Lemma guard_revoked Y i k : guard C Prev Y i k -> all_revoked Y k.
Proof.
  intros [(_ & A & B)|(SN & (s & V & _ & X) & OTH)].
  - split; [exact A|]. intros i' s E. rewrite cached_copy in E. exact (B i' s E).
  - split.
    + intros m d E. unfold in_nvm in E. unfold stored in SN. congruence.
    + intros i' s' E. rewrite cached_copy in E.
      assert (D : same_cache C i' i k \/ ~ same_cache C i' i k).
      { unfold same_cache. destruct (Nat.eq_dec i' i); [auto|]. destruct (is_global C k); [auto|]. right. intros [D|D]; [auto|discriminate]. }
      destruct D as [D|D]; [|rewrite (OTH _ D) in E; discriminate].
      assert (EQ : copy C Y i' k = copy C Y i k) by (destruct D as [->|GL]; auto; apply copy_global; auto).
      rewrite EQ, V in E. injection E as <-. exact X.
Qed.

Lemma revoke_guard Y i client e id r Y1 m d : ok Y -> let k := key_of client id in
  kid_type k = KT_CRYPTO -> key_now Y i k = Some (m, d) -> is_revoked (m_flags m) = false ->
  (forall i', ~ shares_cache i' i k -> cached Y i' k = None) ->
  step (SKey i client e (KRevoke id)) Y = (Some r, Y1) -> r_rc r = OK ->
  (in_nvm Y k <> None -> stored_guard C Prev Y1 k) /\
  (in_nvm Y k = None -> (exists s, cached Y i k = Some s /\ sl_comm s = false) -> cached_guard C Prev Y1 i k).
Proof.
  intros R k T KN US OTH H O. destruct (reachable_ok _ _ _ _ _ _ _ _ _ R i) as [W G].
  assert (NZ : k <> 0) by (intros E; rewrite E in T; discriminate).
  pose proof (step_effect C crypt pub ots gcm_enc gcm_dec she_count mx _ _ _ _ (reachable_ok _ _ _ _ _ _ _ _ _ R) H) as [_ K].
  destruct (K k NZ) as [_ OT]. clear K. cbn [sys_step] in H.
  destruct (ks_step _ _ _ _ _ _ _ e client (KRevoke id) (ks_of Y i)) as [r0 S1] eqn:E. injection H as <- <-. unfold ks_step in E.
  destruct (is_ok (v_lock e)) eqn:LK; cbn [negb] in E; [|exfalso; injection E as <- _; cbn [rrc r_rc] in O; apply is_ok_false in LK; contradiction].
  change (from_client (kc C) KT_CRYPTO client id) with k in E. destruct (revoke_key C (v_nvm e) (ks_of Y i) k) as [rc S2] eqn:RV. injection E as <- <-. cbn [rrc r_rc fst snd] in *.
  destruct (revoke_eff _ _ _ _ _ _ W G RV) as (_ & _ & TWO & FIN). destruct (FIN O) as (s & CU & X).
  pose proof (now_curs C Y i k s CU) as KN'. rewrite KN in KN'. injection KN' as -> ->.
  destruct X as [(_ & RVK & _)|(b & V & N1 & N2)]; [congruence|].
  assert (OTH' : forall i', ~ same_cache C i' i k -> copy C (put_ks Y i S2) i' k = None).
  { intros i' NS. assert (GL : is_global C k = false) by (destruct (is_global C k) eqn:GL; auto; destruct NS; right; auto).
    rewrite (OT GL); [rewrite <- cached_copy; apply OTH; rewrite shares_same; auto|]. intros ->. apply NS. left. auto. }
  assert (HERE : copy C (put_ks Y i S2) i k = Some (mkSlot (revoked_meta (sl_meta s)) (sl_buf s) b)) by (unfold copy; rewrite ks_put; exact V).
  split.
  - intros NV. specialize (N2 NV). split; [|split].
    + unfold stored. cbn [put_ks y_st]. rewrite N2. discriminate.
    + unfold stored. cbn [put_ks y_st]. intros m0 d0 E0. rewrite N2 in E0. injection E0 as <- <-. apply revoke_revoked.
    + intros i' s' E0. assert (D : same_cache C i' i k \/ ~ same_cache C i' i k).
      { unfold same_cache. destruct (Nat.eq_dec i' i); [auto|]. destruct (is_global C k); [auto|]. right. intros [D|D]; [auto|discriminate]. }
      destruct D as [D|D]; [|rewrite (OTH' _ D) in E0; discriminate].
      assert (EQ : copy C (put_ks Y i S2) i' k = copy C (put_ks Y i S2) i k) by (destruct D as [->|GL]; auto; apply copy_global; auto).
      rewrite EQ, HERE in E0. injection E0 as <-. apply revoke_revoked.
  - intros NV (s0 & V0 & U0). specialize (N1 NV). split; [exact N1|]. split; [|exact OTH']. eexists. split; [exact HERE|]. cbn [sl_comm sl_meta sl_buf].
    split; [|apply revoke_revoked].
    (* the commit mark is the one it had *)
    rewrite cached_copy in V0. unfold copy in V0. change (y_st Y) with (k_st (ks_of Y i)) in *.
    destruct TWO as [[_ FR]|(s1 & b1 & CU1 & _ & _ & _ & V1 & [[_ B1]|(X & _)])].
    + exfalso. destruct FR as [FR|[NU _]]; [|specialize (NU _ V0); congruence].
      rewrite V, V0 in FR. injection FR as <-. unfold curs in CU. rewrite V0 in CU. apply (f_equal (fun o => match o with Some x => m_flags (sl_meta x) | None => 0 end)) in CU.
      cbn [sl_meta] in CU. pose proof (revoke_revoked (sl_meta s)) as RR. congruence.
    + rewrite V1 in V. apply (f_equal (fun o => match o with Some x => sl_comm x | None => b end)) in V. cbn [sl_comm] in V. rewrite <- V, B1. unfold curs in CU1. rewrite V0 in CU1. injection CU1 as <-. exact U0.
    + destruct X. exact NV.
Qed.

(** A key in NVM, not yet revoked and not cached by a server context that does not share
    the cache, is revoked successfully.  Whatever happens then, in every later
    state all that is left of it has no usage flag, and it is unusable. *)
Theorem C29_stored_key_stays_revoked : forall Y i client e id r Y1 evs m d,
  ok Y -> let k := key_of client id in kid_type k = KT_CRYPTO ->
  key_now Y i k = Some (m, d) -> is_revoked (m_flags m) = false -> in_nvm Y k <> None ->
  (forall i', ~ shares_cache i' i k -> cached Y i' k = None) ->
  step (SKey i client e (KRevoke id)) Y = (Some r, Y1) -> r_rc r = OK ->
  Forall no_race evs ->
  in_nvm (after evs Y1) k <> None /\ all_revoked (after evs Y1) k /\ unusable (after evs Y1) k.
Proof.
  intros Y i client e id r Y1 evs m d R k T KN US NV OTH H O F.
  destruct (revoke_guard _ _ _ _ _ _ _ _ _ R T KN US OTH H O) as [G _]. specialize (G NV).
  pose proof (reachable_step _ _ _ _ _ _ _ _ _ _ _ _ R H) as R1.
  assert (RA : ok (after evs Y1)).
  { clear -R1. revert Y1 R1. induction evs as [|ev evs IH]; intros Y1 R1; [exact R1|]. destruct (step ev Y1) as [a Y2] eqn:E.
    rewrite (run_cons _ _ _ _ _ _ _ _ _ _ _ _ _ E). apply IH. eapply reachable_step; eauto. }
  assert (GA : stored_guard C Prev (after evs Y1) k).
  { apply (stored_run C crypt pub ots gcm_enc gcm_dec she_count mx Prev Prev_nonmod) with (signs := True); auto.
    - intros; apply revoke_revoked.
    - eapply reachable_ok; eauto.
    - eapply Forall_impl; [|exact F]. intros ev X. destruct ev; cbn [guard_event no_race] in *; auto. left. exact I. }
  assert (AR : all_revoked (after evs Y1) k) by (apply (guard_revoked _ i); left; auto).
  split; [exact (proj1 GA)|]. split; auto. apply revoked_unusable; auto.
Qed.

(** A key that is only in the cache stays revoked until the cache is cleared
    (reset or restart of the server context) or a crypto request evicts it; with
    it, other contexts are not to create keys of that owner, nor NVM requests
    to write the object. *)
Definition spares (i : nat) (k : N) (ev : sev) : Prop :=
  match ev with
  | SKey i' client e q =>
      (shares_cache i' i k -> match q with KCryptoEvict id | KSign id _ true => key_of client id <> k | _ => True end) /\
      (~ shares_cache i' i k -> forall id, put_id q = Some id -> kid_user (key_of client id) <> kid_user k)
  | SNvm _ q => race_free q /\ ~ nvm_writes q k
  | SServer i' => ~ (i' = i /\ ~ (k_global (kc C) = true /\ kid_user k = 0))
  | SReset => False
  | SCounter _ _ _ => True
  end.
Lemma spares_gentle (sg : Prop) i k ev : spares i k ev ->
  (sg \/ match ev with SKey _ client _ (KSign id _ _) => key_of client id <> k | _ => True end) -> gentle C sg i k ev.
Proof.
  destruct ev as [i' client e q|e q|client e q|i'|]; cbn [spares gentle]; auto.
  - intros [A B] SG. split; [|split].
    + unfold sign_free. destruct SG as [SG|SG]; [left; exact SG|]. right. destruct q; auto.
    + intros D. apply A. apply shares_same; auto.
    + intros D. destruct (put_id q) as [x|]; auto. intros n. specialize (B ltac:(rewrite shares_same; auto) x eq_refl).
      unfold KsSpec.key_of in B. split; intros E; apply B; [rewrite E; reflexivity|]. rewrite <- E, mk_user by apply kid_user_lt. reflexivity.
  - intros A _ [-> GL]. apply A. split; auto. intros X. apply glob_iff in X. congruence.
Qed.
Theorem C29_cached_key_stays_revoked : forall Y i client e id r Y1 evs m d,
  ok Y -> let k := key_of client id in kid_type k = KT_CRYPTO ->
  key_now Y i k = Some (m, d) -> is_revoked (m_flags m) = false ->
  in_nvm Y k = None -> (exists s, cached Y i k = Some s /\ sl_comm s = false) ->
  (forall i', ~ shares_cache i' i k -> cached Y i' k = None) ->
  step (SKey i client e (KRevoke id)) Y = (Some r, Y1) -> r_rc r = OK ->
  Forall (spares i k) evs ->
  key_now (after evs Y1) i k <> None /\ all_revoked (after evs Y1) k /\ unusable (after evs Y1) k.
Proof.
  intros Y i client e id r Y1 evs m d R k T KN US NV SC OTH H O F.
  destruct (revoke_guard _ _ _ _ _ _ _ _ _ R T KN US OTH H O) as [_ G]. specialize (G NV SC).
  pose proof (reachable_step _ _ _ _ _ _ _ _ _ _ _ _ R H) as R1.
  assert (RA : ok (after evs Y1)).
  { clear -R1. revert Y1 R1. induction evs as [|ev evs IH]; intros Y1 R1; [exact R1|]. destruct (step ev Y1) as [a Y2] eqn:E.
    rewrite (run_cons _ _ _ _ _ _ _ _ _ _ _ _ _ E). apply IH. eapply reachable_step; eauto. }
  assert (GA : guard C Prev (after evs Y1) i k).
  { apply (guard_run C crypt pub ots gcm_enc gcm_dec she_count mx Prev Prev_nonmod) with (signs := True); auto.
    - intros; apply revoke_revoked.
    - eapply reachable_ok; eauto.
    - eapply Forall_impl; [|exact F]. intros ev X. apply spares_gentle; auto.
    - right. exact G. }
  assert (AR : all_revoked (after evs Y1) k) by (apply (guard_revoked _ i); auto).
  split.
  - unfold KsSpec.key_now. rewrite cached_copy. destruct GA as [(A & _)|(_ & (s & V & _) & _)]; [|rewrite V; discriminate].
    destruct (copy C (after evs Y1) i k); [discriminate|]. exact A.
  - split; auto. apply revoked_unusable; auto.
Qed.

(** ** C30 *)
Definition Pkeep (d0 : list N) (m : meta) (d : list N) : Prop := d = d0 /\ has (m_flags m) F_NONMODIFIABLE = true.
Lemma Pkeep_revoke d0 m d : Pkeep d0 m d -> Pkeep d0 (revoked_meta m) d.
Proof. intros [A B]. split; auto. pose proof (revoke_revoked m) as X. apply revoked_spec in X. tauto. Qed.
(** Every copy of key [k] has bytes [d] and is non-modifiable. *)
Definition all_copies (Y : sys) (k : N) (d : list N) : Prop :=
  (forall m d', in_nvm Y k = Some (m, d') -> d' = d /\ has (m_flags m) F_NONMODIFIABLE = true) /\
  (forall i s, cached Y i k = Some s -> sl_buf s = d /\ has (m_flags (sl_meta s)) F_NONMODIFIABLE = true).
(** Signing with a stateful key is a change of its private state; all other
    requests are allowed. *)
Definition not_signing_with (k : N) (ev : sev) : Prop :=
  match ev with SKey _ client _ (KSign id _ _) => key_of client id <> k | _ => True end.

Theorem C30_stored_key_kept : forall Y k d evs,
  ok Y -> kid_type k = KT_CRYPTO -> in_nvm Y k <> None -> all_copies Y k d ->
  Forall no_race evs -> Forall (not_signing_with k) evs ->
  in_nvm (after evs Y) k <> None /\ all_copies (after evs Y) k d.
Proof.
  intros Y k d evs R T NV [A B] F1 F2.
  assert (G : stored_guard C (Pkeep d) (after evs Y) k).
  { apply (stored_run C crypt pub ots gcm_enc gcm_dec she_count mx (Pkeep d)) with (signs := False); auto.
    - intros m d' [_ X]. exact X.
    - apply Pkeep_revoke.
    - intros; contradiction.
    - eapply reachable_ok; eauto.
    - rewrite Forall_forall in *. intros ev IN. specialize (F1 ev IN). specialize (F2 ev IN). destruct ev as [i client e q|e q|client e q|i|]; cbn [guard_event no_race not_signing_with] in *; auto.
      right. destruct q; auto.
    - split; [exact NV|]. split; [exact A|]. intros i s E. rewrite <- cached_copy in E. apply B in E. exact E. }
  destruct G as (G1 & G2 & G3). split; [exact G1|]. split; [exact G2|]. intros i s E. rewrite cached_copy in E. apply G3 in E. exact E.
Qed.
Theorem C30_cached_key_kept : forall Y i k d evs s,
  ok Y -> kid_type k = KT_CRYPTO -> in_nvm Y k = None -> cached Y i k = Some s -> sl_comm s = false ->
  sl_buf s = d -> has (m_flags (sl_meta s)) F_NONMODIFIABLE = true ->
  (forall i', ~ shares_cache i' i k -> cached Y i' k = None) ->
  Forall (spares i k) evs -> Forall (not_signing_with k) evs ->
  exists m, key_now (after evs Y) i k = Some (m, d) /\ has (m_flags m) F_NONMODIFIABLE = true.
Proof.
  intros Y i k d evs s R T NV V U B NM OTH F1 F2.
  assert (G : guard C (Pkeep d) (after evs Y) i k).
  { apply (guard_run C crypt pub ots gcm_enc gcm_dec she_count mx (Pkeep d)) with (signs := False); auto.
    - intros m d' [_ X]. exact X.
    - apply Pkeep_revoke.
    - intros; contradiction.
    - eapply reachable_ok; eauto.
    - rewrite Forall_forall in *. intros ev IN. apply spares_gentle; auto. right. exact (F2 ev IN).
    - right. split; [exact NV|]. split; [exists s; rewrite <- cached_copy; split; [auto|]; split; [auto|]; split; auto|].
      intros i' NS. rewrite <- cached_copy. apply OTH. rewrite shares_same. auto. }
  unfold KsSpec.key_now. rewrite cached_copy. destruct G as [(G1 & G2 & G3)|(_ & (s' & V' & _ & X) & _)].
  - destruct (copy C (after evs Y) i k) as [s'|] eqn:V'.
    + destruct (G3 i s' V') as [E1 E2]. exists (sl_meta s'). rewrite E1. auto.
    + change (in_nvm (after evs Y) k) with (stored (after evs Y) k). destruct (stored (after evs Y) k) as [[m d']|] eqn:E; [|contradiction].
      destruct (G2 m d' eq_refl) as [-> E2]. eauto.
  - rewrite V'. destruct X as [X1 X2]. exists (sl_meta s'). rewrite X1. auto.
Qed.
End Props.
Print Assumptions C29_stored_key_stays_revoked.
Print Assumptions C29_cached_key_stays_revoked.
Print Assumptions C30_stored_key_kept.
Print Assumptions C30_cached_key_kept.

Module RevokeExamples.
Import KeyExamples.
Definition badnvm : kenv := mkKenv OK ABORTED OK [7; 7; 7; 7] OK [5; 6; 7; 8] OK [] 100 (mkEnv OK OK OK OK []).
(** C29: a key that encrypts is committed, revoked; evicted, re-cached, reset, used. *)
Definition pre29 := [req 0 1 (KCache 3 32 [] [1; 2; 3]); req 0 1 (KCommit 3)].
Definition post29 := [req 0 1 (KEvict 3); req 0 1 (KCache 3 32 [] [9]); SReset; req 0 1 (KUse 3 AesEncrypt 0 [8]); req 0 1 (KErase 3)].
Example ex_C29 : exists m d, let k := key_of cfg 1 3 in let Y := snd (run pre29) in
  okY Y /\ kid_type k = KT_CRYPTO /\ key_now cfg Y 0 k = Some (m, d) /\ is_revoked (m_flags m) = false /\ in_nvm Y k <> None /\
  (forall i', ~ shares_cache cfg i' 0 k -> cached cfg Y i' k = None) /\
  answer 2 (pre29 ++ [req 0 1 (KRevoke 3)]) = Some (rrc OK) /\ Forall no_race post29 /\
  answer 1 (pre29 ++ [req 0 1 (KUse 3 AesEncrypt 0 [8])]) = Some (rrc OK) /\
  answer 2 (pre29 ++ [req 0 1 (KUse 3 AesEncrypt 0 [8])]) = Some (mkKr OK 0 None [1; 2; 3; 8]) /\
  answer 6 (pre29 ++ [req 0 1 (KRevoke 3)] ++ post29) = Some (rrc USAGE).
Proof.
  do 2 eexists. split; [apply run_reachable|]. do 3 (split; [vm_compute; reflexivity|]). split; [vm_compute; discriminate|].
  split; [intros [|i'] N; [destruct N; left; reflexivity|vm_compute; reflexivity]|].
  split; [vm_compute; reflexivity|]. split; [repeat constructor|]. repeat split; vm_compute; reflexivity.
Qed.
(** The same without a commit: the key is only in the cache. *)
Definition post29c := [req 0 1 (KEvict 3); req 0 1 (KCache 3 32 [] [9]); req 0 2 (KCache 3 32 [] [9]); req 0 1 (KUse 3 AesEncrypt 0 [8])].
Example ex_C29_cached : exists m d s, let k := key_of cfg 1 3 in let Y := snd (run (firstn 1 pre29)) in
  okY Y /\ kid_type k = KT_CRYPTO /\ key_now cfg Y 0 k = Some (m, d) /\ is_revoked (m_flags m) = false /\ in_nvm Y k = None /\
  cached cfg Y 0 k = Some s /\ sl_comm s = false /\
  (forall i', ~ shares_cache cfg i' 0 k -> cached cfg Y i' k = None) /\
  answer 1 (firstn 1 pre29 ++ [req 0 1 (KRevoke 3)]) = Some (rrc OK) /\ Forall (spares cfg 0 k) post29c /\
  answer 5 (firstn 1 pre29 ++ [req 0 1 (KRevoke 3)] ++ post29c) = Some (rrc USAGE).
Proof.
  do 3 eexists. split; [apply run_reachable|]. do 6 (split; [vm_compute; reflexivity|]).
  split; [intros [|i'] N; [destruct N; left; reflexivity|vm_compute; reflexivity]|].
  split; [vm_compute; reflexivity|]. split; [|vm_compute; reflexivity].
  repeat (apply Forall_cons; [split; [exact (fun _ => I)|intros N; exfalso; apply N; left; reflexivity]|]). constructor.
Qed.

(** C29 fails when the NVM write of a first revocation fails: a second one
    reports success without writing, and after a reset the key is usable again. *)
Theorem C29_retry_after_nvm_failure_refuted : exists evs,
  evs = pre29 ++ [SKey 0 1 badnvm (KRevoke 3); req 0 1 (KRevoke 3); SReset; req 0 1 (KUse 3 AesEncrypt 0 [8])] /\
  answer 2 evs = Some (rrc ABORTED) /\ answer 3 evs = Some (rrc OK) /\ answer 5 evs = Some (mkKr OK 0 None [1; 2; 3; 8]).
Proof. eexists. repeat split; vm_compute; reflexivity. Qed.
(** It fails when another server context for the same client has the key cached. *)
Theorem C29_other_context_refuted : exists evs,
  evs = pre29 ++ [req 1 1 (KExport 3); req 0 1 (KRevoke 3); req 1 1 (KUse 3 AesEncrypt 0 [8])] /\
  answer 3 evs = Some (rrc OK) /\ answer 4 evs = Some (mkKr OK 0 None [1; 2; 3; 8]).
Proof. eexists. repeat split; vm_compute; reflexivity. Qed.
(** It fails for a key that was never committed: a crypto request that evicts
    its key removes the revoked key, and the id is free for the same bytes. *)
Theorem C29_crypto_evict_refuted : exists evs,
  evs = firstn 1 pre29 ++ [req 0 1 (KRevoke 3); req 0 1 (KEvict 3); req 0 1 (KCryptoEvict 3);
                           req 0 1 (KCache 3 32 [] [1; 2; 3]); req 0 1 (KUse 3 AesEncrypt 0 [8])] /\
  answer 1 evs = Some (rrc OK) /\ answer 2 evs = Some (rrc ACCESS) /\ answer 3 evs = Some (rrc OK) /\
  answer 5 evs = Some (mkKr OK 0 None [1; 2; 3; 8]).
Proof. eexists. repeat split; vm_compute; reflexivity. Qed.
(** It fails for stateful signature keys, whose signing looks at no flag. *)
Theorem C29_stateful_sign_refuted : exists evs s,
  evs = [SKey 0 1 UseExamples.lms_env (KSignGen 3 128 []); req 0 1 (KRevoke 3); SKey 0 1 UseExamples.lms_env (KSign 3 [9] false)] /\
  nth 1 (fst (UseExamples.lms_run evs)) None = Some (rrc OK) /\
  cached cfg (snd (UseExamples.lms_run (firstn 2 evs))) 0 (key 1 3) = Some s /\ is_revoked (m_flags (sl_meta s)) = true /\
  nth 2 (fst (UseExamples.lms_run evs)) None = Some (mkKr OK 0 None [7; 9]).
Proof. do 2 eexists. repeat split; vm_compute; reflexivity. Qed.

(** C30: a non-modifiable key, committed or not, and attempts to change it. *)
Definition pre30 := [req 0 1 (KCache 3 1 [] [1; 2; 3]); req 0 1 (KCommit 3)].
Definition post30 := [req 0 1 (KCache 3 32 [] [9]); req 0 1 (KEvict 3); req 0 1 (KErase 3); req 1 1 (KCacheRandom 3 32 4 []); req 0 1 (KRevoke 3)].
Example ex_C30 : let k := key 1 3 in let Y := snd (run pre30) in
  okY Y /\ kid_type k = KT_CRYPTO /\ in_nvm Y k <> None /\ all_copies cfg Y k [1; 2; 3] /\
  Forall no_race post30 /\ Forall (not_signing_with cfg k) post30 /\
  answer 2 (pre30 ++ post30) = Some (rrc ACCESS) /\ answer 6 (pre30 ++ post30) = Some (rrc OK).
Proof.
  split; [apply run_reachable|]. split; [vm_compute; reflexivity|]. split; [vm_compute; discriminate|].
  split; [|split; [repeat constructor|]; split; [repeat constructor|]; split; vm_compute; reflexivity].
  split; [intros m d E; vm_compute in E; injection E as <- <-; split; vm_compute; reflexivity|].
  intros [|i] s E; vm_compute in E; [injection E as <-; split; vm_compute; reflexivity|discriminate].
Qed.
Example ex_C30_cached : exists s, let k := key 1 3 in let Y := snd (run (firstn 1 pre30)) in
  okY Y /\ in_nvm Y k = None /\ cached cfg Y 0 k = Some s /\ sl_comm s = false /\ sl_buf s = [1; 2; 3] /\
  has (m_flags (sl_meta s)) F_NONMODIFIABLE = true /\ (forall i', ~ shares_cache cfg i' 0 k -> cached cfg Y i' k = None) /\
  Forall (spares cfg 0 k) post29c /\ Forall (not_signing_with cfg k) post29c.
Proof.
  eexists. split; [apply run_reachable|]. do 5 (split; [vm_compute; reflexivity|]).
  split; [intros [|i'] N; [destruct N; left; reflexivity|vm_compute; reflexivity]|].
  split; [|repeat constructor].
  repeat (apply Forall_cons; [split; [exact (fun _ => I)|intros N; exfalso; apply N; left; reflexivity]|]). constructor.
Qed.
(** C30 fails for an uncommitted key evicted by a crypto request. *)
Theorem C30_crypto_evict_refuted : exists evs,
  evs = firstn 1 pre30 ++ [req 0 1 (KCryptoEvict 3); req 0 1 (KCache 3 0 [] [9])] /\
  option_map sl_buf (cached cfg (snd (run (firstn 1 evs))) 0 (key 1 3)) = Some [1; 2; 3] /\
  option_map (fun s => m_flags (sl_meta s)) (cached cfg (snd (run (firstn 1 evs))) 0 (key 1 3)) = Some F_NONMODIFIABLE /\
  option_map sl_buf (cached cfg (snd (run evs)) 0 (key 1 3)) = Some [9].
Proof. eexists. repeat split; vm_compute; reflexivity. Qed.
(** It fails for a stored object under a key's id that was written by an NVM
    request while another value for the key was cached: the commit replaces it. *)
Theorem C30_commit_over_nonmodifiable_refuted : exists evs m,
  evs = [req 0 1 (KCache 3 0 [] [9]); SNvm (mkEnv OK OK OK OK []) (QAdd (mkMeta (key 1 3) 0 F_NONMODIFIABLE 3 []) [1; 2; 3]); req 0 1 (KCommit 3)] /\
  in_nvm (snd (run (firstn 2 evs))) (key 1 3) = Some (m, [1; 2; 3]) /\ has (m_flags m) F_NONMODIFIABLE = true /\
  answer 2 evs = Some (rrc OK) /\ option_map snd (in_nvm (snd (run evs)) (key 1 3)) = Some [9].
Proof. do 2 eexists. repeat split; vm_compute; reflexivity. Qed.
End RevokeExamples.
