(** A request loads copies into the cache only of keys of its own client or of
    no client. *)
From Verif Require Import Base BaseLemmas NvmSpec Flags KeyId Store NvmReqModel KsModel KsCache KsReq KsEff KsStep PropertiesKeyId.
Local Open Scope N_scope.

Section Only.
Variable C : kscfg.
Variable crypt : cop -> list N -> list N -> Z * list N.
Variable pub : N -> list N -> Z * list N.
Variable ots : list N -> list N -> option (list N * list N).
Variable gcm_enc : list N -> list N -> N -> list N -> option (list N).
Variable gcm_dec : list N -> list N -> N -> list N -> option (list N).
Variable she_count : list N -> N.
Notation vw := (find_cache C).
Notation fc := (from_client (kc C) KT_CRYPTO).

Definition dr (S S' : ks) (j : N) : Prop := vw S' j = vw S j \/ vw S' j = None.
Lemma dr_refl S j : dr S S j. Proof. left; auto. Qed.
Lemma dr_trans S1 S2 S3 j : dr S1 S2 j -> dr S2 S3 j -> dr S1 S3 j.
Proof. intros [A|A] [B|B]; unfold dr; rewrite B; auto. Qed.
Lemma dropped_dr S S' j : vw S' j = vw S j \/ dropped (vw S j) (vw S' j) -> dr S S' j.
Proof. intros [A|[A _]]; [left|right]; auto. Qed.

Lemma freshen_only S id rc S' j : wf S -> freshen C S id = (rc, S') -> j <> 0 -> j <> id -> dr S S' j.
Proof.
  intros W. unfold freshen. destruct (kid_unassigned id) eqn:U; [intros H; injection H as _ <-; intros; apply dr_refl|].
  destruct (hwkey C id); [intros H; injection H as _ <-; intros; apply dr_refl|]. destruct (vw S id); [intros H; injection H as _ <-; intros; apply dr_refl|].
  destruct (kid_wrapped id); [intros H; injection H as _ <-; intros; apply dr_refl|].
  destruct (nv_meta (k_st S) id) as [rc0 m] eqn:NM. destruct (is_ok rc0) eqn:O0; cbn [negb]; [|intros H; injection H as _ <-; intros; apply dr_refl].
  destruct (sp_read _ _ _ _) as [rr d]. pose proof (assigned_nz _ U) as NZ.
  set (s := if is_ok rr then mkSlot m d false else slot_zero).
  assert (MI : m_id m = id).
  { unfold nv_meta in NM. destruct (sp_find (k_st S) id) as [[m1 d1]|] eqn:F; injection NM as <- <-; [|discriminate]. apply find_id in F. exact F. }
  assert (IDS : sl_id s = id \/ sl_id s = 0) by (unfold s; destruct (is_ok rr); auto).
  destruct (cache_slot C S id (m_len m) s) as [rc1 S1] eqn:CS. destruct (cache_slot_eff _ _ _ _ _ _ _ W NZ IDS CS) as (W1 & _ & _ & _ & O1).
  intros H NJ NE. assert (D : dr S S1 j) by (apply dropped_dr; auto). revert H.
  destruct (negb (is_ok rc1)); [intros H; injection H as _ <-; auto|]. destruct (negb (is_ok rr)); intros H; injection H as _ <-; auto.
  apply (dr_trans _ S1); auto. left. destruct (mark_eff C S1 id true W1 NZ) as (_ & _ & _ & F). apply F; auto.
Qed.
Lemma read_only S id cap rc S' m d j : wf S -> read_key C S id cap = (rc, S', m, d) -> j <> 0 -> j <> id -> dr S S' j.
Proof.
  intros W. unfold read_key. destruct (kid_unassigned id) eqn:U; [intros H; injection H as _ <- _ _; intros; apply dr_refl|].
  destruct (hwkey C id); [intros H; injection H as _ <- _ _; intros; apply dr_refl|]. destruct (vw S id); [destruct (_ <? _); intros H; injection H as _ <- _ _; intros; apply dr_refl|].
  destruct (kid_wrapped id); [intros H; injection H as _ <- _ _; intros; apply dr_refl|].
  destruct (sp_find (k_st S) id) as [[m1 d1]|] eqn:F.
  2:{ destruct (_ && _ && _); intros H; injection H as _ <- _ _; intros; apply dr_refl. }
  destruct (_ <? _); [intros H; injection H as _ <- _ _; intros; apply dr_refl|]. destruct (sp_read _ _ _ _) as [rr d2].
  destruct (negb _); [intros H; injection H as _ <- _ _; intros; apply dr_refl|]. destruct (_ && _); [intros H; injection H as _ <- _ _; intros; apply dr_refl|].
  apply find_id in F. cbn [fst] in F. destruct (cache_key C false S m1 d2) as [rc1 S1] eqn:CK.
  destruct (cache_key_eff _ _ _ _ _ _ _ W CK) as [(W1 & _ & _ & _ & O1) _]. intros H; injection H as _ <- _ _. intros NJ NE.
  assert (D : dr S S1 j) by (apply dropped_dr; apply O1; auto; congruence). destruct (is_ok rc1); auto.
  apply (dr_trans _ S1); auto. left. destruct (mark_eff C S1 id true W1 (assigned_nz _ U)) as (_ & _ & _ & X). apply X; auto.
Qed.
Lemma read_checked_only S id cap rc S' m d j : wf S -> read_key_checked C S id cap = (rc, S', m, d) -> j <> 0 -> j <> id -> dr S S' j.
Proof.
  intros W. unfold read_key_checked. destruct (is_ok _); [apply read_only; auto|]. intros H; injection H as _ <- _ _. intros; apply dr_refl.
Qed.
Lemma kek_only tr e S id rc S' kb j : wf S -> resolve_kek C tr e S id = (rc, S', kb) -> j <> 0 -> j <> id -> dr S S' j.
Proof.
  intros W. unfold resolve_kek. destruct (hwkey C id); [intros H; injection H as _ <- _; intros; apply dr_refl|].
  destruct (freshen C S id) as [rc1 S1] eqn:F. intros H NJ NE. pose proof (freshen_only _ _ _ _ j W F NJ NE) as D. revert H.
  destruct (negb _); [intros H; injection H as _ <- _; auto|]. destruct (vw S1 id); [|intros H; injection H as _ <- _; auto].
  cbv zeta. destruct (negb _); [intros H; injection H as _ <- _; auto|]. destruct (_ && _); intros H; injection H as _ <- _; auto.
Qed.
Lemma revoke_only r S id rc S' j : wf S -> good C S -> revoke_key C r S id = (rc, S') -> j <> 0 -> j <> id -> dr S S' j.
Proof.
  intros W G. unfold revoke_key. destruct (kid_unassigned id) eqn:U; [intros H; injection H as _ <-; intros; apply dr_refl|].
  pose proof (assigned_nz _ U) as NZ. cbv zeta. destruct (negb _); [intros H; injection H as _ <-; intros; apply dr_refl|].
  destruct (freshen C S id) as [rc1 S1] eqn:F. intros H NJ NE. pose proof (freshen_only _ _ _ _ j W F NJ NE) as D. destruct (freshen_eff _ _ _ _ _ W G F) as (W1 & _).
  revert H. destruct (negb (is_ok rc1)); [intros H; injection H as _ <-; auto|]. destruct (vw S1 id) as [s|] eqn:V; [|intros H; injection H as _ <-; auto].
  destruct (_ && _); [intros H; injection H as _ <-; auto|].
  destruct (cupd_eff C S1 id revoke_slot W1 NZ (fun s E => E)) as (W2 & _ & _ & O2). cbv zeta in *.
  set (S2 := set_ctx C S1 id (cupd id revoke_slot (get_ctx C S1 id))) in *. assert (D2 : dr S S2 j) by (apply (dr_trans _ S1); auto; left; auto).
  destruct (is_ok _); [|intros H; injection H as _ <-; auto]. destruct (nv_add _ _ _ _) as [rc2 st].
  destruct (is_ok rc2); intros H; injection H as _ <-; auto. apply (dr_trans _ S2); auto. left.
  destruct (mark_eff C (set_st S2 st) id true W2 NZ) as (_ & _ & _ & X). change (get_ctx C (set_st S2 st) id) with (get_ctx C S2 id) in X. rewrite X by auto. reflexivity.
Qed.
Lemma kept_only chk S S' id rc s j : slot_kept C chk S S' id rc s -> j <> 0 -> j <> id -> dr S S' j.
Proof. intros (_ & _ & _ & _ & O) NJ NE. apply dropped_dr; auto. Qed.

(** [j] is not the client's and not a shared key. *)
Definition foreign (client j : N) : Prop := kid_user j <> client /\ kid_user j <> 0.
Lemma foreign_fc ty client id j : client < 16 -> ty < 16 -> foreign client j -> from_client (kc C) ty client id <> j.
Proof.
  intros L LT [A B] E. subst j. rewrite from_client_mk, mk_user in A, B; destruct (means_global _ _); auto; lia.
Qed.
Lemma foreign_addr client id j k n o : client < 16 -> foreign client j -> addr C client id k n o -> j <> k.
Proof.
  intros L F AD E. subst k. destruct AD as [[_ E]|(_ & _ & _ & _ & _ & x & _ & E)].
  - symmetry in E. revert E. apply foreign_fc; auto. reflexivity.
  - destruct F as [A B]. rewrite E, mk_user in A, B by apply kid_user_lt. rewrite from_client_mk, mk_user in A, B; destruct (means_global _ _); auto; lia.
Qed.

Ltac fin H := injection H as _ <-; auto using dr_refl.
Theorem step_only e client q S r S' j : wf S -> good C S -> ks_step C crypt pub ots gcm_enc gcm_dec she_count e client q S = (r, S') ->
  client < 16 -> j <> 0 -> foreign client j -> dr S S' j.
Proof.
  intros W G H L NJ F. unfold ks_step in H. destruct (negb (is_ok (v_lock e))); [fin H|].
  assert (NF : forall id, j <> fc client id) by (intros id E; symmetry in E; revert E; apply foreign_fc; auto; reflexivity).
  assert (PK : forall need id rc k, (need = true -> kid_erased (fc client id) = true) -> (need = false -> kid_unassigned (fc client id) = false) ->
     pick_id C need S (fc client id) = (rc, k) -> is_ok rc = true -> k <> 0 /\ j <> k).
  { intros need id rc k A B P O. apply is_ok_iff in O. destruct (pick_addr C pub need S client id rc k A B P O) as [NZ AD]. split; auto. eapply foreign_addr; eauto. }
  assert (FR : forall id rc1 S1, freshen C S (fc client id) = (rc1, S1) -> dr S S1 j) by (intros id rc1 S1 E; eapply freshen_only; eauto).
  assert (KK : forall tr id rc1 S1 kb, resolve_kek C tr e S (fc client id) = (rc1, S1, kb) -> dr S S1 j) by (intros tr id rc1 S1 kb E; eapply kek_only; eauto).
  destruct q; cbv zeta in H.
  - unfold h_cache in H. destruct (pick_id C _ S (fc client id)) as [rc k] eqn:P. destruct (is_ok rc) eqn:O; cbn [negb] in H; [|fin H].
    destruct (PK _ _ _ _ (unassigned_is_erased pub (fc client id)) (fun x => x) P O) as [NZ NE].
    destruct (cache_key C true S _ data) as [rc1 S1] eqn:E. destruct (cache_key_eff _ _ _ _ _ _ _ W E) as [K _]. injection H as _ <-. apply (kept_only _ _ _ _ _ _ _ K); auto.
  - unfold h_cache_random in H. destruct (pick_id C _ S (fc client id)) as [rc k] eqn:P. destruct (is_ok rc) eqn:O; cbn [negb] in H; [|fin H].
    destruct (PK _ _ _ _ (fun x => x) (unassigned_erased _) P O) as [NZ NE].
    destruct (cache_random C S _ (v_rng e) _) as [rc1 S1] eqn:E. destruct (cache_random_eff _ _ _ _ _ _ _ W E) as [K _]. injection H as _ <-. apply (kept_only _ _ _ _ _ _ _ K); auto.
  - unfold h_cache_dma in H. destruct (pick_id C _ S (fc client id)) as [rc k] eqn:P. destruct (is_ok rc) eqn:O; cbn [negb] in H; [|fin H].
    destruct (PK _ _ _ _ (unassigned_is_erased pub (fc client id)) (fun x => x) P O) as [NZ NE]. cbv zeta in H.
    destruct (cache_dma C S _ (v_dma e) _) as [rc1 S1] eqn:E. destruct (cache_dma_eff C S (req_meta k flags (N.land sz 65535) label) _ _ _ _ W NZ E) as [K _]. injection H as _ <-. apply (kept_only _ _ _ _ _ _ _ K); auto.
  - unfold h_export in H. destruct (read_key_checked C S _ _) as [[[rc S1] m] d] eqn:E. injection H as _ <-. eapply read_checked_only; eauto.
  - unfold h_export_dma in H. cbv zeta in H. destruct (negb _); [fin H|]. destruct (freshen C S _) as [rc1 S1] eqn:E. pose proof (FR _ _ _ E) as D.
    destruct (negb (is_ok rc1)); [fin H|]. destruct (vw S1 _) as [s|]; [|fin H]. destruct (_ <? _); [fin H|]. destruct (negb _); fin H.
  - unfold h_export_public in H. cbv zeta in H. destruct (negb _); [fin H|]. destruct (freshen C S _) as [rc1 S1] eqn:E. pose proof (FR _ _ _ E) as D.
    destruct (negb (is_ok rc1)); [fin H|]. destruct (vw S1 _) as [s|]; [|fin H]. destruct (pub _ _) as [rc2 d]. destruct (negb _); [fin H|]. destruct (_ <? _); fin H.
  - destruct (evict_checked C S (fc client id)) as [rc S1] eqn:E. injection H as _ <-. cbn [snd]. destruct (evict_checked_eff _ _ _ _ _ W E) as (_ & _ & _ & _ & _ & X). left. apply X; auto.
  - destruct (commit_checked C (v_nvm e) S (fc client id)) as [rc S1] eqn:E. injection H as _ <-. cbn [snd]. unfold commit_checked in E. destruct (is_ok _); [|fin E].
    destruct (commit_eff _ _ _ _ _ _ W G E) as (_ & _ & _ & X). left. apply X; auto.
  - destruct (erase_checked C (v_nvm e) S (fc client id)) as [rc S1] eqn:E. injection H as _ <-. cbn [snd]. destruct (erase_eff _ _ _ _ _ _ W E) as (_ & _ & _ & X). left. apply X; auto.
  - destruct (revoke_key C (v_nvm e) S (fc client id)) as [rc S1] eqn:E. injection H as _ <-. cbn [snd]. eapply revoke_only; eauto.
  - unfold h_import in H. destruct (pick_id C _ S (fc client id)) as [rc k] eqn:P. destruct (is_ok rc) eqn:O; cbn [negb] in H; [|fin H].
    destruct (PK _ _ _ _ (fun x => x) (unassigned_erased _) P O) as [NZ NE]. cbv zeta in H.
    destruct (import_key C S _ _ (v_rng e) _) as [rc1 S1] eqn:E. destruct (import_key_eff _ _ _ _ _ _ _ _ W E) as [K _]. injection H as _ <-. apply (kept_only _ _ _ _ _ _ _ K); auto.
  - unfold h_use in H. destruct (nth_error (usages o) alt) as [u|]; [|fin H]. cbv zeta in H.
    destruct (reads_copy o).
    + unfold read_key_enforce in H. destruct (read_key C S (fc client id) (v_cap e)) as [[[rc S1] m] d] eqn:E. pose proof (read_only _ _ _ _ _ _ _ j W E NJ (NF id)) as D.
      destruct (is_ok rc) eqn:O; cbn [negb] in H; [|rewrite O in H; fin H]. destruct (is_ok (enforce (m_flags m) u)) eqn:EN.
      * change (is_ok OK) with true in H. cbn [negb] in H. destruct (crypt _ _ _). fin H.
      * rewrite EN in H. cbn [negb] in H. fin H.
    + unfold use_key in H. destruct (kid_erased _); [fin H|]. destruct (freshen C S _) as [rc1 S1] eqn:E. pose proof (FR _ _ _ E) as D.
      destruct (is_ok rc1) eqn:O; cbn [negb] in H; [|rewrite O in H; fin H]. destruct (vw S1 _) as [s|]; [|fin H]. cbv zeta in H.
      destruct (is_ok (enforce (m_flags (sl_meta s)) u)) eqn:EN.
      * change (is_ok OK) with true in H. cbn [negb] in H. destruct (crypt _ _ _). fin H.
      * rewrite EN in H. cbn [negb] in H. fin H.
  - injection H as _ <-. destruct (evict_key C S (fc client id)) as [rc S1] eqn:E. cbn [snd]. destruct (evict_key_eff _ _ _ _ _ W E) as (_ & _ & _ & _ & _ & X). left. apply X; auto.
  - unfold h_sign_gen in H. destruct (has _ _); [fin H|]. cbv zeta in H. destruct (pick_id C _ S (fc client id)) as [rc k] eqn:P. destruct (is_ok rc) eqn:O; cbn [negb] in H; [|fin H].
    destruct (PK _ _ _ _ (fun x => x) (unassigned_erased _) P O) as [NZ NE].
    match type of H with context [cache_slot_checked C S k (bigsz C) ?x] => set (s := x) in * end.
    assert (IDS : sl_id s = k \/ sl_id s = 0) by (unfold s; destruct (is_ok (v_rng e)); auto). clearbody s.
    destruct (cache_slot_checked C S k (bigsz C) s) as [rc1 S1] eqn:E. destruct (cache_slot_checked_eff _ _ _ _ s _ _ W NZ IDS E) as (W1 & T1 & _ & _ & X).
    assert (D : dr S S1 j) by (apply dropped_dr; auto). destruct (negb (is_ok rc1)); [fin H|]. destruct (negb _); [fin H|].
    destruct (commit_key C (v_nvm e) S1 k) as [rc2 S2] eqn:CM. injection H as _ <-. apply (dr_trans _ S1); auto. left.
    unfold commit_key in CM. destruct (kid_unassigned k); [injection CM as _ <-; auto|]. destruct (kid_wrapped k); [injection CM as _ <-; auto|]. destruct (hwkey C k); [injection CM as _ <-; auto|].
    destruct (vw S1 k); [|injection CM as _ <-; auto]. destruct (nv_add _ _ _ _) as [rc3 st]. destruct (is_ok rc3); injection CM as _ <-; auto.
    destruct (mark_eff C (set_st S1 st) k true W1 NZ) as (_ & _ & _ & Y). change (get_ctx C (set_st S1 st) k) with (get_ctx C S1 k) in Y. rewrite Y by auto. reflexivity.
  - unfold h_sign in H. cbv zeta in H. destruct (kid_erased (fc client id)) eqn:KE; [fin H|]. pose proof (erased_nz _ KE) as NZ. destruct (freshen C S _) as [rc1 S1] eqn:E. pose proof (FR _ _ _ E) as D.
    destruct (freshen_eff _ _ _ _ _ W G E) as (W1 & _).
    assert (FIN : forall x : kresp * ks, wf (snd x) -> dr S (snd x) j -> (if ev then (fst x, snd (evict_key C (snd x) (fc client id))) else x) = (r, S') -> dr S S' j).
    { intros [rx Sx] Wx Dx. cbn [fst snd] in *. destruct ev; intros X; injection X as _ <-; auto. destruct (evict_key C Sx (fc client id)) as [rce Se] eqn:EE. cbn [snd].
      destruct (evict_key_eff _ _ _ _ _ Wx EE) as (_ & _ & _ & _ & _ & X). apply (dr_trans _ Sx); auto. left. apply X; auto. }
    destruct (negb (is_ok rc1)); [apply (FIN (rrc rc1, S1)); auto|]. destruct (vw S1 (fc client id)) as [s|] eqn:V1; [|apply (FIN (rrc NOTFOUND, S1)); auto].
    destruct (negb _); [apply (FIN (rrc (v_dma e), S1)); auto|].
    destruct (ots _ _) as [[sg nb]|]; [|apply (FIN (rrc ABORTED, S1)); auto]. destruct (_ <? _); [apply (FIN (rrc ABORTED, S1)); auto|].
    assert (MI : m_id (with_len (sl_meta s) (N.of_nat (length nb))) = fc client id) by exact (vw_id _ _ _ _ V1).
    destruct (cupd_eff C S1 (fc client id) (fun x => mkSlot (with_len (sl_meta s) (N.of_nat (length nb))) nb (sl_comm x)) W1 NZ (fun s E => MI)) as (W2 & _ & _ & O2). cbv zeta in *.
    match type of O2 with forall j, _ -> _ -> vw ?x j = _ => set (S2 := x) in * end. assert (D2 : dr S S2 j) by (apply (dr_trans _ S1); auto; left; auto).
    destruct (nv_add _ _ _ _) as [rc2 st]. destruct (is_ok rc2); [apply (FIN (mkKr OK 0 None sg, set_st S2 st)); auto|apply (FIN (rrc ABORTED, S2)); auto].
  - unfold h_wrap in H. cbv zeta in H. destruct (_ <? _); [fin H|]. destruct (negb _); [fin H|]. destruct (_ <? _); [fin H|].
    destruct (resolve_kek C false e S _) as [[rc1 S1] k] eqn:RK. pose proof (KK _ _ _ _ _ RK). destruct (negb _); [fin H|]. destruct (gcm_wrap _ _ _ _ _). fin H.
  - unfold h_wrap_export in H. destruct (wx_target C kty client id) as [t|] eqn:WT; [|fin H]. destruct (read_key_checked C S t _) as [[[rc S1] m] d] eqn:E.
    assert (NT : j <> t).
    { intros <-. destruct F as [F1 F2]. assert (U : forall ty, kid_user (from_client (kc C) ty client id) = client \/ kid_user (from_client (kc C) ty client id) = 0).
      { intros ty. rewrite from_client_mk, mk_user; destruct (means_global _ _); auto; lia. }
      unfold wx_target in WT. cbv zeta in WT. destruct (_ || _); [injection WT as WT; destruct (U kty); congruence|]. destruct (_ && _); [|discriminate].
      destruct (she_global C); injection WT as WT; [rewrite <- WT, mk_user in F2 by reflexivity; auto|destruct (U kty); congruence]. }
    pose proof (read_checked_only _ _ _ _ _ _ _ j W E NJ NT) as D. destruct (read_checked_eff _ _ _ _ _ _ _ _ W G E) as (W1 & _).
    destruct (negb _); [fin H|]. destruct (_ <? _); [fin H|]. destruct (resolve_kek C true e S1 _) as [[rc1 S2] k] eqn:RK.
    assert (D2 : dr S S2 j) by (apply (dr_trans _ S1); auto; eapply kek_only; eauto). destruct (negb _); [fin H|]. destruct (gcm_wrap _ _ _ _ _). fin H.
  - unfold h_unwrap_export in H. cbv zeta in H. destruct (_ <? _)%nat; [fin H|]. destruct (_ <? _); [fin H|]. destruct (resolve_kek C false e S _) as [[rc1 S1] k] eqn:RK. pose proof (KK _ _ _ _ _ RK).
    destruct (negb _); [fin H|]. destruct (_ <? _); [fin H|]. destruct (gcm_unwrap _ _ _ _) as [rc2 pt]. destruct (negb _); [fin H|].
    destruct (kid_unassigned _); [fin H|]. destruct (negb _); [fin H|]. destruct (has _ _); [fin H|]. destruct (negb _); fin H.
  - unfold h_unwrap_cache in H. cbv zeta in H. destruct (_ <? _)%nat; [fin H|]. destruct (resolve_kek C true e S _) as [[rc1 S1] k] eqn:RK. pose proof (KK _ _ _ _ _ RK) as D. destruct (kek_eff _ _ _ _ _ _ _ _ W G RK) as (W1 & _).
    destruct (negb _); [fin H|]. destruct (_ <? _); [fin H|]. destruct (gcm_unwrap _ _ _ _) as [rc2 pt]. destruct (negb (is_ok rc2)); [fin H|].
    destruct (negb (N.eqb (N.of_nat _) _)); [fin H|]. destruct (kid_unassigned _); [fin H|]. destruct (negb (kid_wrapped _) && _); [fin H|].
    destruct (owner_ok C client _) eqn:OW; cbn [negb] in H; [|fin H]. destruct (_ && _ && _ && _ && _); [fin H|].
    match type of H with context [find_cache C S1 (m_id ?x)] => set (mm := x) in * end.
    assert (NM : j <> m_id mm).
    { intros ->. destruct F as [F1 F2]. unfold mm in F1, F2. destruct (_ && she_global C); [cbn [with_id m_id] in F2; rewrite mk_user in F2 by reflexivity; auto|].
      unfold owner_ok in OW. apply Bool.orb_true_iff in OW as [OW|OW]; [apply N.eqb_eq in OW; auto|]. apply Bool.andb_true_iff in OW as [_ OW]. apply N.eqb_eq in OW. auto. }
    clearbody mm. destruct (find_cache C S1 (m_id mm)); [fin H|]. destruct (match sp_find (k_st S1) (m_id mm) with Some _ => _ | None => _ end); [fin H|].
    destruct (have_st C && _); [fin H|]. destruct (cache_key C false S1 mm _) as [rc3 S3] eqn:CK. injection H as _ <-.
    destruct (cache_key_eff _ _ _ _ _ _ _ W1 CK) as [K _]. apply (dr_trans _ S1); auto. apply (kept_only _ _ _ _ _ _ _ K); auto.
  - unfold h_data_wrap in H. cbv zeta in H. destruct (_ <? _); [fin H|]. destruct (_ <? _); [fin H|]. destruct (resolve_kek C false e S _) as [[rc1 S1] k] eqn:RK. pose proof (KK _ _ _ _ _ RK).
    destruct (negb _); [fin H|]. destruct (gcm_wrap _ _ _ _ _). fin H.
  - unfold h_data_unwrap in H. cbv zeta in H. destruct (_ <? _)%nat; [fin H|]. destruct (_ <? _); [fin H|]. destruct (resolve_kek C false e S _) as [[rc1 S1] k] eqn:RK. pose proof (KK _ _ _ _ _ RK).
    destruct (negb _); [fin H|]. destruct (_ <? _); [fin H|]. destruct (gcm_unwrap _ _ _ _). fin H.
Qed.
End Only.
