(** Key slots of the SHE extension over histories: the cached copy agrees with NVM,
    the counter only grows. *)
From Coq Require Import Lia.
From Verif Require Import Base BaseLemmas NvmSpec Flags KeyId Store NvmReqModel CounterModel KsModel KsCache KsReq KsEff KsStep KsOnly KsSys KsSpec KsSysProof PropertiesKeyId SheModel SheSys SheSpec SheEff SheBoot.
Local Open Scope N_scope.

Lemma ones8 m i : N.testbit (N.land m (N.ones 8)) i = N.testbit m i && (i <? 8).
Proof. rewrite N.land_spec. destruct (N.ltb_spec i 8); [rewrite N.ones_spec_low|rewrite N.ones_spec_high]; auto. Qed.
Lemma be32_to x rest : x < 2 ^ 32 -> be32 (to_be32 x ++ rest) = x.
Proof.
  intros H. unfold be32, to_be32. cbn [app nth]. apply N.bits_inj. intros n.
  rewrite !N.lor_spec. change 255 with (N.ones 8).
  assert (SH : forall m k, N.testbit (N.shiftl (N.land (N.shiftr x m) (N.ones 8)) k) n = if n <? k then false else N.testbit x (n - k + m) && (n - k <? 8)).
  { intros m k. destruct (N.ltb_spec n k); [rewrite N.shiftl_spec_low; auto|]. rewrite N.shiftl_spec_high', ones8, N.shiftr_spec' by auto. reflexivity. }
  rewrite !SH, ones8.
  assert (HI : 32 <= n -> N.testbit x n = false).
  { intros L. apply N.bits_above_log2. destruct (N.eq_dec x 0) as [->|NZ]; [cbn; lia|]. apply N.log2_lt_pow2; [lia|].
    apply N.lt_le_trans with (2 ^ 32); auto. apply N.pow_le_mono_r; [discriminate|auto]. }
  destruct (N.ltb_spec n 8).
  { replace (n <? 24) with true by (symmetry; apply N.ltb_lt; lia). replace (n <? 16) with true by (symmetry; apply N.ltb_lt; lia).
    rewrite Bool.andb_true_r. reflexivity. }
  destruct (N.ltb_spec n 16).
  { replace (n <? 24) with true by (symmetry; apply N.ltb_lt; lia). replace (n - 8 <? 8) with true by (symmetry; apply N.ltb_lt; lia).
    replace (n - 8 + 8) with n by lia. rewrite Bool.andb_true_r, Bool.andb_false_r, !Bool.orb_false_r. reflexivity. }
  replace (n - 8 <? 8) with false by (symmetry; apply N.ltb_ge; lia). rewrite !Bool.andb_false_r, !Bool.orb_false_r.
  destruct (N.ltb_spec n 24).
  { replace (n - 16 <? 8) with true by (symmetry; apply N.ltb_lt; lia). replace (n - 16 + 16) with n by lia. rewrite Bool.andb_true_r. reflexivity. }
  replace (n - 16 <? 8) with false by (symmetry; apply N.ltb_ge; lia). rewrite Bool.andb_false_r, Bool.orb_false_r.
  replace (n - 24 + 24) with n by lia. destruct (N.ltb_spec (n - 24) 8); [apply Bool.andb_true_r|]. rewrite HI by lia. reflexivity.
Qed.
Lemma shl_lt a n k : a < 2 ^ n -> N.shiftl a k < 2 ^ (n + k).
Proof. intros H. rewrite N.shiftl_mul_pow2, N.pow_add_r. apply N.mul_lt_mono_pos_r; auto. apply N.neq_0_lt_0, N.pow_nonzero. discriminate. Qed.
Lemma lor_lt a b n : a < 2 ^ n -> b < 2 ^ n -> N.lor a b < 2 ^ n.
Proof.
  intros A B. destruct (N.eq_dec (N.lor a b) 0) as [->|NZ]; [apply N.neq_0_lt_0, N.pow_nonzero; discriminate|].
  apply N.log2_lt_pow2; [lia|]. rewrite N.log2_lor.
  destruct (N.eq_dec a 0) as [->|NA].
  - rewrite N.lor_0_l in NZ. assert (N.log2 b < n) by (apply N.log2_lt_pow2; [lia|auto]). rewrite N.max_r; [auto|cbn; lia].
  - assert (N.log2 a < n) by (apply N.log2_lt_pow2; [lia|auto]).
    destruct (N.eq_dec b 0) as [->|NB]; [rewrite N.max_l; [auto|cbn; lia]|].
    assert (N.log2 b < n) by (apply N.log2_lt_pow2; [lia|auto]). apply N.max_lub_lt; auto.
Qed.
Lemma nth_byte l n : is_bytes l -> nth n l 0 < 256.
Proof. intros H. destruct (Nat.ltb_spec n (length l)); [|rewrite nth_overflow by auto; reflexivity]. unfold is_bytes in H. rewrite Forall_forall in H. apply H, nth_In; auto. Qed.
Lemma be32_lt l : is_bytes l -> be32 l < 2 ^ 32.
Proof.
  intros H. unfold be32. pose proof (nth_byte l 0 H). pose proof (nth_byte l 1 H). pose proof (nth_byte l 2 H). pose proof (nth_byte l 3 H).
  assert (A : forall x n k, x < 256 -> 8 + k <= n -> N.shiftl x k < 2 ^ n).
  { intros x n k L1 L2. apply N.lt_le_trans with (2 ^ (8 + k)); [apply shl_lt; auto|]. apply N.pow_le_mono_r; [discriminate|auto]. }
  repeat apply lor_lt; try (apply A; auto; discriminate). apply N.lt_trans with 256; [auto|reflexivity].
Qed.
Lemma exactly_bytes n l : is_bytes l -> is_bytes (exactly n l).
Proof.
  intros H. unfold exactly, is_bytes. apply Forall_forall. intros x I.
  assert (I2 : In x (l ++ repeat 0 n)) by (rewrite <- (firstn_skipn n (l ++ repeat 0 n)); apply in_or_app; left; exact I).
  apply in_app_or in I2 as [I2|I2]; [unfold is_bytes in H; rewrite Forall_forall in H; auto|]. apply repeat_spec in I2. subst; reflexivity.
Qed.

Section Inv.
Variable C : kscfg.
Variable crypt : cop -> list N -> list N -> Z * list N.
Variable pub : N -> list N -> Z * list N.
Variable ots : list N -> list N -> option (list N * list N).
Variable gcm_enc : list N -> list N -> N -> list N -> option (list N).
Variable gcm_dec : list N -> list N -> N -> list N -> option (list N).
Variable max_read : nat.
Variable aes : list N -> list N -> list N.
Variable cbc_enc cbc_dec : list N -> list N -> list N.
Variable cmac : list N -> list N -> list N.
Variable use_op : sop -> list N -> list N -> option (list N).
Hypothesis cbc_bytes : forall k d, is_bytes (cbc_dec k d).
Notation step := (hstep C crypt pub ots gcm_enc gcm_dec max_read aes cbc_enc cbc_dec cmac use_op).
Notation after := (hafter C crypt pub ots gcm_enc gcm_dec max_read aes cbc_enc cbc_dec cmac use_op).
Notation sstep := (she_step C aes cbc_enc cbc_dec cmac use_op).
Notation kstep := (ks_step C crypt pub ots gcm_enc gcm_dec she_count).
Notation vw := (find_cache C).
Notation nv := (fun S => sp_find (k_st S)).

(** ** The invariant *)
Definition coh (S : ks) (k : N) : Prop := forall s, vw S k = Some s ->
  (sl_comm s = true -> exists m d, nv S k = Some (m, d) /\ m_label m = m_label (sl_meta s) /\
     (kid_id k <> SLOT_SEED -> m = sl_meta s /\ d = sl_buf s)) /\
  (forall m d, kid_id k <> SLOT_RAM -> nv S k = Some (m, d) -> she_count (m_label m) <= she_count (m_label (sl_meta s))).
Definition fresh_count (o o' : option (meta * list N)) : Prop :=
  match o with Some (m, _) => exists m' d', o' = Some (m', d') /\ she_count (m_label m) <= she_count (m_label m') | None => True end.
Lemma fresh_refl o : fresh_count o o.
Proof. destruct o as [[m d]|]; cbn; auto. exists m, d. split; auto. apply N.le_refl. Qed.

Lemma coh_fr S S' k : coh S k -> fr C S S' k -> coh S' k.
Proof.
  intros H [N1 [V|[U [V|(m & d & E & V)]]]] s VS; cbv beta in *.
  - rewrite N1. apply H. congruence.
  - congruence.
  - rewrite V in VS. injection VS as <-. cbn [sl_comm sl_meta sl_buf]. rewrite N1. split.
    + intros _. exists m, d. auto.
    + intros m0 d0 _ E0. rewrite E in E0. injection E0 as <- <-. apply N.le_refl.
Qed.
(** What is seen of a slot is the same, but for the data of the seed. *)
Definition like (k : N) (o o' : option (meta * list N)) : Prop :=
  match o, o' with
  | Some (m, d), Some (m', d') => m_label m = m_label m' /\ (kid_id k <> SLOT_SEED -> m = m' /\ d = d')
  | None, None => True
  | _, _ => False
  end.
Lemma like_refl k o : like k o o.
Proof. destruct o as [[m d]|]; cbn; auto. Qed.
Lemma vis_fr S S' k : coh S k -> fr C S S' k -> like k (vis C S k) (vis C S' k).
Proof.
  intros H [N1 [V|[U [V|(m & d & E & V)]]]]; unfold vis; cbv beta in *.
  - rewrite V, N1. apply like_refl.
  - rewrite V, N1. destruct (vw S k) as [s|] eqn:VS; [|apply like_refl].
    destruct (H s VS) as [H1 _]. destruct (H1 (U s eq_refl)) as (m & d & E & L & X). rewrite E. cbn. split; [auto|]. intros NE. destruct (X NE). auto.
  - rewrite V. cbn [sl_meta sl_buf]. destruct (vw S k) as [s|] eqn:VS; [|rewrite E; apply like_refl].
    destruct (H s VS) as [H1 _]. destruct (H1 (U s eq_refl)) as (m0 & d0 & E0 & L & X). rewrite E in E0. injection E0 as <- <-. cbn. split; [auto|]. intros NE. destruct (X NE). auto.
Qed.
Lemma vis_count S k m d : coh S k -> kid_id k <> SLOT_RAM -> nv S k = Some (m, d) -> exists m' d', vis C S k = Some (m', d') /\ she_count (m_label m) <= she_count (m_label m').
Proof.
  intros H NR E. unfold vis. destruct (vw S k) as [s|] eqn:V.
  - exists (sl_meta s), (sl_buf s). split; auto. destruct (H s V) as [_ H2]. eapply H2; eauto.
  - exists m, d. split; auto. apply N.le_refl.
Qed.

(** ** SHE requests *)
Lemma update_count rd client m1 m2 m3 uid S S1 j o : update_of C aes cbc_dec cmac rd client m1 m2 m3 uid S S1 j o -> rd = OK ->
  forall m d, vis C S1 j = Some (m, d) -> she_count (m_label m) < she_count (m_label (fst o)).
Proof.
  intros (ak & _ & _ & _ & AL & _ & _ & _ & _ & rest & L) RD m d V. destruct (AL RD m d V) as [_ LT].
  unfold she_count at 2. rewrite L, be32_to; [exact LT|]. rewrite N.shiftr_div_pow2. apply N.le_lt_trans with (be32 (exactly 32 (cbc_dec (mp16 aes (ak ++ ENC_C)) m2))).
  - apply N.div_le_upper_bound; [discriminate|]. change (2 ^ 4) with 16. lia.
  - apply be32_lt, exactly_bytes, cbc_bytes.
Qed.
Lemma scell_coh e client q h S S' k : se_rd e 1 = OK -> scell C aes cbc_dec cmac e client q h S S' k -> coh S k ->
  coh S' k /\ (kid_id k <> SLOT_RAM -> fresh_count (nv S k) (nv S' k)).
Proof.
  intros RD X H. destruct X as [F _|key Q J N1 V|m1 m2 m3 S1 o Q J F U X|S1 m d m' d' Q J F V N1 L1 L2 L3 X].
  - split; [eapply coh_fr; eauto|]. intros _. destruct F as [E _]. cbv beta in *. rewrite E. apply fresh_refl.
  - cbv beta in *. split; [|intros NR; rewrite N1; apply fresh_refl].
    intros s VS. destruct V as [V|V]; [|congruence]. rewrite V in VS. injection VS as <-. cbn [sl_comm]. split; [discriminate|].
    intros m d NR. destruct NR. rewrite J. apply sid_id. reflexivity.
  - destruct (N.eqb_spec (kid_id k) SLOT_RAM) as [E|NE]; cbv beta in *.
    + destruct X as [N1 V]. split; [|congruence]. intros s VS. destruct V as [V|V]; [|congruence]. rewrite V in VS. injection VS as <-. cbn [sl_comm]. split; [discriminate|congruence].
    + destruct X as [N1 V]. destruct o as [mo do]. cbn [fst snd] in *. split.
      * intros s VS. destruct V as [V|V]; [|congruence]. rewrite V in VS. injection VS as <-. cbn [sl_comm sl_meta sl_buf]. rewrite N1. split.
        -- intros _. exists mo, do. auto.
        -- intros m d _ E. injection E as <- <-. apply N.le_refl.
      * intros _. destruct (nv S k) as [[m d]|] eqn:E; cbn; auto. exists mo, do. split; auto. cbv beta in E.
        pose proof (coh_fr _ _ _ H F) as H1. destruct F as [E1 _]. cbv beta in E1. rewrite E in E1.
        destruct (vis_count S1 k m d H1 NE E1) as (mv & dv & VV & LE). pose proof (update_count _ _ _ _ _ _ _ _ _ _ U RD mv dv VV) as LT. cbn [fst] in LT. lia.
  - cbv beta in *. pose proof (coh_fr _ _ _ H F) as H1. split.
    + assert (SE : kid_id k = SLOT_SEED) by (rewrite J; apply sid_id; reflexivity).
      intros s VS. rewrite N1. destruct X as [X|[U [X|(m0 & d0 & E0 & X)]]]; [|congruence|].
      * unfold vis in V. rewrite <- X, VS in V. injection V as <- <-. split; [intros _; exists m', d'; split; [auto|split; [auto|congruence]]|].
        intros m0 d0 _ E0. injection E0 as <- <-. rewrite L1. apply N.le_refl.
      * rewrite X in VS. injection VS as <-. cbn [sl_comm sl_meta sl_buf].
        assert (LL : m_label m0 = m_label m).
        { unfold vis in V. destruct (vw S1 k) as [s|] eqn:VV; [|rewrite V in E0; injection E0 as <- <-; auto].
          injection V as <- <-. destruct (H1 s VV) as [A _]. destruct (A (U s eq_refl)) as (m5 & d5 & E5 & L5 & _). rewrite E0 in E5. injection E5 as <- <-. auto. }
        split; [intros _; exists m', d'; split; [auto|split; [congruence|congruence]]|].
        intros m5 d5 _ E5. injection E5 as <- <-. rewrite L1, LL. apply N.le_refl.
    + intros NR. destruct (nv S k) as [[m0 d0]|] eqn:E; cbn; auto. exists m', d'. split; auto. cbv beta in E.
      destruct F as [E1 _]. cbv beta in E1. rewrite E in E1. destruct (vis_count S1 k m0 d0 H1 NR E1) as (mv & dv & VV & LE). rewrite V in VV. injection VV as <- <-. rewrite L1. exact LE.
Qed.

(** ** Key requests *)
Lemma fc_type client id : kid_type (from_client (kc C) KT_CRYPTO client id) <> KT_SHE.
Proof.
  rewrite from_client_mk, mk_type by (apply kind_lt; reflexivity). unfold means_kind.
  destruct (k_hw (kc C) && _); [discriminate|]. destruct (k_wrap (kc C) && _); discriminate.
Qed.
Lemma addr_she client id k n o : kid_type k = KT_SHE -> addr C client id k n o -> False.
Proof.
  intros T [[_ E]|(_ & _ & _ & _ & _ & x & _ & E)].
  - subst k. destruct (fc_type client id T).
  - rewrite E, mk_type in T by apply kid_type_lt. destruct (fc_type client id T).
Qed.
(** What unwrapping puts into the cache under a SHE id is not older than NVM. *)
Lemma unwrap_count e client kek b S r S' k s : wf S -> good C S -> kid_type k = KT_SHE ->
  h_unwrap_cache C gcm_dec she_count e client kek b S = (r, S') -> vw S' k = Some s -> sl_comm s = false -> vw S k <> Some s ->
  forall m d, nv S k = Some (m, d) -> she_count (m_label m) <= she_count (m_label (sl_meta s)).
Proof.
  intros W G T H VS CO NS m9 d9 N9. assert (NZ : k <> 0) by (intros ->; discriminate T). revert H. unfold h_unwrap_cache.
  destruct (length b <? 60)%nat. { intros H; injection H as <- <-. congruence. }
  destruct (resolve_kek C true e S _) as [[rc1 S1] kk] eqn:RK. destruct (kek_eff _ _ _ _ _ _ _ _ W G RK) as (W1 & T1 & FR).
  assert (X : forall r0, (r0, S1) = (r, S') -> she_count (m_label m9) <= she_count (m_label (sl_meta s))).
  { intros r0 H; injection H as _ <-. exfalso. destruct (FR k NZ) as [_ [V|[U [V|(m0 & d0 & E0 & V)]]]]; try congruence.
    rewrite V in VS. injection VS as <-. discriminate CO. }
  cbv zeta. destruct (negb (is_ok rc1)); [apply X|]. destruct (kw_max C <? _); [apply X|].
  destruct (gcm_unwrap gcm_dec kk AAD_KEY b) as [rc2 pt]. destruct (negb (is_ok rc2)); [apply X|].
  set (m0 := des_meta pt). set (m1 := with_flags m0 (clear (m_flags m0) F_SERVER_ONLY)). set (key := exactly _ _).
  destruct (N.eqb (N.of_nat (length b - 60)) (m_len m1)); cbn [negb]; [|apply X].
  destruct (kid_unassigned (m_id m1)); [apply X|].
  set (she := have_she C && N.eqb (kid_type (m_id m1)) KT_SHE).
  destruct (negb (kid_wrapped (m_id m1)) && negb she) eqn:KS; [apply X|].
  destruct (owner_ok C client (m_id m1)); cbn [negb]; [|apply X].
  destruct (she && negb (she_global C) && k_global (kc C) && N.eqb (kid_user (m_id m1)) 0); [apply X|].
  set (m := if she && she_global C then _ else m1).
  assert (TY : kid_type (m_id m) = KT_SHE -> she = true).
  { unfold m. destruct she eqn:SE; [auto|]. cbn [andb]. intros Q. exfalso. rewrite Bool.andb_true_r in KS. apply Bool.negb_false_iff in KS.
    unfold kid_wrapped in KS. apply N.eqb_eq in KS. rewrite Q in KS. discriminate. }
  clearbody m key. destruct (vw S1 (m_id m)) as [x|] eqn:V1; [apply X|].
  destruct (match sp_find (k_st S1) (m_id m) with Some _ => _ | None => _ end) eqn:ST; [apply X|].
  destruct (have_st C && stateful_blob key); [apply X|].
  destruct (cache_key C false S1 m key) as [rc3 S2] eqn:CK. intros H; injection H as _ <-.
  destruct (cache_key_eff _ _ _ _ _ _ _ W1 CK) as [(W2 & T2 & K2 & F2 & O2) K3].
  destruct (N.eq_dec k (m_id m)) as [->|NE].
  - destruct (Z.eq_dec rc3 OK) as [R|R]; [|destruct (F2 R) as [->|[_ V2]]; congruence].
    destruct (K2 R) as [_ V2]. rewrite V2 in VS. injection VS as <-. cbn [sl_meta].
    rewrite T1, N9, (TY T) in ST. cbn [andb] in ST. apply N.ltb_ge in ST. exact ST.
  - exfalso. destruct (O2 k NZ NE) as [V|[V _]]; [|congruence]. apply NS.
    destruct (FR k NZ) as [_ [V'|[U [V'|(m5 & d5 & E5 & V')]]]]; try congruence.
    rewrite V, V' in VS. injection VS as <-. discriminate CO.
Qed.
Lemma kstep_she e client q S r S' k : wf S -> good C S -> kid_type k = KT_SHE -> kstep e client q S = (r, S') ->
  fr C S S' k \/
  (exists kek b m d, q = KUnwrapCache kek b /\ nv S' k = nv S k /\ not_unc (vw S k) /\ vw S' k = Some (mkSlot m d false) /\
     forall m0 d0, nv S k = Some (m0, d0) -> she_count (m_label m0) <= she_count (m_label m)).
Proof.
  intros W G T H. assert (NZ : k <> 0) by (intros ->; discriminate T).
  destruct (step_cells _ _ _ _ _ _ _ _ _ _ _ _ _ W G H) as [[W' K] _]. specialize (K k NZ).
  assert (FT : forall id, k <> from_client (kc C) KT_CRYPTO client id) by (intros id ->; destruct (fc_type client id T)).
  remember (nv S' k) as n' eqn:EN. remember (vw S' k) as o' eqn:EO. destruct K; try (exfalso; eapply addr_she; eauto; fail); try (exfalso; eapply FT; eauto; fail).
  - left. split; auto.
  - left. split; [auto|]. right. split; [auto|]. auto.
  - left. split; [auto|]. right. split; [auto|]. right. eauto.
  - right. exists kek, b, m, d. split; [auto|]. split; [auto|]. split; [auto|]. split; [auto|].
    subst q. unfold ks_step in H. destruct (negb (is_ok (v_lock e))) eqn:LK.
    { injection H as <- <-. exfalso. specialize (H1 _ (eq_sym EO)). discriminate H1. }
    cbv zeta in H. intros m0 d0 N0. apply (unwrap_count e client kek b S r S' k (mkSlot m d false) W G T H (eq_sym EO) eq_refl) with (d := d0); auto.
    intros Q. specialize (H1 _ Q). discriminate H1.
Qed.

(** ** Histories *)
Notation at_ Y i := (ks_of (hy_ks Y) i).
Lemma coh_ext S S' k : vw S' k = vw S k -> nv S' k = nv S k -> coh S k -> coh S' k.
Proof. intros V N1 H s VS. cbv beta in *. rewrite N1. apply H. congruence. Qed.
Lemma vw_glob Y i i' k : is_global C k = true -> vw (at_ Y i) k = vw (at_ Y i') k.
Proof. intros H. unfold find_cache, get_ctx. rewrite H. reflexivity. Qed.
Lemma vw_put Y i S f i0 k : (is_global C k = true \/ i = i0) ->
  vw (at_ (mkHsys (put_ks (hy_ks Y) i S) f) i0) k = vw S k.
Proof.
  intros H. change (copy C (put_ks (hy_ks Y) i S) i0 k = vw S k). rewrite copy_put.
  destruct H as [->| ->]; [rewrite Bool.orb_true_r|rewrite Nat.eqb_refl]; reflexivity.
Qed.
Lemma vw_put_other Y i S f i0 k : is_global C k = false -> i <> i0 ->
  vw (at_ (mkHsys (put_ks (hy_ks Y) i S) f) i0) k = vw (at_ Y i0) k.
Proof.
  intros H NE. change (copy C (put_ks (hy_ks Y) i S) i0 k = copy C (hy_ks Y) i0 k). rewrite copy_put, H.
  apply Nat.neq_sym in NE. apply Nat.eqb_neq in NE. rewrite NE. reflexivity.
Qed.
(** The context that serves [k] in an event is [i0] or shares its cache. *)
Lemma same_cell Y i i0 k : is_global C k = true \/ i = i0 -> coh (at_ Y i0) k -> coh (at_ Y i) k.
Proof. intros [H| ->]; auto. apply coh_ext; auto. apply vw_glob; auto. Qed.

Theorem coh_step i0 k ev Y : sys_ok C (hy_ks Y) -> kid_type k = KT_SHE -> sole C i0 k ev -> coh (at_ Y i0) k ->
  let Y' := snd (step ev Y) in
  coh (at_ Y' i0) k /\ (kid_id k <> SLOT_RAM -> fresh_count (in_nvm (hy_ks Y) k) (in_nvm (hy_ks Y') k)).
Proof.
  intros O T SO H Y'. assert (NZ : k <> 0) by (intros ->; discriminate T). unfold Y'. clear Y'.
  destruct ev as [i client e q|ev]; cbn [hstep].
  - destruct (sstep e client q (hy_she Y i) (at_ Y i)) as [[r h] S1] eqn:E. cbn [snd]. destruct (O i) as [W G].
    destruct (sstep_eff _ _ _ _ _ _ _ _ _ _ _ _ _ _ W G E) as (W1 & G1 & K). specialize (K k NZ). destruct SO as [SO RD].
    assert (D : (is_global C k = true \/ i = i0) \/ (is_global C k = false /\ i <> i0 /\ forall s, she_id C client s <> k)).
    { unfold is_global. destruct (k_global (kc C) && N.eqb (kid_user k) 0) eqn:GL; [tauto|]. destruct (Nat.eq_dec i i0); [tauto|]. right. destruct SO as [SO|[SO|SO]]; [congruence|congruence|auto]. }
    destruct D as [D|(GL & NE & NS)].
    + destruct (scell_coh _ _ _ _ _ _ _ (RD 1%nat) K (same_cell _ _ _ _ D H)) as [H1 F1]. split; [|exact F1].
      revert H1. apply coh_ext; [apply vw_put; auto|reflexivity].
    + assert (N1 : nv S1 k = nv (at_ Y i) k).
      { destruct K as [F _|key Q J N1 V|m1 m2 m3 S2 o Q J F U X|S2 m d m' d' Q J]; [apply F|exfalso; eapply NS; eauto..]. }
      split; [|intros _; change (fresh_count (nv (at_ Y i) k) (nv S1 k)); cbv beta; rewrite N1; apply fresh_refl].
      revert H. apply coh_ext; [apply vw_put_other; auto|exact N1].
  - destruct (sys_step C crypt pub ots gcm_enc gcm_dec she_count max_read ev (hy_ks Y)) as [a K] eqn:E. cbn [snd].
    pose proof (step_effect _ _ _ _ _ _ _ _ _ _ _ _ O E) as [_ EF]. specialize (EF k NZ).
    assert (ST : forall f, in_nvm K k = in_nvm (hy_ks Y) k -> (copy C K i0 k = copy C (hy_ks Y) i0 k \/ copy C K i0 k = None) ->
      coh (at_ (mkHsys K f) i0) k /\ (kid_id k <> SLOT_RAM -> fresh_count (in_nvm (hy_ks Y) k) (in_nvm K k))).
    { intros f N1 V. split; [|intros _; rewrite N1; apply fresh_refl]. destruct V as [V|V].
      - revert H. apply coh_ext; auto.
      - intros s VS. change (copy C K i0 k = Some s) in VS. congruence. }
    destruct ev as [i client e q|e q|client e q|x|]; cbn [hy_ks].
    + cbn [sys_step] in E. destruct (kstep e client q (at_ Y i)) as [r S1] eqn:E1. injection E as <- <-. destruct (O i) as [W G].
      destruct (kstep_she _ _ _ _ _ _ _ W G T E1) as [F|(kek & b & m & d & Q & N1 & U & V & CT)].
      * destruct (Bool.bool_dec (is_global C k) true) as [GL|GL]; [|apply Bool.not_true_is_false in GL; destruct (Nat.eq_dec i i0) as [->|NE]].
        -- split; [|intros _; change (fresh_count (nv (at_ Y i) k) (nv S1 k)); cbv beta; rewrite (proj1 F); apply fresh_refl].
           apply (coh_ext S1); [apply (vw_put Y i S1 (hy_she Y)); auto|reflexivity|]. eapply coh_fr; [|exact F]. apply (same_cell _ i i0); auto.
        -- split; [|intros _; change (fresh_count (nv (at_ Y i0) k) (nv S1 k)); cbv beta; rewrite (proj1 F); apply fresh_refl].
           apply (coh_ext S1); [apply (vw_put Y i0 S1 (hy_she Y)); auto|reflexivity|]. eapply coh_fr; [|exact F]. auto.
        -- apply (ST (hy_she Y)); [apply F|]. left. apply (vw_put_other Y i S1 (hy_she Y)); auto.
      * assert (UC : coh S1 k).
        { intros s VS. rewrite V in VS. injection VS as <-. cbn [sl_comm sl_meta]. split; [discriminate|]. intros m0 d0 _ E0. apply (CT m0 d0). rewrite <- N1. exact E0. }
        destruct (Bool.bool_dec (is_global C k) true) as [GL|GL]; [|apply Bool.not_true_is_false in GL; destruct (Nat.eq_dec i i0) as [->|NE]].
        -- split; [|intros _; change (fresh_count (nv (at_ Y i) k) (nv S1 k)); cbv beta; rewrite N1; apply fresh_refl].
           apply (coh_ext S1); [apply (vw_put Y i S1 (hy_she Y)); auto|reflexivity|auto].
        -- split; [|intros _; change (fresh_count (nv (at_ Y i0) k) (nv S1 k)); cbv beta; rewrite N1; apply fresh_refl].
           apply (coh_ext S1); [apply (vw_put Y i0 S1 (hy_she Y)); auto|reflexivity|auto].
        -- apply (ST (hy_she Y)); [exact N1|]. left. apply (vw_put_other Y i S1 (hy_she Y)); auto.
    + destruct EF as [F V]. apply (ST (hy_she Y)); [|left; apply V]. apply (st_find _ _ _ _ F). exact SO.
    + destruct EF as [F V]. apply (ST (hy_she Y)); [|left; apply V]. apply (st_find _ _ _ _ F). rewrite T. discriminate.
    + destruct EF as [F V]. apply (ST (hy_she Y)); [exact F|]. rewrite V. destruct (_ && _); auto.
    + destruct EF as [F V]. apply (ST (hy_she Y)); [exact F|]. right. apply V.
Qed.
Lemma fresh_trans o1 o2 o3 : fresh_count o1 o2 -> fresh_count o2 o3 -> fresh_count o1 o3.
Proof.
  destruct o1 as [[m1 d1]|]; cbn; auto. intros (m2 & d2 & -> & L1) (m3 & d3 & -> & L2). exists m3, d3. split; auto. eapply N.le_trans; eauto.
Qed.
Lemma coh_run i0 k evs : forall Y, sys_ok C (hy_ks Y) -> kid_type k = KT_SHE -> Forall (sole C i0 k) evs -> coh (at_ Y i0) k ->
  let Y' := after evs Y in
  coh (at_ Y' i0) k /\ (kid_id k <> SLOT_RAM -> fresh_count (in_nvm (hy_ks Y) k) (in_nvm (hy_ks Y') k)).
Proof.
  induction evs as [|ev evs IH]; intros Y O T F H; cbn [hafter].
  { split; [auto|]. intros _. apply fresh_refl. }
  inversion F as [|? ? F1 F2]; subst. destruct (coh_step i0 k ev Y O T F1 H) as [H1 C1].
  pose proof (hstep_ok C crypt pub ots gcm_enc gcm_dec max_read aes cbc_enc cbc_dec cmac use_op ev Y O) as O1.
  destruct (IH _ O1 T F2 H1) as [H2 C2]. split; [auto|]. intros NR. eapply fresh_trans; eauto.
Qed.
Lemma coh_fresh st r b i k : kid_type k = KT_SHE -> coh (at_ (fresh_hsys st r b) i) k.
Proof.
  intros T s V. assert (NZ : k <> 0) by (intros ->; discriminate T). exfalso.
  unfold find_cache, get_ctx, ks_of, fresh_hsys, fresh_sys in V. cbn [hy_ks k_glob k_loc y_glob y_loc] in V.
  destruct (is_global C k); rewrite zero_find in V by auto; discriminate.
Qed.
End Inv.
