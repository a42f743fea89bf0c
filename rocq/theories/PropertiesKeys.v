(** Properties C22, C23, C24, C25, C26 and C53: what happens to keys in the
    cache and in NVM.

    The device is the key system of KsSys.v: any number of server contexts, each
    with its own key cache, sharing NVM and the global key cache; a history is
    any interleaving of key, crypto, NVM and counter requests of any clients
    with resets.  KsSpec.v has the vocabulary: [cached], [in_nvm], [key_now],
    [key_of], [replaces], [evicts], [commits], [nvm_writes]. *)
From Verif Require Import Base BaseLemmas NvmSpec Flags KeyId Store NvmReqModel NvmReqProof CounterModel PropertiesKeyId
  KsModel KsCache KsReq KsEff KsStep KsSys KsSysProof KsSpec KsKeep KsResp.
Local Open Scope N_scope.

Section Props.
Variable C : kscfg.
Variable crypt : cop -> list N -> list N -> Z * list N.
Variable pub : N -> list N -> Z * list N.
Variable ots : list N -> list N -> option (list N * list N).
Variable gcm_enc : list N -> list N -> N -> list N -> option (list N).
Variable gcm_dec : list N -> list N -> N -> list N -> option (list N).
Variable she_count : list N -> N.
Variable mx : nat.
Notation step := (sys_step C crypt pub ots gcm_enc gcm_dec she_count mx).
Notation after := (sys_after C crypt pub ots gcm_enc gcm_dec she_count mx).
Notation ok := (reachable C crypt pub ots gcm_enc gcm_dec she_count mx).
Notation key_of := (key_of C).
Notation cached := (cached C).
Notation key_now := (key_now C).

(** ** C22 *)
(** A request that is not itself for key [k] leaves an uncommitted [k] in the
    cache, whatever it caches, generates, loads or unwraps. *)
Theorem C22_uncommitted_key_kept : forall Y i client e q r Y' k s,
  ok Y -> step (SKey i client e q) Y = (r, Y') ->
  k <> 0 -> cached Y i k = Some s -> sl_comm s = false ->
  ~ replaces C client q k -> ~ evicts C client q k -> ~ commits C client q k ->
  cached Y' i k = Some s /\ in_nvm Y' k = in_nvm Y k.
Proof.
  intros Y i client e q r Y' k s R H NZ V U N1 N2 N3.
  rewrite cached_copy in V |- *.
  destruct (step_effect _ _ _ _ _ _ _ _ _ _ _ _ (reachable_ok _ _ _ _ _ _ _ _ _ R) H) as [_ K]. destruct (K k NZ) as [K1 _].
  rewrite V in K1. destruct (uncommitted_kept _ _ _ _ _ _ _ _ _ K1 U N1 N2 N3) as [A B]. auto.
Qed.

(** When every slot for keys of that size holds an uncommitted key, caching one
    more key and using a key that is only in NVM fail and change nothing. *)
Definition full (l : list slot) : Prop := forall s, In s l -> sl_id s <> 0 /\ sl_comm s = false.
Definition room (S : ks) (k len : N) : list slot :=
  let c := if k_global (kc C) && N.eqb (kid_user k) 0 then k_glob S else k_loc S in
  if len <=? bufsz C then c_reg c else c_big c.

Lemma full_alloc S k len s : full (room S k len) -> alloc C len s (get_ctx C S k) = None.
Proof.
  unfold room, alloc, get_ctx, is_global. intros F.
  destruct (_ && _), (len <=? bufsz C); rewrite (proj2 (place_none _ _)); auto; apply Forall_forall; exact F.
Qed.
Lemma full_slot S k len s : full (room S k len) -> find_cache C S k = None -> hwkey C k = false ->
  len <= bufsz C \/ len <= bigsz C -> cache_slot C S k len s = (NOSPACE, S).
Proof.
  intros F V HW L. unfold cache_slot.
  replace ((bufsz C <? len) && (bigsz C <? len)) with false.
  2:{ symmetry. apply Bool.andb_false_iff. destruct L as [L|L]; [left|right]; apply N.ltb_ge; auto. }
  rewrite HW, V. change (is_ok OK) with true. cbn [negb]. rewrite (full_alloc S k len s F). reflexivity.
Qed.
Notation kstep := (ks_step C crypt pub ots gcm_enc gcm_dec she_count).
Theorem C22_full_cache_refuses : forall S client e id fl lb d k,
  v_lock e = OK -> key_of client id = k -> kid_type k = KT_CRYPTO -> kid_id k <> 0 ->
  find_cache C S k = None -> sp_find (k_st S) k = None -> stateful_blob d = false ->
  N.of_nat (length d) <= bufsz C \/ N.of_nat (length d) <= bigsz C ->
  full (room S k (N.of_nat (length d))) ->
  kstep e client (KCache id fl lb d) S = (rrc NOSPACE, S).
Proof.
  intros S client e id fl lb d k LK <- T I V NV SB L F. unfold ks_step. rewrite LK. change (is_ok OK) with true. cbn [negb].
  unfold h_cache. unfold KsSpec.key_of in *. destruct (crypto_plain C _ T I) as (U & _ & HW & KW). rewrite U. cbn [pick_id].
  unfold pick_id. change (is_ok OK) with true. cbn [negb]. unfold cache_key. cbn [req_meta m_id m_len]. rewrite U, SB, HW, Bool.andb_false_r.
  replace (too_big C (N.of_nat (length d))) with false.
  2:{ symmetry. unfold too_big. apply Bool.andb_false_iff. destruct L as [L|L]; [left|right]; apply N.ltb_ge; auto. }
  cbn [orb]. unfold cache_slot_checked. rewrite (check_cases _ _ _ _ U HW). unfold curm, cur. rewrite V, NV. cbn [option_map].
  change (fatal NOTFOUND) with false. cbv iota. rewrite (full_slot _ _ _ _ F V HW L). reflexivity.
Qed.
Theorem C22_full_cache_refuses_load : forall S client e id o alt u inp k m d,
  good C S -> v_lock e = OK -> key_of client id = k -> kid_type k = KT_CRYPTO -> kid_id k <> 0 ->
  find_cache C S k = None -> sp_find (k_st S) k = Some (m, d) -> d <> [] ->
  m_len m <= bufsz C \/ m_len m <= bigsz C -> full (room S k (m_len m)) ->
  nth_error (usages o) alt = Some u -> reads_copy o = false ->
  kstep e client (KUse id o alt inp) S = (rrc NOSPACE, S).
Proof.
  intros S client e id o alt u inp k m d G LK <- T I V NV ND L F NU RC. unfold ks_step. rewrite LK. change (is_ok OK) with true. cbn [negb].
  unfold h_use. unfold KsSpec.key_of in *. rewrite NU, RC. destruct (crypto_plain C _ T I) as (U & UE & HW & KW). unfold use_key. rewrite UE.
  unfold freshen. rewrite U, HW, V, KW, nv_meta_find, NV. cbn [fst]. change (is_ok OK) with true. cbn [negb].
  destruct (sp_read _ _ _ _) as [rr d']. rewrite (full_slot _ _ _ _ F V HW L). reflexivity.
Qed.

(** ** C23 *)
(** After a successful commit of a key, whatever happens short of a request that
    replaces, changes or erases that key (in particular evictions, resets and
    cache pressure): NVM holds its metadata and bytes, and that is what the
    server context sees. *)
Definition leaves_key (i : nat) (k : N) (ev : sev) : Prop :=
  match ev with
  | SKey i' client e q => ~ replaces C client q k /\
      (commits C client q k -> i' = i \/ (k_global (kc C) = true /\ kid_user k = 0))
  | SNvm _ q => ~ nvm_writes q k
  | _ => True
  end.
Lemma leaves_same i k ev : leaves_key i k ev -> leaves C i k ev.
Proof.
  destruct ev; cbn [leaves_key leaves]; auto. intros [A B]. split; auto. intros X. destruct (B X) as [->|[E1 E2]]; auto.
  right. unfold is_global. rewrite E1, E2. reflexivity.
Qed.

Lemma commit_now Y i client e id r Y' : ok Y -> step (SKey i client e (KCommit id)) Y = (Some r, Y') -> r_rc r = OK ->
  kid_type (key_of client id) = KT_CRYPTO ->
  kid_id (key_of client id) <> 0 /\ exists m d, key_now Y i (key_of client id) = Some (m, d) /\ durable C Y' i (key_of client id) m d.
Proof.
  intros R H O T. destruct (reachable_ok _ _ _ _ _ _ _ _ _ R i) as [W G]. cbn [sys_step] in H. unfold ks_step in H.
  destruct (is_ok (v_lock e)) eqn:LK; cbn [negb] in H.
  2:{ injection H as <- _. cbn [rrc r_rc] in O. apply is_ok_false in LK. contradiction. }
  destruct (commit_checked C (v_nvm e) (ks_of Y i) (from_client (kc C) KT_CRYPTO client id)) as [rc S'] eqn:E.
  injection H as <- <-. cbn [rrc r_rc fst] in O. revert E. unfold commit_checked.
  destruct (is_ok (check_ks C OpCommit (ks_of Y i) _)) eqn:P.
  2:{ intros E; injection E as <- _. apply is_ok_false in P. contradiction. }
  intros E. destruct (commit_eff _ _ _ _ _ _ W G E) as (_ & _ & K & _). destruct (K O) as (U & _ & _ & _ & s & V & N1 & V1).
  change (from_client (kc C) KT_CRYPTO client id) with (key_of client id) in *.
  split.
  { intros Z. unfold kid_unassigned, kid_erased in U. rewrite Z, T in U. discriminate. }
  exists (sl_meta s), (sl_buf s). unfold KsSpec.key_now. rewrite cached_copy. unfold copy. rewrite V. split; auto.
  unfold durable, stored, copy. rewrite ks_put. split; [exact N1|]. right. exact V1.
Qed.
Lemma durable_now Y i k m d : durable C Y i k m d -> in_nvm Y k = Some (m, d) /\ key_now Y i k = Some (m, d).
Proof.
  intros [A B]. split; [exact A|]. unfold KsSpec.key_now. rewrite cached_copy. destruct B as [->| ->]; auto.
Qed.
Lemma now_seen Y i k : key_now Y i k = seen C (ks_of Y i) k.
Proof. unfold KsSpec.key_now, seen. rewrite cached_copy. reflexivity. Qed.

Theorem C23_committed_key_durable : forall Y i client e id r Y1 evs,
  ok Y -> step (SKey i client e (KCommit id)) Y = (Some r, Y1) -> r_rc r = OK ->
  let k := key_of client id in
  kid_type k = KT_CRYPTO -> Forall (leaves_key i k) evs ->
  exists m d, key_now Y i k = Some (m, d) /\
    in_nvm (after evs Y1) k = Some (m, d) /\ key_now (after evs Y1) i k = Some (m, d).
Proof.
  intros Y i client e id r Y1 evs R H O k T F. destruct (commit_now _ _ _ _ _ _ _ R H O T) as (_ & m & d & V & D).
  exists m, d. split; auto.
  pose proof (reachable_ok _ _ _ _ _ _ _ _ _ (reachable_step _ _ _ _ _ _ _ _ _ _ _ _ R H)) as O1.
  assert (F' : Forall (leaves C i k) evs) by (eapply Forall_impl; [|exact F]; intros; apply leaves_same; auto).
  destruct (durable_run C crypt pub ots gcm_enc gcm_dec she_count mx i k m d evs Y1 T F' O1 D) as [_ D']. apply durable_now; auto.
Qed.
(** … and the client can read it back: an export of an exportable key of at
    least one byte answers with that metadata and those bytes. *)
Theorem C23_committed_key_readable : forall Y i client e id r Y1 evs client2 id2 e2 m d,
  ok Y -> step (SKey i client e (KCommit id)) Y = (Some r, Y1) -> r_rc r = OK ->
  let k := key_of client id in
  kid_type k = KT_CRYPTO -> Forall (leaves_key i k) evs -> key_now Y i k = Some (m, d) ->
  key_of client2 id2 = k -> v_lock e2 = OK -> d <> [] -> N.of_nat (length d) <= exp_max C ->
  has (m_flags m) F_NONEXPORTABLE = false -> has (m_flags m) F_TRUSTED = false ->
  fst (step (SKey i client2 e2 (KExport id2)) (after evs Y1)) = Some (mkKr OK 0 (Some m) d).
Proof.
  intros Y i client e id r Y1 evs client2 id2 e2 m d R H O k T F V K2 LK ND L X1 X2.
  destruct (commit_now _ _ _ _ _ _ _ R H O T) as (ID & m' & d' & V' & D).
  change (key_of client id) with k in ID, V', D. rewrite V in V'. injection V' as <- <-.
  pose proof (reachable_ok _ _ _ _ _ _ _ _ _ (reachable_step _ _ _ _ _ _ _ _ _ _ _ _ R H)) as O1.
  assert (F' : Forall (leaves C i k) evs) by (eapply Forall_impl; [|exact F]; intros; apply leaves_same; auto).
  destruct (durable_run C crypt pub ots gcm_enc gcm_dec she_count mx i k m d evs Y1 T F' O1 D) as [O2 D'].
  destruct (durable_now _ _ _ _ _ D') as [NV KN]. rewrite now_seen in KN.
  destruct (O2 i) as [W2 G2].
  assert (ML : m_len m = N.of_nat (length d)) by exact (proj1 G2 k m d (k_nz _ T) NV).
  cbn [sys_step]. unfold KsSpec.key_of in K2.
  pose proof (export_avail C crypt pub ots gcm_enc gcm_dec she_count e2 client2 id2 (ks_of (after evs Y1) i) m d G2 LK) as X.
  rewrite K2 in X. specialize (X T ID KN (fun _ => ND) ltac:(lia) (conj X1 X2)).
  destruct (ks_step _ _ _ _ _ _ _ e2 client2 (KExport id2) _) as [r2 S2]. cbn [fst] in *. congruence.
Qed.

(** ** C24 *)
(** Events that neither change key [k] nor empty the cache it is in. *)
Definition leaves_cached_key (i : nat) (k : N) (ev : sev) : Prop :=
  let same_cache i' := i' = i \/ (k_global (kc C) = true /\ kid_user k = 0) in
  match ev with
  | SKey i' client e q => ~ replaces C client q k /\ (commits C client q k -> same_cache i') /\ (evicts C client q k -> ~ same_cache i')
  | SNvm _ q => ~ nvm_writes q k
  | SServer i' => ~ (i' = i /\ ~ (k_global (kc C) = true /\ kid_user k = 0))
  | SReset => False
  | SCounter _ _ _ => True
  end.
Lemma global_iff k : is_global C k = true <-> k_global (kc C) = true /\ kid_user k = 0.
Proof. unfold is_global. rewrite Bool.andb_true_iff, N.eqb_eq. tauto. Qed.
Lemma leaves_cached_same i k ev : leaves_cached_key i k ev -> leaves_cached C i k ev.
Proof.
  unfold leaves_cached. destruct ev; cbn [leaves_cached_key leaves]; try tauto.
  - intros (A & B & D). split; [split; [exact A|]|].
    + intros X. destruct (B X) as [E|E]; auto. right. apply global_iff; auto.
    + intros X. specialize (D X). split; [intros E; apply D; auto|]. apply Bool.not_true_is_false. intros E. apply D. right. apply global_iff; auto.
  - intros X. split; auto. destruct (Nat.eq_dec i0 i); auto. right.
    destruct (is_global C k) eqn:E; auto. exfalso. apply X. split; auto. intros Y. apply global_iff in Y. congruence.
Qed.

(** The metadata a cache request asks for: its id, any access, its flags
    without the server-only ones, the length, the label padded to 24 bytes. *)
Definition asked_meta (k fl : N) (lb d : list N) : meta :=
  mkMeta k 65535 (N.ldiff (N.land fl 65535) F_TRUSTED) (N.of_nat (length d)) (firstn 24 (lb ++ repeat 0 24)).
(** The key a request asks for: the bytes are those in the request, in client
    memory, or drawn from the random number generator. *)
Definition asked_key (e : kenv) (q : kreq) (k : N) : option (meta * list N) :=
  let key fl lb d := Some (asked_meta k fl lb d, d) in
  match q with
  | KCache _ fl lb d => key fl lb d
  | KCacheRandom _ fl n lb => key fl lb (exactly (N.to_nat n) (v_rngd e))
  | KCacheDma _ fl sz lb => if sz <? 65536 then key fl lb (exactly (N.to_nat sz) (v_mem e)) else None
  | KImport _ fl lb _ => key fl lb (v_rngd e)
  | _ => None
  end.
Lemma ex_len n l : length (exactly n l) = n.
Proof. unfold exactly. rewrite firstn_length, app_length, repeat_length. lia. Qed.
Lemma asked_put e q k m d : asked_key e q k = Some (m, d) -> put_value e q k = Some (mkSlot m d false).
Proof.
  destruct q; try discriminate; cbn [asked_key put_value].
  - intros H. injection H as <- <-. reflexivity.
  - intros H. injection H as <- <-. unfold asked_meta, req_meta, mk_label. rewrite ex_len, N2Nat.id. reflexivity.
  - destruct (N.ltb_spec sz 65536) as [L|L]; [|discriminate]. intros H. injection H as <- <-.
    change 65535 with (N.ones 16). rewrite N.land_ones, N.mod_small by exact L.
    unfold asked_meta, req_meta, mk_label. rewrite ex_len, N2Nat.id. reflexivity.
  - intros H. injection H as <- <-. reflexivity.
Qed.
Lemma asked_id e q k m d : asked_key e q k = Some (m, d) -> exists id, put_id q = Some id.
Proof. destruct q; try discriminate; cbn [put_id]; eauto. Qed.

Theorem C24_cached_key_stays : forall Y i client e q id r Y1,
  ok Y -> step (SKey i client e q) Y = (Some r, Y1) -> r_rc r = OK -> put_id q = Some id ->
  1 <= client <= 15 -> kid_type (key_of client id) = KT_CRYPTO ->
  let k := key_of client (r_id r) in
  kid_type k = KT_CRYPTO /\ kid_id k <> 0 /\ kid_user k = kid_user (key_of client id) /\
  (kid_id (key_of client id) <> 0 -> k = key_of client id) /\
  forall m d evs, asked_key e q k = Some (m, d) -> Forall (leaves_cached_key i k) evs -> key_now (after evs Y1) i k = Some (m, d).
Proof.
  intros Y i client e q id r Y1 R H O PQ HC T.
  pose proof (reachable_ok _ _ _ _ _ _ _ _ _ (reachable_step _ _ _ _ _ _ _ _ _ _ _ _ R H)) as O1.
  destruct (reachable_ok _ _ _ _ _ _ _ _ _ R i) as [W G]. cbn [sys_step] in H.
  destruct (ks_step _ _ _ _ _ _ _ e client q (ks_of Y i)) as [r0 S1] eqn:E. injection H as <- <-.
  destruct (put_resp C crypt pub ots gcm_enc gcm_dec she_count _ _ _ _ _ _ _ W G PQ E O) as (k & NZ & AD & ID & V & _).
  unfold KsSpec.key_of in *. rewrite ID. rewrite (addr_roundtrip C pub client id k _ _ HC T AD).
  destruct (addr_parts _ _ _ _ _ _ AD) as (T1 & U1 & _). cbv zeta. rewrite T1. split; [exact T|]. split.
  { destruct AD as [[A B]|(_ & _ & _ & _ & _ & x & L & ->)].
    - intros Z. rewrite <- B in A. unfold kid_unassigned, kid_erased in A. rewrite Z, T1, T in A. discriminate.
    - rewrite mk_id, N.mod_small by lia. lia. }
  split; [exact U1|]. split.
  { intros NZ'. destruct AD as [[_ A]|(A & _)]; auto. unfold kid_erased in A. apply N.eqb_eq in A. contradiction. }
  intros m d evs AK F. assert (F' : Forall (leaves_cached C i k) evs) by (eapply Forall_impl; [|exact F]; intros; apply leaves_cached_same; auto).
  assert (HD : holds C (put_ks Y i S1) i k m d).
  { left. unfold copy. rewrite ks_put, V. apply asked_put; auto. }
  assert (TK : kid_type k = KT_CRYPTO) by congruence.
  destruct (holds_run C crypt pub ots gcm_enc gcm_dec she_count mx i k _ d evs _ TK F' O1 HD) as [_ [V2|[N2 [V2|V2]]]];
    unfold KsSpec.key_now; rewrite cached_copy, V2; auto.
Qed.
(** What the server context sees is what an export answers … *)
Theorem C24_seen_is_exported : forall Y i client e id k m d,
  ok Y -> key_of client id = k -> kid_type k = KT_CRYPTO -> kid_id k <> 0 -> key_now Y i k = Some (m, d) -> d <> [] ->
  v_lock e = OK -> N.of_nat (length d) <= exp_max C ->
  has (m_flags m) F_NONEXPORTABLE = false -> has (m_flags m) F_TRUSTED = false ->
  fst (step (SKey i client e (KExport id)) Y) = Some (mkKr OK 0 (Some m) d).
Proof.
  intros Y i client e id k m d R <- T I KN ND LK L X1 X2. destruct (reachable_ok _ _ _ _ _ _ _ _ _ R i) as [W G].
  rewrite now_seen in KN. cbn [sys_step].
  assert (ML : m_len m = N.of_nat (length d)).
  { unfold seen in KN. destruct (find_cache C (ks_of Y i) (key_of client id)) as [s|] eqn:V.
    - injection KN as <- <-. apply (proj2 G _ _ (k_nz _ T) V).
    - apply (proj1 G _ _ _ (k_nz _ T) KN). }
  pose proof (export_avail C crypt pub ots gcm_enc gcm_dec she_count e client id (ks_of Y i) m d G LK T I KN (fun _ => ND) ltac:(lia) (conj X1 X2)) as X.
  destruct (ks_step _ _ _ _ _ _ _ e client (KExport id) _) as [r2 S2]. cbn [fst] in *. congruence.
Qed.
(** … and what a crypto operation computes with (unless the cache has no slot
    left to load the key into). *)
Theorem C24_seen_is_used : forall Y i client e id k m d o alt u inp,
  ok Y -> key_of client id = k -> kid_type k = KT_CRYPTO -> kid_id k <> 0 -> key_now Y i k = Some (m, d) -> d <> [] ->
  v_lock e = OK -> N.of_nat (length d) <= bufsz C \/ N.of_nat (length d) <= bigsz C -> N.of_nat (length d) <= v_cap e ->
  nth_error (usages o) alt = Some u -> enforce (m_flags m) u = OK ->
  exists r, fst (step (SKey i client e (KUse id o alt inp)) Y) = Some r /\
    ((r_rc r = fst (crypt o inp d) /\ r_data r = snd (crypt o inp d)) \/ (r_rc r = NOSPACE /\ r_data r = [])).
Proof.
  intros Y i client e id k m d o alt u inp R <- T I KN ND LK L CP NU EN. destruct (reachable_ok _ _ _ _ _ _ _ _ _ R i) as [W G].
  rewrite now_seen in KN. cbn [sys_step].
  assert (ML : m_len m = N.of_nat (length d)).
  { unfold seen in KN. destruct (find_cache C (ks_of Y i) (key_of client id)) as [s|] eqn:V.
    - injection KN as <- <-. apply (proj2 G _ _ (k_nz _ T) V).
    - apply (proj1 G _ _ _ (k_nz _ T) KN). }
  rewrite <- ML in L, CP.
  pose proof (use_avail C crypt pub ots gcm_enc gcm_dec she_count e client id o alt u inp (ks_of Y i) m d W G LK T I KN (fun _ => ND) L CP NU EN) as X.
  destruct (ks_step _ _ _ _ _ _ _ e client (KUse id o alt inp) _) as [r2 S2]. cbn [fst] in *. eauto.
Qed.

(** ** C25 *)
(** After a successful erase the key is neither in the cache nor in NVM, and
    every other key is as before, in every cache and in NVM. *)
Theorem C25_erased_key_gone : forall Y i client e id r Y',
  ok Y -> step (SKey i client e (KErase id)) Y = (Some r, Y') ->
  let k := key_of client id in
  (r_rc r = OK -> cached Y' i k = None /\ in_nvm Y' k = None) /\
  (forall j i', j <> 0 -> j <> k -> cached Y' i' j = cached Y i' j /\ in_nvm Y' j = in_nvm Y j).
Proof.
  intros Y i client e id r Y' R H k. destruct (reachable_ok _ _ _ _ _ _ _ _ _ R i) as [W G]. cbn [sys_step] in H. unfold ks_step in H.
  destruct (is_ok (v_lock e)) eqn:LK; cbn [negb] in H.
  2:{ injection H as <- <-. split; [intros O; apply is_ok_false in LK; contradiction|]. intros j i' NJ NE. rewrite !cached_copy, copy_put.
      split; auto. destruct (Nat.eqb_spec i' i) as [->|]; auto. cbn [orb]. destruct (is_global C j) eqn:GL; auto.
      symmetry. exact (copy_global C Y i' i j GL). }
  change (from_client (kc C) KT_CRYPTO client id) with k in H.
  destruct (erase_checked C (v_nvm e) (ks_of Y i) k) as [rc S'] eqn:E. injection H as <- <-. cbn [rrc r_rc fst].
  destruct (erase_eff _ _ _ _ _ _ W E) as (_ & _ & K & F). split.
  - intros O. destruct (K O) as (_ & A & B). rewrite cached_copy. unfold copy. rewrite ks_put. auto.
  - intros j i' NJ NE. destruct (F j NJ NE) as [A B]. split; [|exact A]. rewrite !cached_copy, copy_put.
    destruct (Nat.eqb_spec i' i) as [->|]; cbn [orb]; [exact B|]. destruct (is_global C j) eqn:GL; auto.
    rewrite B. exact (copy_global C Y i i' j GL).
Qed.

(** ** C26 *)
(** A request without a key number gets an id that was in use neither in the
    cache nor in NVM, of the kind and owner it asked for; the request can fail
    for want of an id only when all 255 are in use. *)
Theorem C26_allocated_id_fresh : forall Y i client e q id r Y',
  ok Y -> put_id q = Some id -> kid_id (key_of client id) = 0 -> kid_type (key_of client id) = KT_CRYPTO ->
  1 <= client <= 15 ->
  step (SKey i client e q) Y = (Some r, Y') -> r_rc r = OK ->
  let k := key_of client (r_id r) in
  1 <= kid_id k <= 255 /\ kid_type k = KT_CRYPTO /\ kid_user k = kid_user (key_of client id) /\
  cached Y i k = None /\ in_nvm Y k = None /\ cached Y' i k <> None.
Proof.
  intros Y i client e q id r Y' R PQ I0 T HC H O.
  destruct (reachable_ok _ _ _ _ _ _ _ _ _ R i) as [W G]. cbn [sys_step] in H.
  destruct (ks_step _ _ _ _ _ _ _ e client q (ks_of Y i)) as [r0 S1] eqn:E. injection H as <- <-.
  destruct (put_resp C crypt pub ots gcm_enc gcm_dec she_count _ _ _ _ _ _ _ W G PQ E O) as (k & NZ & AD & ID & V & PV).
  unfold KsSpec.key_of in *. rewrite ID. rewrite (addr_roundtrip C pub client id k _ _ HC T AD).
  destruct (addr_parts _ _ _ _ _ _ AD) as (T1 & U1 & _). cbv zeta. rewrite T1, U1, (cached_copy C Y), (cached_copy C (put_ks Y i S1)). unfold copy. rewrite ks_put, V.
  destruct AD as [[A B]|(_ & _ & _ & N1 & V1 & x & L & ->)].
  - exfalso. unfold kid_unassigned, kid_erased in A. rewrite I0, T in A. discriminate.
  - rewrite mk_id, N.mod_small by lia. split; [lia|]. split; [exact T|]. split; [auto|]. split; [auto|]. split; auto.
Qed.
(** A cache request without a key number succeeds as long as one of the 255 ids
    and one slot are free. *)
Theorem C26_succeeds_while_an_id_is_free : forall S client e id fl lb d x,
  v_lock e = OK -> kid_id (key_of client id) = 0 -> kid_type (key_of client id) = KT_CRYPTO ->
  let k x := mk_keyid KT_CRYPTO (kid_user (key_of client id)) x in
  1 <= x <= 255 -> find_cache C S (k x) = None -> sp_find (k_st S) (k x) = None ->
  stateful_blob d = false -> N.of_nat (length d) <= bufsz C \/ N.of_nat (length d) <= bigsz C ->
  ~ full (room S (key_of client id) (N.of_nat (length d))) ->
  r_rc (fst (kstep e client (KCache id fl lb d) S)) = OK.
Proof.
  intros S client e id fl lb d x LK I0 T k L V NV SB SZ NF. unfold ks_step. rewrite LK. change (is_ok OK) with true. cbn [negb].
  unfold h_cache. unfold KsSpec.key_of in *. set (k0 := from_client (kc C) KT_CRYPTO client id) in *.
  assert (UN : kid_unassigned k0 = true).
  { unfold kid_unassigned, kid_erased. rewrite I0, T. reflexivity. }
  rewrite UN. unfold pick_id. destruct (unique_id C S k0) as [rc kk] eqn:P.
  assert (O : rc = OK).
  { destruct (Z.eq_dec rc OK) as [E|E]; auto. exfalso. revert P. unfold unique_id.
    assert (KW : kid_wrapped k0 = false) by (unfold kid_wrapped; rewrite T; reflexivity).
    assert (HW : hwkey C k0 = false) by (unfold hwkey, kid_hw; rewrite T; apply Bool.andb_false_r).
    rewrite KW, HW. intros P. destruct (unique_from_fail _ _ _ _ _ _ _ P E) as [_ F].
    destruct (F (N.to_nat x) ltac:(lia)) as [F1|F1]; rewrite N2Nat.id, T in F1; [|apply F1; exact NV].
    apply F1. unfold find_cache in V. replace (get_ctx C S (k x)) with (get_ctx C S k0) in V; auto.
    unfold get_ctx, k. rewrite mk_global by apply kid_user_lt. reflexivity. }
  subst rc. change (is_ok OK) with true. cbn [negb].
  destruct (unique_id_ok _ _ _ _ P) as (n & LN & E & KW & HW & V1 & N1). rewrite T in E.
  assert (TK : kid_type kk = KT_CRYPTO) by (rewrite E; apply mk_type; reflexivity).
  assert (IK : kid_id kk <> 0) by (rewrite E, mk_id, N.mod_small by lia; lia).
  assert (UK : kid_user kk = kid_user k0) by (rewrite E; apply mk_user, kid_user_lt).
  destruct (crypto_plain C _ TK IK) as (U & _ & HW' & KW'). unfold cache_key. cbn [req_meta m_id m_len]. rewrite U, SB, HW', Bool.andb_false_r.
  replace (too_big C (N.of_nat (length d))) with false.
  2:{ symmetry. unfold too_big. apply Bool.andb_false_iff. destruct SZ as [X|X]; [left|right]; apply N.ltb_ge; auto. }
  cbn [orb]. unfold cache_slot_checked. rewrite (check_cases _ _ _ _ U HW'). unfold curm, cur. rewrite V1, N1. cbn [option_map].
  change (fatal NOTFOUND) with false. cbv iota. unfold cache_slot.
  replace ((bufsz C <? N.of_nat (length d)) && (bigsz C <? N.of_nat (length d))) with false.
  2:{ symmetry. apply Bool.andb_false_iff. destruct SZ as [X|X]; [left|right]; apply N.ltb_ge; auto. }
  rewrite HW', V1. change (is_ok OK) with true. cbn [negb].
  destruct (alloc C _ _ _) as [c|] eqn:AL; [reflexivity|]. exfalso. apply NF.
  revert AL. unfold alloc, room, get_ctx, is_global. rewrite UK.
  destruct (_ && _), (N.of_nat (length d) <=? bufsz C); destruct (place _ _) eqn:PL; try discriminate; intros _;
    apply place_none in PL; intros s IN; rewrite Forall_forall in PL; apply PL; auto.
Qed.

(** ** C53 *)
(** A key request that fails changes nothing in NVM … *)
Lemma failed_st e client q S r S' : wf S -> good C S -> kstep e client q S = (r, S') -> r_rc r <> OK ->
  forall j, j <> 0 -> sp_find (k_st S') j = sp_find (k_st S) j.
Proof.
  intros W G H NO j NJ. pose proof (step_cells C crypt pub ots gcm_enc gcm_dec she_count _ _ _ _ _ _ W G H) as [[_ K] _].
  specialize (K j NJ). cbv beta in K. revert H. unfold ks_step. destruct (is_ok (v_lock e)) eqn:LK; cbn [negb].
  2:{ intros H. injection H as _ <-. reflexivity. }
  destruct q; intros H; try (inversion K; subst; try reflexivity; discriminate).
  - (* commit *) destruct (commit_checked C (v_nvm e) S _) as [rc S1] eqn:E. injection H as <- <-. cbn [rrc r_rc fst snd] in *.
    revert E. unfold commit_checked. destruct (is_ok (check_ks _ _ _ _)); [|intros E; injection E as _ <-; reflexivity].
    intros E. destruct (commit_eff _ _ _ _ _ _ W G E) as (_ & X & _). rewrite (X NO). reflexivity.
  - (* erase *) destruct (erase_checked C (v_nvm e) S _) as [rc S1] eqn:E. injection H as <- <-. cbn [rrc r_rc fst snd] in *.
    revert E. unfold erase_checked. destruct (kid_unassigned _); [intros E; injection E as _ <-; reflexivity|].
    destruct (kid_wrapped _); [intros E; injection E as _ <-; reflexivity|].
    destruct (hwkey _ _); [intros E; injection E as _ <-; reflexivity|].
    destruct (evict_checked C S _) as [rc1 S2] eqn:EV. destruct (evict_checked_eff _ _ _ _ _ W EV) as (_ & T & _).
    destruct (fatal rc1); [intros E; injection E as _ <-; rewrite T; reflexivity|].
    unfold destroy_checked. cbv zeta. destruct (is_ok (destroy_policy _ _)); [|intros E; injection E as _ <-; cbn [set_st k_st]; rewrite T; reflexivity].
    unfold nv_destroy. destruct (is_ok (v_nvm e)) eqn:OKN; intros E; injection E as <- <-; [contradiction|].
    cbn [set_st k_st]. rewrite T. reflexivity.
  - (* revoke *) destruct (revoke_key C (v_nvm e) S _) as [rc S1] eqn:E. injection H as <- <-. cbn [rrc r_rc fst snd] in *.
    revert E. unfold revoke_key. destruct (kid_unassigned _); [intros E; injection E as _ <-; reflexivity|].
    destruct (negb (is_ok (check_ks _ _ _ _))); [intros E; injection E as _ <-; reflexivity|].
    destruct (freshen C S _) as [rc1 S2] eqn:F. destruct (freshen_eff _ _ _ _ _ W G F) as (_ & T & _).
    destruct (negb (is_ok rc1)); [intros E; injection E as _ <-; rewrite T; reflexivity|].
    destruct (find_cache C S2 _) as [s|]; [|intros E; injection E as _ <-; rewrite T; reflexivity].
    destruct (_ && _); [intros E; injection E as <- _; contradiction|].
    destruct (is_ok (fst (nv_meta _ _))); [|intros E; injection E as <- _; contradiction].
    unfold nv_add. destruct (is_ok (v_nvm e)) eqn:OKN; cbv iota.
    + intros E. injection E as <- _. contradiction.
    + rewrite OKN. intros E. injection E as _ <-. rewrite st_set, T. reflexivity.
  - (* key generation *) revert H. unfold h_sign_gen. destruct (has _ _); [intros E; injection E as _ <-; reflexivity|].
    destruct (pick_id _ _ _ _) as [rc k]. destruct (negb (is_ok rc)); [intros E; injection E as _ <-; reflexivity|]. cbv zeta.
    destruct (cache_slot_checked C S k _ _) as [rc1 S1] eqn:E1.
    assert (T : k_st S1 = k_st S).
    { revert E1. unfold cache_slot_checked. destruct (fatal _); [intros E; injection E as _ <-; reflexivity|].
      unfold cache_slot. destruct (_ && _); [intros E; injection E as _ <-; reflexivity|].
      destruct (hwkey _ _); [intros E; injection E as _ <-; reflexivity|].
      assert (X : k_st (snd (match find_cache C S k with Some _ => evict_key C S k | None => (OK, S) end)) = k_st S).
      { destruct (find_cache C S k) eqn:FC; auto. unfold evict_key. destruct (kid_unassigned k); auto. destruct (hwkey C k); auto.
        rewrite FC. cbn [snd]. apply st_set. }
      destruct (match find_cache C S k with Some _ => evict_key C S k | None => (OK, S) end) as [rc2 S2]. cbn [snd] in X.
      destruct (negb (is_ok rc2)); [intros E; injection E as _ <-; auto|].
      destruct (alloc _ _ _ _); intros E; injection E as _ <-; auto. rewrite st_set. auto. }
    destruct (negb (is_ok rc1)); [intros E; injection E as _ <-; rewrite T; reflexivity|].
    destruct (negb (is_ok (v_rng e))); [intros E; injection E as _ <-; rewrite T; reflexivity|].
    unfold commit_key. destruct (kid_unassigned k); [intros E; injection E as _ <-; rewrite T; reflexivity|].
    destruct (kid_wrapped k); [intros E; injection E as _ <-; rewrite T; reflexivity|].
    destruct (hwkey C k); [intros E; injection E as _ <-; rewrite T; reflexivity|].
    destruct (find_cache C S1 k); [|intros E; injection E as _ <-; rewrite T; reflexivity].
    unfold nv_add. destruct (is_ok (v_nvm e)) eqn:OKN; cbv iota; rewrite ?OKN.
    + change (is_ok OK) with true. cbv iota. intros E; injection E as <- _. contradiction.
    + intros E; injection E as _ <-. rewrite T. reflexivity.
  - (* sign *) revert H. unfold h_sign. set (k := from_client _ _ _ _). destruct (kid_erased k); [intros E; injection E as _ <-; reflexivity|].
    set (fin := fun x : kresp * ks => if ev then (fst x, snd (evict_key C (snd x) k)) else x).
    assert (EVS : forall X, k_st (snd (evict_key C X k)) = k_st X).
    { intros X. unfold evict_key. destruct (kid_unassigned k); auto. destruct (hwkey C k); auto. destruct (find_cache C X k); auto.
      cbn [snd]. apply st_set. }
    assert (FIN : forall x, fin x = (r, S') -> fst x = r /\ k_st S' = k_st (snd x)).
    { intros x. unfold fin. destruct ev; intros E.
      - injection E as <- <-. split; auto.
      - rewrite E. auto. }
    destruct (freshen C S k) as [rc1 S1] eqn:F. destruct (freshen_eff _ _ _ _ _ W G F) as (_ & T & _).
    assert (X : forall r0, fin (r0, S1) = (r, S') -> sp_find (k_st S') j = sp_find (k_st S) j).
    { intros r0 E. apply FIN in E as [_ E]. cbn [snd] in E. rewrite E, T. reflexivity. }
    destruct (negb (is_ok rc1)); [apply X|]. destruct (find_cache C S1 k) as [s|]; [|apply X].
    destruct (negb (is_ok (v_dma e))); [apply X|].
    destruct (ots _ _) as [[sg nb]|]; [|apply X]. destruct (_ <? _); [apply X|].
    unfold nv_add. destruct (is_ok (v_nvm e)) eqn:OKN; cbv iota; rewrite ?OKN.
    + change (is_ok OK) with true. cbv iota. intros E. apply FIN in E as [E _]. cbn [fst] in E. subst r. contradiction.
    + intros E. apply FIN in E as [_ E]. cbn [snd] in E. rewrite E, st_set, T. reflexivity.
Qed.
Theorem C53_failed_request_keeps_nvm : forall Y i client e q r Y',
  ok Y -> step (SKey i client e q) Y = (Some r, Y') -> r_rc r <> OK ->
  forall j, j <> 0 -> in_nvm Y' j = in_nvm Y j.
Proof.
  intros Y i client e q r Y' R H NO j NJ. destruct (reachable_ok _ _ _ _ _ _ _ _ _ R i) as [W G]. cbn [sys_step] in H.
  destruct (ks_step _ _ _ _ _ _ _ e client q (ks_of Y i)) as [r0 S1] eqn:E. injection H as <- <-.
  exact (failed_st _ _ _ _ _ _ W G E NO j NJ).
Qed.
(** … and, except for requests that create a key, sign, revoke or erase, and for
    the eviction that a crypto request may ask for, every server context sees
    every key as before. *)
Theorem C53_failed_request_keeps_key_partial : forall Y i client e q r Y',
  ok Y -> step (SKey i client e q) Y = (Some r, Y') -> r_rc r <> OK ->
  match q with
  | KExport _ | KExportDma _ _ | KExportPublic _ _ _ | KEvict _ | KCommit _ | KUse _ _ _ _
  | KWrap _ _ _ | KWrapExport _ _ _ | KUnwrapExport _ _ | KDataWrap _ _ | KDataUnwrap _ _ => True
  | _ => False
  end ->
  forall j s, j <> 0 -> cached Y i j = Some s -> sl_comm s = false -> cached Y' i j = Some s.
Proof.
  intros Y i client e q r Y' R H NO Q j s NJ V U.
  pose proof (C53_failed_request_keeps_nvm _ _ _ _ _ _ _ R H NO j NJ) as NV.
  destruct (reachable_ok _ _ _ _ _ _ _ _ _ R i) as [W G].
  destruct q; try contradiction; try (refine (proj1 (C22_uncommitted_key_kept _ _ _ _ _ _ _ _ _ R H NJ V U _ _ _)); intros X; exact X).
  - (* evict *) cbn [sys_step] in H. unfold ks_step in H. destruct (is_ok (v_lock e)) eqn:LK; cbn [negb] in H.
    2:{ injection H as _ <-. rewrite cached_copy in *. unfold copy in *. rewrite ks_put. exact V. }
    destruct (evict_checked C (ks_of Y i) _) as [rc S1] eqn:E. injection H as <- <-. cbn [rrc r_rc fst snd] in NO.
    destruct (evict_checked_eff _ _ _ _ _ W E) as (_ & _ & X & _). rewrite cached_copy in *. unfold copy in *.
    rewrite ks_put. cbn [snd]. rewrite (X NO). exact V.
  - (* commit *) cbn [sys_step] in H. unfold ks_step in H. destruct (is_ok (v_lock e)) eqn:LK; cbn [negb] in H.
    2:{ injection H as _ <-. rewrite cached_copy in *. unfold copy in *. rewrite ks_put. exact V. }
    destruct (commit_checked C (v_nvm e) (ks_of Y i) _) as [rc S1] eqn:E. injection H as <- <-. cbn [rrc r_rc fst snd] in NO.
    assert (X : S1 = ks_of Y i).
    { revert E. unfold commit_checked. destruct (is_ok (check_ks _ _ _ _)); [|intros E; injection E as _ <-; reflexivity].
      intros E. destruct (commit_eff _ _ _ _ _ _ W G E) as (_ & X & _). apply X; auto. }
    rewrite cached_copy in *. unfold copy in *. rewrite ks_put. cbn [snd]. rewrite X. exact V.
Qed.
End Props.

(** ** Concrete cases *)
Module KeyExamples.
(** Two slots of 8 bytes and one of 32 per cache; toy crypto: the output is key
    and input. *)
Definition cfg : kscfg := mkKs_cfg (mkKcfg true true true) 8 32 true true false 100 32 32 200 196.
Definition toy_crypt (o : cop) (inp d : list N) : Z * list N := (OK, d ++ inp).
Definition toy_pub (a : N) (d : list N) : Z * list N := (OK, firstn 1 d).
Definition toy_ots (d msg : list N) : option (list N * list N) :=
  match d with
  | t :: i :: rest => Some (i :: msg, t :: N.succ i :: rest)
  | _ => None
  end.
Definition toy_enc (k iv : list N) (a : N) (pt : list N) : option (list N) := Some (repeat a 16 ++ pt).
Definition toy_dec (k iv : list N) (a : N) (b : list N) : option (list N) := Some (skipn 16 b).
Definition toy_count (l : list N) : N := nth 0 l 0.
Definition env : kenv := mkKenv OK OK OK [7; 7; 7; 7] OK [5; 6; 7; 8] OK [] 100 (mkEnv OK OK OK OK []).
Definition run evs := sys_run cfg toy_crypt toy_pub toy_ots toy_enc toy_dec toy_count 100 evs (fresh_sys [] 2 1).
Definition req i c q := SKey i c env q.
Notation okY := (reachable cfg toy_crypt toy_pub toy_ots toy_enc toy_dec toy_count 100).
Lemma run_reachable evs : okY (snd (run evs)).
Proof. exists [], 2%nat, 1%nat, evs. split; [intros id m d _ H; discriminate|reflexivity]. Qed.
Definition answer (n : nat) evs := nth n (fst (run evs)) None.
Definition key (c id : N) : N := mk_keyid KT_CRYPTO c id.

(** C22: a second key squeezes nothing out, a third finds the cache full. *)
Definition two_keys := [req 0 1 (KCache 3 0 [] [1; 2; 3]); req 0 1 (KCache 4 0 [] [4; 5])].
Example ex_C22 :
  cached cfg (snd (run two_keys)) 0 (key 1 3) = Some (mkSlot (asked_meta (key 1 3) 0 [] [1; 2; 3]) [1; 2; 3] false) /\
  full (room cfg (ks_of (snd (run two_keys)) 0) (key 1 5) 2) /\
  answer 2 (two_keys ++ [req 0 1 (KCache 5 0 [] [9; 9])]) = Some (rrc NOSPACE).
Proof.
  split; [vm_compute; reflexivity|]. split; [|vm_compute; reflexivity].
  intros s I. vm_compute in I. destruct I as [<-|[<-|[]]]; split; try discriminate; reflexivity.
Qed.

(** C23: cache, commit, evict, reset; the key is still there. *)
Definition commit_hist :=
  [req 0 1 (KCache 3 0 [65] [1; 2; 3]); req 0 1 (KCommit 3); req 0 1 (KEvict 3); req 0 1 (KCache 4 0 [] [9]); SReset;
   req 0 1 (KExport 3)].
Example ex_C23 :
  answer 1 commit_hist = Some (rrc OK) /\
  answer 5 commit_hist = Some (mkKr OK 0 (Some (asked_meta (key 1 3) 0 [65] [1; 2; 3])) [1; 2; 3]) /\
  Forall (leaves_key cfg 0 (key 1 3)) [req 0 1 (KEvict 3); req 0 1 (KCache 4 0 [] [9]); SReset].
Proof.
  split; [vm_compute; reflexivity|]. split; [vm_compute; reflexivity|].
  repeat constructor; try (intros X; vm_compute in X; try discriminate X; contradiction).
Qed.
(** A committed key of no bytes cannot be read back after a reset. *)
Theorem C23_empty_key_refuted : exists evs r1 r2,
  answer 1 evs = Some r1 /\ r_rc r1 = OK /\ answer 3 evs = Some r2 /\ r_rc r2 <> OK /\
  evs = [req 0 1 (KCache 3 0 [] []); req 0 1 (KCommit 3); SReset; req 0 1 (KExport 3)].
Proof. do 3 eexists. repeat split; try (vm_compute; reflexivity). discriminate. Qed.

(** C24: another client, other keys and another server context in between. *)
Definition cache_hist :=
  [req 0 1 (KCache 3 64 [65] [1; 2; 3]); req 1 2 (KCache 3 0 [] [9; 9]); req 0 1 (KCacheRandom 0 0 4 []); req 0 1 (KErase 7);
   req 0 1 (KUse 3 AesDecrypt 0 [8]); req 0 1 (KExport 3)].
Example ex_C24 :
  answer 4 cache_hist = Some (mkKr OK 0 None [1; 2; 3; 8]) /\
  answer 5 cache_hist = Some (mkKr OK 0 (Some (asked_meta (key 1 3) 64 [65] [1; 2; 3])) [1; 2; 3]) /\
  Forall (leaves_cached_key cfg 0 (key 1 3)) (tl cache_hist).
Proof.
  split; [vm_compute; reflexivity|]. split; [vm_compute; reflexivity|].
  repeat (apply Forall_cons; [split; [|split]; intros X; vm_compute in X; (contradiction||discriminate X)|]). constructor.
Qed.
(** The size of a key cached by DMA is cut to 16 bits: a request to cache 65540
    bytes of client memory succeeds and caches 4 bytes. *)
Theorem C24_dma_size_refuted : exists r s,
  answer 0 [req 0 1 (KCacheDma 3 0 65540 [])] = Some r /\ r_rc r = OK /\
  cached cfg (snd (run [req 0 1 (KCacheDma 3 0 65540 [])])) 0 (key 1 3) = Some s /\ length (sl_buf s) = 4%nat.
Proof. do 2 eexists. repeat split; vm_compute; reflexivity. Qed.

(** C25: erase of a committed key. *)
Definition erase_hist := [req 0 1 (KCache 3 0 [] [1; 2; 3]); req 0 1 (KCommit 3); req 0 1 (KCache 4 0 [] [9]); req 0 1 (KErase 3)].
Example ex_C25 :
  answer 3 erase_hist = Some (rrc OK) /\ in_nvm (snd (run (firstn 3 erase_hist))) (key 1 3) <> None /\
  cached cfg (snd (run erase_hist)) 0 (key 1 4) <> None.
Proof. split; [vm_compute; reflexivity|]. split; vm_compute; discriminate. Qed.
(** A second server context connected to the same client id keeps its copy. *)
Theorem C25_other_context_refuted : exists evs r1 r2,
  evs = [req 0 1 (KCache 3 0 [] [1; 2; 3]); req 0 1 (KCommit 3); req 1 1 (KUse 3 RsaGetSize 0 []); req 0 1 (KErase 3); req 1 1 (KExport 3)] /\
  answer 3 evs = Some r1 /\ r_rc r1 = OK /\ answer 4 evs = Some r2 /\ r_rc r2 = OK /\ r_data r2 = [1; 2; 3].
Proof. do 3 eexists. repeat split; vm_compute; reflexivity. Qed.

(** C26: two ids from the server. *)
Definition alloc_hist := [req 0 1 (KCache 0 0 [] [1]); req 0 1 (KCacheRandom 0 0 4 [])].
Example ex_C26 : option_map r_id (answer 0 alloc_hist) = Some 255 /\ option_map r_id (answer 1 alloc_hist) = Some 254.
Proof. split; vm_compute; reflexivity. Qed.

(** C53: a larger key under the same id fails for want of a slot, and the old
    key, never committed, is lost. *)
Theorem C53_failed_cache_loses_key_refuted : exists evs r Y,
  evs = [req 0 1 (KCache 3 0 [] [1; 2; 3]); req 0 1 (KCache 4 0 [] (repeat 1 20)); req 0 1 (KCache 3 0 [] (repeat 2 20))] /\
  cached cfg (snd (run (firstn 2 evs))) 0 (key 1 3) <> None /\
  nth 2 (fst (run evs)) None = Some r /\ r_rc r = NOSPACE /\ Y = snd (run evs) /\ key_now cfg Y 0 (key 1 3) = None.
Proof. do 3 eexists. repeat split; try (vm_compute; reflexivity). vm_compute. discriminate. Qed.
(** … and so it is when a generated key replaces it and the generator fails. *)
Definition bad_rng : kenv := mkKenv OK OK ABORTED [] OK [] OK [] 100 (mkEnv OK OK OK OK []).
Theorem C53_failed_generation_loses_key_refuted : exists evs r,
  evs = [req 0 1 (KCache 3 0 [] [1; 2; 3]); SKey 0 1 bad_rng (KCacheRandom 3 0 4 [])] /\
  nth 1 (fst (run evs)) None = Some r /\ r_rc r <> OK /\ key_now cfg (snd (run evs)) 0 (key 1 3) = None.
Proof. do 2 eexists. repeat split; try (vm_compute; reflexivity). discriminate. Qed.
End KeyExamples.

Print Assumptions C22_uncommitted_key_kept.
Print Assumptions C22_full_cache_refuses.
Print Assumptions C22_full_cache_refuses_load.
Print Assumptions C23_committed_key_durable.
Print Assumptions C23_committed_key_readable.
Print Assumptions C24_cached_key_stays.
Print Assumptions C24_seen_is_exported.
Print Assumptions C24_seen_is_used.
Print Assumptions C25_erased_key_gone.
Print Assumptions C26_allocated_id_fresh.
Print Assumptions C26_succeeds_while_an_id_is_free.
Print Assumptions C53_failed_request_keeps_nvm.
Print Assumptions C53_failed_request_keeps_key_partial.
