(** What key requests answer. *)
From Verif Require Import Base BaseLemmas NvmSpec Flags KeyId Store NvmReqModel NvmReqProof PropertiesKeyId KsModel KsCache KsReq KsEff KsStep KsSys KsSysProof KsSpec KsKeep.
Local Open Scope N_scope.

Section Resp.
Variable C : kscfg.
Variable crypt : cop -> list N -> list N -> Z * list N.
Variable pub : N -> list N -> Z * list N.
Variable ots : list N -> list N -> option (list N * list N).
Variable gcm_enc : list N -> list N -> N -> list N -> option (list N).
Variable gcm_dec : list N -> list N -> N -> list N -> option (list N).
Variable she_count : list N -> N.
Notation vw := (find_cache C).
Notation nv := (fun S => sp_find (k_st S)).
Notation step := (ks_step C crypt pub ots gcm_enc gcm_dec she_count).
Notation fc := (from_client (kc C) KT_CRYPTO).

Definition seen (S : ks) (k : N) : option object :=
  match vw S k with Some s => Some (sl_meta s, sl_buf s) | None => nv S k end.

Lemma crypto_plain k : kid_type k = KT_CRYPTO -> kid_id k <> 0 ->
  kid_unassigned k = false /\ kid_erased k = false /\ hwkey C k = false /\ kid_wrapped k = false.
Proof.
  intros T I. assert (E : kid_erased k = false) by (apply N.eqb_neq; auto).
  split; [apply unassigned_erased; auto|]. split; auto. split.
  - unfold hwkey, kid_hw. rewrite T. apply Bool.andb_false_r.
  - unfold kid_wrapped. rewrite T. reflexivity.
Qed.

(** Reading succeeds on a key that is there. *)
Lemma read_avail S k cap m d : good C S -> kid_unassigned k = false -> hwkey C k = false ->
  seen S k = Some (m, d) -> (vw S k = None -> d <> [] /\ kid_wrapped k = false) -> m_len m <= cap ->
  exists S', read_key C S k cap = (OK, S', m, d).
Proof.
  intros G U HW SE NE L. unfold read_key. rewrite U, HW. unfold seen in SE. apply N.ltb_ge in L.
  destruct (vw S k) as [s|] eqn:V.
  - injection SE as <- <-. rewrite L. eauto.
  - destruct (NE eq_refl) as [ND KW]. rewrite KW. cbv beta in SE. rewrite SE, L.
    rewrite (read_whole _ _ _ _ (proj1 G) (assigned_nz _ U) SE).
    destruct d as [|x d]; [congruence|]. cbn [length]. change (0 <? Datatypes.S (length d))%nat with true. cbv iota.
    change (is_ok OK) with true. cbn [negb].
    destruct (N.eqb (kid_type (m_id m)) KT_SHE && kid_erased (m_id m)); [eauto|].
    destruct (cache_key C false S m (x :: d)) as [rc1 S1]. eauto.
Qed.
Lemma freshen_avail S k m d : wf S -> good C S -> kid_unassigned k = false -> hwkey C k = false ->
  seen S k = Some (m, d) -> (vw S k = None -> d <> [] /\ kid_wrapped k = false) ->
  m_len m <= bufsz C \/ m_len m <= bigsz C ->
  exists rc S', freshen C S k = (rc, S') /\ (rc = NOSPACE \/ (rc = OK /\ exists b, vw S' k = Some (mkSlot m d b))).
Proof.
  intros W G U HW SE NE L. destruct (freshen C S k) as [rc S'] eqn:F. exists rc, S'. split; auto.
  destruct (is_ok rc) eqn:O; [apply is_ok_iff in O|].
  - right. split; auto. subst rc. destruct (freshen_curs _ _ _ _ W G F) as (V & _ & _). rewrite V. unfold curs. unfold seen in SE.
    destruct (vw S k) as [s|] eqn:VS; [injection SE as <- <-; exists (sl_comm s); destruct s; reflexivity|].
    cbv beta in SE. rewrite SE. eauto.
  - left. apply is_ok_false in O. revert F. unfold freshen. rewrite U, HW. unfold seen in SE. destruct (vw S k) as [s|] eqn:V.
    { intros F; injection F as <- _. congruence. }
    destruct (NE eq_refl) as [ND KW]. rewrite KW, nv_meta_find. cbv beta in SE. rewrite SE. change (is_ok OK) with true. cbn [negb fst].
    rewrite (read_whole _ _ _ _ (proj1 G) (assigned_nz _ U) SE).
    destruct d as [|x d]; [congruence|]. cbn [length]. change (0 <? Datatypes.S (length d))%nat with true. cbv iota.
    change (is_ok OK) with true. cbn [negb]. cbv iota.
    destruct (cache_slot C S k (m_len m) (mkSlot m (x :: d) false)) as [rc1 S1] eqn:CS.
    destruct (is_ok rc1) eqn:O1; cbn [negb]; intros F; injection F as <- <-; [congruence|].
    revert CS. unfold cache_slot.
    replace ((bufsz C <? m_len m) && (bigsz C <? m_len m)) with false.
    2:{ symmetry. apply Bool.andb_false_iff. destruct L as [L|L]; [left|right]; apply N.ltb_ge; auto. }
    rewrite HW, V. change (is_ok OK) with true. cbn [negb].
    destruct (alloc C (m_len m) _ _); intros CS; injection CS as <- _; congruence.
Qed.

Definition exportable (m : meta) : Prop := has (m_flags m) F_NONEXPORTABLE = false /\ has (m_flags m) F_TRUSTED = false.
Lemma cur_seen S k m d : seen S k = Some (m, d) -> curm C S k = Some m.
Proof.
  unfold seen, curm, cur. destruct (vw S k) as [s|]; [intros H; injection H as <- _; reflexivity|].
  cbv beta. intros ->. reflexivity.
Qed.

Lemma export_avail e client id S m d : good C S -> v_lock e = OK ->
  kid_type (fc client id) = KT_CRYPTO -> kid_id (fc client id) <> 0 ->
  seen S (fc client id) = Some (m, d) -> (vw S (fc client id) = None -> d <> []) -> m_len m <= exp_max C -> exportable m ->
  fst (step e client (KExport id) S) = mkKr OK 0 (Some m) d.
Proof.
  intros G LK T I SE NE L [X1 X2]. unfold ks_step. rewrite LK. change (is_ok OK) with true. cbn [negb]. unfold h_export.
  destruct (crypto_plain _ T I) as (U & _ & HW & KW). unfold read_key_checked.
  rewrite (check_cases _ _ _ _ U HW), (cur_seen _ _ _ _ SE). cbv zeta. rewrite X1, X2. change (is_ok OK) with true. cbv iota zeta.
  destruct (read_avail S (fc client id) (exp_max C) m d G U HW SE) as [S' ->]; auto.
Qed.

(** A use of a key that is there and allows it. *)
Lemma use_avail e client id o alt u inp S m d : wf S -> good C S -> v_lock e = OK ->
  kid_type (fc client id) = KT_CRYPTO -> kid_id (fc client id) <> 0 ->
  seen S (fc client id) = Some (m, d) -> (vw S (fc client id) = None -> d <> []) ->
  m_len m <= bufsz C \/ m_len m <= bigsz C -> m_len m <= v_cap e ->
  nth_error (usages o) alt = Some u -> enforce (m_flags m) u = OK ->
  let r := fst (step e client (KUse id o alt inp) S) in
  (r_rc r = fst (crypt o inp d) /\ r_data r = snd (crypt o inp d)) \/ (r_rc r = NOSPACE /\ r_data r = []).
Proof.
  intros W G LK T I SE NE L CP NU EN. unfold ks_step. rewrite LK. change (is_ok OK) with true. cbn [negb]. unfold h_use. rewrite NU.
  destruct (crypto_plain _ T I) as (U & UE & HW & KW). destruct (reads_copy o).
  - unfold read_key_enforce. destruct (read_avail S (fc client id) (v_cap e) m d G U HW SE) as [S' ->]; auto.
    change (is_ok OK) with true. cbn [negb]. rewrite EN. change (is_ok OK) with true. cbv iota. cbn [negb].
    destruct (crypt o inp d). cbn [fst snd r_rc r_data]. auto.
  - unfold use_key. rewrite UE. destruct (freshen_avail S (fc client id) m d W G U HW SE) as (rc & S' & -> & [->|[-> [b V]]]); auto.
    change (is_ok OK) with true. cbn [negb]. rewrite V. cbn [sl_meta sl_buf]. rewrite EN. change (is_ok OK) with true. cbv iota. cbn [negb].
    destruct (crypt o inp d). cbn [fst snd r_rc r_data]. auto.
Qed.

(** ** What cache requests answer *)
Lemma cached_resp e client id fl lb d S r S' : wf S -> step e client (KCache id fl lb d) S = (r, S') -> r_rc r = OK ->
  exists k, k <> 0 /\ addr C client id k (nv S k) (vw S k) /\ r_id r = to_client (kc C) k /\ kid_unassigned k = false /\ hwkey C k = false /\
  vw S' k = Some (mkSlot (req_meta k fl (N.of_nat (length d)) lb) d false).
Proof.
  intros W. unfold ks_step. destruct (is_ok (v_lock e)) eqn:LK; cbn [negb].
  2:{ intros H; injection H as <- _. cbn [r_rc rrc]. intros X. apply is_ok_false in LK. contradiction. }
  unfold h_cache. destruct (pick_id C _ S (fc client id)) as [rc k] eqn:P. destruct (is_ok rc) eqn:O; cbn [negb].
  2:{ intros H; injection H as <- _. cbn [r_rc rrc]. intros X. apply is_ok_false in O. contradiction. }
  apply is_ok_iff in O. destruct (pick_addr C pub _ S client id _ _ (unassigned_is_erased pub (fc client id)) (fun x => x) P O) as [NZ AD].
  destruct (cache_key C true S _ d) as [rc1 S1] eqn:E. destruct (cache_key_eff _ _ _ _ _ _ _ W E) as [(_ & _ & K & _) K2].
  destruct (is_ok rc1) eqn:O1; intros H; injection H as <- <-; cbn [r_rc rrc r_id].
  - intros _. apply is_ok_iff in O1. exists k. destruct (K2 O1) as (U & HW & _). cbn [req_meta m_id] in U, HW, K. destruct (K O1) as [_ V].
    split; [auto|]. split; [auto|]. split; [auto|]. split; [auto|]. split; [auto|]. exact V.
  - intros X. apply is_ok_false in O1. contradiction.
Qed.
Lemma addr_parts client id k n o : addr C client id k n o ->
  kid_type k = kid_type (fc client id) /\ kid_user k = kid_user (fc client id) /\ k < 65536.
Proof.
  intros [[_ ->]|(_ & _ & _ & _ & _ & i & L & ->)].
  - split; [auto|]. split; [auto|]. apply fc_lt.
  - split; [apply mk_type, kid_type_lt|]. split; [apply mk_user, kid_user_lt|]. apply mk_lt.
Qed.
(** The id answered names the key. *)
Lemma addr_roundtrip client id k n o : 1 <= client <= 15 -> kid_type (fc client id) = KT_CRYPTO -> addr C client id k n o ->
  fc client (to_client (kc C) k) = k.
Proof.
  intros HC T A. destruct (addr_parts _ _ _ _ _ A) as (T1 & U1 & L). apply C14_server_round_trip; auto.
  - left. congruence.
  - rewrite U1, from_client_mk. rewrite mk_user; [|destruct (means_global (kc C) id); lia].
    destruct (means_global (kc C) id) eqn:GL; auto. right. split; auto. unfold means_global in GL.
    apply Bool.andb_true_iff in GL. tauto.
Qed.

(** What a successful request that creates a key leaves in the cache. *)
Definition put_value (e : kenv) (q : kreq) (k : N) : option slot :=
  match q with
  | KCache _ fl lb d => Some (mkSlot (req_meta k fl (N.of_nat (length d)) lb) d false)
  | KCacheRandom _ fl len lb => Some (mkSlot (req_meta k fl len lb) (exactly (N.to_nat len) (v_rngd e)) false)
  | KCacheDma _ fl sz lb => Some (mkSlot (req_meta k fl (N.land sz 65535) lb) (exactly (N.to_nat (N.land sz 65535)) (v_mem e)) false)
  | KImport _ fl lb _ => Some (mkSlot (req_meta k fl (N.of_nat (length (v_rngd e))) lb) (v_rngd e) false)
  | KSignGen _ fl lb =>
      let m := req_meta k fl (N.of_nat (length (v_rngd e))) lb in
      Some (mkSlot (with_flags m (setf (m_flags m) F_NONEXPORTABLE)) (v_rngd e) true)
  | _ => None
  end.
Lemma put_resp e client q id S r S' : wf S -> good C S -> put_id q = Some id -> step e client q S = (r, S') -> r_rc r = OK ->
  exists k, k <> 0 /\ addr C client id k (nv S k) (vw S k) /\ r_id r = to_client (kc C) k /\ vw S' k = put_value e q k /\ put_value e q k <> None.
Proof.
  intros W G PQ. unfold ks_step. destruct (is_ok (v_lock e)) eqn:LK; cbn [negb].
  2:{ intros H; injection H as <- _. cbn [r_rc rrc]. intros X. apply is_ok_false in LK. contradiction. }
  assert (NOK : forall rc S0, is_ok rc = false -> (rrc rc, S0) = (r, S') -> r_rc r = OK -> False).
  { intros rc S0 E H O. injection H as <- _. cbn [rrc r_rc] in O. apply is_ok_false in E. contradiction. }
  destruct q; try discriminate; injection PQ as ->; cbn [put_value].
  - unfold h_cache. destruct (pick_id C _ S (fc client id)) as [rc k] eqn:P. destruct (is_ok rc) eqn:O; cbn [negb]; [|intros; exfalso; eauto].
    apply is_ok_iff in O. destruct (pick_addr C pub _ S client id _ _ (unassigned_is_erased pub (fc client id)) (fun x => x) P O) as [NZ AD].
    destruct (cache_key C true S _ _) as [rc1 S1] eqn:E. destruct (cache_key_eff _ _ _ _ _ _ _ W E) as [(_ & _ & K & _) _].
    destruct (is_ok rc1) eqn:O1; [|intros; exfalso; eauto]. intros H _; injection H as <- <-. apply is_ok_iff in O1.
    exists k. split; [auto|]. split; [auto|]. split; [reflexivity|]. split; [apply (K O1)|discriminate].
  - unfold h_cache_random. destruct (pick_id C _ S (fc client id)) as [rc k] eqn:P. destruct (is_ok rc) eqn:O; cbn [negb]; [|intros; exfalso; eauto].
    apply is_ok_iff in O. destruct (pick_addr C pub _ S client id _ _ (fun x => x) (unassigned_erased _) P O) as [NZ AD].
    destruct (cache_random C S _ _ _) as [rc1 S1] eqn:E. destruct (cache_random_eff _ _ _ _ _ _ _ W E) as [(_ & _ & K & _) _].
    destruct (is_ok rc1) eqn:O1; [|intros; exfalso; eauto]. intros H _; injection H as <- <-. apply is_ok_iff in O1.
    exists k. split; [auto|]. split; [auto|]. split; [reflexivity|]. split; [apply (K O1)|discriminate].
  - unfold h_cache_dma. destruct (pick_id C _ S (fc client id)) as [rc k] eqn:P. destruct (is_ok rc) eqn:O; cbn [negb]; [|intros; exfalso; eauto].
    apply is_ok_iff in O. destruct (pick_addr C pub _ S client id _ _ (unassigned_is_erased pub (fc client id)) (fun x => x) P O) as [NZ AD].
    cbv zeta. destruct (cache_dma C S _ _ _) as [rc1 S1] eqn:E. destruct (cache_dma_eff C S (req_meta k flags (N.land sz 65535) label) _ _ _ _ W NZ E) as [(_ & _ & K & _) _].
    destruct (is_ok rc1) eqn:O1; [|intros; exfalso; eauto]. intros H _; injection H as <- <-. apply is_ok_iff in O1.
    exists k. split; [auto|]. split; [auto|]. split; [reflexivity|]. split; [apply (K O1)|discriminate].
  - unfold h_import. destruct (pick_id C _ S (fc client id)) as [rc k] eqn:P. destruct (is_ok rc) eqn:O; cbn [negb]; [|intros; exfalso; eauto].
    apply is_ok_iff in O. destruct (pick_addr C pub _ S client id _ _ (fun x => x) (unassigned_erased _) P O) as [NZ AD].
    cbv zeta. destruct (import_key C S _ _ _ _) as [rc1 S1] eqn:E. destruct (import_key_eff _ _ _ _ _ _ _ _ W E) as [(_ & _ & K & _) _].
    destruct (is_ok rc1) eqn:O1; [|intros; exfalso; eauto]. intros H _; injection H as <- <-. apply is_ok_iff in O1.
    exists k. split; [auto|]. split; [auto|]. split; [reflexivity|]. split; [apply (K O1)|discriminate].
  - unfold h_sign_gen. destruct (has flags F_EPHEMERAL). { intros H; injection H as <- _. discriminate. }
    destruct (pick_id C _ S (fc client id)) as [rc k] eqn:P. destruct (is_ok rc) eqn:O; cbn [negb]; [|intros; exfalso; eauto].
    apply is_ok_iff in O. destruct (pick_addr C pub _ S client id _ _ (fun x => x) (unassigned_erased _) P O) as [NZ AD].
    cbv zeta. set (d := v_rngd e). set (m := with_flags _ _).
    destruct (cache_slot_checked C S k (bigsz C) _) as [rc1 S1] eqn:E.
    destruct (is_ok rc1) eqn:O1; cbn [negb]; [|intros; exfalso; eauto].
    destruct (is_ok (v_rng e)) eqn:R; cbn [negb]; [|intros; exfalso; eauto].
    apply is_ok_iff in O1. destruct (cache_slot_checked_eff C S k (bigsz C) (mkSlot m d false) _ _ W NZ (or_introl eq_refl) E) as (W1 & T1 & K & _ & FR).
    destruct (K O1) as [_ V1]. unfold sl_id in V1. change (m_id (sl_meta (mkSlot m d false))) with k in V1. rewrite N.eqb_refl in V1.
    assert (G1 : good C S1).
    { apply (good_same C S S1 G T1). intros j s NJ V. destruct (N.eq_dec j k) as [->|NE].
      - right. rewrite V1 in V. injection V as <-. reflexivity.
      - destruct (FR j NJ NE) as [X|[X _]]; [left; congruence|congruence]. }
    destruct (commit_key C (v_nvm e) S1 k) as [rc2 S2] eqn:CM. destruct (commit_eff _ _ _ _ _ _ W1 G1 CM) as (_ & _ & K2 & _).
    destruct (is_ok rc2) eqn:R2; [|intros; exfalso; eauto]. intros H _; injection H as <- <-. apply is_ok_iff in R2.
    destruct (K2 R2) as (_ & _ & _ & _ & s & V & _ & V2). rewrite V1 in V. injection V as <-.
    exists k. split; [auto|]. split; [auto|]. split; [reflexivity|]. split; [exact V2|discriminate].
Qed.
End Resp.
