(** Export, isolation of clients and use of keys: C21, C27, C28.
    Vocabulary: KsSpec.v. *)
From Verif Require Import Base BaseLemmas NvmSpec Flags KeyId Store NvmReqModel NvmReqProof CounterModel KsModel KsCache KsReq KsEff KsStep KsSys KsSysProof KsSpec KsKeep KsResp KsOnly KsNi KsNiReq KsNiSys PropertiesKeyId PropertiesKeys.
Local Open Scope N_scope.

Section Props.
Variable C : kscfg.
Variable crypt : cop -> list N -> list N -> Z * list N.
Variable pub : N -> list N -> Z * list N.
Variable ots : list N -> list N -> option (list N * list N).
Variable gcm_enc : list N -> list N -> N -> list N -> option (list N).
Variable gcm_dec : list N -> list N -> N -> list N -> option (list N).
Variable she_count : list N -> N.
Variable mx : nat.
Notation step := (sys_step C crypt pub ots gcm_enc gcm_dec she_count mx).
Notation run := (sys_run C crypt pub ots gcm_enc gcm_dec she_count mx).
Notation after := (sys_after C crypt pub ots gcm_enc gcm_dec she_count mx).
Notation ok := (reachable C crypt pub ots gcm_enc gcm_dec she_count mx).
Notation kstep := (ks_step C crypt pub ots gcm_enc gcm_dec she_count).
Notation key_of := (key_of C).
Notation cached := (cached C).
Notation key_now := (key_now C).

Lemma now_copy Y i k : key_now Y i k = match find_cache C (ks_of Y i) k with Some s => Some (sl_meta s, sl_buf s) | None => sp_find (y_st Y) k end.
Proof. unfold KsSpec.key_now. rewrite cached_copy. reflexivity. Qed.
Lemma now_read Y i k m d :
  (find_cache C (ks_of Y i) k = Some (mkSlot m d true) \/ find_cache C (ks_of Y i) k = Some (mkSlot m d false)) \/
  (find_cache C (ks_of Y i) k = None /\ kid_wrapped k = false /\ sp_find (k_st (ks_of Y i)) k = Some (m, d)) ->
  key_now Y i k = Some (m, d).
Proof. rewrite now_copy. intros [[->| ->]|(-> & _ & E)]; auto. Qed.
Lemma export_open S k m : check_ks C OpExport S k = OK -> curm C S k = Some m ->
  has (m_flags m) F_NONEXPORTABLE = false /\ has (m_flags m) F_TRUSTED = false.
Proof.
  intros O E. destruct (check_assigned _ _ _ _ (or_introl O)) as [U HW]. rewrite (check_cases _ _ _ _ U HW), E in O. cbv zeta in O.
  destruct (has _ F_TRUSTED); [discriminate|]. destruct (has _ F_NONEXPORTABLE); [discriminate|auto].
Qed.
Lemma now_curm Y i k m d : key_now Y i k = Some (m, d) -> curm C (ks_of Y i) k = Some m.
Proof.
  rewrite now_copy. unfold curm, cur. destruct (find_cache C (ks_of Y i) k) as [s|]; [intros E; injection E as <- _; auto|].
  intros E. change (k_st (ks_of Y i)) with (y_st Y). rewrite E. reflexivity.
Qed.
Lemma now_curs Y i k s : curs (sp_find (k_st (ks_of Y i)) k) (find_cache C (ks_of Y i) k) = Some s -> key_now Y i k = Some (sl_meta s, sl_buf s).
Proof.
  rewrite now_copy. unfold curs. destruct (find_cache C (ks_of Y i) k) as [s0|]; [intros E; injection E as <-; auto|].
  change (k_st (ks_of Y i)) with (y_st Y). destruct (sp_find (y_st Y) k) as [[m d]|]; [|discriminate]. intros E. injection E as <-. reflexivity.
Qed.

(** ** C21 *)
(** An export, plain or by DMA, hands out something only if the key exists, its
    flags as they are now allow it, and then it is the key. *)
Theorem C21_export_needs_exportable : forall Y i client e q id r Y',
  ok Y -> step (SKey i client e q) Y = (Some r, Y') ->
  q = KExport id \/ (exists sz, q = KExportDma id sz) ->
  r_data r <> [] \/ r_meta r <> None \/ r_rc r = OK ->
  exists m d, key_now Y i (key_of client id) = Some (m, d) /\
    has (m_flags m) F_NONEXPORTABLE = false /\ has (m_flags m) F_TRUSTED = false /\
    r = mkKr OK 0 (Some m) d.
Proof.
  intros Y i client e q id r Y' R H Q D. destruct (reachable_ok _ _ _ _ _ _ _ _ _ R i) as [W G]. cbn [sys_step] in H.
  destruct (ks_step _ _ _ _ _ _ _ e client q (ks_of Y i)) as [r0 S1] eqn:E. injection H as <- _. unfold ks_step in E.
  destruct (is_ok (v_lock e)) eqn:LK; cbn [negb] in E.
  2:{ exfalso. injection E as <- _. apply is_ok_false in LK. cbn [rrc r_data r_meta r_rc] in D. destruct D as [D|[D|D]]; auto. }
  assert (ERR : forall z, z <> OK -> r0 = rrc z -> False).
  { intros z NZ ->. cbn [rrc r_data r_meta r_rc] in D. destruct D as [D|[D|D]]; auto. }
  change (from_client (kc C) KT_CRYPTO client id) with (key_of client id) in *.
  destruct Q as [->|[sz ->]].
  - unfold h_export in E. change (from_client (kc C) KT_CRYPTO client id) with (key_of client id) in *.
    destruct (read_key_checked C (ks_of Y i) (key_of client id) (exp_max C)) as [[[rc S2] m] d] eqn:RC.
    destruct (read_checked_eff _ _ _ _ _ _ _ _ W G RC) as (_ & _ & _ & X & _). injection E as <- _.
    destruct (is_ok rc) eqn:O; [apply is_ok_iff in O|apply is_ok_false in O; destruct (ERR _ O eq_refl)].
    destruct (X O) as [CK P]. apply now_read in P. destruct (export_open _ _ _ CK (now_curm _ _ _ _ _ P)). exists m, d. auto.
  - unfold h_export_dma in E. cbv zeta in E. change (from_client (kc C) KT_CRYPTO client id) with (key_of client id) in *.
    destruct (is_ok (check_ks C OpExport (ks_of Y i) (key_of client id))) eqn:CK; cbn [negb] in E; [apply is_ok_iff in CK|].
    2:{ injection E as <- _. apply is_ok_false in CK. destruct (ERR _ CK eq_refl). }
    destruct (freshen C (ks_of Y i) (key_of client id)) as [rc S2] eqn:F.
    destruct (is_ok rc) eqn:O; cbn [negb] in E; [apply is_ok_iff in O; subst rc|].
    2:{ injection E as <- _. apply is_ok_false in O. destruct (ERR _ O eq_refl). }
    destruct (freshen_curs _ _ _ _ W G F) as (V & _ & _). destruct (find_cache C S2 (key_of client id)) as [s|]; [|injection E as <- _; destruct (ERR NOTFOUND ltac:(discriminate) eq_refl)].
    symmetry in V. apply now_curs in V. destruct (export_open _ _ _ CK (now_curm _ _ _ _ _ V)).
    destruct (_ <? _); [injection E as <- _; destruct (ERR NOSPACE ltac:(discriminate) eq_refl)|].
    destruct (is_ok (v_dma e)) eqn:DM; cbn [negb] in E; injection E as <- _.
    + eauto 6.
    + apply is_ok_false in DM. destruct (ERR _ DM eq_refl).
Qed.

(** Two states that agree in everything but the bytes (not the lengths) of keys
    that satisfy [hidden]. *)
Definition alike_but (hidden : meta -> bool) (Y Z : sys) : Prop :=
  let bytes m d1 d2 := length d1 = length d2 /\ (hidden m = false -> d1 = d2) in
  let object (o1 o2 : meta * list N) := fst o1 = fst o2 /\ bytes (fst o1) (snd o1) (snd o2) in
  let slot s1 s2 := sl_meta s1 = sl_meta s2 /\ sl_comm s1 = sl_comm s2 /\ bytes (sl_meta s1) (sl_buf s1) (sl_buf s2) in
  let cache c1 c2 := Forall2 slot (c_reg c1) (c_reg c2) /\ Forall2 slot (c_big c1) (c_big c2) in
  Forall2 object (y_st Y) (y_st Z) /\ cache (y_glob Y) (y_glob Z) /\ forall i, cache (y_loc Y i) (y_loc Z i).
Lemma alike_yrel hidden Y Z : alike_but hidden Y Z -> yrel hidden Y Z.
Proof. intros H. exact H. Qed.

(** Requests that only manage keys: no use of a key, no wrapping. *)
Definition manages (ev : sev) : Prop :=
  match ev with
  | SKey _ _ _ q =>
      match q with
      | KCache _ _ _ _ | KCacheRandom _ _ _ _ | KCacheDma _ _ _ _ | KExport _ | KExportDma _ _ | KEvict _ | KCommit _
      | KErase _ | KRevoke _ | KImport _ _ _ _ | KCryptoEvict _ | KSignGen _ _ _ => True
      | _ => False
      end
  | _ => True
  end.
Definition not_exportable (m : meta) : bool := has (m_flags m) F_NONEXPORTABLE || has (m_flags m) F_TRUSTED.

Lemma revoke_bit m n : n <> 0 -> (forall i, (5 <= i <= 10) -> n <> i) -> has (revoke_flags (m_flags m)) (2 ^ n) = has (m_flags m) (2 ^ n).
Proof.
  intros N0 NB. rewrite !has_pow2. unfold revoke_flags, clear, setf. rewrite N.ldiff_spec, N.lor_spec.
  replace (N.testbit F_NONMODIFIABLE n) with false.
  2:{ symmetry. change F_NONMODIFIABLE with (2 ^ 0). rewrite N.pow2_bits_eqb. apply N.eqb_neq. lia. }
  replace (N.testbit F_USAGE_ANY n) with false; [rewrite Bool.orb_false_r, Bool.andb_true_r; reflexivity|].
  symmetry. change F_USAGE_ANY with (N.shiftl (N.ones 6) 5). destruct (N.lt_ge_cases n 5) as [L|L].
  - apply N.shiftl_spec_low; auto.
  - rewrite N.shiftl_spec_high by lia. apply N.ones_spec_high. specialize (NB n). destruct (N.le_gt_cases n 10); [exfalso; apply NB; lia|lia].
Qed.
Lemma not_exportable_rev m : not_exportable (with_flags m (revoke_flags (m_flags m))) = not_exportable m.
Proof.
  unfold not_exportable. cbn [with_flags m_flags]. change F_NONEXPORTABLE with (2 ^ 2). change F_TRUSTED with (2 ^ 12).
  rewrite !revoke_bit; auto; lia.
Qed.

(** Nothing such requests answer, in any history that interleaves them with NVM
    requests, counter requests and resets, depends on the bytes of keys that are
    not exportable. *)
Theorem C21_no_dependence : forall Y Z evs,
  ok Y -> alike_but not_exportable Y Z -> Forall manages evs ->
  fst (run evs Y) = fst (run evs Z).
Proof.
  intros Y Z evs R A M. apply run_rel with (sec := not_exportable).
  - reflexivity.
  - exact not_exportable_rev.
  - reflexivity.
  - eapply reachable_ok; eauto.
  - apply alike_yrel in A. exact A.
  - eapply Forall_impl; [|exact M]. intros ev X. destruct ev; cbn [fine]; auto. split.
    + intros k T. destruct q; cbn [manages touched] in *; contradiction.
    + intros k _ m _ E. apply Bool.orb_prop in E. exact E.
Qed.

(** ** C27 *)
Lemma fc_user client id : client < 16 -> kid_user (key_of client id) = client \/ kid_user (key_of client id) = 0.
Proof.
  intros L. unfold KsSpec.key_of. rewrite from_client_mk. rewrite mk_user; destruct (means_global _ _); auto; lia.
Qed.
Lemma addr_user client id k n o : client < 16 -> addr C client id k n o -> kid_user k = client \/ kid_user k = 0.
Proof.
  intros L AD. destruct AD as [[_ ->]|(_ & _ & _ & _ & _ & x & _ & ->)]; [apply fc_user; auto|].
  rewrite mk_user by apply kid_user_lt. apply fc_user; auto.
Qed.

(** The request of a client never changes or removes a key that belongs to
    another client: NVM is the same, and a cached copy stays unless it is marked
    committed, in which case it may be dropped from the cache to make room. *)
Theorem C27_keys_of_others_kept : forall Y i client e q r Y' k,
  ok Y -> step (SKey i client e q) Y = (r, Y') -> 1 <= client <= 15 ->
  k <> 0 -> kid_user k <> client -> kid_user k <> 0 ->
  in_nvm Y' k = in_nvm Y k /\
  forall i', cached Y' i' k = cached Y i' k \/
    ((forall s, cached Y i' k = Some s -> sl_comm s = true) /\ cached Y' i' k = None).
Proof.
  intros Y i client e q r Y' k R H L NZ U1 U2. pose proof (reachable_ok _ _ _ _ _ _ _ _ _ R) as O.
  destruct (step_effect C crypt pub ots gcm_enc gcm_dec she_count mx _ _ _ _ O H) as [_ K]. destruct (K k NZ) as [CE OT].
  assert (LT : client < 16) by lia.
  assert (NF : forall id, k <> from_client (kc C) KT_CRYPTO client id).
  { intros id E. destruct (fc_user client id LT) as [X|X]; unfold KsSpec.key_of in X; rewrite <- E in X; auto. }
  assert (NA : forall id n o, ~ addr C client id k n o) by (intros id n o AD; destruct (addr_user _ _ _ _ _ LT AD); auto).
  assert (Q : quiet_cell (stored Y k) (copy C Y i k) (stored Y' k) (copy C Y' i k)).
  { unfold quiet_cell. destruct CE; subst; try (exfalso; eapply NF; eauto; fail); try (exfalso; eapply NA; eauto; fail); auto.
    - split; auto. right. split; auto. right. eauto.
    - exfalso. match goal with X : kid_user _ = client \/ _ |- _ => destruct X; auto end. }
  destruct Q as [Q1 Q2]. split; [exact Q1|]. intros i'. rewrite !cached_copy. destruct (Nat.eq_dec i' i) as [->|NE].
  - destruct Q2 as [Q2|[Q2 Q3]]; auto.
    assert (D : dr C (ks_of Y i) (ks_of Y' i) k).
    { cbn [sys_step] in H. destruct (ks_step _ _ _ _ _ _ _ e client q (ks_of Y i)) as [r0 S0] eqn:E. injection H as _ <-. rewrite ks_put. destruct (O i) as [W G].
      apply (step_only C crypt pub ots gcm_enc gcm_dec she_count e client q (ks_of Y i) r0); auto. split; auto. }
    destruct D as [D|D]; auto.
  - left. apply OT; auto. unfold is_global. apply N.eqb_neq in U2. rewrite U2. apply Bool.andb_false_r.
Qed.

(** … and no answer to it depends on the bytes of another client's keys.
    [victim] owns the keys; the other clients may send any key and crypto
    requests, interleaved with NVM requests, counter requests and resets. *)
Definition key_requests_by_others (victim : N) (ev : sev) : Prop :=
  match ev with SKey _ client _ _ => 1 <= client <= 15 /\ client <> victim | _ => True end.
Definition belongs_to (victim : N) (m : meta) : bool := N.eqb (kid_user (m_id m)) victim.
Theorem C27_no_dependence : forall Y Z evs victim,
  ok Y -> 1 <= victim <= 15 -> alike_but (belongs_to victim) Y Z -> Forall (key_requests_by_others victim) evs ->
  fst (run evs Y) = fst (run evs Z).
Proof.
  intros Y Z evs v R L A M. apply run_rel with (sec := belongs_to v).
  - reflexivity.
  - reflexivity.
  - unfold belongs_to. cbn [meta_zero m_id]. change (kid_user 0) with 0. apply N.eqb_neq. lia.
  - eapply reachable_ok; eauto.
  - apply alike_yrel in A. exact A.
  - eapply Forall_impl; [|exact M]. intros ev X. destruct ev as [i client e q|e q|c e q|i|]; cbn [fine]; auto. destruct X as [X1 X2]. cbn [key_requests_by_others] in *.
    assert (LT : client < 16) by lia.
    assert (PL : forall id, plain (belongs_to v) (from_client (kc C) KT_CRYPTO client id)).
    { intros id m E. unfold belongs_to. rewrite E. apply N.eqb_neq. destruct (fc_user client id LT) as [U|U]; unfold KsSpec.key_of in U; rewrite U; lia. }
    assert (WX : forall kty id k, wx_target C kty client id = Some k -> plain (belongs_to v) k).
    { intros kty id k. unfold wx_target. cbv zeta. rewrite !from_client_mk. set (t := mk_keyid _ _ _).
      assert (UT : kid_user t <> v). { unfold t. rewrite mk_user; destruct (means_global _ _); lia. }
      assert (PT : plain (belongs_to v) t). { intros m E. unfold belongs_to. rewrite E. apply N.eqb_neq. auto. }
      destruct (_ || _); [intros E; injection E as <-; auto|]. destruct (_ && _); [|discriminate].
      intros E; injection E as <-. destruct (she_global C); auto. intros m E. unfold belongs_to. rewrite E, mk_user by lia. apply N.eqb_neq. lia. }
    split.
    + intros k T. destruct q; cbn [touched] in T; try contradiction; subst k; auto.
    + intros k T m E S. exfalso. destruct q; cbn [handed] in T; try contradiction; try (subst k; rewrite (PL _ m E) in S; discriminate).
      rewrite (WX _ _ _ T m E) in S. discriminate.
Qed.

(** ** C28 *)
(** What an operation does with the key.  Alternatives where the operation
    serves several purposes. *)
Inductive purpose := Encrypting | Decrypting | Signing | Verifying | Deriving.
Definition purpose_flag (p : purpose) : N :=
  match p with
  | Encrypting => F_USAGE_ENCRYPT | Decrypting => F_USAGE_DECRYPT | Signing => F_USAGE_SIGN
  | Verifying => F_USAGE_VERIFY | Deriving => F_USAGE_DERIVE
  end.
Definition purposes (o : cop) : list purpose :=
  match o with
  | RsaPublicEncrypt | AesEncrypt => [Encrypting]
  | RsaPrivateDecrypt | AesDecrypt => [Decrypting]
  | RsaPrivateEncrypt => [Encrypting; Signing]     (* PKCS#1 v1.5 signing and raw encryption are one primitive *)
  | RsaPublicDecrypt => [Decrypting; Verifying]
  | EccSign | Ed25519Sign | MldsaSign => [Signing]
  | EccVerify | Ed25519Verify | MldsaVerify => [Verifying]
  | Cmac => [Signing; Verifying]
  | EccSharedSecret | X25519SharedSecret | Hkdf | CmacKdf | MlkemEncaps | MlkemDecaps => [Deriving]
  | RsaGetSize | EccMakePub | EccCheckPub | EccSharedSecretPublic | X25519SharedSecretPublic | LmsVerify | LmsSigsLeft => []
  end.

Lemma enforce_pow2 fl n : 5 <= n <= 10 -> enforce fl (2 ^ n) = OK -> has fl (2 ^ n) = true.
Proof.
  intros L. unfold enforce, has. assert (R : N.land (2 ^ n) F_USAGE_ANY = 2 ^ n).
  { assert (n = 5 \/ n = 6 \/ n = 7 \/ n = 8 \/ n = 9 \/ n = 10) as [->|[->|[->|[->|[->| ->]]]]] by lia; reflexivity. }
  cbv zeta. rewrite R. destruct (N.eqb_spec (N.land (N.land fl F_USAGE_ANY) (2 ^ n)) (2 ^ n)) as [E|]; [|discriminate]. intros _.
  rewrite <- N.land_assoc, (N.land_comm F_USAGE_ANY), R in E. rewrite E. apply Bool.negb_true_iff, N.eqb_neq. apply N.pow_nonzero. discriminate.
Qed.
Lemma enforce_purpose o alt u fl : nth_error (usages o) alt = Some u -> enforce fl u = OK ->
  purposes o = [] \/ exists p, In p (purposes o) /\ has fl (purpose_flag p) = true.
Proof.
  intros E H.
  assert (K : forall p, u = purpose_flag p -> has fl (purpose_flag p) = true).
  { intros p ->. destruct p; cbn [purpose_flag] in *;
      [apply (enforce_pow2 fl 5)|apply (enforce_pow2 fl 6)|apply (enforce_pow2 fl 7)|apply (enforce_pow2 fl 8)|apply (enforce_pow2 fl 10)]; auto; lia. }
  destruct o; cbn [usages purposes] in *; auto; right;
  (destruct alt as [|[|alt]]; cbn [nth_error] in E; [| |try discriminate; destruct alt; discriminate]; try discriminate; injection E as <-;
   first [exists Encrypting; split; [cbn [In]; auto; fail|apply K; reflexivity]
         |exists Decrypting; split; [cbn [In]; auto; fail|apply K; reflexivity]
         |exists Signing; split; [cbn [In]; auto; fail|apply K; reflexivity]
         |exists Verifying; split; [cbn [In]; auto; fail|apply K; reflexivity]
         |exists Deriving; split; [cbn [In]; auto; fail|apply K; reflexivity]]).
Qed.

(** A crypto request that works with a key of the server (is answered with
    anything but a bare error) found the key, and the flags of the key allow one
    of its purposes; what it worked with are the key's bytes. *)
Theorem C28_use_needs_flags : forall Y i client e id o alt inp r Y',
  ok Y -> step (SKey i client e (KUse id o alt inp)) Y = (Some r, Y') ->
  (exists rc, rc <> OK /\ r = rrc rc) \/
  exists m d, key_now Y i (key_of client id) = Some (m, d) /\
    r = mkKr (fst (crypt o inp d)) 0 None (snd (crypt o inp d)) /\
    (purposes o = [] \/ exists p, In p (purposes o) /\ has (m_flags m) (purpose_flag p) = true).
Proof.
  intros Y i client e id o alt inp r Y' R H. destruct (reachable_ok _ _ _ _ _ _ _ _ _ R i) as [W G]. cbn [sys_step] in H.
  destruct (ks_step _ _ _ _ _ _ _ e client _ (ks_of Y i)) as [r0 S1] eqn:E. injection H as <- _. unfold ks_step in E.
  destruct (is_ok (v_lock e)) eqn:LK; cbn [negb] in E.
  2:{ injection E as <- _. apply is_ok_false in LK. eauto. }
  unfold h_use in E. destruct (nth_error (usages o) alt) as [u|] eqn:NU.
  2:{ injection E as <- _. left. exists BADARGS. split; [discriminate|auto]. }
  cbv zeta in E. change (from_client (kc C) KT_CRYPTO client id) with (key_of client id) in *.
  assert (TY : kid_type (key_of client id) <> KT_SHE).
  { unfold KsSpec.key_of. rewrite from_client_mk, mk_type by (apply kind_lt; reflexivity). unfold means_kind.
    destruct (_ && _); [discriminate|]. destruct (_ && _); discriminate. }
  destruct (reads_copy o).
  - destruct (read_key_enforce C (ks_of Y i) (key_of client id) u (v_cap e)) as [[rc S2] d] eqn:RD.
    destruct (read_enforce_eff _ _ _ _ _ _ _ _ W G RD) as (_ & _ & _ & X & _).
    destruct (is_ok rc) eqn:O; cbn [negb] in E; [apply is_ok_iff in O|injection E as <- _; apply is_ok_false in O; eauto].
    destruct (X O) as (m & EN & P). destruct (crypt o inp d) as [rc2 out] eqn:CR. injection E as <- _. right. exists m, d.
    rewrite CR. split; [|split; [reflexivity|eapply enforce_purpose; eauto]].
    destruct P as [P|[P|(_ & _ & P)]]; try (apply now_read; auto; fail).
    exfalso. destruct P as (_ & P & _). auto.
  - destruct (use_key C (ks_of Y i) (key_of client id) u) as [[rc S2] d] eqn:RD.
    destruct (use_key_eff _ _ _ _ _ _ _ W G RD) as (_ & _ & _ & X & _).
    destruct (is_ok rc) eqn:O; cbn [negb] in E; [apply is_ok_iff in O|injection E as <- _; apply is_ok_false in O; eauto].
    destruct (X O) as (m & EN & P). destruct (crypt o inp d) as [rc2 out] eqn:CR. injection E as <- _. right. exists m, d.
    rewrite CR. split; [|split; [reflexivity|eapply enforce_purpose; eauto]]. apply now_read; auto.
Qed.

(** A wrapping request works with a key of the server as key-encryption key only
    if that is a hardware key or has the wrap flag. *)
Definition wraps_with (q : kreq) : option N :=
  match q with
  | KWrap kek _ _ | KWrapExport kek _ _ | KUnwrapExport kek _ | KUnwrapCache kek _ | KDataWrap kek _ | KDataUnwrap kek _ => Some kek
  | _ => None
  end.
Definition hardware_key (k : N) : Prop := k_hw (kc C) = true /\ kid_type k = KT_HW.
Lemma kek_allowed tr e S k rc S' kb : wf S -> good C S -> resolve_kek C tr e S k = (rc, S', kb) -> rc = OK ->
  hardware_key k \/ exists s, curs (sp_find (k_st S) k) (find_cache C S k) = Some s /\ has (m_flags (sl_meta s)) F_USAGE_WRAP = true /\
    (tr = true -> has (m_flags (sl_meta s)) F_TRUSTED = true) /\ kb = sl_buf s.
Proof.
  intros W G. unfold resolve_kek. destruct (hwkey C k) eqn:HW.
  { intros _ _. left. unfold hwkey, kid_hw in HW. apply andb_prop in HW as [A B]. apply N.eqb_eq in B. split; auto. }
  destruct (freshen C S k) as [rc1 S1] eqn:F. destruct (is_ok rc1) eqn:O; cbn [negb].
  2:{ intros E; injection E as <- <- <-. intros X. apply is_ok_false in O. contradiction. }
  apply is_ok_iff in O. subst rc1. destruct (freshen_curs _ _ _ _ W G F) as (V & _ & _). destruct (find_cache C S1 k) as [s|]; [|intros E; injection E as <- _ _; discriminate].
  cbv zeta. destruct (is_ok (enforce _ _)) eqn:EN; cbn [negb].
  2:{ intros E; injection E as <- <- <-. intros X. apply is_ok_false in EN. contradiction. }
  apply is_ok_iff in EN. destruct (tr && negb _) eqn:TR; [intros E; injection E as <- _ _; discriminate|].
  intros E; injection E as <- <- <-. intros _. right. exists s. split; [auto|]. split; [apply (enforce_pow2 _ 9); auto; lia|]. split; [|auto].
  intros ->. cbn [andb] in TR. apply Bool.negb_false_iff in TR. exact TR.
Qed.
Lemma wrapped_ok Y i client e q kek r S1 : ok Y -> wraps_with q = Some kek ->
  kstep e client q (ks_of Y i) = (r, S1) -> r_rc r = OK \/ r_data r <> [] ->
  exists tr S0 rc S2 kb, wf S0 /\ good C S0 /\ resolve_kek C tr e S0 (key_of client kek) = (rc, S2, kb) /\ rc = OK /\
    (forall j, j <> 0 -> fr C (ks_of Y i) S0 j) /\
    (match q with KWrapExport _ _ _ | KUnwrapCache _ _ => tr = true | _ => tr = false end).
Proof.
  intros R WQ E D. destruct (reachable_ok _ _ _ _ _ _ _ _ _ R i) as [W G]. unfold ks_step in E.
  destruct (is_ok (v_lock e)) eqn:LK; cbn [negb] in E.
  2:{ exfalso. injection E as <- _. apply is_ok_false in LK. cbn [rrc r_rc r_data] in D. destruct D; auto. }
  assert (ERR : forall z, z <> OK -> r = rrc z -> False). { intros z NZ ->. cbn [rrc r_rc r_data] in D. destruct D; auto. }
  assert (FR : forall j, j <> 0 -> fr C (ks_of Y i) (ks_of Y i) j) by (intros; apply fr_refl).
  Ltac bad E ERR := injection E as E _; exfalso; eapply ERR; [|symmetry; exact E]; discriminate.
  Ltac kek E ERR tr S0 :=
    match type of E with context [resolve_kek C tr ?e S0 ?k] =>
      let rc := fresh "rc" in let X := fresh "X" in let kb := fresh "kb" in let RK := fresh "RK" in let O := fresh "O" in
      destruct (resolve_kek C tr e S0 k) as [[rc X] kb] eqn:RK;
      destruct (is_ok rc) eqn:O; cbn [negb] in E; [apply is_ok_iff in O|apply is_ok_false in O; injection E as E _; exfalso; eapply ERR; [exact O|symmetry; exact E]];
      exists tr, S0, rc, X, kb; split; [auto|]; split; [auto|]; split; [exact RK|]; split; [exact O|]; split; auto
    end.
  destruct q; cbn [wraps_with] in WQ; try discriminate; injection WQ as ->.
  - unfold h_wrap in E. cbv zeta in E. destruct (_ <? _); [bad E ERR|]. destruct (negb (kid_wrapped _)); [bad E ERR|]. destruct (_ <? _); [bad E ERR|].
    kek E ERR false (ks_of Y i).
  - unfold h_wrap_export in E. destruct (wx_target _ _ _ _) as [t|]; [|bad E ERR].
    destruct (read_key_checked C (ks_of Y i) t (kw_max C)) as [[[rc S0] m] d] eqn:RC.
    destruct (read_checked_eff _ _ _ _ _ _ _ _ W G RC) as (W0 & T0 & FR0 & _ & _).
    assert (G0 : good C S0).
    { apply (good_same C (ks_of Y i) S0 G T0). intros j s NJ V. destruct (FR0 j NJ) as [_ [X|[_ [X|(m0 & d0 & N0 & X)]]]]; try (rewrite X in V); [left; auto|discriminate|].
      injection V as <-. right. unfold good_slot. cbn [sl_meta sl_buf]. apply (proj1 G j); auto. }
    destruct (is_ok rc) eqn:O0; cbn [negb] in E; [|apply is_ok_false in O0; injection E as E _; exfalso; eapply ERR; [exact O0|symmetry; exact E]].
    destruct (_ <? _); [bad E ERR|]. kek E ERR true S0.
  - unfold h_unwrap_export in E. destruct (_ <? _)%nat; [bad E ERR|]. cbv zeta in E. destruct (_ <? _); [bad E ERR|]. kek E ERR false (ks_of Y i).
  - unfold h_unwrap_cache in E. destruct (_ <? _)%nat; [bad E ERR|]. cbv zeta in E. kek E ERR true (ks_of Y i).
  - unfold h_data_wrap in E. cbv zeta in E. destruct (_ <? _); [bad E ERR|]. destruct (_ <? _); [bad E ERR|]. kek E ERR false (ks_of Y i).
  - unfold h_data_unwrap in E. destruct (_ <? _)%nat; [bad E ERR|]. cbv zeta in E. destruct (_ <? _); [bad E ERR|]. kek E ERR false (ks_of Y i).
Qed.
Theorem C28_kek_needs_flag : forall Y i client e q kek r Y',
  ok Y -> step (SKey i client e q) Y = (Some r, Y') -> wraps_with q = Some kek ->
  r_rc r = OK \/ r_data r <> [] -> key_of client kek <> 0 ->
  hardware_key (key_of client kek) \/
  exists m d, (key_now Y i (key_of client kek) = Some (m, d) \/ in_nvm Y (key_of client kek) = Some (m, d)) /\
    has (m_flags m) F_USAGE_WRAP = true.
Proof.
  intros Y i client e q kek r Y' R H WQ D NZ. cbn [sys_step] in H.
  destruct (ks_step _ _ _ _ _ _ _ e client q (ks_of Y i)) as [r0 S1] eqn:E. injection H as <- _.
  destruct (wrapped_ok _ _ _ _ _ _ _ _ R WQ E D) as (tr & S0 & rc & S2 & kb & W0 & G0 & RK & O & FR & _).
  destruct (kek_allowed _ _ _ _ _ _ _ W0 G0 RK O) as [HW|(s & CU & WR & _)]; [left; auto|right].
  exists (sl_meta s), (sl_buf s). split; auto. destruct (FR _ NZ) as [N0 V0]. cbv beta in N0. rewrite N0 in CU.
  destruct V0 as [V0|[_ [V0|(m & d & N1 & V0)]]]; rewrite V0 in CU.
  - left. apply now_curs; auto.
  - right. cbn [curs] in CU. change (k_st (ks_of Y i)) with (y_st Y) in CU. unfold in_nvm. destruct (sp_find (y_st Y) _) as [[m d]|]; [|discriminate].
    injection CU as <-. reflexivity.
  - right. cbn [curs] in CU. injection CU as <-. exact N1.
Qed.
End Props.
Print Assumptions C21_export_needs_exportable.
Print Assumptions C21_no_dependence.
Print Assumptions C27_keys_of_others_kept.
Print Assumptions C27_no_dependence.
Print Assumptions C28_use_needs_flags.
Print Assumptions C28_kek_needs_flag.

(** ** Concrete cases *)
Module UseExamples.
Import KeyExamples.
(** C21: an exportable and a non-exportable key; client 1 caches 1 2 3 or 7 7 7
    under the latter, and nothing changes in what the requests that follow answer. *)
Definition hist21 (d : list N) := [req 0 1 (KCache 3 4 [] d); req 0 1 (KCache 4 0 [] [4; 5])].
Definition asks21 := [req 0 1 (KExport 3); req 0 1 (KExport 4); req 0 1 (KExportDma 3 8); req 0 1 (KCommit 3); SReset;
                      req 0 1 (KExport 3); req 0 1 (KRevoke 3); SNvm (mkEnv OK OK OK OK []) (QRead (key 1 3) 0 3)].
Lemma ex_alike hidden d1 d2 : hidden (mkMeta (key 1 3) 65535 4 3 (repeat 0 24)) = true -> length d1 = 3%nat -> length d2 = 3%nat ->
  alike_but hidden (snd (run (hist21 d1))) (snd (run (hist21 d2))).
Proof.
  intros HS L1 L2. destruct d1 as [|a [|b [|c [|]]]]; try discriminate. destruct d2 as [|a' [|b' [|c' [|]]]]; try discriminate.
  assert (Z : forall n, Forall2 (fun s1 s2 => sl_meta s1 = sl_meta s2 /\ sl_comm s1 = sl_comm s2 /\
     (length (sl_buf s1) = length (sl_buf s2) /\ (hidden (sl_meta s1) = false -> sl_buf s1 = sl_buf s2))) (repeat slot_zero n) (repeat slot_zero n)).
  { induction n; cbn [repeat]; constructor; auto. }
  split; [constructor|]. split; [split; [apply (Z 2%nat)|apply (Z 1%nat)]|].
  intros i. destruct i as [|i]; [|split; [apply (Z 2%nat)|apply (Z 1%nat)]]. split; [|apply (Z 1%nat)].
  constructor; [|constructor; [|constructor]].
  - split; [reflexivity|]. split; [reflexivity|]. split; [reflexivity|]. intros F. exfalso.
    change (hidden (mkMeta (key 1 3) 65535 4 3 (repeat 0 24)) = false) in F. congruence.
  - split; [reflexivity|]. split; [reflexivity|]. split; reflexivity.
Qed.
Example ex_C21 :
  answer 2 (hist21 [1; 2; 3] ++ asks21) = Some (rrc ACCESS) /\
  answer 3 (hist21 [1; 2; 3] ++ asks21) = Some (mkKr OK 0 (Some (asked_meta (key 1 4) 0 [] [4; 5])) [4; 5]) /\
  answer 5 (hist21 [1; 2; 3] ++ asks21) = Some (rrc OK) /\ answer 7 (hist21 [1; 2; 3] ++ asks21) = Some (rrc ACCESS) /\
  Forall manages asks21 /\ alike_but not_exportable (snd (run (hist21 [1; 2; 3]))) (snd (run (hist21 [7; 7; 7]))).
Proof.
  do 4 (split; [vm_compute; reflexivity|]). split; [repeat constructor|]. apply ex_alike; reflexivity.
Qed.

(** C27: client 2 through the same server context. *)
Definition asks27 := [req 0 2 (KExport 3); req 0 2 (KCache 3 0 [] [9; 9]); req 0 2 (KErase 3); req 0 2 (KUse 3 RsaGetSize 0 []); req 0 2 (KRevoke 3)].
Example ex_C27 :
  cached cfg (snd (run (hist21 [1; 2; 3] ++ asks27))) 0 (key 1 3) = Some (mkSlot (asked_meta (key 1 3) 4 [] [1; 2; 3]) [1; 2; 3] false) /\
  answer 2 (hist21 [1; 2; 3] ++ asks27) = Some (rrc NOTFOUND) /\
  kid_user (key 1 3) = 1 /\
  Forall (key_requests_by_others 1) asks27 /\ alike_but (belongs_to 1) (snd (run (hist21 [1; 2; 3]))) (snd (run (hist21 [7; 7; 7]))).
Proof.
  do 3 (split; [vm_compute; reflexivity|]). split; [repeat constructor; vm_compute; discriminate|]. apply ex_alike; reflexivity.
Qed.
(** The isolation is one of key requests.  An NVM request, which is not tied to
    a client, reads a committed key of any client by its server id. *)
Theorem C27_raw_nvm_read_refuted : exists evs Y id,
  evs = [req 0 1 (KCache 3 0 [] [1; 2; 3]); req 0 1 (KCommit 3)] /\ Y = snd (run evs) /\ id = key 1 3 /\
  rs_data (fst (nvm_handle 100 true (mkEnv OK OK OK OK []) (QRead id 0 3) (y_st Y))) = [1; 2; 3].
Proof. do 3 eexists. repeat split; vm_compute; reflexivity. Qed.

(** C28: a decrypt-only key; a key-encryption key. *)
Definition hist28 :=
  [req 0 1 (KCache 3 64 [] [1; 2; 3]); req 0 1 (KCache 4 512 [] [4; 5]);
   req 0 1 (KUse 3 AesDecrypt 0 [8]); req 0 1 (KUse 3 AesEncrypt 0 [8]); req 0 1 (KDataWrap 4 [9]); req 0 1 (KDataWrap 3 [9])].
Example ex_C28 :
  answer 2 hist28 = Some (mkKr OK 0 None [1; 2; 3; 8]) /\ answer 3 hist28 = Some (rrc USAGE) /\
  option_map r_rc (answer 4 hist28) = Some OK /\ answer 5 hist28 = Some (rrc USAGE).
Proof. repeat split; vm_compute; reflexivity. Qed.
(** Stateful signing does not look at the flags: a key without the sign flag
    (without any) signs. *)
Definition lms_key : list N := [1; 83; 77; 76; 0; 0; 1; 0; 0; 0; 0; 0; 7].
Definition lms_ots (d msg : list N) : option (list N * list N) :=
  Some (nth 12 d 0 :: msg, firstn 12 d ++ [N.succ (nth 12 d 0)]).
Definition lms_env : kenv := mkKenv OK OK OK lms_key OK [] OK [] 100 (mkEnv OK OK OK OK []).
Definition lms_run evs := sys_run cfg toy_crypt toy_pub lms_ots toy_enc toy_dec toy_count 100 evs (fresh_sys [] 2 1).
Theorem C28_stateful_sign_refuted : exists evs s,
  evs = [SKey 0 1 lms_env (KSignGen 3 0 []); SKey 0 1 lms_env (KSign 3 [9] false)] /\
  cached cfg (snd (lms_run (firstn 1 evs))) 0 (key 1 3) = Some s /\ has (m_flags (sl_meta s)) F_USAGE_SIGN = false /\
  nth 1 (fst (lms_run evs)) None = Some (mkKr OK 0 None [7; 9]).
Proof. do 2 eexists. repeat split; vm_compute; reflexivity. Qed.
(** An RSA key whose only flag is encrypt performs the private-key operation
    that signs; a CMAC key whose only flag is verify computes MACs. *)
Theorem C28_sign_without_sign_flag_refuted : exists evs,
  evs = [req 0 1 (KCache 3 F_USAGE_ENCRYPT [] [1; 2; 3]); req 0 1 (KUse 3 RsaPrivateEncrypt 0 [8]);
         req 0 1 (KCache 4 F_USAGE_VERIFY [] [4; 5]); req 0 1 (KUse 4 Cmac 1 [8])] /\
  answer 1 evs = Some (mkKr OK 0 None [1; 2; 3; 8]) /\ answer 3 evs = Some (mkKr OK 0 None [4; 5; 8]).
Proof. eexists. repeat split; vm_compute; reflexivity. Qed.
End UseExamples.
