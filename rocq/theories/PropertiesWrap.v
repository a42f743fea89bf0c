(** Key wrapping: C31, C32.  Vocabulary: KsSpec.v. *)
From Verif Require Import Base BaseLemmas NvmSpec Flags KeyId Store NvmReqModel NvmReqProof CounterModel KsModel KsCache KsReq KsEff KsStep KsSys KsSysProof KsSpec KsKeep KsResp PropertiesKeyId PropertiesKeys PropertiesUse.
Local Open Scope N_scope.

(** What is asked of authenticated encryption: decryption inverts encryption
    under the same key, nonce and associated data; the ciphertext is 16 bytes
    longer than the text. *)
Definition aead_contract (enc dec : list N -> list N -> N -> list N -> option (list N)) : Prop :=
  (forall k iv aad pt ct, enc k iv aad pt = Some ct -> dec k iv aad ct = Some pt /\ length ct = (16 + length pt)%nat) /\
  (forall k iv aad ct pt, dec k iv aad ct = Some pt -> length ct = (16 + length pt)%nat).

Lemma dec2 x : x < 65536 -> le_dec (le_enc 2 x) = x.
Proof. intros H. apply le_dec_enc. exact H. Qed.
Lemma first_app (a b : list N) n : length a = n -> firstn n (a ++ b) = a.
Proof. intros <-. rewrite firstn_app, Nat.sub_diag, firstn_all, firstn_O. apply app_nil_r. Qed.
Lemma skip_app (a b : list N) n : length a = n -> skipn n (a ++ b) = b.
Proof. intros <-. rewrite skipn_app, Nat.sub_diag, skipn_all. reflexivity. Qed.
Lemma ser_length m : meta_ok m -> length (ser_meta m) = META_SZ.
Proof. intros (_ & H & _). unfold ser_meta. rewrite !app_length, !le_enc_length, H. reflexivity. Qed.
Lemma skip_skip (l : list N) a b : skipn a (skipn b l) = skipn (b + a) l.
Proof. revert l. induction b as [|b IH]; intros l; [reflexivity|]. destruct l; [rewrite !skipn_nil; reflexivity|]. cbn [skipn Nat.add]. apply IH. Qed.
Lemma des_ser m rest : meta_ok m -> des_meta (ser_meta m ++ rest) = m.
Proof.
  intros ((A & B & D & E) & L & _). unfold des_meta.
  assert (E0 : firstn 2 (ser_meta m ++ rest) = le_enc 2 (m_id m)).
  { unfold ser_meta. rewrite <- !app_assoc. apply first_app, le_enc_length. }
  assert (S2 : skipn 2 (ser_meta m ++ rest) = le_enc 2 (m_access m) ++ le_enc 2 (m_flags m) ++ le_enc 2 (m_len m) ++ m_label m ++ rest).
  { unfold ser_meta. rewrite <- !app_assoc. apply skip_app, le_enc_length. }
  assert (S4 : skipn 4 (ser_meta m ++ rest) = le_enc 2 (m_flags m) ++ le_enc 2 (m_len m) ++ m_label m ++ rest).
  { change 4%nat with (2 + 2)%nat. rewrite <- skip_skip, S2. apply skip_app, le_enc_length. }
  assert (S6 : skipn 6 (ser_meta m ++ rest) = le_enc 2 (m_len m) ++ m_label m ++ rest).
  { change 6%nat with (4 + 2)%nat. rewrite <- skip_skip, S4. apply skip_app, le_enc_length. }
  assert (S8 : skipn 8 (ser_meta m ++ rest) = m_label m ++ rest).
  { change 8%nat with (6 + 2)%nat. rewrite <- skip_skip, S6. apply skip_app, le_enc_length. }
  rewrite E0, S2, S4, S6, S8, !first_app by (auto using le_enc_length). rewrite !dec2 by auto. destruct m; reflexivity.
Qed.
Lemma exact_same n l : length l = n -> exactly n l = l.
Proof. intros H. unfold exactly. apply first_app. exact H. Qed.

Lemma exact_len n l : length (exactly n l) = n.
Proof. unfold exactly. rewrite firstn_length, app_length, repeat_length. lia. Qed.

Section Props.
Variable C : kscfg.
Variable crypt : cop -> list N -> list N -> Z * list N.
Variable pub : N -> list N -> Z * list N.
Variable ots : list N -> list N -> option (list N * list N).
Variable gcm_enc : list N -> list N -> N -> list N -> option (list N).
Variable gcm_dec : list N -> list N -> N -> list N -> option (list N).
Variable she_count : list N -> N.
Variable mx : nat.
Notation step := (sys_step C crypt pub ots gcm_enc gcm_dec she_count mx).
Notation run := (sys_run C crypt pub ots gcm_enc gcm_dec she_count mx).
Notation after := (sys_after C crypt pub ots gcm_enc gcm_dec she_count mx).
Notation ok := (reachable C crypt pub ots gcm_enc gcm_dec she_count mx).
Notation kstep := (ks_step C crypt pub ots gcm_enc gcm_dec she_count).
Notation key_of := (key_of C).
Notation cached := (cached C).
Notation key_now := (key_now C).
Notation hardware_key := (hardware_key C).

(** The bytes of the key-encryption key that [client] calls [kek]: from the
    hardware key store, or the key as the server has it now. *)
Definition kek_bytes (Y : sys) (i : nat) (e : kenv) (k : N) (kb : list N) : Prop :=
  (hardware_key k /\ kb = v_hwd e) \/ (~ hardware_key k /\ exists m, key_now Y i k = Some (m, kb)).
Definition kek_flag (Y : sys) (i : nat) (k : N) (f : N) : Prop :=
  hardware_key k \/ exists m d, key_now Y i k = Some (m, d) /\ has (m_flags m) f = true.

Lemma hw_iff k : hwkey C k = true <-> hardware_key k.
Proof. unfold hwkey, kid_hw, PropertiesUse.hardware_key. rewrite Bool.andb_true_iff, N.eqb_eq. tauto. Qed.
Lemma kek_of Y i tr e k rc S' kb : ok Y -> resolve_kek C tr e (ks_of Y i) k = (rc, S', kb) -> rc = OK ->
  kek_bytes Y i e k kb /\ kek_flag Y i k F_USAGE_WRAP /\ (tr = true -> kek_flag Y i k F_TRUSTED).
Proof.
  intros R H O. destruct (reachable_ok _ _ _ _ _ _ _ _ _ R i) as [W G]. pose proof H as H0. unfold resolve_kek in H0. destruct (hwkey C k) eqn:HW.
  - pose proof (proj1 (hw_iff k) HW) as HK. injection H0 as <- _ <-. split; [left; split; [auto|]; rewrite (proj2 (is_ok_iff _) O); reflexivity|]. split; intros; left; auto.
  - assert (NH : ~ hardware_key k) by (rewrite <- hw_iff; congruence).
    destruct (kek_allowed C pub _ _ _ _ _ _ _ W G H O) as [X|(s & CU & A & B & ->)]; [contradiction|]. apply now_curs in CU.
    split; [right; eauto|]. split; [right; eauto|]. intros T. right. eauto.
Qed.
Lemma kek_same Y i e k a b : kek_bytes Y i e k a -> kek_bytes Y i e k b -> a = b.
Proof. intros [[H ->]|[H (m & E)]] [[H' ->]|[H' (m' & E')]]; try contradiction; congruence. Qed.

Lemma put_cached Y i S j : cached (put_ks Y i S) i j = find_cache C S j.
Proof. rewrite cached_copy. unfold copy. rewrite ks_put. reflexivity. Qed.

(** ** C31 *)
Ltac lock E e := unfold ks_step in E; destruct (is_ok (v_lock e)) eqn:?LK; cbn [negb] in E;
  [|exfalso; injection E as <- _; cbn [rrc r_rc] in *; match goal with X : is_ok (v_lock e) = false |- _ => apply is_ok_false in X; contradiction end].
Ltac refuse E := exfalso; injection E as <- _; cbn [rrc r_rc] in *; (discriminate || congruence).

Lemma wrap_blob Y i client e kek m key r Y' : ok Y ->
  step (SKey i client e (KWrap kek m key)) Y = (Some r, Y') -> r_rc r = OK ->
  kid_type (m_id m) = KT_WRAPPED /\ N.of_nat (length key) <= kw_max C /\ 60 + N.of_nat (length key) <= kw_resp C /\
  exists kb iv ct, kek_bytes Y i e (key_of client kek) kb /\ length iv = IV_SZ /\
    gcm_enc kb iv AAD_KEY (ser_meta m ++ key) = Some ct /\ r_data r = iv ++ ct.
Proof.
  intros R H O. cbn [sys_step] in H. destruct (ks_step _ _ _ _ _ _ _ e client _ (ks_of Y i)) as [r0 S1] eqn:E. injection H as <- _.
  lock E e. unfold h_wrap in E. cbv zeta in E. destruct (N.ltb_spec (kw_max C) (N.of_nat (length key))); [refuse E|].
  destruct (kid_wrapped (m_id m)) eqn:KW; cbn [negb] in E; [|refuse E]. destruct (N.ltb_spec (kw_resp C) (60 + N.of_nat (length key))); [refuse E|].
  change (from_client (kc C) KT_CRYPTO client kek) with (key_of client kek) in E.
  destruct (resolve_kek C false e (ks_of Y i) (key_of client kek)) as [[rc S2] kb] eqn:RK. destruct (is_ok rc) eqn:O1; cbn [negb] in E; [apply is_ok_iff in O1|apply is_ok_false in O1; refuse E].
  destruct (kek_of _ _ _ _ _ _ _ _ R RK O1) as [KB _]. unfold gcm_wrap in E. destruct (is_ok (v_rng e)) eqn:RN; cbn [negb] in E.
  2:{ apply is_ok_false in RN. injection E as <- _. cbn [r_rc] in O. contradiction. }
  destruct (gcm_enc kb _ AAD_KEY _) as [tc|] eqn:GE; [|refuse E]. injection E as <- _. cbn [r_data].
  split; [apply N.eqb_eq; exact KW|]. split; [auto|]. split; [auto|]. exists kb, (exactly IV_SZ (v_rngd e)), tc.
  split; [auto|]. split; [apply exact_len|]. auto.
Qed.
(** What the unwrapping of a blob sees, under key [kb]. *)
Definition opens (kb blob : list N) (m : meta) (key : list N) : Prop :=
  exists pt, gcm_dec kb (firstn 12 blob) AAD_KEY (skipn 12 blob) = Some pt /\ m = des_meta pt /\ key = skipn 32 pt.
Lemma opens_unwrap kb blob rc pt : aead_contract gcm_enc gcm_dec -> (60 <= length blob)%nat ->
  gcm_unwrap gcm_dec kb AAD_KEY blob = (rc, pt) -> rc = OK ->
  opens kb blob (des_meta pt) (skipn META_SZ pt) /\ exactly (length blob - 60) (skipn META_SZ pt) = skipn META_SZ pt.
Proof.
  intros [_ AC] L. unfold gcm_unwrap. destruct (gcm_dec kb _ AAD_KEY _) as [p|] eqn:GD; intros E; injection E as <- <-; [intros _|discriminate].
  split; [exists p; auto|]. apply exact_same. apply AC in GD. rewrite skipn_length in *. unfold META_SZ, IV_SZ in *. lia.
Qed.
Lemma opens_wrap kb iv ct m key : aead_contract gcm_enc gcm_dec -> meta_ok m -> length iv = IV_SZ ->
  gcm_enc kb iv AAD_KEY (ser_meta m ++ key) = Some ct -> opens kb (iv ++ ct) m key /\ length (iv ++ ct) = (60 + length key)%nat.
Proof.
  intros [AC _] MO LI GE. destruct (AC _ _ _ _ _ GE) as [D L]. split.
  - exists (ser_meta m ++ key). rewrite first_app, skip_app by auto. split; [auto|]. rewrite des_ser by auto. split; [auto|].
    symmetry. apply skip_app. apply ser_length; auto.
  - rewrite app_length, L, app_length, ser_length, LI by auto. unfold META_SZ, IV_SZ. lia.
Qed.
Lemma opens_fun kb blob m key m' key' : opens kb blob m key -> opens kb blob m' key' -> m = m' /\ key = key'.
Proof. intros (p & A & -> & ->) (p' & A' & -> & ->). rewrite A in A'. injection A' as <-. auto. Qed.

Lemma unwrap_export_of Y i client e kek blob r Y' : aead_contract gcm_enc gcm_dec -> ok Y ->
  step (SKey i client e (KUnwrapExport kek blob)) Y = (Some r, Y') -> r_rc r = OK ->
  exists kb m, kek_bytes Y i e (key_of client kek) kb /\ opens kb blob m (r_data r) /\ r_meta r = Some m /\
    kid_type (m_id m) = KT_WRAPPED /\ has (m_flags m) F_NONEXPORTABLE = false /\
    (kid_user (m_id m) = client \/ (k_global (kc C) = true /\ kid_user (m_id m) = 0)).
Proof.
  intros AC R H O. cbn [sys_step] in H. destruct (ks_step _ _ _ _ _ _ _ e client _ (ks_of Y i)) as [r0 S1] eqn:E. injection H as <- _.
  lock E e. unfold h_unwrap_export in E. cbv zeta in E. destruct (Nat.ltb_spec (length blob) 60) as [|L60]; [refuse E|]. destruct (_ <? _); [refuse E|].
  change (from_client (kc C) KT_CRYPTO client kek) with (key_of client kek) in E.
  destruct (resolve_kek C false e (ks_of Y i) (key_of client kek)) as [[rc S2] kb] eqn:RK. destruct (is_ok rc) eqn:O1; cbn [negb] in E; [apply is_ok_iff in O1|apply is_ok_false in O1; refuse E].
  destruct (kek_of _ _ _ _ _ _ _ _ R RK O1) as [KB _]. destruct (_ <? _); [refuse E|].
  destruct (gcm_unwrap gcm_dec kb AAD_KEY blob) as [rc2 pt] eqn:GU. destruct (is_ok rc2) eqn:O2; cbn [negb] in E; [apply is_ok_iff in O2|apply is_ok_false in O2; refuse E].
  destruct (opens_unwrap _ _ _ _ AC L60 GU O2) as [OP EX]. rewrite EX in E. destruct (kid_unassigned _); [refuse E|].
  destruct (kid_wrapped (m_id (des_meta pt))) eqn:KW; cbn [negb] in E; [|refuse E]. destruct (has _ F_NONEXPORTABLE) eqn:NX; [refuse E|].
  destruct (owner_ok C client (m_id (des_meta pt))) eqn:OW; cbn [negb] in E; [|refuse E]. injection E as <- _. cbn [r_data r_meta].
  exists kb, (des_meta pt). split; [auto|]. split; [auto|]. split; [auto|]. split; [apply N.eqb_eq; exact KW|]. split; [auto|].
  unfold owner_ok in OW. apply Bool.orb_true_iff in OW as [OW|OW]; [left; apply N.eqb_eq; auto|right]. apply Bool.andb_true_iff in OW as [A B]. apply N.eqb_eq in B. auto.
Qed.

(** The id under which a blob's key goes: the one inside; with global SHE keys
    that of the global SHE key. *)
Definition blob_id (m : meta) : N :=
  if have_she C && she_global C && N.eqb (kid_type (m_id m)) KT_SHE then mk_keyid KT_SHE 0 (kid_id (m_id m)) else m_id m.
Definition blob_meta (m : meta) : meta := mkMeta (blob_id m) (m_access m) (clear (m_flags m) F_TRUSTED) (m_len m) (m_label m).

Lemma unwrap_cache_of Y i client e kek blob r Y' : aead_contract gcm_enc gcm_dec -> ok Y ->
  step (SKey i client e (KUnwrapCache kek blob)) Y = (Some r, Y') -> r_rc r = OK ->
  exists kb m key, kek_bytes Y i e (key_of client kek) kb /\ kek_flag Y i (key_of client kek) F_TRUSTED /\
    opens kb blob m key /\ m_len m = N.of_nat (length key) /\
    (kid_type (m_id m) = KT_WRAPPED \/ (have_she C = true /\ kid_type (m_id m) = KT_SHE)) /\
    (kid_user (m_id m) = client \/ (k_global (kc C) = true /\ kid_user (m_id m) = 0)) /\
    (have_st C = true -> stateful_blob key = false) /\
    cached Y' i (blob_id m) = Some (mkSlot (blob_meta m) key false) /\
    r = mkKr OK (to_client (kc C) (blob_id m)) None [] /\
    y_st Y' = y_st Y /\
    (forall j, j <> 0 -> j <> blob_id m ->
       cached Y' i j = cached Y i j \/ cached Y' i j = None \/
       exists mj dj, in_nvm Y j = Some (mj, dj) /\ cached Y' i j = Some (mkSlot mj dj true)).
Proof.
  intros AC R H O. destruct (reachable_ok _ _ _ _ _ _ _ _ _ R i) as [W G]. cbn [sys_step] in H. destruct (ks_step _ _ _ _ _ _ _ e client _ (ks_of Y i)) as [r0 S1] eqn:E. injection H as <- <-.
  lock E e. unfold h_unwrap_cache in E. cbv zeta in E. destruct (Nat.ltb_spec (length blob) 60) as [|L60]; [refuse E|].
  change (from_client (kc C) KT_CRYPTO client kek) with (key_of client kek) in E.
  destruct (resolve_kek C true e (ks_of Y i) (key_of client kek)) as [[rc S2] kb] eqn:RK. destruct (is_ok rc) eqn:O1; cbn [negb] in E; [apply is_ok_iff in O1|apply is_ok_false in O1; refuse E].
  destruct (kek_of _ _ _ _ _ _ _ _ R RK O1) as (KB & _ & KT). specialize (KT eq_refl). destruct (kek_eff _ _ _ _ _ _ _ _ W G RK) as (W1 & T1 & FR). destruct (_ <? _); [refuse E|].
  destruct (gcm_unwrap gcm_dec kb AAD_KEY blob) as [rc2 pt] eqn:GU. destruct (is_ok rc2) eqn:O2; cbn [negb] in E; [apply is_ok_iff in O2|apply is_ok_false in O2; refuse E].
  destruct (opens_unwrap _ _ _ _ AC L60 GU O2) as [OP EX].
  assert (LK' : N.of_nat (length blob - 60) = N.of_nat (length (skipn META_SZ pt))) by (rewrite <- EX, exact_len; reflexivity).
  rewrite EX, LK' in E. set (m0 := des_meta pt) in *. set (key := skipn META_SZ pt) in *. clearbody key. clearbody m0. clear EX LK' GU pt.
  cbn [with_flags m_len m_id m_flags] in E.
  destruct (N.eqb_spec (N.of_nat (length key)) (m_len m0)) as [LE|]; cbn [negb] in E; [|refuse E].
  destruct (kid_unassigned (m_id m0)); [refuse E|].
  destruct (negb (kid_wrapped (m_id m0)) && negb (have_she C && N.eqb (kid_type (m_id m0)) KT_SHE)) eqn:KS; [refuse E|].
  destruct (owner_ok C client (m_id m0)) eqn:OW; cbn [negb] in E; [|refuse E].
  destruct (have_she C && N.eqb (kid_type (m_id m0)) KT_SHE && negb (she_global C) && k_global (kc C) && N.eqb (kid_user (m_id m0)) 0); [refuse E|].
  assert (MB : (if have_she C && N.eqb (kid_type (m_id m0)) KT_SHE && she_global C
                then with_id (with_flags m0 (clear (m_flags m0) F_SERVER_ONLY)) (mk_keyid KT_SHE 0 (kid_id (m_id m0)))
                else with_flags m0 (clear (m_flags m0) F_SERVER_ONLY)) = blob_meta m0).
  { unfold blob_meta, blob_id. destruct (have_she C), (she_global C), (N.eqb _ _); reflexivity. }
  rewrite MB in E. change (m_id (blob_meta m0)) with (blob_id m0) in E. destruct (find_cache C S2 (blob_id m0)) eqn:V; [refuse E|].
  destruct (match sp_find (k_st S2) (blob_id m0) with Some _ => _ | None => _ end); [refuse E|].
  destruct (have_st C && stateful_blob key) eqn:SB; [refuse E|]. destruct (cache_key C false S2 (blob_meta m0) key) as [rc3 S3] eqn:CK. injection E as <- <-. cbn [r_rc] in O. subst rc3.
  destruct (cache_key_eff _ _ _ _ _ _ _ W1 CK) as [(W3 & T3 & K3 & _ & O3) _]. destruct (K3 eq_refl) as [_ V3].
  exists kb, m0, key. split; [auto|]. split; [auto|]. split; [auto|]. split; [auto|]. split.
  { apply Bool.andb_false_iff in KS as [KS|KS]; apply Bool.negb_false_iff in KS; [left; apply N.eqb_eq; exact KS|right].
    apply Bool.andb_true_iff in KS as [A B]. apply N.eqb_eq in B. auto. }
  split.
  { unfold owner_ok in OW. apply Bool.orb_true_iff in OW as [OW|OW]; [left; apply N.eqb_eq; auto|right]. apply Bool.andb_true_iff in OW as [A B]. apply N.eqb_eq in B. auto. }
  split; [intros HS; rewrite HS in SB; exact SB|].
  split; [rewrite cached_copy; unfold copy; rewrite ks_put; exact V3|]. split; [auto|]. split; [cbn [put_ks y_st]; rewrite T3, T1; reflexivity|].
  intros j NZ NE. rewrite (put_cached Y i S3 j), (cached_copy C Y i j). unfold copy.
  assert (F : fr C (ks_of Y i) S3 j). { apply (fr_trans C _ S2 _); [apply FR; auto|]. apply fr_drop; [rewrite T3; auto|]. apply O3; auto. }
  destruct F as [_ [F|[_ F]]]; [left|right]; auto.
Qed.

(** A key and metadata wrapped under a key-encryption key come back when the
    blob is unwrapped by a key-encryption key of the same bytes, in any state
    and by any client: what the export form returns is the key and its metadata, ... *)
Theorem C31_wrap_then_unwrap : forall Y i client e kek m key r Y1,
  aead_contract gcm_enc gcm_dec -> ok Y -> meta_ok m ->
  step (SKey i client e (KWrap kek m key)) Y = (Some r, Y1) -> r_rc r = OK ->
  exists kb, kek_bytes Y i e (key_of client kek) kb /\
  forall Y2 i2 client2 e2 kek2 r2 Y3, ok Y2 -> kek_bytes Y2 i2 e2 (key_of client2 kek2) kb ->
    (step (SKey i2 client2 e2 (KUnwrapExport kek2 (r_data r))) Y2 = (Some r2, Y3) -> r_rc r2 = OK ->
       r_meta r2 = Some m /\ r_data r2 = key) /\
    (step (SKey i2 client2 e2 (KUnwrapCache kek2 (r_data r))) Y2 = (Some r2, Y3) -> r_rc r2 = OK ->
       cached Y3 i2 (m_id m) = Some (mkSlot (with_flags m (clear (m_flags m) F_TRUSTED)) key false)).
Proof.
  intros Y i client e kek m key r Y1 AC R MO H O. destruct (wrap_blob _ _ _ _ _ _ _ _ _ R H O) as (KT & _ & _ & kb & iv & ct & KB & LI & GE & ->).
  exists kb. split; auto. destruct (opens_wrap _ _ _ _ _ AC MO LI GE) as [OP _]. intros Y2 i2 client2 e2 kek2 r2 Y3 R2 KB2. split; intros H2 O2.
  - destruct (unwrap_export_of _ _ _ _ _ _ _ _ AC R2 H2 O2) as (kb' & m' & KB' & OP' & RM & _). rewrite <- (kek_same _ _ _ _ _ _ KB2 KB') in OP'.
    destruct (opens_fun _ _ _ _ _ _ OP OP') as [-> ->]. auto.
  - destruct (unwrap_cache_of _ _ _ _ _ _ _ _ AC R2 H2 O2) as (kb' & m' & key' & KB' & _ & OP' & _ & _ & _ & _ & V & _). rewrite <- (kek_same _ _ _ _ _ _ KB2 KB') in OP'.
    destruct (opens_fun _ _ _ _ _ _ OP OP') as [<- <-]. revert V. unfold blob_meta, blob_id. rewrite KT.
    change (N.eqb KT_WRAPPED KT_SHE) with false. rewrite !Bool.andb_false_r. destruct m; auto.
Qed.
(** ... and the export succeeds for the owner, with the key-encryption key in
    the cache and allowed to wrap, when the metadata permits the export. *)
Theorem C31_unwrap_succeeds : forall Y i client e kek m key r Y1 Y2 i2 e2 s,
  aead_contract gcm_enc gcm_dec -> ok Y -> meta_ok m ->
  step (SKey i client e (KWrap kek m key)) Y = (Some r, Y1) -> r_rc r = OK ->
  kid_id (m_id m) <> 0 -> has (m_flags m) F_NONEXPORTABLE = false -> kid_user (m_id m) = client ->
  ok Y2 -> ~ hardware_key (key_of client kek) -> kid_id (key_of client kek) <> 0 ->
  cached Y2 i2 (key_of client kek) = Some s -> kek_bytes Y i e (key_of client kek) (sl_buf s) ->
  has (m_flags (sl_meta s)) F_USAGE_WRAP = true -> v_lock e2 = OK ->
  exists Y3, step (SKey i2 client e2 (KUnwrapExport kek (r_data r))) Y2 = (Some (mkKr OK 0 (Some m) key), Y3).
Proof.
  intros Y i client e kek m key r Y1 Y2 i2 e2 s AC R MO H O NI NX US R2 NH NK V KB2 WR LK.
  destruct (wrap_blob _ _ _ _ _ _ _ _ _ R H O) as (KT & LM & LR & kb & iv & ct & KB & LI & GE & ->).
  rewrite (kek_same _ _ _ _ _ _ KB KB2) in GE. destruct (opens_wrap _ _ _ _ _ AC MO LI GE) as [(pt & GD & MP & KP) LB].
  cbn [sys_step]. unfold ks_step. rewrite LK. change (is_ok OK) with true. cbn [negb]. unfold h_unwrap_export. cbv zeta.
  replace (length (iv ++ ct) <? 60)%nat with false by (symmetry; apply Nat.ltb_ge; lia). rewrite LB.
  replace (60 + length key - 60)%nat with (length key) by lia. replace (kw_resp C <? 32 + N.of_nat (length key)) with false by (symmetry; apply N.ltb_ge; lia).
  change (from_client (kc C) KT_CRYPTO client kek) with (key_of client kek).
  assert (RK : resolve_kek C false e2 (ks_of Y2 i2) (key_of client kek) = (OK, ks_of Y2 i2, sl_buf s)).
  { unfold resolve_kek. destruct (hwkey C (key_of client kek)) eqn:HW; [apply hw_iff in HW; contradiction|].
    rewrite cached_copy in V. unfold copy in V. unfold freshen, kid_unassigned, kid_erased. apply N.eqb_neq in NK. rewrite NK. cbn [andb]. rewrite HW, V.
    change (is_ok OK) with true. cbn [negb]. rewrite V. cbv zeta. replace (enforce (m_flags (sl_meta s)) F_USAGE_WRAP) with OK; [reflexivity|].
    unfold enforce. change F_USAGE_WRAP with (2 ^ 9) in *. rewrite has_pow2 in WR. change (N.land (2 ^ 9) F_USAGE_ANY) with (2 ^ 9).
    replace (N.eqb _ (2 ^ 9)) with true; auto. symmetry. apply N.eqb_eq. apply N.bits_inj. intros n. rewrite !N.land_spec, N.pow2_bits_eqb.
    destruct (N.eqb_spec 9 n) as [<-|]; [rewrite WR; reflexivity|apply Bool.andb_false_r]. }
  rewrite RK. change (is_ok OK) with true. cbn [negb]. replace (kw_max C <? N.of_nat (length key)) with false by (symmetry; apply N.ltb_ge; lia).
  unfold gcm_unwrap. unfold IV_SZ. rewrite GD. change (is_ok OK) with true. cbn [negb]. rewrite <- MP.
  unfold kid_unassigned, kid_erased. apply N.eqb_neq in NI. rewrite NI. cbn [andb]. unfold kid_wrapped. rewrite KT. change (N.eqb KT_WRAPPED KT_WRAPPED) with true. cbn [negb].
  rewrite NX. unfold owner_ok. rewrite US, N.eqb_refl. cbn [orb negb]. unfold META_SZ. rewrite <- KP, exact_same by auto. eauto.
Qed.
(** A blob is cached only if it opens under a hardware or trusted
    key-encryption key; it then is in the cache under the id inside it, which
    belongs to the client (or is global), with the bytes and metadata inside it
    but never trusted.  Nothing is written to NVM, and no other key changes but
    for copies of NVM objects that come and go. *)
Theorem C31_cached_under_own_id : forall Y i client e kek blob r Y',
  aead_contract gcm_enc gcm_dec -> ok Y -> step (SKey i client e (KUnwrapCache kek blob)) Y = (Some r, Y') ->
  r_rc r = OK ->
  exists kb m key, kek_bytes Y i e (key_of client kek) kb /\ kek_flag Y i (key_of client kek) F_TRUSTED /\
    opens kb blob m key /\ m_len m = N.of_nat (length key) /\
    (kid_type (m_id m) = KT_WRAPPED \/ (have_she C = true /\ kid_type (m_id m) = KT_SHE)) /\
    (kid_user (m_id m) = client \/ (k_global (kc C) = true /\ kid_user (m_id m) = 0)) /\
    r_id r = to_client (kc C) (blob_id m) /\
    (exists m', cached Y' i (blob_id m) = Some (mkSlot m' key false) /\ m_id m' = blob_id m /\
       has (m_flags m') F_TRUSTED = false /\ m_label m' = m_label m /\ m_access m' = m_access m /\
       forall n, n <> 12 -> N.testbit (m_flags m') n = N.testbit (m_flags m) n) /\
    y_st Y' = y_st Y /\
    (forall j, j <> 0 -> j <> blob_id m ->
       cached Y' i j = cached Y i j \/ cached Y' i j = None \/
       exists mj dj, in_nvm Y j = Some (mj, dj) /\ cached Y' i j = Some (mkSlot mj dj true)).
Proof.
  intros Y i client e kek blob r Y' AC R H O. destruct (unwrap_cache_of _ _ _ _ _ _ _ _ AC R H O) as (kb & m & key & A1 & A2 & A3 & A4 & A5 & A6 & _ & A7 & -> & A8 & A9).
  exists kb, m, key. do 6 (split; [auto|]). split; [reflexivity|]. split; [|auto]. eexists. split; [exact A7|].
  cbn [blob_meta m_id m_flags m_label m_access]. split; [auto|]. split; [apply has_clear_self|]. split; [auto|]. split; [auto|].
  intros n NE. unfold clear. rewrite N.ldiff_spec. change F_TRUSTED with (2 ^ 12). rewrite N.pow2_bits_eqb. destruct (N.eqb_spec 12 n); [congruence|]. apply Bool.andb_true_r.
Qed.
(** A blob that is refused puts nothing into cache or NVM. *)
Theorem C31_refused_blob_leaves_nothing : forall Y i client e kek blob r Y' j,
  ok Y -> step (SKey i client e (KUnwrapCache kek blob)) Y = (Some r, Y') -> r_rc r <> OK -> j <> 0 ->
  in_nvm Y' j = in_nvm Y j /\
  (cached Y' i j = cached Y i j \/ cached Y' i j = None \/
   exists m d, in_nvm Y j = Some (m, d) /\ cached Y' i j = Some (mkSlot m d true)).
Proof.
  intros Y i client e kek blob r Y' j R H O NZ. destruct (reachable_ok _ _ _ _ _ _ _ _ _ R i) as [W G]. cbn [sys_step] in H. destruct (ks_step _ _ _ _ _ _ _ e client _ (ks_of Y i)) as [r0 S1] eqn:E. injection H as <- <-.
  assert (D : forall S, k_st S = k_st (ks_of Y i) -> fr C (ks_of Y i) S j ->
     in_nvm (put_ks Y i S) j = in_nvm Y j /\ (cached (put_ks Y i S) i j = cached Y i j \/ cached (put_ks Y i S) i j = None \/
     exists m d, in_nvm Y j = Some (m, d) /\ cached (put_ks Y i S) i j = Some (mkSlot m d true))).
  { intros S T [_ F]. unfold in_nvm. cbn [put_ks y_st]. rewrite T. split; [reflexivity|]. rewrite (put_cached Y i S j), (cached_copy C Y i j). unfold copy.
    destruct F as [F|[_ F]]; auto. }
  unfold ks_step in E. destruct (negb (is_ok (v_lock e))); [injection E as _ <-; apply D; [auto|apply fr_refl]|].
  unfold h_unwrap_cache in E. destruct (_ <? _)%nat; [injection E as _ <-; apply D; [auto|apply fr_refl]|]. cbv zeta in E.
  destruct (resolve_kek C true e (ks_of Y i) _) as [[rc S2] kb] eqn:RK. destruct (kek_eff _ _ _ _ _ _ _ _ W G RK) as (W1 & T1 & FR).
  assert (D1 : in_nvm (put_ks Y i S2) j = in_nvm Y j /\ (cached (put_ks Y i S2) i j = cached Y i j \/ cached (put_ks Y i S2) i j = None \/
     exists m d, in_nvm Y j = Some (m, d) /\ cached (put_ks Y i S2) i j = Some (mkSlot m d true))) by (apply D; auto).
  destruct (negb (is_ok rc)); [injection E as _ <-; exact D1|]. destruct (_ <? _); [injection E as _ <-; exact D1|].
  destruct (gcm_unwrap gcm_dec kb AAD_KEY blob) as [rc2 pt]. destruct (negb (is_ok rc2)); [injection E as _ <-; exact D1|].
  destruct (negb (N.eqb (N.of_nat _) _)); [injection E as _ <-; exact D1|]. destruct (kid_unassigned _); [injection E as _ <-; exact D1|].
  destruct (negb (kid_wrapped _) && _); [injection E as _ <-; exact D1|]. destruct (negb (owner_ok _ _ _)); [injection E as _ <-; exact D1|].
  destruct (_ && _ && _ && _ && _); [injection E as _ <-; exact D1|].
  match type of E with context [find_cache C S2 (m_id ?x)] => set (mm := x) in *; clearbody mm end.
  destruct (find_cache C S2 (m_id mm)) eqn:VM; [injection E as _ <-; exact D1|].
  destruct (match sp_find (k_st S2) (m_id mm) with Some _ => _ | None => _ end); [injection E as _ <-; exact D1|].
  destruct (have_st C && _); [injection E as _ <-; exact D1|]. destruct (cache_key C false S2 mm _) as [rc3 S3] eqn:CK. injection E as <- <-. cbn [r_rc] in O.
  destruct (cache_key_eff _ _ _ _ _ _ _ W1 CK) as [(W3 & T3 & _ & F3 & O3) _]. apply D; [congruence|].
  destruct (F3 O) as [->|[_ V3]]; [auto|]. apply (fr_trans C _ S2 _); [apply FR; auto|].
  apply fr_drop; [rewrite T3; auto|]. destruct (N.eq_dec j (m_id mm)) as [->|NE]; [left; rewrite V3, VM; reflexivity|apply O3; auto].
Qed.

(** ** C32 *)
(** A key leaves the server wrapped only if it is exportable and not trusted,
    and the key-encryption key is a hardware key or trusted with the wrap flag;
    what leaves is that key with its metadata. *)
Definition crypto_she_or_wrapped (client kty id t : N) : Prop :=
  t = from_client (kc C) kty client id \/ (have_she C = true /\ she_global C = true /\ kid_type t = KT_SHE /\ kid_user t = 0).
Theorem C32_wrap_export_needs_trusted_kek : forall Y i client e kek kty id r Y',
  ok Y -> step (SKey i client e (KWrapExport kek kty id)) Y = (Some r, Y') -> key_of client kek <> 0 ->
  r_rc r = OK \/ r_data r <> [] ->
  (exists t m d, crypto_she_or_wrapped client kty id t /\ key_now Y i t = Some (m, d) /\
     has (m_flags m) F_NONEXPORTABLE = false /\ has (m_flags m) F_TRUSTED = false /\
     exists kb iv m', r_data r = [] \/ (exists ct, gcm_enc kb iv AAD_KEY (ser_meta m' ++ d) = Some ct /\ r_data r = iv ++ ct /\
       m_flags m' = m_flags m /\ m_len m' = m_len m /\ m_label m' = m_label m /\ kid_user (m_id m') = kid_user (m_id m))) /\
  (hardware_key (key_of client kek) \/
   exists m d, (key_now Y i (key_of client kek) = Some (m, d) \/ in_nvm Y (key_of client kek) = Some (m, d)) /\
     has (m_flags m) F_USAGE_WRAP = true /\ has (m_flags m) F_TRUSTED = true).
Proof.
  intros Y i client e kek kty id r Y' R H NZ D. destruct (reachable_ok _ _ _ _ _ _ _ _ _ R i) as [W G]. cbn [sys_step] in H. destruct (ks_step _ _ _ _ _ _ _ e client _ (ks_of Y i)) as [r0 S1] eqn:E. injection H as <- _.
  assert (ERR : forall z, z <> OK -> r0 = rrc z -> False). { intros z Z ->. cbn [rrc r_rc r_data] in D. destruct D; auto. }
  unfold ks_step in E. destruct (is_ok (v_lock e)) eqn:LK; cbn [negb] in E.
  2:{ exfalso. apply is_ok_false in LK. injection E as E _. apply (ERR _ LK). auto. }
  unfold h_wrap_export in E. destruct (wx_target C kty client id) as [t|] eqn:WT; [|exfalso; injection E as E _; apply (ERR BADARGS); [discriminate|auto]].
  destruct (read_key_checked C (ks_of Y i) t (kw_max C)) as [[[rc S0] m] d] eqn:RC.
  destruct (read_checked_eff _ _ _ _ _ _ _ _ W G RC) as (W0 & T0 & FR0 & X & _).
  assert (G0 : good C S0) by (apply (fr_good C (ks_of Y i) S0 G T0 FR0)).
  destruct (is_ok rc) eqn:O0; cbn [negb] in E; [apply is_ok_iff in O0|apply is_ok_false in O0; exfalso; injection E as E _; apply (ERR _ O0); auto].
  destruct (X O0) as [CK P]. apply now_read in P. destruct (export_open _ _ _ _ CK (now_curm _ _ _ _ _ _ P)) as [NX NT].
  destruct (_ <? _); [exfalso; injection E as E _; apply (ERR BUFFER_SIZE); [discriminate|auto]|].
  change (from_client (kc C) KT_CRYPTO client kek) with (key_of client kek) in E.
  destruct (resolve_kek C true e S0 (key_of client kek)) as [[rc1 S2] kb] eqn:RK.
  destruct (is_ok rc1) eqn:O1; cbn [negb] in E; [apply is_ok_iff in O1|apply is_ok_false in O1; exfalso; injection E as E _; apply (ERR _ O1); auto].
  split.
  - exists t, m, d. split; [|split; [auto|split; [auto|split; [auto|]]]].
    + unfold wx_target in WT. cbv zeta in WT. destruct (_ || _); [injection WT as <-; left; auto|]. destruct (have_she C && _) eqn:SH; [|discriminate].
      apply Bool.andb_true_iff in SH as [SH TY]. destruct (she_global C) eqn:SG; injection WT as <-; [right|left; auto].
      split; [auto|]. split; [auto|]. split; [apply mk_type; reflexivity|apply mk_user; reflexivity].
    + unfold gcm_wrap in E. destruct (is_ok (v_rng e)); cbn [negb] in E; [|injection E as <- _; exists kb, [], m; left; reflexivity].
      destruct (gcm_enc kb _ AAD_KEY _) as [ct|] eqn:GE; injection E as <- _; [|exists kb, [], m; left; reflexivity].
      exists kb, (exactly IV_SZ (v_rngd e)), (wx_meta m). right. exists ct. split; [exact GE|]. split; [reflexivity|].
      unfold wx_meta. destruct (N.eqb _ _); cbn [with_id m_flags m_len m_label m_id]; auto. rewrite mk_user by apply kid_user_lt. auto.
  - destruct (kek_allowed C pub _ _ _ _ _ _ _ W0 G0 RK O1) as [HW|(s & CU & WR & TR & _)]; [left; auto|right]. specialize (TR eq_refl).
    exists (sl_meta s), (sl_buf s). split; [|auto]. destruct (FR0 _ NZ) as [N0 V0]. cbv beta in N0. rewrite N0 in CU.
    destruct V0 as [V0|[_ [V0|(m1 & d1 & N1 & V0)]]]; rewrite V0 in CU.
    + left. apply now_curs; auto.
    + right. cbn [curs] in CU. change (k_st (ks_of Y i)) with (y_st Y) in CU. unfold in_nvm. destruct (sp_find (y_st Y) _) as [[m1 d1]|]; [|discriminate].
      injection CU as <-. reflexivity.
    + right. cbn [curs] in CU. injection CU as <-. exact N1.
Qed.

(** A trusted key cannot be made by requests: if no copy of key [k] is trusted,
    none is after any history, races included. *)
Definition no_trusted_copy (Y : sys) (k : N) : Prop :=
  (forall m d, in_nvm Y k = Some (m, d) -> has (m_flags m) F_TRUSTED = false) /\
  (forall i s, cached Y i k = Some s -> has (m_flags (sl_meta s)) F_TRUSTED = false).
Lemma revoke_trusted m : has (m_flags m) F_TRUSTED = false -> has (m_flags (revoked_meta m)) F_TRUSTED = false.
Proof.
  cbn [revoked_meta with_flags m_flags]. unfold revoke_flags. change F_TRUSTED with (2 ^ 12). rewrite !has_pow2. unfold clear, setf.
  rewrite N.ldiff_spec, N.lor_spec. intros ->. reflexivity.
Qed.
Lemma trusted_step ev Y r Y' k : kid_type k = KT_CRYPTO \/ kid_type k = KT_WRAPPED -> sys_ok C Y -> no_trusted_copy Y k -> step ev Y = (r, Y') -> no_trusted_copy Y' k.
Proof.
  intros T O [A B] H. assert (NZ : k <> 0) by (intros ->; destruct T; discriminate).
  assert (NC : kid_type k <> KT_COUNTER) by (destruct T as [-> | ->]; discriminate).
  assert (B' : forall i s, copy C Y i k = Some s -> has (m_flags (sl_meta s)) F_TRUSTED = false) by (intros i s E; apply (B i); rewrite cached_copy; auto).
  clear B. rename B' into B.
  assert (GOAL : (forall m d, stored Y' k = Some (m, d) -> has (m_flags m) F_TRUSTED = false) /\
     (forall i s, copy C Y' i k = Some s -> has (m_flags (sl_meta s)) F_TRUSTED = false));
    [|destruct GOAL as [X1 X2]; split; [exact X1|intros i s E; apply (X2 i); rewrite <- cached_copy; auto]].
  change (forall m d, stored Y k = Some (m, d) -> has (m_flags m) F_TRUSTED = false) in A.
  destruct (step_effect C crypt pub ots gcm_enc gcm_dec she_count mx _ _ _ _ O H) as [_ K]. specialize (K k NZ).
  destruct ev as [i client e q|e q|client e q|x|].
  - destruct K as [CE OT].
    assert (CU : forall s, curs (stored Y k) (copy C Y i k) = Some s -> has (m_flags (sl_meta s)) F_TRUSTED = false).
    { intros s. unfold curs. destruct (copy C Y i k) as [s0|] eqn:V; [intros E; injection E as <-; eapply B; eauto|].
      destruct (stored Y k) as [[m d]|] eqn:N0; [|discriminate]. intros E; injection E as <-. eapply A; eauto. }
    assert (X : (forall m d, stored Y' k = Some (m, d) -> has (m_flags m) F_TRUSTED = false) /\
       (forall s, copy C Y' i k = Some s -> has (m_flags (sl_meta s)) F_TRUSTED = false)).
    { specialize (B i). clear OT O H. revert CE A B CU. generalize (stored Y k) (copy C Y i k) (stored Y' k) (copy C Y' i k). intros n o n' o' CE A B CU.
      assert (SM : forall m (d : list N), has (m_flags m) F_TRUSTED = false -> forall m0 d0, Some (m, d) = Some (m0, d0) -> has (m_flags m0) F_TRUSTED = false) by (intros m d X m0 d0 E; injection E as <- _; auto).
      assert (SL : forall m d b, has (m_flags m) F_TRUSTED = false -> forall s, Some (mkSlot m d b) = Some s -> has (m_flags (sl_meta s)) F_TRUSTED = false) by (intros m d b X s E; injection E as <-; auto).
      assert (SN : forall s : slot, None = Some s -> has (m_flags (sl_meta s)) F_TRUSTED = false) by discriminate.
      destruct CE; subst; (split; [first [exact A|discriminate|apply SM|idtac]|first [exact B|exact SN|apply SL|idtac]]); auto using revoke_trusted; try (eapply A; eauto; fail).
      + match goal with D : curs _ _ = Some _ |- _ => pose proof (CU _ D) as X end.
        match goal with D : n' = _ \/ _ |- _ => destruct D as [->| ->] end; auto. apply SM. exact X.
      + match goal with D : curs _ _ = Some _ |- _ => pose proof (CU _ D) as X end.
        match goal with D : _ \/ o' = _ |- _ => destruct D as [[-> _]| ->] end; auto. apply SL. exact X. }
    destruct X as [X1 X2]. split; auto. intros i' s E.
    destruct (is_global C k) eqn:GL; [rewrite (copy_global C Y' i' i k GL) in E; auto|].
    destruct (Nat.eq_dec i' i) as [->|NE]; auto. rewrite (OT eq_refl i' NE) in E. eapply B; eauto.
  - destruct K as [_ CP]. split; [|intros i s; rewrite CP; apply B].
    intros m d E. destruct (has (m_flags m) F_TRUSTED) eqn:TR; auto. exfalso. cbn [sys_step] in H. injection H as _ <-. unfold stored in *. cbn [y_st] in E.
    destruct (nvm_handle mx (have_st C) e q (y_st Y)) as [a s'] eqn:HD. cbn [snd] in E.
    assert (HS : nvm_session mx (have_st C) [(e, q)] (y_st Y) = ([a], s')) by (cbn [nvm_session]; rewrite HD; reflexivity).
    pose proof (session_no_trusted _ _ _ _ _ _ _ _ _ HS E TR) as X. rewrite (A _ _ X) in TR. discriminate.
  - destruct K as [ST CP]. assert (E : stored Y' k = stored Y k) by (unfold stored; apply (st_find _ _ _ _ ST); auto).
    split; [rewrite E; auto|intros i s; rewrite CP; apply B].
  - destruct K as [E CP]. split; [rewrite E; auto|]. intros i s. rewrite CP. destruct (_ && _); [discriminate|apply B].
  - destruct K as [E CP]. split; [rewrite E; auto|]. intros i s. rewrite CP. discriminate.
Qed.
Theorem C32_trusted_never_made : forall evs Y k,
  ok Y -> kid_type k = KT_CRYPTO \/ kid_type k = KT_WRAPPED -> no_trusted_copy Y k -> no_trusted_copy (after evs Y) k.
Proof.
  intros evs Y k R T N0. apply (run_inv C crypt pub ots gcm_enc gcm_dec she_count mx (fun Y => no_trusted_copy Y k) (fun _ => True)) with (evs := evs) (Y := Y) (rs := fst (run evs Y)).
  - intros ev Y0 r Y1 _ O P H. eapply trusted_step; eauto.
  - apply Forall_forall. auto.
  - eapply reachable_ok; eauto.
  - auto.
  - unfold sys_after. destruct (run evs Y); reflexivity.
Qed.
End Props.
Print Assumptions C31_wrap_then_unwrap.
Print Assumptions C31_unwrap_succeeds.
Print Assumptions C31_cached_under_own_id.
Print Assumptions C31_refused_blob_leaves_nothing.
Print Assumptions C32_wrap_export_needs_trusted_kek.
Print Assumptions C32_trusted_never_made.

Module WrapExamples.
Import KeyExamples.
(** A device whose NVM holds a trusted key-encryption key of client 1 from
    production; toy AEAD: a tag of 16 copies of the associated data, then the text. *)
Definition kek_meta : meta := mkMeta (key 1 4) 65535 (F_TRUSTED + F_USAGE_WRAP) 2 (repeat 0 24).
Definition toy_dec' (k iv : list N) (a : N) (b : list N) : option (list N) :=
  if (length b <? 16)%nat then None else
  if forallb (N.eqb a) (firstn 16 b) then Some (skipn 16 b) else None.
Definition trun evs := sys_run cfg toy_crypt toy_pub toy_ots toy_enc toy_dec' toy_count 100 evs (fresh_sys [(kek_meta, [4; 5])] 4 1).
Notation okT := (reachable cfg toy_crypt toy_pub toy_ots toy_enc toy_dec' toy_count 100).
Lemma trun_reachable evs : okT (snd (trun evs)).
Proof.
  exists [(kek_meta, [4; 5])], 4%nat, 1%nat, evs. split; [|reflexivity]. intros id m d _. cbn [sp_find find].
  unfold sp_find. cbn [find]. destruct (N.eqb _ _); [|discriminate]. intros E. injection E as <- <-. reflexivity.
Qed.
Example ex_contract : aead_contract toy_enc toy_dec'.
Proof.
  split.
  - intros k iv aad pt ct E. assert (EC : ct = repeat aad 16 ++ pt) by (unfold toy_enc in E; congruence). subst ct. split; [|rewrite app_length, repeat_length; reflexivity].
    unfold toy_dec'. rewrite app_length, repeat_length. replace (16 + length pt <? 16)%nat with false by (symmetry; apply Nat.ltb_ge; lia).
    rewrite first_app, skip_app by apply repeat_length. cbn [repeat forallb]. rewrite !N.eqb_refl. reflexivity.
  - intros k iv aad ct pt. unfold toy_dec'. destruct (Nat.ltb_spec (length ct) 16); [discriminate|]. destruct (forallb _ _); [|discriminate].
    intros E. assert (EC : pt = skipn 16 ct) by congruence. rewrite EC, skipn_length. lia.
Qed.
Definition wm : meta := mkMeta (mk_keyid KT_WRAPPED 1 9) 0 (F_USAGE_ENCRYPT + F_TRUSTED) 3 (repeat 0 24).
Definition blob : list N := match nth 0 (fst (trun [req 0 1 (KWrap 4 wm [1; 2; 3])])) None with Some r => r_data r | None => [] end.
(** Wrap, unwrap in both forms; the cached key has lost the trusted flag. *)
Example ex_C31 :
  okT (snd (trun [])) /\ meta_ok wm /\
  (exists r, nth 0 (fst (trun [req 0 1 (KWrap 4 wm [1; 2; 3])])) None = Some r /\ r_rc r = OK /\ length (r_data r) = 63%nat) /\
  nth 1 (fst (trun [req 0 1 (KWrap 4 wm [1; 2; 3]); req 0 1 (KUnwrapExport 4 blob)])) None = Some (mkKr OK 0 (Some wm) [1; 2; 3]) /\
  nth 0 (fst (trun [req 0 1 (KUnwrapCache 4 blob)])) None = Some (mkKr OK (to_client (kc cfg) (m_id wm)) None []) /\
  option_map sl_buf (cached cfg (snd (trun [req 0 1 (KUnwrapCache 4 blob)])) 0 (m_id wm)) = Some [1; 2; 3] /\
  option_map (fun s => m_flags (sl_meta s)) (cached cfg (snd (trun [req 0 1 (KUnwrapCache 4 blob)])) 0 (m_id wm)) = Some F_USAGE_ENCRYPT /\
  nth 0 (fst (trun [req 0 2 (KUnwrapCache 4 blob)])) None = Some (rrc NOTFOUND).
Proof.
  split; [apply trun_reachable|]. split; [vm_compute; repeat split; repeat constructor|].
  split; [eexists; split; [vm_compute; reflexivity|split; reflexivity]|]. repeat split; vm_compute; reflexivity.
Qed.
(** C32: an exportable key is wrapped out under the trusted key-encryption key,
    a non-exportable one is not; a key that the client made is no such key. *)
Definition hist32 := [req 0 1 (KCache 3 0 [] [1; 2; 3]); req 0 1 (KCache 5 4 [] [7; 7]); req 0 1 (KWrapExport 4 KT_CRYPTO 3); req 0 1 (KWrapExport 4 KT_CRYPTO 5);
                      req 0 1 (KEvict 5); req 0 1 (KCache 6 (F_TRUSTED + F_USAGE_WRAP) [] [8]); req 0 1 (KWrapExport 6 KT_CRYPTO 3)].
Example ex_C32 :
  option_map r_rc (nth 2 (fst (trun hist32)) None) = Some OK /\ option_map (fun r => length (r_data r)) (nth 2 (fst (trun hist32)) None) = Some 63%nat /\
  nth 3 (fst (trun hist32)) None = Some (rrc ACCESS) /\ option_map r_rc (nth 5 (fst (trun hist32)) None) = Some OK /\
  nth 6 (fst (trun hist32)) None = Some (rrc ACCESS) /\ no_trusted_copy cfg (snd (trun [])) (key 1 6).
Proof.
  do 5 (split; [vm_compute; reflexivity|]). split; [intros m d E; vm_compute in E; discriminate|]. intros i s E. vm_compute in E. discriminate.
Qed.
End WrapExamples.
