(** Proofs about the key calls on bytes (KycModel.v). *)
From Verif Require Import Base BaseLemmas NvmSpec Flags KeyId Store NvmReqModel EndianModel EndianProof KdfModel KsModel KsCache KsReq KsEff KsStep KsSys KsSysProof KsSpec KsKeep AuthCodec.
From Verif Require Import NvcModel NvcSpec NvcProof KycModel KycSpec KycCode.

(** ** Cutting packets *)
Lemma exactly_len n (l : list N) : length (exactly n l) = n.
Proof. unfold exactly. rewrite firstn_length, app_length, repeat_length. lia. Qed.
Lemma rd_mid (a b c : list N) n k : length a = n -> length b = k -> rd n k (a ++ b ++ c) = b.
Proof. intros A B. unfold rd. rewrite skip_exact by auto. apply first_exact. auto. Qed.
Lemma rd_part (a b c : list N) n k j : length a = n -> length b = k -> j <= k -> rd n j (a ++ b ++ c) = firstn j b.
Proof.
  intros A B L. unfold rd. rewrite skip_exact by auto. rewrite firstn_app. replace (j - length b) with 0 by lia. rewrite firstn_O. apply app_nil_r.
Qed.
Lemma exactly_padded (l : list N) : exactly 24 l = padded (firstn 24 l).
Proof.
  destruct (Nat.le_gt_cases (length l) 24) as [H|H].
  - rewrite firstn_all2 by auto. apply exactly_pad. auto.
  - unfold exactly, padded. rewrite firstn_length, Nat.min_l by lia. rewrite firstn_app. replace (24 - length l) with 0 by lia. reflexivity.
Qed.
Lemma cut_label (l : list N) : firstn (Nat.min (N.to_nat (N.of_nat (Nat.min (length l) 24))) 24) (exactly 24 (firstn 24 l)) = firstn 24 l.
Proof.
  rewrite Nnat.Nat2N.id. rewrite Nat.min_l by lia. rewrite exactly_pad by (rewrite firstn_length; lia). unfold padded.
  rewrite firstn_app, firstn_length. replace (Nat.min (length l) 24 - Nat.min 24 (length l)) with 0 by lia. rewrite firstn_O, app_nil_r.
  rewrite firstn_firstn. replace (Nat.min (Nat.min (length l) 24) 24) with (Nat.min (length l) 24) by lia.
  destruct (Nat.le_gt_cases (length l) 24) as [H|H]; [rewrite Nat.min_l, !firstn_all2 by lia; auto|rewrite Nat.min_r by lia; auto].
Qed.

Lemma lor_lt a b n : (a < 2 ^ n -> b < 2 ^ n -> N.lor a b < 2 ^ n)%N.
Proof.
  intros A B. destruct (N.eq_dec (N.lor a b) 0) as [->|Z]; [lia|]. apply N.log2_lt_pow2; [lia|]. rewrite N.log2_lor.
  destruct (N.eq_dec a 0) as [->|Za]; destruct (N.eq_dec b 0) as [->|Zb]; try (cbn in Z; congruence);
    rewrite ?N.max_lub_lt_iff; repeat split; try (apply N.log2_lt_pow2; lia); try (change (N.log2 0) with 0%N).
  all: try (destruct (N.eq_dec n 0) as [->|]; [cbn in *; lia|lia]).
Qed.
Lemma to_client_u16 K k : u16 (to_client K k).
Proof.
  unfold u16, to_client. change 65536%N with (2 ^ 16)%N.
  assert (A : (kid_id k < 2 ^ 16)%N).
  { unfold kid_id. change 255%N with (N.ones 8). rewrite N.land_ones. eapply N.lt_trans; [apply N.mod_lt; discriminate|reflexivity]. }
  repeat (match goal with |- context [if ?b then _ else _] => destruct b end); repeat apply lor_lt; auto; reflexivity.
Qed.

(** ** Answers of the server fit the response structures *)
Section Fit.
Variable DL : nat.
Variable C : kscfg.
Variable crypt : cop -> list N -> list N -> Z * list N.
Variable pub : N -> list N -> Z * list N.
Variable ots : list N -> list N -> option (list N * list N).
Variable gcm_enc : list N -> list N -> N -> list N -> option (list N).
Variable gcm_dec : list N -> list N -> N -> list N -> option (list N).
Variable she_count : list N -> N.
Notation step := (ks_step C crypt pub ots gcm_enc gcm_dec she_count).
Hypothesis BO : build_ok DL C.
Hypothesis AC : aead_sizes gcm_enc gcm_dec.

Definition room (q : kreq) (r : kresp) : Prop :=
  let n := length (r_data r) in
  match q with
  | KExport _ | KExportPublic _ _ _ => n <= DL - 36 /\ exists m, r_meta r = Some m
  | KExportDma _ sz => exists m, r_meta r = Some m /\ m_len m = N.of_nat n /\ (N.of_nat n <= sz)%N
  | KWrap _ _ _ | KWrapExport _ _ _ => n <= DL - 8 /\ r_meta r = None
  | KUnwrapExport _ _ => 32 + n <= DL - 8 /\ exists m, r_meta r = Some m /\ meta16 m
  | KDataWrap _ _ | KDataUnwrap _ _ => n <= DL - 12 /\ r_meta r = None
  | _ => True
  end.
Definition fits_answer (q : kreq) (r : kresp) : Prop :=
  u16 (r_id r) /\ (r_rc r <> OK -> r_data r = [] /\ r_meta r = None) /\ (r_rc r = OK -> room q r).

Lemma refused q rc : rc <> OK -> fits_answer q (rrc rc).
Proof. intros H. split; [reflexivity|]. split; [auto|]. cbn [rrc r_rc]. contradiction. Qed.
Lemma nok rc : negb (is_ok rc) = true -> rc <> OK.
Proof. intros H. apply is_ok_false. destruct (is_ok rc); auto; discriminate. Qed.

Lemma read_bound S id cap S' m d : good C S -> read_key_checked C S id cap = (OK, S', m, d) ->
  (N.of_nat (length d) <= cap)%N \/ (length d = SHE_KEY_SZ /\ kid_type id = KT_SHE).
Proof.
  intros [GS GV] H. unfold read_key_checked in H. destruct (is_ok (check_ks C OpExport S id)) eqn:K; [|exfalso; injection H as X _ _ _; apply is_ok_false in K; contradiction].
  unfold read_key in H. destruct (kid_unassigned id) eqn:U; [discriminate|]. destruct (hwkey C id); [discriminate|].
  assert (NZ : id <> 0%N) by (intros ->; discriminate).
  destruct (find_cache C S id) as [s|] eqn:V.
  { destruct (N.ltb_spec cap (m_len (sl_meta s))); [discriminate|]. injection H as _ _ <-. left. rewrite <- (GV _ _ NZ V). auto. }
  destruct (kid_wrapped id); [discriminate|]. destruct (sp_find (k_st S) id) as [[m0 d0]|] eqn:F.
  - destruct (N.ltb_spec cap (m_len m0)) as [L|L]; [discriminate|]. rewrite (read_whole _ _ _ _ GS NZ F) in H.
    assert (B : (N.of_nat (length d0) <= cap)%N) by (rewrite <- (GS _ _ _ NZ F); auto). left.
    destruct (0 <? length d0); [|discriminate]. change (negb (is_ok OK)) with false in H. cbv iota in H.
    destruct (_ && _); [injection H as _ _ <-; auto|]. destruct (cache_key C false S m0 d0) as [rc1 S1]. injection H as _ _ <-. auto.
  - destruct (have_she C && _ && _) eqn:B; [|discriminate]. injection H as _ _ <-. right. split; [reflexivity|].
    apply andb_prop in B. destruct B as [B _]. apply andb_prop in B. destruct B as [_ B]. apply N.eqb_eq. exact B.
Qed.

Lemma kek_good tr e S id rc S' k : wf S -> good C S -> resolve_kek C tr e S id = (rc, S', k) -> wf S' /\ good C S'.
Proof. intros W G H. destruct (kek_eff _ _ _ _ _ _ _ _ W G H) as (A & B & D). split; auto. apply (fr_good C S S'); auto. Qed.
Lemma wrap_len e k a pt rc b : gcm_wrap gcm_enc e k a pt = (rc, b) ->
  (rc = OK /\ length b = 28 + length pt) \/ (rc <> OK /\ b = []).
Proof.
  unfold gcm_wrap. destruct (negb (is_ok (v_rng e))) eqn:R; [intros H; injection H as <- <-; right; split; auto; apply nok; auto|].
  destruct (gcm_enc k (exactly IV_SZ (v_rngd e)) a pt) as [tc|] eqn:E; intros H; injection H as <- <-.
  - left. split; auto. rewrite app_length, exactly_len, (proj1 AC _ _ _ _ _ E). unfold IV_SZ. lia.
  - right. split; [discriminate|auto].
Qed.
Lemma unwrap_len k a b rc pt : gcm_unwrap gcm_dec k a b = (rc, pt) ->
  (rc = OK /\ length b - 12 = 16 + length pt /\ bytes_ok pt) \/ (rc <> OK /\ pt = []).
Proof.
  unfold gcm_unwrap. destruct (gcm_dec k (firstn IV_SZ b) a (skipn IV_SZ b)) as [x|] eqn:E; intros H; injection H as <- <-.
  - left. destruct (proj2 AC _ _ _ _ _ E) as [L B]. rewrite skipn_length in L. auto.
  - right. split; [discriminate|auto].
Qed.
Lemma des_meta16 pt : bytes_ok pt -> 32 <= length pt -> meta16 (des_meta pt).
Proof.
  intros B L. assert (D : forall l, bytes_ok l -> (le_dec (firstn 2 l) < 65536)%N).
  { intros l H. pose proof (le_dec_bound (firstn 2 l) (bytes_ok_firstn _ _ H)) as X. eapply N.lt_le_trans; [exact X|].
    change 65536%N with (256 ^ 2)%N. apply N.pow_le_mono_r; [discriminate|]. rewrite firstn_length. lia. }
  assert (K : forall n, bytes_ok (skipn n pt)) by (intros n; apply bytes_ok_skipn; auto).
  unfold meta16, des_meta, u16. cbn [m_id m_access m_flags m_len m_label]. conjs; auto.
  rewrite firstn_length, skipn_length. lia.
Qed.

Ltac bad := first [apply refused; (discriminate || (apply nok; assumption))].
Ltac stop H := injection H as <- <-; bad.

Lemma read_label S id cap S' m d : good C S -> labels24 C S -> read_key_checked C S id cap = (OK, S', m, d) -> length (m_label m) = 24.
Proof.
  intros [GS GV] [LS LV] H. unfold read_key_checked in H. destruct (is_ok (check_ks C OpExport S id)) eqn:K; [|exfalso; injection H as X _ _ _; apply is_ok_false in K; contradiction].
  unfold read_key in H. destruct (kid_unassigned id) eqn:U; [discriminate|]. destruct (hwkey C id); [discriminate|].
  assert (NZ : id <> 0%N) by (intros ->; discriminate).
  destruct (find_cache C S id) as [s|] eqn:V.
  { destruct (N.ltb_spec cap (m_len (sl_meta s))); [discriminate|]. injection H as _ <- _. eapply LV; eauto. }
  destruct (kid_wrapped id); [discriminate|]. destruct (sp_find (k_st S) id) as [[m0 d0]|] eqn:F.
  - destruct (N.ltb_spec cap (m_len m0)) as [L|L]; [discriminate|]. rewrite (read_whole _ _ _ _ GS NZ F) in H. pose proof (LS _ _ _ F) as L0.
    destruct (0 <? length d0); [|discriminate]. change (negb (is_ok OK)) with false in H. cbv iota in H.
    destruct (_ && _); [injection H as _ <- _; auto|]. destruct (cache_key C false S m0 d0) as [rc1 S1]. injection H as _ <- _. auto.
  - destruct (have_she C && _ && _) eqn:B; [|discriminate]. injection H as _ <- _. reflexivity.
Qed.
Lemma ser_len m : length (m_label m) = 24 -> length (ser_meta m) = 32.
Proof. intros H. unfold ser_meta. rewrite !app_length, !le_enc_length, H. reflexivity. Qed.

Lemma answer_fits e client c S r S' : wf S -> good C S -> typed c -> (exports_wrapped c = true -> labels24 C S) -> step e client (meant DL c) S = (r, S') -> fits_answer (meant DL c) r.
Proof.
  destruct BO as (D0 & DL16 & EM & KR & KD). intros W G TY LB H. unfold ks_step in H.
  destruct (negb (is_ok (v_lock e))) eqn:LK; [stop H|].
  assert (GIVE : forall q rc k S1, (if is_ok rc then mkKr OK (to_client (kc C) k) None [] else rrc rc, S1) = (r, S') ->
     (match q with KCache _ _ _ _ | KCacheRandom _ _ _ _ | KCacheDma _ _ _ _ => True | _ => False end) -> fits_answer q r).
  { intros q rc k S1 E Q. injection E as <- _. destruct (is_ok rc) eqn:K; [|apply refused, is_ok_false; auto].
    split; [apply to_client_u16|]. split; [intros X; contradiction X; reflexivity|]. intros _. destruct q; try contradiction; exact I. }
  assert (CODE : forall q (x : Z * ks), (rrc (fst x), snd x) = (r, S') ->
     (match q with KEvict _ | KCommit _ | KErase _ | KRevoke _ => True | _ => False end) -> fits_answer q r).
  { intros q x E Q. injection E as <- _. split; [reflexivity|]. split; [auto|]. intros _. destruct q; try contradiction; exact I. }
  destruct c; cbn [meant] in *.
  - unfold h_cache in H. destruct (pick_id _ _ _ _) as [rc k]. destruct (negb (is_ok rc)) eqn:K; [stop H|].
    destruct (cache_key _ _ _ _ _) as [rc1 S1]. eapply GIVE; [exact H|exact I].
  - unfold h_cache_random in H. destruct (pick_id _ _ _ _) as [rc k]. destruct (negb (is_ok rc)) eqn:K; [stop H|].
    destruct (cache_random _ _ _ _ _) as [rc1 S1]. eapply GIVE; [exact H|exact I].
  - unfold h_cache_dma in H. destruct (pick_id _ _ _ _) as [rc k]. destruct (negb (is_ok rc)) eqn:K; [stop H|]. cbv zeta in H.
    destruct (cache_dma _ _ _ _ _) as [rc1 S1]. eapply GIVE; [exact H|exact I].
  - unfold h_export_dma in H. cbv zeta in H. destruct (negb (is_ok (check_ks _ _ _ _))) eqn:K1; [stop H|].
    destruct (freshen C S _) as [rc S1] eqn:F. destruct (negb (is_ok rc)) eqn:K; [stop H|].
    destruct (find_cache C S1 _) as [s|] eqn:V; [|stop H]. destruct (N.ltb_spec sz (m_len (sl_meta s))); [stop H|].
    destruct (negb (is_ok (v_dma e))) eqn:K2; [stop H|]. injection H as <- <-.
    split; [reflexivity|]. split; [intros X; contradiction X; reflexivity|]. intros _. cbn [room r_data r_meta]. exists (sl_meta s).
    destruct (freshen_eff _ _ _ _ _ W G F) as (W1 & T1 & FR & OKF & _).
    assert (O : rc = OK) by (apply is_ok_iff; destruct (is_ok rc); auto; discriminate). destruct (OKF O) as (U & _).
    assert (G1 : good C S1) by (apply (fr_good C S S1); auto). destruct G1 as [_ GV].
    assert (E : m_len (sl_meta s) = N.of_nat (length (sl_buf s))). { refine (GV (from_client (kc C) KT_CRYPTO client id) s _ V). intros Z. rewrite Z in U. discriminate. }
    conjs; auto. lia.
  - eapply CODE; [exact H|exact I].
  - eapply CODE; [exact H|exact I].
  - eapply CODE; [exact H|exact I].
  - eapply CODE; [exact H|exact I].
  - unfold h_export in H. destruct (read_key_checked C S _ (exp_max C)) as [[[rc S1] m] d] eqn:RK. destruct (is_ok rc) eqn:K; injection H as <- <-; [|apply refused, is_ok_false; auto].
    apply is_ok_iff in K. subst rc. split; [reflexivity|]. split; [intros X; contradiction X; reflexivity|]. intros _. cbn [room r_data r_meta].
    split; [|eauto]. destruct (read_bound _ _ _ _ _ _ G RK) as [B|[B _]]; [rewrite EM in B; lia|]. rewrite B. unfold SHE_KEY_SZ. lia.
  - unfold h_export_public in H. cbv zeta in H. destruct (negb (is_ok (check_ks _ _ _ _))) eqn:K1; [stop H|].
    destruct (freshen C S _) as [rc S1]. destruct (negb (is_ok rc)) eqn:K; [stop H|]. destruct (find_cache C S1 _) as [s|]; [|stop H].
    destruct (pub algo (sl_buf s)) as [rc1 d]. destruct (negb (is_ok rc1)) eqn:K2; [stop H|].
    destruct (N.ltb_spec (N.of_nat (DL - 36)) (N.of_nat (length d))); [stop H|]. injection H as <- <-.
    split; [reflexivity|]. split; [intros X; contradiction X; reflexivity|]. intros _. cbn [room r_data r_meta]. split; [lia|eauto].
  - unfold h_wrap in H. cbv zeta in H. destruct (_ <? _)%N; [stop H|]. destruct (negb (kid_wrapped _)); [stop H|].
    destruct (N.ltb_spec (kw_resp C) (60 + N.of_nat (length key))); [stop H|].
    destruct (resolve_kek C false e S _) as [[rc S1] k]. destruct (negb (is_ok rc)) eqn:K; [stop H|].
    destruct (gcm_wrap gcm_enc e k AAD_KEY _) as [rc1 b] eqn:GW. injection H as <- <-. destruct (wrap_len _ _ _ _ _ _ GW) as [[-> L]|[N1 ->]].
    + split; [reflexivity|]. split; [intros X; contradiction X; reflexivity|]. intros _. cbn [room r_data r_meta]. split; auto. rewrite L, app_length.
      destruct TY as (_ & _ & _ & _ & _ & _ & T). rewrite (ser_len _ T). lia.
    + split; [reflexivity|]. split; [auto|]. cbn [r_rc]. contradiction.
  - unfold h_wrap_export in H. destruct (wx_target C kty client id) as [t|]; [|stop H].
    destruct (read_key_checked C S t (kw_max C)) as [[[rc S1] m] d] eqn:RK. destruct (negb (is_ok rc)) eqn:K; [stop H|].
    assert (O : rc = OK) by (apply is_ok_iff; destruct (is_ok rc); auto; discriminate). subst rc.
    destruct (N.ltb_spec (kw_resp C) (60 + N.of_nat (length d))); [stop H|].
    destruct (resolve_kek C true e S1 _) as [[rc1 S2] k]. destruct (negb (is_ok rc1)) eqn:K1; [stop H|].
    destruct (gcm_wrap gcm_enc e k AAD_KEY _) as [rc2 b] eqn:GW. injection H as <- <-. destruct (wrap_len _ _ _ _ _ _ GW) as [[-> L]|[N1 ->]].
    + split; [reflexivity|]. split; [intros X; contradiction X; reflexivity|]. intros _. cbn [room r_data r_meta]. split; auto. rewrite L, app_length.
      rewrite ser_len; [lia|]. pose proof (read_label _ _ _ _ _ _ G (LB eq_refl) RK) as T. unfold wx_meta. destruct (N.eqb _ _); auto.
    + split; [reflexivity|]. split; [auto|]. cbn [r_rc]. contradiction.
  - unfold h_unwrap_export in H. cbv zeta in H. destruct (Nat.ltb_spec (length blob) 60); [stop H|].
    destruct (N.ltb_spec (kw_resp C) (32 + N.of_nat (length blob - 60))); [stop H|].
    destruct (resolve_kek C false e S _) as [[rc S1] k]. destruct (negb (is_ok rc)) eqn:K; [stop H|]. destruct (_ <? _)%N; [stop H|].
    destruct (gcm_unwrap gcm_dec k AAD_KEY blob) as [rc1 pt] eqn:GU. destruct (negb (is_ok rc1)) eqn:K1; [stop H|].
    destruct (unwrap_len _ _ _ _ _ GU) as [(-> & L & B)|[N1 _]]; [|apply is_ok_false in N1; rewrite N1 in K1; discriminate].
    destruct (kid_unassigned _); [stop H|]. destruct (negb (kid_wrapped _)); [stop H|]. destruct (has _ _); [stop H|]. destruct (negb (owner_ok _ _ _)); [stop H|].
    injection H as <- <-. split; [reflexivity|]. split; [intros X; contradiction X; reflexivity|]. intros _. cbn [room r_data r_meta]. rewrite exactly_len.
    split; [lia|]. eexists. split; [reflexivity|]. apply des_meta16; auto. lia.
  - unfold h_unwrap_cache in H. cbv zeta in H. destruct (_ <? _); [stop H|].
    destruct (resolve_kek C true e S _) as [[rc S1] k]. destruct (negb (is_ok rc)) eqn:K; [stop H|]. destruct (_ <? _)%N; [stop H|].
    destruct (gcm_unwrap gcm_dec k AAD_KEY blob) as [rc1 pt]. destruct (negb (is_ok rc1)) eqn:K1; [stop H|].
    destruct (negb (N.eqb _ _)); [stop H|]. destruct (kid_unassigned _); [stop H|]. destruct (_ && negb _); [stop H|].
    destruct (negb (owner_ok _ _ _)); [stop H|]. destruct (_ && _ && _ && _); [stop H|].
    destruct (find_cache C S1 _); [stop H|]. destruct (match sp_find _ _ with Some _ => _ | None => _ end); [stop H|].
    destruct (have_st C && _); [stop H|]. destruct (cache_key C false S1 _ _) as [rc2 S2]. injection H as <- <-.
    split; [apply to_client_u16|]. split; auto. intros _. exact I.
  - unfold h_data_wrap in H. cbv zeta in H. destruct (_ <? _)%N; [stop H|].
    destruct (N.ltb_spec (kwd_resp C) (28 + N.of_nat (length data))); [stop H|].
    destruct (resolve_kek C false e S _) as [[rc S1] k]. destruct (negb (is_ok rc)) eqn:K; [stop H|].
    destruct (gcm_wrap gcm_enc e k AAD_DATA _) as [rc1 b] eqn:GW. injection H as <- <-. destruct (wrap_len _ _ _ _ _ _ GW) as [[-> L]|[N1 ->]].
    + split; [reflexivity|]. split; [intros X; contradiction X; reflexivity|]. intros _. cbn [room r_data r_meta]. split; auto. lia.
    + split; [reflexivity|]. split; [auto|]. cbn [r_rc]. contradiction.
  - unfold h_data_unwrap in H. cbv zeta in H. destruct (Nat.ltb_spec (length blob) 28); [stop H|].
    destruct (N.ltb_spec (kwd_resp C) (N.of_nat (length blob - 28))); [stop H|].
    destruct (resolve_kek C false e S _) as [[rc S1] k]. destruct (negb (is_ok rc)) eqn:K; [stop H|]. destruct (_ <? _)%N; [stop H|].
    destruct (gcm_unwrap gcm_dec k AAD_DATA blob) as [rc1 pt] eqn:GU. injection H as <- <-.
    destruct (unwrap_len _ _ _ _ _ GU) as [(-> & L & B)|[N1 ->]].
    + split; [reflexivity|]. split; [intros X; contradiction X; reflexivity|]. intros _. cbn [room r_data r_meta]. split; auto. lia.
    + split; [reflexivity|]. split; [auto|]. cbn [r_rc]. contradiction.
Qed.

(** ** Calls *)
Variable GCM : N.
Variable cb : bool.
Hypothesis GU : u16 GCM.
Notation go := (kcall_ks DL C crypt pub ots gcm_enc gcm_dec she_count GCM cb).
Notation request := (krequest DL C GCM cb).
Notation parse := (kparse DL C cb).
Notation reply := (kreply cb).
Notation response := (kresponse GCM cb).

Lemma some_inj (a b : list N) : Some a = Some b -> a = b.
Proof. congruence. Qed.
Lemma get_wire W fs rest : W = map fst fs -> Forall fit fs -> take false cb W (wire cb fs ++ rest) = map snd fs.
Proof. intros -> F. apply take_wire. auto. Qed.
Lemma rd_over (a r : list N) n k : length a <= n -> rd n k (a ++ r) = rd (n - length a) k r.
Proof. intros L. unfold rd. rewrite skipn_app. rewrite skipn_all2 by auto. reflexivity. Qed.
Lemma rd_head (b c : list N) k : length b = k -> rd 0 k (b ++ c) = b.
Proof. intros L. unfold rd. cbn [skipn]. apply first_exact. auto. Qed.
Lemma tail_all (d rest : list N) : rd 0 (N.to_nat (N.of_nat (length d))) (d ++ rest) = d.
Proof. rewrite Nnat.Nat2N.id. apply rd_head. auto. Qed.

Ltac lens := rewrite ?app_length, ?wire_length, ?give_length, ?exactly_len, ?repeat_length, ?Nnat.Nat2N.id; cbn [map sum fold_right fst Nat.add Nat.sub]; try lia.
Ltac rds := repeat first
  [ rewrite rd_head by (lens; reflexivity)
  | match goal with |- context [rd ?n ?k (?a ++ ?r)] => match n with S _ => rewrite (rd_over a r n k) by lens end end;
    rewrite ?wire_length, ?give_length, ?exactly_len, ?repeat_length; cbn [map sum fold_right fst Nat.add Nat.sub] ].
(** A comparison whose outcome follows from the lengths. *)
Ltac cmp := match goal with
  | |- context [if (?a <? ?b)%nat then _ else _] => let h := fresh in destruct (Nat.ltb_spec a b) as [h|h]; [exfalso; revert h; lens|clear h]
  | |- context [if (?a <? ?b)%N then _ else _] => let h := fresh in destruct (N.ltb_spec a b) as [h|h]; [exfalso; revert h; lens|clear h]
  end.

Lemma parse_id a (k : N -> kreq) id pad p rest :
  (forall n buf, parse a n buf = if n <? 8 then Short else Ask (k (fld 0 (take false cb W_ID buf))) 0%N) ->
  u16 id -> by_id cb pad id = Some p -> parse a (length p) (p ++ rest) = Ask (k id) 0%N.
Proof.
  intros P T E. unfold by_id in E. destruct (N.eqb id 0); [discriminate|]. apply some_inj in E; subst p. rewrite P. unfold u16 in T.
  rewrite <- app_assoc. rewrite (get_wire W_ID [(2, id)]) by fits. cmp. reflexivity.
Qed.

(** The packet of a call is read as the request it stands for. *)
Lemma parse_request c pad p rest : typed c -> request pad c = Some p ->
  parse (kaction c) (length p) (p ++ rest) = Ask (meant DL c) (if wraps c then GCM else 0%N) /\
  kaddr cb (kaction c) (p ++ rest) = place_of c.
Proof.
  intros T E. destruct c; cbn [krequest kaction kparse kaddr meant place_of wraps typed] in *; unfold meta16, u16 in *.
  - destruct T as (T1 & T2 & T3). destruct (_ || _); [discriminate|]. apply some_inj in E; subst p.
    set (fs := [(4, flags); (4, N.of_nat (length data)); (4, N.of_nat (Nat.min (length label) 24)); (2, id)]).
    assert (F : Forall fit fs) by (subst fs; fits). rewrite <- !app_assoc. rewrite !(get_wire W_CACHE fs) by auto. subst fs. rds.
    cbn [fld nth map snd]. cmp. cmp. rewrite cut_label. split; auto. do 2 f_equal. apply tail_all.
  - destruct T as (T1 & T2 & T3). destruct (N.eqb sz 0); [discriminate|]. apply some_inj in E; subst p.
    set (fs := [(4, flags); (4, N.of_nat (Nat.min (length label) 24)); (2, sz); (2, id)]).
    assert (F : Forall fit fs) by (subst fs; fits). rewrite <- !app_assoc. rewrite !(get_wire W_RANDOM fs) by auto. subst fs. rds.
    cbn [fld nth map snd]. cmp. rewrite cut_label. auto.
  - destruct T as (T1 & T2 & T3 & T4). apply some_inj in E; subst p.
    set (fs := [(8, addr); (8, sz); (4, flags); (4, N.of_nat (Nat.min (length label) 24)); (2, id)]).
    assert (F : Forall fit fs) by (subst fs; fits). rewrite <- !app_assoc. rewrite !(get_wire W_CACHEDMA fs) by auto. subst fs. rds.
    cbn [fld nth map snd]. cmp. rewrite cut_label. auto.
  - destruct T as (T1 & T2 & T3). destruct (N.eqb id 0); [discriminate|]. apply some_inj in E; subst p.
    set (fs := [(8, addr); (8, sz); (2, id)]).
    assert (F : Forall fit fs) by (subst fs; fits). rewrite <- !app_assoc. rewrite !(get_wire W_EXPORTDMA fs) by auto. subst fs.
    cbn [fld nth map snd]. cmp. auto.
  - split; [apply (parse_id ActEvict KEvict _ pad)|]; auto.
  - split; [apply (parse_id ActCommit KCommit _ pad)|]; auto.
  - split; [apply (parse_id ActErase KErase _ pad)|]; auto.
  - split; [apply (parse_id ActRevoke KRevoke _ pad)|]; auto.
  - split; [apply (parse_id ActExport KExport _ pad)|]; auto.
  - destruct T as (T1 & T2). destruct (N.eqb id 0); [discriminate|]. apply some_inj in E; subst p.
    set (fs := [(2, id); (2, algo)]).
    assert (F : Forall fit fs) by (subst fs; fits). rewrite <- !app_assoc. rewrite !(get_wire W_PUBLIC fs) by auto. auto.
  - destruct T as (T1 & T2 & M1 & M2 & M3 & M4 & M5). destruct (Nat.eqb_spec (length key) 0); [discriminate|].
    destruct (N.ltb_spec (kw_max C) (N.of_nat (length key))); [discriminate|]. cbn [orb] in E. destruct (_ <? _); [discriminate|]. apply some_inj in E; subst p.
    set (fs := [(2, N.of_nat (length key)); (2, kek); (2, GCM)]).
    set (gs := [(2, m_id m); (2, m_access m); (2, m_flags m); (2, m_len m)]).
    assert (F : Forall fit fs) by (subst fs; fits). assert (G' : Forall fit gs) by (subst gs; fits). rewrite <- !app_assoc. rewrite !(get_wire W_WRAP fs) by auto.
    rewrite (skip_exact 6) by (rewrite wire_length; reflexivity). rewrite !(get_wire W_NVMMETA gs) by auto. subst fs gs. rds.
    cbn [fld nth map snd]. cmp. cmp. cmp. split; auto. f_equal. f_equal; [destruct m; reflexivity|]. rewrite M5. apply tail_all.
  - destruct T as (T1 & T2 & T3). apply some_inj in E; subst p.
    set (fs := [(2, id); (2, kty); (2, kek); (2, GCM)]).
    assert (F : Forall fit fs) by (subst fs; fits). rewrite !(get_wire W_WRAPX fs) by auto. subst fs. cbn [fld nth map snd]. cmp. auto.
  - destruct T as (T1 & T2). destruct (_ || _); [discriminate|]. apply some_inj in E; subst p.
    set (fs := [(2, N.of_nat (length blob)); (2, kek); (2, GCM)]).
    assert (F : Forall fit fs) by (subst fs; fits). rewrite <- !app_assoc. rewrite !(get_wire W_UNWRAP fs) by auto. subst fs. rds.
    cbn [fld nth map snd]. cmp. cmp. split; auto. do 2 f_equal. apply tail_all.
  - destruct T as (T1 & T2). destruct (_ || _); [discriminate|]. apply some_inj in E; subst p.
    set (fs := [(2, N.of_nat (length blob)); (2, kek); (2, GCM)]).
    assert (F : Forall fit fs) by (subst fs; fits). rewrite <- !app_assoc. rewrite !(get_wire W_UNWRAP fs) by auto. subst fs. rds.
    cbn [fld nth map snd]. cmp. cmp. split; auto. do 2 f_equal. apply tail_all.
  - destruct T as (T1 & T2). destruct (Nat.eqb_spec (length data) 0); [discriminate|].
    destruct (N.ltb_spec (kwd_max C) (N.of_nat (length data))); [discriminate|]. cbn [orb] in E. destruct (_ <? _); [discriminate|]. apply some_inj in E; subst p.
    set (fs := [(4, N.of_nat (length data)); (2, kek); (2, GCM)]).
    assert (F : Forall fit fs) by (subst fs; fits). rewrite <- !app_assoc. rewrite !(get_wire W_DATA fs) by auto. subst fs. rds.
    cbn [fld nth map snd]. cmp. cmp. cmp. split; auto. do 2 f_equal. apply tail_all.
  - destruct T as (T1 & T2). destruct (_ || _); [discriminate|]. apply some_inj in E; subst p.
    set (fs := [(4, N.of_nat (length blob)); (2, kek); (2, GCM)]).
    assert (F : Forall fit fs) by (subst fs; fits). rewrite <- !app_assoc. rewrite !(get_wire W_DATA fs) by auto. subst fs. rds.
    cbn [fld nth map snd]. cmp. cmp. split; auto. do 2 f_equal. apply tail_all.
Qed.

(** The answer of the server reaches the caller as it is. *)
Lemma get_give fs W rest : W = map fst fs -> Forall fit fs -> unwire cb W (give false cb fs ++ rest) = map snd fs.
Proof. intros -> F. apply unwire_give. auto. Qed.
Lemma get_give_nil fs W : W = map fst fs -> Forall fit fs -> unwire cb W (give false cb fs) = map snd fs.
Proof. intros E F. rewrite <- (app_nil_r (give false cb fs)). apply get_give; auto. Qed.
Lemma rd_label lcap (l c : list N) : rd 0 (Nat.min lcap 24) (exactly 24 l ++ c) = firstn (Nat.min lcap 24) (padded (firstn 24 l)).
Proof.
  unfold rd. cbn [skipn]. rewrite firstn_app, exactly_len. replace (Nat.min lcap 24 - 24) with 0 by lia. rewrite firstn_O, app_nil_r. rewrite exactly_padded. auto.
Qed.
Lemma eqb_ok z : Z.eqb z OK = is_ok z.
Proof. reflexivity. Qed.
Lemma give_code r junk : i32 (r_rc r) -> gives_code cb (give false cb [(4, rc_n (r_rc r))] ++ junk) = fails (r_rc r).
Proof. intros I. unfold gives_code. rewrite (get_give [(4, rc_n (r_rc r))]) by fits. cbn [fld nth map snd]. rewrite rc_round by auto. auto. Qed.
Lemma give_code2 r junk : i32 (r_rc r) -> gives_code cb (give false cb [(4, rc_n (r_rc r)); (4, 0%N)] ++ junk) = fails (r_rc r).
Proof. intros I. unfold gives_code. change (give false cb [(4, rc_n (r_rc r)); (4, 0%N)]) with (give false cb [(4, rc_n (r_rc r))] ++ give false cb [(4, 0%N)]).
  rewrite <- app_assoc. apply give_code. auto. Qed.
Lemma give_id r junk : i32 (r_rc r) -> u16 (r_id r) -> gives_id cb [4; 2] (give false cb [(4, rc_n (r_rc r)); (2, r_id r)] ++ junk) =
  if negb (is_ok (r_rc r)) then fails (r_rc r) else mkKo OK (Some (r_id r)) None [] None.
Proof. intros I U. unfold gives_id, u16 in *. rewrite (get_give [(4, rc_n (r_rc r)); (2, r_id r)]) by fits. cbn [fld nth map snd]. rewrite rc_round by auto. auto. Qed.
Lemma sized_ok k p f : k <= length p -> sized k p f = f.
Proof. intros H. unfold sized. destruct (Nat.ltb_spec (length p) k); [lia|auto]. Qed.
Lemma told_code r : (if negb (Z.eqb (r_rc r) OK) then fails (r_rc r) else mkKo OK None None [] None) = fails (r_rc r).
Proof. destruct (Z.eqb_spec (r_rc r) OK) as [->|]; auto. Qed.

Lemma give_key late lcap cap r junk : i32 (r_rc r) -> (r_rc r <> OK -> r_data r = []) -> (r_rc r = OK -> exists m, r_meta r = Some m) ->
  (N.of_nat (length (r_data r)) < 4294967296)%N ->
  gives_key cb late lcap cap (give false cb [(4, rc_n (r_rc r)); (4, N.of_nat (length (r_data r)))] ++
     exactly 24 (m_label match r_meta r with Some m => m | None => meta_zero end) ++ exactly 4 junk ++ r_data r) =
  if negb (is_ok (r_rc r)) then fails (r_rc r) else
  match cap with
  | None => mkKo OK (Some (N.of_nat (length (r_data r)))) None (label_of r lcap) None
  | Some n => if (n <? length (r_data r))%nat then mkKo ABORTED None None (if late then label_of r lcap else []) None
              else mkKo OK (Some (N.of_nat (length (r_data r)))) (Some (r_data r)) (label_of r lcap) None
  end.
Proof.
  intros I E M L. unfold gives_key. rewrite (get_give [(4, rc_n (r_rc r)); (4, N.of_nat (length (r_data r)))]) by fits. cbn [fld nth map snd].
  rewrite rc_round by auto. destruct (is_ok (r_rc r)) eqn:K; cbn [negb]; auto. apply is_ok_iff in K. destruct (M K) as [m Em]. rewrite Em. rewrite Nnat.Nat2N.id.
  cmp. assert (EL : label_of r lcap = firstn (Nat.min lcap 24) (padded (firstn 24 (m_label m)))) by (unfold label_of; rewrite Em; auto). rewrite EL.
  rewrite rd_over by lens. rewrite give_length. cbn [map sum fold_right fst Nat.add Nat.sub]. rewrite rd_label.
  destruct cap as [n|]; auto. destruct (Nat.ltb_spec n (length (r_data r))); auto. do 2 f_equal. 
  rds. rewrite <- (app_nil_r (r_data r)) at 2. apply rd_head. auto.
Qed.
Lemma give_blob w off cap r (mid : list N) : w = 2 \/ w = 4 -> i32 (r_rc r) -> (r_rc r <> OK -> r_data r = []) ->
  (N.of_nat (length (r_data r)) < 65536)%N -> off = 4 + w + 2 + length mid ->
  gives_blob GCM cb w off cap (give false cb [(4, rc_n (r_rc r)); (w, N.of_nat (length (r_data r))); (2, GCM)] ++ mid ++ r_data r) =
  if negb (is_ok (r_rc r)) then fails (r_rc r) else
  if cap <? length (r_data r) then fails BUFFER_SIZE
  else mkKo OK (Some (N.of_nat (length (r_data r)))) (Some (r_data r)) [] None.
Proof.
  intros W I E L OF. unfold gives_blob. unfold u16 in GU. rewrite (get_give [(4, rc_n (r_rc r)); (w, N.of_nat (length (r_data r))); (2, GCM)]) by (destruct W; subst w; fits).
  cbn [fld nth map snd]. rewrite rc_round by auto. rewrite Nnat.Nat2N.id, N.eqb_refl. cbn [negb]. rewrite orb_false_r.
  cmp. destruct (is_ok (r_rc r)); cbn [negb]; auto. destruct (cap <? length (r_data r)); auto. do 2 f_equal.
  rewrite app_assoc. rewrite rd_over by lens. rewrite app_length, give_length. cbn [map sum fold_right fst]. 
  replace (off - _) with 0 by lia. rewrite <- (app_nil_r (r_data r)) at 2. apply rd_head. auto.
Qed.

Lemma reply_response c r ct junk : typed c -> fits_answer (meant DL c) r -> i32 (r_rc r) -> (wraps c = true -> ct = GCM) ->
  response c (reply (kaction c) r ct junk) = told c r.
Proof.
  destruct BO as (D0 & DL16 & _). intros T (U & FE & FO) I CT. unfold told. unfold u16 in *. 
  assert (FD : r_rc r <> OK -> r_data r = []) by (intros X; apply (FE X)).
  assert (CASE : r_rc r = OK \/ r_rc r <> OK) by (destruct (Z.eq_dec (r_rc r) OK); auto).
  destruct c; cbn [kresponse kaction kreply meant wraps typed room] in *; unfold u16 in *.
  - rewrite sized_ok by lens. apply give_id; auto.
  - rewrite sized_ok by lens. apply give_id; auto.
  - replace (length _ =? 24) with true by (symmetry; apply Nat.eqb_eq; lens). cbn [negb]. rewrite skip_exact by apply exactly_len. apply give_id; auto.
  - replace (length _ =? 48) with true by (symmetry; apply Nat.eqb_eq; lens). cbn [negb]. rewrite skip_exact by apply exactly_len.
    destruct T as (T1 & T2 & T3). set (m := match r_meta r with Some m => m | None => meta_zero end).
    assert (ML : (m_len m < 65536)%N /\ (r_rc r = OK -> r_meta r = Some m /\ m_len m = N.of_nat (length (r_data r)))).
    { destruct CASE as [K|K].
      - destruct (FO K) as (m0 & E1 & E2 & E3). subst m. rewrite E1. split; [lia|auto].
      - destruct (FE K) as [_ E2]. subst m. rewrite E2. split; [reflexivity|contradiction]. }
    destruct ML as [ML MO]. clearbody m. rewrite (get_give [(4, rc_n (r_rc r)); (4, m_len m)]) by fits. cbn [fld nth map snd]. rewrite rc_round by auto.
    change (Z.eqb (r_rc r) OK) with (is_ok (r_rc r)). destruct (is_ok (r_rc r)) eqn:K; cbn [negb]; auto. apply is_ok_iff in K. destruct (MO K) as [EM EL].
    rewrite N.mod_small by auto. rewrite EL. unfold label_of. rewrite EM. do 2 f_equal.
    rds. rewrite <- (app_nil_r (exactly 24 (m_label m))). apply rd_label.
  - rewrite sized_ok by lens. rewrite give_code2 by auto. symmetry. apply told_code.
  - rewrite sized_ok by lens. rewrite give_code2 by auto. symmetry. apply told_code.
  - rewrite sized_ok by lens. rewrite give_code2 by auto. symmetry. apply told_code.
  - rewrite sized_ok by lens. rewrite give_code by auto. symmetry. apply told_code.
  - rewrite sized_ok by lens. rewrite give_key; auto.
    + intros K. apply (FO K).
    + destruct CASE as [K|K]; [destruct (FO K); lia|rewrite (FD K); reflexivity].
  - rewrite sized_ok by lens. rewrite give_key; auto.
    + intros K. apply (FO K).
    + destruct CASE as [K|K]; [destruct (FO K); lia|rewrite (FD K); reflexivity].
  - rewrite CT by auto. rewrite sized_ok by lens. unfold bytes_to. pose proof (give_blob 2 8 cap r []) as GB; cbn [app length] in GB; rewrite GB; clear GB; auto; cycle 1.
    { destruct CASE as [K|K]; [destruct (FO K); lia|rewrite (FD K); reflexivity]. }
    change (Z.eqb (r_rc r) OK) with (is_ok (r_rc r)). destruct (is_ok (r_rc r)) eqn:K; cbn [negb]; auto. apply is_ok_iff in K. destruct (FO K) as [_ ->]. auto.
  - rewrite CT by auto. rewrite sized_ok by lens. unfold bytes_to. pose proof (give_blob 2 8 cap r []) as GB; cbn [app length] in GB; rewrite GB; clear GB; auto; cycle 1.
    { destruct CASE as [K|K]; [destruct (FO K); lia|rewrite (FD K); reflexivity]. }
    change (Z.eqb (r_rc r) OK) with (is_ok (r_rc r)). destruct (is_ok (r_rc r)) eqn:K; cbn [negb]; auto. apply is_ok_iff in K. destruct (FO K) as [_ ->]. auto.
  - rewrite CT by auto. rewrite sized_ok by lens. unfold bytes_to. set (m := match r_meta r with Some m => m | None => meta_zero end).
    assert (ML : meta16 m /\ (r_rc r = OK -> r_meta r = Some m)).
    { destruct CASE as [K|K].
      - destruct (FO K) as (_ & m0 & E1 & E2). subst m. rewrite E1. auto.
      - destruct (FE K) as [_ E2]. subst m. rewrite E2. split; [unfold meta16; cbn; repeat split; reflexivity|contradiction]. }
    destruct ML as [ML MO]. clearbody m.
    set (mid := give false cb [(2, m_id m); (2, m_access m); (2, m_flags m); (2, m_len m)] ++ exactly 24 (m_label m)).
    rewrite (app_assoc (give false cb [(2, m_id m); (2, m_access m); (2, m_flags m); (2, m_len m)])). fold mid.
    rewrite (give_blob 2 40 cap r mid); auto.
    2:{ destruct CASE as [K|K]; [destruct (FO K); lia|rewrite (FD K); reflexivity]. }
    2:{ subst mid. lens. }
    change (Z.eqb (r_rc r) OK) with (is_ok (r_rc r)). destruct (is_ok (r_rc r)) eqn:K; cbn [negb o_rc fails].
    2:{ rewrite K. auto. }
    destruct (cap <? length (r_data r)); [reflexivity|]. cbn [o_rc o_num o_data]. change (is_ok OK) with true. cbv iota.
    apply is_ok_iff in K. rewrite (MO K). destruct ML as (M1 & M2 & M3 & M4 & M5). unfold u16 in *. 
    rewrite skip_exact by lens. subst mid. rewrite <- app_assoc.
    rewrite (get_give [(2, m_id m); (2, m_access m); (2, m_flags m); (2, m_len m)]) by fits. cbn [fld nth map snd]. do 2 f_equal. rds.
    destruct m as [a1 a2 a3 a4 lb]. cbn [m_id m_access m_flags m_len m_label] in *. f_equal. rewrite exactly_padded. rewrite firstn_all2 by lia.
    unfold padded. rewrite M5. apply app_nil_r.
  - rewrite CT by auto. rewrite sized_ok by lens. unfold gives_id.
    rewrite (get_give_nil [(4, rc_n (r_rc r)); (2, r_id r); (2, GCM)]) by fits. cbn [fld nth map snd]. rewrite N.eqb_refl. rewrite rc_round by auto. auto.
  - rewrite CT by auto. rewrite sized_ok by lens. unfold bytes_to. rewrite (give_blob 4 12 cap r (exactly 2 junk)); auto; cycle 1.
    { destruct CASE as [K|K]; [destruct (FO K); lia|rewrite (FD K); reflexivity]. } 
    { rewrite exactly_len. auto. }
    change (Z.eqb (r_rc r) OK) with (is_ok (r_rc r)). destruct (is_ok (r_rc r)) eqn:K; cbn [negb]; auto. apply is_ok_iff in K. destruct (FO K) as [_ ->]. auto.
  - rewrite CT by auto. rewrite sized_ok by lens. unfold bytes_to. rewrite (give_blob 4 12 cap r (exactly 2 junk)); auto; cycle 1.
    { destruct CASE as [K|K]; [destruct (FO K); lia|rewrite (FD K); reflexivity]. } 
    { rewrite exactly_len. auto. }
    change (Z.eqb (r_rc r) OK) with (is_ok (r_rc r)). destruct (is_ok (r_rc r)) eqn:K; cbn [negb]; auto. apply is_ok_iff in K. destruct (FO K) as [_ ->]. auto.
Qed.

(** ** Whole calls *)
Lemma sendable_sent pad c : sendable DL C c -> exists p, request pad c = Some p.
Proof.
  destruct BO as (D0 & _). intros H. destruct c; cbn [sendable krequest by_id] in *.
  all: try (unfold by_id; rewrite (proj2 (N.eqb_neq _ _) H); eauto; fail).
  all: try (rewrite (proj2 (N.eqb_neq _ _) H); eauto; fail). all: eauto.
  - rewrite (proj2 (Nat.eqb_neq _ _)) by lia. rewrite (proj2 (Nat.ltb_ge _ _)) by lia. cbn [orb]. eauto.
  - destruct H. rewrite (proj2 (Nat.eqb_neq _ _)) by lia. rewrite (proj2 (N.ltb_ge _ _)) by lia. rewrite (proj2 (Nat.ltb_ge _ _)) by lia. cbn [orb]. eauto.
  - destruct H. rewrite (proj2 (Nat.eqb_neq _ _)) by lia. rewrite (proj2 (N.ltb_ge _ _)) by lia. rewrite (proj2 (Nat.ltb_ge _ _)) by lia. cbn [orb]. eauto.
  - destruct H. rewrite (proj2 (Nat.eqb_neq _ _)) by lia. rewrite (proj2 (N.ltb_ge _ _)) by lia. rewrite (proj2 (Nat.ltb_ge _ _)) by lia. cbn [orb]. eauto.
  - destruct H. rewrite (proj2 (Nat.eqb_neq _ _)) by lia. rewrite (proj2 (N.ltb_ge _ _)) by lia. rewrite (proj2 (Nat.ltb_ge _ _)) by lia. cbn [orb]. eauto.
  - destruct H. rewrite (proj2 (Nat.eqb_neq _ _)) by lia. rewrite (proj2 (N.ltb_ge _ _)) by lia. rewrite (proj2 (Nat.ltb_ge _ _)) by lia. cbn [orb]. eauto.
Qed.
Lemma sent_sendable pad c p : request pad c = Some p -> sendable DL C c.
Proof.
  intros H. destruct c; cbn [sendable krequest] in *; unfold by_id in *; auto.
  all: try (destruct (N.eqb_spec id 0); [discriminate|auto]; fail).
  all: try (destruct (N.eqb_spec sz 0); [discriminate|auto]; fail).
  all: match goal with H : (if (length ?d =? 0) || ?b then _ else _) = _ |- _ => destruct (Nat.eqb_spec (length d) 0); [discriminate|] | H : (if (length ?d =? 0) || ?a || ?b then _ else _) = _ |- _ => destruct (Nat.eqb_spec (length d) 0); [discriminate|] end; cbn [orb] in H.
  all: try (match goal with H : (if (?x <? ?y)%N || ?b then _ else _) = _ |- _ => destruct (N.ltb_spec x y); [discriminate|]; cbn [orb] in H end).
  all: match goal with H : (if ?x <? ?y then _ else _) = _ |- _ => destruct (Nat.ltb_spec x y); [discriminate|]; lia end.
Qed.
Lemma with_mem_lock e m : v_lock (with_mem e m) = v_lock e.
Proof. reflexivity. Qed.

Lemma serve c pad p rest mem client e S r S' : typed c -> request pad c = Some p -> 
  step (seen_by c mem e) client (meant DL c) S = (r, S') ->
  exists ct junk, kserve DL C crypt pub ots gcm_enc gcm_dec she_count cb (kaction c) (length p) (p ++ rest) mem client e S =
    (reply (kaction c) r ct junk, memory c r mem, S') /\ (wraps c = true -> v_lock e = OK -> ct = GCM).
Proof.
  intros T E ST. destruct (parse_request c pad p rest T E) as [P A]. unfold kserve. rewrite P, A. unfold seen_by in ST. rewrite ST. rewrite with_mem_lock.
  eexists. eexists. split.
  - f_equal. f_equal. unfold memory. destruct c; reflexivity.
  - intros W ->. rewrite W. reflexivity.
Qed.

Theorem call_ks client c e L mem S r S' : wf S -> good C S -> (exports_wrapped c = true -> labels24 C S) -> typed c -> sendable DL C c -> l_send L = OK -> l_recv L = OK ->
  step (seen_by c mem e) client (meant DL c) S = (r, S') -> i32 (r_rc r) -> (wraps c = true -> v_lock e = OK) ->
  go client c e L mem S = (told c r, memory c r mem, S').
Proof.
  intros W G LB T SE LS LR ST I LK. destruct (sendable_sent (l_pad L) c SE) as [p E]. unfold kcall_ks. rewrite E, LS, LR.
  change (negb (is_ok OK)) with false. change (is_ok OK) with true. cbv iota.
  destruct (serve c _ _ (skipn (length p) (l_old L)) _ _ _ _ _ _ T E ST) as (ct & junk & -> & CT).
  rewrite reply_response; auto. eapply answer_fits; eauto.
Qed.
Theorem call_refused client c e L mem S : ~ sendable DL C c -> go client c e L mem S = (fails BADARGS, mem, S).
Proof. intros H. unfold kcall_ks. destruct (request (l_pad L) c) as [p|] eqn:E; auto. contradiction H. eapply sent_sendable; eauto. Qed.
Theorem call_unsent client c e L mem S : sendable DL C c -> l_send L <> OK -> go client c e L mem S = (fails (l_send L), mem, S).
Proof.
  intros H N1. destruct (sendable_sent (l_pad L) c H) as [p E]. unfold kcall_ks. rewrite E. apply is_ok_false in N1. rewrite N1. reflexivity.
Qed.
Theorem call_unheard client c e L mem S r S' : typed c -> sendable DL C c -> l_send L = OK -> l_recv L <> OK ->
  step (seen_by c mem e) client (meant DL c) S = (r, S') -> go client c e L mem S = (fails (l_recv L), memory c r mem, S').
Proof.
  intros T H LS LR ST. destruct (sendable_sent (l_pad L) c H) as [p E]. unfold kcall_ks. rewrite E, LS.
  change (negb (is_ok OK)) with false. cbv iota.
  destruct (serve c _ _ (skipn (length p) (l_old L)) _ _ _ _ _ _ T E ST) as (ct & junk & -> & CT).
  apply is_ok_false in LR. rewrite LR. reflexivity.
Qed.

(** When the lock cannot be taken the response has no cipher type, and the key
    wrap calls look at that first. *)
Lemma locked_response c rc junk : wraps c = true -> GCM <> 0%N -> i32 rc -> response c (reply (kaction c) (rrc rc) 0%N junk) = fails ABORTED.
Proof.
  intros W NZ I. assert (Z0 : N.eqb 0 GCM = false) by (apply N.eqb_neq; auto).
  destruct c; try discriminate; cbn [kresponse kaction kreply rrc r_rc r_id r_data r_meta length N.of_nat]; rewrite sized_ok by lens; unfold gives_blob.
  - rewrite (get_give [(4, rc_n rc); (2, 0%N); (2, 0%N)]) by fits. cbn [fld nth map snd]. rewrite Z0, orb_true_r. auto.
  - rewrite (get_give [(4, rc_n rc); (2, 0%N); (2, 0%N)]) by fits. cbn [fld nth map snd]. rewrite Z0, orb_true_r. auto.
  - rewrite (get_give [(4, rc_n rc); (2, 0%N); (2, 0%N)]) by fits. cbn [fld nth map snd]. rewrite Z0, orb_true_r. auto.
  - rewrite (get_give_nil [(4, rc_n rc); (2, 0%N); (2, 0%N)]) by fits. cbn [fld nth map snd]. rewrite Z0. auto.
  - rewrite (get_give [(4, rc_n rc); (4, 0%N); (2, 0%N)]) by fits. cbn [fld nth map snd]. rewrite Z0, orb_true_r. auto.
  - rewrite (get_give [(4, rc_n rc); (4, 0%N); (2, 0%N)]) by fits. cbn [fld nth map snd]. rewrite Z0, orb_true_r. auto.
Qed.
Lemma locked_step e client q S : v_lock e <> OK -> step e client q S = (rrc (v_lock e), S).
Proof. intros H. unfold ks_step. apply is_ok_false in H. rewrite H. reflexivity. Qed.
Theorem call_locked client c e L mem S : typed c -> sendable DL C c -> l_send L = OK -> l_recv L = OK -> wraps c = true -> GCM <> 0%N ->
  v_lock e <> OK -> i32 (v_lock e) -> go client c e L mem S = (fails ABORTED, mem, S).
Proof.
  intros T H LS LR W NZ LK I. destruct (sendable_sent (l_pad L) c H) as [p E]. unfold kcall_ks. rewrite E, LS, LR.
  change (negb (is_ok OK)) with false. change (is_ok OK) with true. cbv iota.
  destruct (parse_request c _ p (skipn (length p) (l_old L)) T E) as [P A]. unfold kserve. rewrite P.
  rewrite locked_step by exact LK. rewrite with_mem_lock. rewrite (proj2 (is_ok_false _) LK).
  rewrite locked_response by auto. f_equal. f_equal. destruct c; auto; discriminate.
Qed.

(** A call that reports success: the server did what the call stands for. *)
Hypothesis PB : forall a d, i32 (fst (pub a d)).
Theorem call_ok client c e L mem S o mem' S' : wf S -> good C S -> (exports_wrapped c = true -> labels24 C S) -> typed c -> env32 e ->
  go client c e L mem S = (o, mem', S') -> o_rc o = OK ->
  exists r, step (seen_by c mem e) client (meant DL c) S = (r, S') /\ r_rc r = OK /\ o = told c r /\ mem' = memory c r mem /\ v_lock e = OK.
Proof.
  intros W G LB T EN H O.
  assert (SE : sendable DL C c).
  { destruct (request (l_pad L) c) as [p|] eqn:E; [eapply sent_sendable; eauto|]. unfold kcall_ks in H. rewrite E in H. injection H as <- _ _. discriminate. }
  destruct (Z.eq_dec (l_send L) OK) as [LS|LS]; [|rewrite call_unsent in H by auto; injection H as <- _ _; contradiction].
  destruct (step (seen_by c mem e) client (meant DL c) S) as [r S1] eqn:ST.
  destruct (Z.eq_dec (l_recv L) OK) as [LR|LR]; [|rewrite (call_unheard _ _ _ _ _ _ _ _ T SE LS LR ST) in H; injection H as <- _ _; contradiction].
  assert (I : i32 (r_rc r)).
  { pose proof (step32 DL C crypt pub ots gcm_enc gcm_dec she_count (seen_by c mem e) client c S EN PB) as X. rewrite ST in X. exact X. }
  assert (BAD : forall r0, r_rc r0 <> OK -> o_rc (told c r0) <> OK).
  { intros r0 Q. unfold told. destruct (Z.eqb_spec (r_rc r0) OK); [contradiction|]. exact Q. }
  assert (LK : v_lock e = OK).
  { destruct (Z.eq_dec (v_lock e) OK) as [|LK]; auto. exfalso. assert (RR : r = rrc (v_lock e)).
    { rewrite locked_step in ST by exact LK. injection ST as <- _. reflexivity. }
    destruct (wraps c) eqn:WR.
    - destruct (N.eq_dec GCM 0) as [GZ|GZ].
      + unfold kcall_ks in H. destruct (sendable_sent (l_pad L) c SE) as [p E]. rewrite E, LS, LR in H.
        change (negb (is_ok OK)) with false in H. change (is_ok OK) with true in H. cbv iota in H.
        destruct (parse_request c _ p (skipn (length p) (l_old L)) T E) as [P A]. unfold kserve in H. rewrite P, WR in H.
        rewrite locked_step in H by exact LK. rewrite with_mem_lock in H. rewrite (proj2 (is_ok_false _) LK) in H.
        rewrite reply_response in H; auto; [|apply refused; exact LK|rewrite <- RR; exact I].
        injection H as <- _ _. revert O. apply BAD. exact LK.
      + rewrite call_locked in H; auto; [injection H as <- _ _; discriminate|]. rewrite RR in I. exact I.
    - rewrite (call_ks _ _ _ _ _ _ _ _ W G LB T SE LS LR ST I) in H by (rewrite WR; discriminate). injection H as <- _ _. revert O. apply BAD. rewrite RR. exact LK. }
  rewrite (call_ks _ _ _ _ _ _ _ _ W G LB T SE LS LR ST I) in H by auto. injection H as <- <- <-.
  exists r. repeat (split; [reflexivity || auto|]); auto. destruct (Z.eq_dec (r_rc r) OK) as [|Q]; auto. contradiction (BAD _ Q).
Qed.
End Fit.
