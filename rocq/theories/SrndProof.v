(** Proofs about the SHE random generator. *)
From Coq Require Import Lia.
From Verif Require Import Base BaseLemmas NvmSpec Flags KeyId Store NvmReqModel CounterModel KsModel KsCache KsReq KsEff KsStep KsOnly KsSys KsSpec KsSysProof SheModel SheSys SheSpec SheEff SheBoot SheInv SheUpd SrndSpec.
Local Open Scope N_scope.
Local Arguments N.eqb : simpl never.

Section Srnd.
Variable C : kscfg.
Variable crypt : cop -> list N -> list N -> Z * list N.
Variable pub : N -> list N -> Z * list N.
Variable ots : list N -> list N -> option (list N * list N).
Variable gcm_enc : list N -> list N -> N -> list N -> option (list N).
Variable gcm_dec : list N -> list N -> N -> list N -> option (list N).
Variable max_read : nat.
Variable aes : list N -> list N -> list N.
Variable cbc_enc cbc_dec : list N -> list N -> list N.
Variable cmac : list N -> list N -> list N.
Variable use_op : sop -> list N -> list N -> option (list N).
Hypothesis enc_len : forall k d, length (cbc_enc k d) = length d.
Hypothesis aes_len : forall k d, length (aes k d) = 16%nat.
Notation step := (hstep C crypt pub ots gcm_enc gcm_dec max_read aes cbc_enc cbc_dec cmac use_op).
Notation after := (hafter C crypt pub ots gcm_enc gcm_dec max_read aes cbc_enc cbc_dec cmac use_op).
Notation sstep := (she_step C aes cbc_enc cbc_dec cmac use_op).
Notation handle := (she_handle C aes cbc_enc cbc_dec cmac use_op).
Notation kstep := (ks_step C crypt pub ots gcm_enc gcm_dec she_count).
Notation vw := (find_cache C).
Notation nv := (fun S => sp_find (k_st S)).
Notation at_ Y i := (ks_of (hy_ks Y) i).
Notation gen_by := (gen_by C aes cbc_enc).
Notation generates := (generates C crypt pub ots gcm_enc gcm_dec max_read aes cbc_enc cbc_dec cmac use_op).

Lemma xor_len a : forall b, length (xor_bytes a b) = Nat.min (length a) (length b).
Proof. induction a as [|x a IH]; intros [|y b]; cbn [xor_bytes length Nat.min]; auto. Qed.
Lemma mp_blocks_len f : forall p l, length p = 16%nat -> length (mp_blocks aes f p l) = 16%nat.
Proof.
  induction f as [|f IH]; intros p l H; cbn [mp_blocks]; auto. destruct l as [|x l]; auto. apply IH.
  rewrite !xor_len, aes_len, exact_len, H. reflexivity.
Qed.
Lemma mp_len l : length (mp16 aes l) = 16%nat.
Proof. apply mp_blocks_len. reflexivity. Qed.

(** ** The generator in the SHE context *)
Definition genof (h : she) : option gen := if h_rnd h then Some (h_pkey h, h_state h) else None.
Definition same_gen (h h' : she) : Prop := h_rnd h' = h_rnd h /\ h_pkey h' = h_pkey h /\ h_state h' = h_state h.
Definition rnd_req (q : sreq) : bool := match q with SInitRnd | SRnd | SExtendSeed _ => true | _ => false end.
Lemma same_refl h : same_gen h h. Proof. repeat split. Qed.
Lemma handle_same e client q h S : rnd_req q = false -> same_gen h (snd (fst (handle e client q h S))).
Proof.
  intros R. unfold she_handle. destruct (_ && _); [apply same_refl|]. destruct q; try discriminate R; try apply same_refl.
  - unfold do_set_uid. destruct (h_uidset h); repeat split.
  - unfold do_boot_init. destruct (negb _); [apply same_refl|]. destruct (she_read _ _ _ _) as [[[rc S1] m] k].
    destruct (_ || _); [repeat split|]. destruct (negb _); repeat split.
  - unfold do_boot_update. destruct (negb _); [apply same_refl|]. cbv zeta. destruct (_ <? _); [repeat split|]. destruct (negb _); [repeat split|].
    destruct (N.eqb _ _); repeat split.
  - unfold do_boot_finish. destruct (negb _); [apply same_refl|]. destruct (negb _); [apply same_refl|]. destruct (she_read _ _ _ _) as [[[rc S1] m] k].
    destruct (negb _); [apply same_refl|]. destruct (list_eq_dec _ _ _); repeat split.
  - unfold do_load_key. cbv zeta. destruct (she_read _ _ _ _) as [[[rc S1] m] k].
    destruct (_ || _); [repeat split|].
    destruct (negb (is_ok rc)); [repeat split|]. destruct (negb (se_c1 e)); [repeat split|].
    destruct (negb (if list_eq_dec _ _ _ then true else false)); [repeat split|].
    destruct (she_read C (se_rd e 1) _ _) as [[[rt S2] mo] old]. destruct (Z.eqb rt NOSPACE || _); [repeat split|].
    destruct (negb (Z.eqb rt NOTFOUND) && N.testbit _ _); [repeat split|].
    match goal with |- context[if (if list_eq_dec N.eq_dec ?a ?b then ?c else ?d) then _ else _] => destruct (if list_eq_dec N.eq_dec a b then c else d); [repeat split|] end.
    destruct (negb (Z.eqb rt NOTFOUND) && (_ <=? _)); [repeat split|].
    destruct (if N.eqb _ _ then _ else _) as [[[rw S3] fm] fk]. destruct (negb (is_ok rw)); [repeat split|].
    destruct (negb (se_c2 e)); [repeat split|]. destruct (N.eqb _ _); repeat split.
  - unfold do_load_plain. destruct (cache_key _ _ _ _ _) as [rc S1]. destruct (is_ok rc); repeat split.
  - unfold do_export_ram. cbv zeta. destruct (negb _); [apply same_refl|]. destruct (she_read C (se_rd e 0) _ _) as [[[rc S1] m] k].
    destruct (_ || _); [apply same_refl|]. destruct (negb _); [apply same_refl|]. destruct (she_read C (se_rd e 1) _ _) as [[[rc2 S2] m2] k2].
    destruct (_ || _); [apply same_refl|]. destruct (negb _); repeat split.
  - unfold do_use. cbv zeta. destruct (she_read _ _ _ _) as [[[rc S1] m] k]. destruct (_ || _); [apply same_refl|].
    destruct op; try destruct (if se_c1 e then _ else None); repeat split.
Qed.
Lemma sstep_same e client q h S r h' S' : sstep e client q h S = (r, h', S') -> rnd_req q = false -> same_gen h h'.
Proof.
  intros H R. unfold she_step in H. destruct (refused q h). { injection H as <- <- <-. apply same_refl. }
  pose proof (handle_same e client q h S R) as X. destruct (handle e client q h S) as [[[[rc w] out] h1] S1]. cbn [fst snd] in X. injection H as <- <- <-.
  destruct (_ && _); [|exact X]. destruct X as (A & B & D). repeat split; cbn; auto.
Qed.
Lemma same_genof h h' : same_gen h h' -> genof h' = genof h.
Proof. intros (A & B & D). unfold genof. rewrite A, B, D. reflexivity. Qed.

(** Initialisation: what is read, what is written. *)
Lemma init_cases e client h S r h' S' : wf S -> good C S -> sstep e client SInitRnd h S = (r, h', S') ->
  let ks := she_id C client SLOT_SECRET in let k := she_id C client SLOT_SEED in
  (sr_rc r <> OK /\ h_rnd h' = h_rnd h /\ (h_rnd h = true -> h' = h) /\ scells C aes cbc_dec cmac e client SUnknown h S S') \/
  (h_rnd h = false /\ exists S1 S2 ms sec mo old seed,
     vis C S ks = Some (ms, sec) /\ wf S1 /\ good C S1 /\ (forall j, j <> 0 -> fr C S S1 j) /\
     vis C S1 k = Some (mo, old) /\ (forall j, j <> 0 -> fr C S1 S2 j) /\
     seed = exactly 16 (cbc_enc (mp16 aes (buf16 e sec ++ PRNG_SEED_C)) (buf16 e old)) /\
     (exists m, m_len m = 16 /\ forall j, nv S' j = if N.eqb j k then Some (m, seed) else nv S2 j) /\ (forall j, vw S' j = vw S2 j) /\
     ((sr_rc r <> OK /\ h_rnd h' = false) \/
      (sr_rc r = OK /\ h_rnd h' = true /\ h_state h' = seed /\ h_pkey h' = mp16 aes (buf16 e sec ++ PRNG_C)))).
Proof.

  intros W G H ks k. unfold she_step in H. destruct (refused SInitRnd h) eqn:RF.
  { injection H as <- <- <-. left. split; [discriminate|]. split; [auto|]. split; [auto|]. apply scells_refl; auto. }
  unfold she_handle in H. cbn [locks action_of is_boot andb] in H. destruct (se_lock e) eqn:LK; cbn [negb] in H.
  2:{ injection H as <- <- <-. left. split; [discriminate|]. split; [auto|]. split; [auto|]. apply scells_refl; auto. }
  unfold do_init_rnd in H. destruct (h_rnd h) eqn:HR.
  { injection H as <- <- <-. left. split; [discriminate|]. split; [auto|]. split; [auto|]. apply scells_refl; auto. }
  fold ks k in H. destruct (she_read C (se_rd e 0) S ks) as [[[rc S1] ms] sec] eqn:R.
  destruct (she_read_eff _ _ _ _ _ _ _ _ W G (sid_type _ _ _) R) as (W1 & G1 & T1 & F1 & D1 & V1 & _).
  pose proof (scells_read C aes cbc_dec cmac e client SUnknown h _ _ _ _ _ _ _ W G R) as X1.
  assert (FAIL : forall rc0 w out h1 S0, rc0 <> OK -> (mkSr (translate rc0) w out, h1, S0) = (r, h', S') -> h_rnd h1 = false ->
    scells C aes cbc_dec cmac e client SUnknown h S S0 ->
    sr_rc r <> OK /\ h_rnd h' = false /\ (false = true -> h' = h) /\ scells C aes cbc_dec cmac e client SUnknown h S S').
  { intros rc0 w out h1 S0 NE Q HF SC. injection Q as <- <- <-. cbn [sr_rc]. split; [|split; [auto|split; [discriminate|auto]]].
    intros Q. apply Z.eqb_eq in Q. rewrite tr_ok in Q. apply Z.eqb_eq in Q. auto. }
  destruct (is_ok rc) eqn:O1; cbn [negb] in H. 2:{ left. eapply FAIL; [| exact H| |]; [discriminate|auto|auto]. }
  apply is_ok_iff in O1. destruct (negb (se_c1 e)). { left. eapply FAIL; [| exact H| |]; [discriminate|auto|auto]. }
  destruct (she_read C (se_rd e 1) S1 k) as [[[rs S2] mo] old] eqn:R2.
  destruct (she_read_eff _ _ _ _ _ _ _ _ W1 G1 (sid_type _ _ _) R2) as (W2 & G2 & T2 & F2 & D2 & V2 & _).
  pose proof (scells_reads C aes cbc_dec cmac e client SUnknown h _ _ _ _ _ _ _ _ _ _ _ _ _ W G R R2) as X2.
  destruct (is_ok rs) eqn:O2; cbn [negb] in H. 2:{ left. eapply FAIL; [| exact H| |]; [discriminate|auto|auto]. }
  apply is_ok_iff in O2. cbv zeta in H. set (seed := exactly 16 (cbc_enc _ _)) in H.
  destruct (write_seed C e client mo seed S2) as [rw S3] eqn:WS. unfold write_seed in WS.
  destruct (nv_add _ _ _ (k_st S2)) as [rw1 st] eqn:A. injection WS as <- <-.
  pose proof (fun j => nv_add_find _ _ _ _ _ _ j A) as NF. cbn [m_id] in NF. fold k in NF.
  destruct (is_ok rw1) eqn:O3; cbn [negb andb] in H, NF.
  2:{ left. eapply FAIL; [| exact H| |]; [discriminate|auto|]. destruct X2 as (WX & GX & K). split; [exact WX|]. split.
      - apply good_st; auto. pose proof (add_good (se_nvm e) (mkMeta (she_id C client SLOT_SEED) (m_access mo) (m_flags mo) (N.of_nat SHE_KEY_SZ) (m_label mo)) (exactly 16 seed) (k_st S2) (proj1 G2)) as Q.
        unfold k in A. rewrite A in Q. exact Q.
      - intros j NJ. apply sc_fr.
        + eapply fr_trans; [eapply fr_trans; [apply F1; auto|apply F2; auto]|]. split; [exact (NF j)|left; reflexivity].
        + intros NS. eapply dr_trans; [eapply dr_trans; [apply D1; auto; apply NS|apply D2; auto; apply NS]|]. left; reflexivity. }
  right. split; [auto|].
  assert (V : vis C S ks = Some (ms, sec)).
  { destruct (V1 O1) as [V|[_ (_ & _ & Z & _)]]; auto. unfold ks in Z. rewrite sid_id in Z by reflexivity. discriminate. }
  assert (VB : vis C S1 k = Some (mo, old)).
  { destruct (V2 O2) as [VV|[_ (_ & _ & Z & _)]]; auto. unfold k in Z. rewrite sid_id in Z by reflexivity. discriminate. }
  exists S1, S2, ms, sec, mo, old, seed. split; [exact V|]. split; [auto|]. split; [auto|]. split; [auto|]. split; [exact VB|]. split; [auto|]. split; [reflexivity|].
  assert (EX : exactly 16 seed = seed) by (apply exact_id; unfold seed; apply exact_len).
  assert (WR : (exists m, m_len m = 16 /\ forall j, nv (set_st S2 st) j = (if N.eqb j k then Some (m, seed) else nv S2 j)) /\ (forall j, vw (set_st S2 st) j = vw S2 j)).
  { split; [|reflexivity]. eexists. split; [|intros j; cbn [set_st k_st]; rewrite NF, EX; reflexivity].
    cbn [with_len m_len]. unfold seed. rewrite exact_len. reflexivity. }
  destruct (negb (se_c2 e)); injection H as <- <- <-; cbn [sr_rc snd]; (split; [apply WR|split; [apply WR|]]).
  - left. split; [discriminate|reflexivity].
  - right. split; [reflexivity|]. split; [reflexivity|]. split; reflexivity.
Qed.

(** ** The stream *)
Definition Gen (h : she) (g : option gen) : Prop := g = genof h /\ (h_rnd h = true -> length (h_state h) = 16%nat).
Lemma Gen_zero : Gen she_zero_ctx None.
Proof. split; [reflexivity|discriminate]. Qed.
Lemma Gen_same h h' g : Gen h g -> same_gen h h' -> Gen h' g.
Proof. intros [-> L] X. split; [symmetry; apply same_genof; auto|]. destruct X as (A & B & D). rewrite A, D. exact L. Qed.
Lemma rc_ok r : rc_is (Some r) OK = true <-> sr_rc r = OK.
Proof. cbn [rc_is]. apply Z.eqb_eq. Qed.
Lemma buf16_id e l : length l = 16%nat -> buf16 e l = l.
Proof. intros H. unfold buf16, exactly. rewrite <- app_assoc. generalize (skipn (length l) (se_stack e) ++ repeat 0 16). intros x. rewrite <- H, firstn_app, Nat.sub_diag, firstn_all. apply app_nil_r. Qed.

Lemma gen_step i ev Y g : sys_ok C (hy_ks Y) -> Gen (hy_she Y i) g ->
  exists g', gen_by i ev (fst (step ev Y)) Y (snd (step ev Y)) g g' /\ Gen (hy_she (snd (step ev Y)) i) g'.
Proof.
  intros O H. destruct ev as [j client e q|ev].
  - cbn [hstep]. destruct (sstep e client q (hy_she Y j) (at_ Y j)) as [[r h] S1] eqn:E. cbn [fst snd hy_she gen_by].
    unfold upd_she. rewrite (Nat.eqb_sym j i). destruct (Nat.eqb_spec i j) as [->|NE]; [|exists g; auto].
    destruct (O j) as [W G]. destruct (rnd_req q) eqn:RQ.
    2:{ exists g. pose proof (Gen_same _ _ _ H (sstep_same _ _ _ _ _ _ _ _ E RQ)) as H1. split; [|exact H1]. destruct q; try discriminate RQ; reflexivity. }
    destruct q; try discriminate RQ.
    + destruct (init_cases _ _ _ _ _ _ _ W G E) as [(N1 & HR & HT & _)|(HR & Sa & Sb & ms & sec & mo & old & seed & V & Wa & Ga & Fa & Vo & Fb & ES & (m & LM & NV) & _ & X)].
      * exists g. assert (B : rc_is (Some r) OK = false) by (destruct (rc_is (Some r) OK) eqn:B; auto; apply rc_ok in B; congruence).
        rewrite B. split; [reflexivity|]. destruct H as [-> L]. unfold genof. destruct (h_rnd (hy_she Y j)) eqn:Q.
        -- rewrite (HT eq_refl). split; [unfold genof; rewrite Q; reflexivity|auto].
        -- split; [unfold genof; rewrite HR; reflexivity|rewrite HR; discriminate].
      * destruct X as [(N1 & HF)|(OKR & HT & ST & PK)].
        { exists g. assert (B : rc_is (Some r) OK = false) by (destruct (rc_is (Some r) OK) eqn:B; auto; apply rc_ok in B; congruence).
          rewrite B. split; [reflexivity|]. destruct H as [-> L]. split; [unfold genof; rewrite HF, HR; reflexivity|rewrite HF; discriminate]. }
        rewrite (proj2 (rc_ok r) OKR). exists (Some (h_pkey h, h_state h)). split.
        -- split; [destruct H as [-> _]; unfold genof; rewrite HR; reflexivity|].
           exists ms, sec, mo, old, m, seed, (h_pkey h). split; [rewrite slot_vis; exact V|]. split.
           { rewrite slot_vis. assert (NZ : she_id C client SLOT_SEED <> 0) by (apply (she_assigned C); apply sid_type).
             unfold vis in Vo |- *. destruct (Fa _ NZ) as [N1 [Q|[U [Q|(m1 & d1 & N2 & Q)]]]]; cbv beta in *.
             - left. rewrite Q, N1 in Vo. exact Vo.
             - right. rewrite Q, N1 in Vo. exact Vo.
             - right. rewrite Q in Vo. cbn [sl_meta sl_buf] in Vo. change (in_nvm (hy_ks Y) (she_id C client SLOT_SEED)) with (nv (at_ Y j) (she_id C client SLOT_SEED)). cbv beta. congruence. }
           split; [etransitivity; [exact (NV (she_id C client SLOT_SEED))|rewrite N.eqb_refl; reflexivity]|].
           split; [rewrite ST; reflexivity|]. intros LS. rewrite PK. rewrite (buf16_id e sec LS). split; [reflexivity|].
           intros LO. rewrite ES, (buf16_id e sec LS), (buf16_id e old LO). apply exact_id. unfold next_seed. rewrite enc_len. exact LO.
        -- split; [unfold genof; rewrite HT; reflexivity|]. intros _. rewrite ST, ES. apply exact_len.
    + unfold she_step in E. destruct (refused SRnd (hy_she Y j)).
      { injection E as <- <- <-. exists g. split; [reflexivity|exact H]. }
      unfold she_handle in E. cbn [locks action_of andb is_boot] in E. unfold do_rnd in E. destruct (h_rnd (hy_she Y j)) eqn:HR; cbn [negb] in E.
      2:{ injection E as <- <- <-. exists g. split; [reflexivity|exact H]. }
      destruct (se_c1 e); cbn [negb] in E.
      2:{ injection E as <- <- <-. exists g. split; [reflexivity|exact H]. }
      destruct H as [-> L]. specialize (L HR).
      assert (EX : exactly 16 (cbc_enc (h_pkey (hy_she Y j)) (h_state (hy_she Y j))) = cbc_enc (h_pkey (hy_she Y j)) (h_state (hy_she Y j))) by (apply exact_id; rewrite enc_len; exact L).
      injection E as <- <- <-. rewrite EX. cbn [rc_is sr_rc translate]. change (Z.eqb (translate OK) OK) with true. cbv iota.
      exists (Some (h_pkey (hy_she Y j), cbc_enc (h_pkey (hy_she Y j)) (h_state (hy_she Y j)))). split.
      * exists (h_pkey (hy_she Y j)), (h_state (hy_she Y j)). split; [unfold genof; rewrite HR; reflexivity|]. split; reflexivity.
      * split; [unfold genof; cbn [set_prng h_rnd h_pkey h_state]; try rewrite HR; reflexivity|]. intros _. cbn [set_prng h_state]. rewrite enc_len. exact L.
    + unfold she_step in E. destruct (refused (SExtendSeed entropy) (hy_she Y j)).
      { injection E as <- <- <-. exists g. split; [left; reflexivity|exact H]. }
      unfold she_handle in E. cbn [locks action_of andb is_boot] in E. destruct (se_lock e); cbn [negb] in E.
      2:{ injection E as <- <- <-. exists g. split; [left; reflexivity|exact H]. }
      unfold do_extend_seed in E. destruct (h_rnd (hy_she Y j)) eqn:HR; cbn [negb] in E.
      2:{ injection E as <- <- <-. exists g. split; [left; reflexivity|exact H]. }
      destruct (se_c1 e); cbn [negb] in E.
      2:{ injection E as <- <- <-. exists g. split; [left; reflexivity|exact H]. }
      cbv zeta in E. set (h1 := set_prng (hy_she Y j) _ _ _) in E. destruct H as [-> L]. specialize (L HR).
      assert (G1 : Gen h1 (Some (h_pkey (hy_she Y j), compress aes (h_state (hy_she Y j)) (exactly 16 entropy)))).
      { split; [reflexivity|]. intros _. apply mp_len. }
      assert (A : exists k s, genof (hy_she Y j) = Some (k, s) /\ Some (h_pkey (hy_she Y j), compress aes (h_state (hy_she Y j)) (exactly 16 entropy)) = Some (k, compress aes s (exactly 16 entropy))).
      { exists (h_pkey (hy_she Y j)), (h_state (hy_she Y j)). split; [unfold genof; rewrite HR; reflexivity|reflexivity]. }
      exists (Some (h_pkey (hy_she Y j), compress aes (h_state (hy_she Y j)) (exactly 16 entropy))).
      assert (R : h = h1).
      { destruct (she_read _ _ _ _) as [[[rs Sa] m] seed]. destruct (negb _); [injection E as <- <- <-; reflexivity|]. destruct (negb _); [injection E as <- <- <-; reflexivity|].
        destruct (write_seed _ _ _ _ _ _) as [rw Sb]. destruct (negb _); injection E as <- <- <-; reflexivity. }
      rewrite R. split; [|exact G1]. destruct (rc_is (Some r) OK); [exact A|right; exact A].
  - cbn [hstep]. cbn [fst snd hy_she gen_by]. destruct ev as [a b d f|a b|a b d|j|]; try (exists g; auto; fail).
    + unfold upd_she. rewrite (Nat.eqb_sym j i). destruct (Nat.eqb i j); [exists None; split; [auto|apply Gen_zero]|exists g; auto].
    + exists None. split; [auto|apply Gen_zero].
Qed.
Theorem gen_run i evs : forall Y g, sys_ok C (hy_ks Y) -> Gen (hy_she Y i) g ->
  exists g', generates i evs Y g g' /\ Gen (hy_she (after evs Y) i) g'.
Proof.
  induction evs as [|ev evs IH]; intros Y g O H; cbn [hafter]; [exists g; split; [constructor|auto]|].
  destruct (gen_step i ev Y g O H) as (g1 & B & H1).
  pose proof (hstep_ok C crypt pub ots gcm_enc gcm_dec max_read aes cbc_enc cbc_dec cmac use_op ev Y O) as O1.
  destruct (IH _ g1 O1 H1) as (g2 & B2 & H2). exists g2. split; [econstructor; eauto|exact H2].
Qed.

(** The blocks of a session. *)
Notation blocks := (blocks C crypt pub ots gcm_enc gcm_dec max_read aes cbc_enc cbc_dec cmac use_op).
Lemma iter_in {A} (f : A -> A) n x : Nat.iter n f (f x) = Nat.iter (S n) f x.
Proof. induction n as [|n IH]; auto. change (f (Nat.iter n f (f x)) = f (Nat.iter (S n) f x)). rewrite IH. reflexivity. Qed.
Lemma blocks_run i evs : forall Y k s g, Forall (undisturbed i) evs -> generates i evs Y (Some (k, s)) g ->
  blocks i evs Y = map (fun n => Nat.iter (S n) (cbc_enc k) s) (seq 0 (length (blocks i evs Y))).
Proof.
  induction evs as [|ev evs IH]; intros Y k s g U H; [reflexivity|]. inversion U as [|? ? U1 U2]; subst. inversion H as [|? ? ? ? g1 ? B R]; subst.
  assert (SAME : g1 = Some (k, s) -> blocks i (ev :: evs) Y = blocks i evs (snd (step ev Y)) -> blocks i (ev :: evs) Y = map (fun n => Nat.iter (S n) (cbc_enc k) s) (seq 0 (length (blocks i (ev :: evs) Y)))).
  { intros -> EQ. rewrite EQ. eapply IH; eauto. }
  destruct ev as [j client e q|ev].
  2:{ apply SAME; [|cbn [SrndSpec.blocks]; destruct (step (HSys ev) Y); reflexivity]. destruct ev as [? ? ? ?|? ?|? ? ?|x|]; cbn [undisturbed SrndSpec.gen_by] in U1, B; auto; [|contradiction].
      apply Nat.eqb_neq in U1. rewrite U1 in B. exact B. }
  destruct (Nat.eqb j i) eqn:EJ.
  2:{ apply SAME; [cbn [SrndSpec.gen_by] in B; rewrite EJ in B; exact B|]. cbn [SrndSpec.blocks]. destruct (step (HShe j client e q) Y). destruct q; try reflexivity. rewrite EJ. reflexivity. }
  destruct q; cbn [SrndSpec.gen_by undisturbed] in B, U1; rewrite EJ in B;
    try (apply SAME; [exact B|cbn [SrndSpec.blocks]; destruct (step (HShe j client e _) Y); reflexivity]).
  - apply SAME; [|cbn [SrndSpec.blocks]; destruct (step (HShe j client e _) Y); reflexivity]. destruct (rc_is _ _); [|exact B]. destruct B as [B _]. discriminate B.
  - cbn [SrndSpec.blocks] in SAME |- *. destruct (step (HShe j client e SRnd) Y) as [a Y1]. cbn [fst snd] in *. rewrite EJ in *. cbn [andb] in *.
    destruct (rc_is a OK); [|apply SAME; auto]. destruct B as (k1 & s1 & B1 & B2 & B3). injection B1 as <- <-. subst g1. pose proof (IH _ _ _ _ U2 R) as X.
    rewrite B3. cbn [length seq map]. f_equal. rewrite <- seq_shift, map_map. rewrite X at 1. apply map_ext. intros n. apply iter_in.
  - exfalso. apply U1. apply Nat.eqb_eq. exact EJ.
Qed.

(** Entropy: what it does to the stored seed. *)
Lemma extend_stores i client e x Y r : sys_ok C (hy_ks Y) -> fst (step (HShe i client e (SExtendSeed x)) Y) = Some r -> sr_rc r = OK ->
  exists m d m' d', slot_key C Y i client SLOT_SEED = Some (m, d) /\
    in_nvm (hy_ks (snd (step (HShe i client e (SExtendSeed x)) Y))) (she_id C client SLOT_SEED) = Some (m', d') /\
    (length d = 16%nat -> d' = compress aes d (exactly 16 x)).
Proof.
  intros O. cbn [hstep]. destruct (sstep e client (SExtendSeed x) (hy_she Y i) (at_ Y i)) as [[r1 h] S1] eqn:E. cbn [fst snd]. intros Q OKR. injection Q as <-. destruct (O i) as [W G].
  unfold she_step in E. destruct (refused _ _). { injection E as <- <- <-. discriminate OKR. }
  unfold she_handle in E. cbn [locks action_of andb is_boot] in E. destruct (se_lock e); cbn [negb] in E; [|injection E as <- <- <-; discriminate OKR].
  unfold do_extend_seed in E. destruct (h_rnd _); cbn [negb] in E; [|injection E as <- <- <-; discriminate OKR].
  destruct (se_c1 e); cbn [negb] in E; [|injection E as <- <- <-; discriminate OKR]. cbv zeta in E.
  destruct (she_read C (se_rd e 0) (at_ Y i) (she_id C client SLOT_SEED)) as [[[rs Sa] m] seed] eqn:RD.
  destruct (she_read_eff _ _ _ _ _ _ _ _ W G (sid_type _ _ _) RD) as (_ & _ & _ & _ & _ & V & _).
  destruct (is_ok rs) eqn:O1; cbn [negb] in E; [|injection E as <- <- <-; discriminate OKR]. apply is_ok_iff in O1.
  destruct (se_c2 e); cbn [negb] in E; [|injection E as <- <- <-; discriminate OKR].
  destruct (write_seed _ _ _ _ _ _) as [rw Sb] eqn:WS. unfold write_seed in WS. destruct (nv_add _ _ _ (k_st Sa)) as [rw1 st] eqn:A. injection WS as <- <-.
  destruct (is_ok rw1) eqn:O2; cbn [negb] in E; [|injection E as <- <- <-; discriminate OKR]. injection E as <- <- <-.
  pose proof (nv_add_find _ _ _ _ _ _ (she_id C client SLOT_SEED) A) as NF. cbn [m_id] in NF. rewrite O2, N.eqb_refl in NF. cbn [andb] in NF.
  eexists m, seed, _, _. split.
  { rewrite slot_vis. destruct (V O1) as [VV|[_ (_ & _ & Z & _)]]; [exact VV|]. rewrite sid_id in Z by reflexivity. discriminate. }
  split; [exact NF|]. intros L. rewrite (exact_id 16 (mp16 aes _)) by apply mp_len. unfold compress. f_equal. f_equal.
  unfold exactly. rewrite <- app_assoc. generalize (skipn (length seed) (h_state (hy_she Y i)) ++ repeat 0 16). intros y. rewrite <- L, firstn_app, Nat.sub_diag, firstn_all. apply app_nil_r.
Qed.

(** ** Where the streams begin *)
Lemma rnd_mono e client q h S r h' S' : wf S -> good C S -> sstep e client q h S = (r, h', S') -> h_rnd h = true -> h_rnd h' = true.
Proof.
  intros W G E H. destruct (rnd_req q) eqn:RQ; [|destruct (sstep_same _ _ _ _ _ _ _ _ E RQ) as [A _]; congruence]. destruct q; try discriminate RQ.
  - destruct (init_cases _ _ _ _ _ _ _ W G E) as [(_ & HR & _)|(HR & _)]; congruence.
  - unfold she_step in E. destruct (refused SRnd h); [injection E as <- <- <-; auto|]. unfold she_handle in E. cbn [locks action_of andb is_boot] in E. unfold do_rnd in E.
    rewrite H in E. cbn [negb] in E. destruct (se_c1 e); injection E as <- <- <-; auto.
  - unfold she_step in E. destruct (refused _ h); [injection E as <- <- <-; auto|]. unfold she_handle in E. cbn [locks action_of andb is_boot] in E.
    destruct (se_lock e); cbn [negb] in E; [|injection E as <- <- <-; auto]. unfold do_extend_seed in E. rewrite H in E. cbn [negb] in E.
    destruct (se_c1 e); cbn [negb] in E; [|injection E as <- <- <-; auto]. cbv zeta in E.
    destruct (she_read _ _ _ _) as [[[rs Sa] m] seed]. destruct (negb _); [injection E as <- <- <-; reflexivity|]. destruct (negb _); [injection E as <- <- <-; reflexivity|].
    destruct (write_seed _ _ _ _ _ _) as [rw Sb]. destruct (negb _); injection E as <- <- <-; reflexivity.
Qed.

Definition cellP (S : ks) (j : N) (P Q : list N -> Prop) : Prop :=
  (exists m d, nv S j = Some (m, d) /\ P d) /\ (forall s, vw S j = Some s -> sl_comm s = true /\ Q (sl_buf s)).
Lemma cell_weak S j (P Q P' Q' : list N -> Prop) : cellP S j P Q -> (forall d, P d -> P' d) -> (forall d, Q d -> Q' d) -> cellP S j P' Q'.
Proof. intros [(m & d & A & B) H] X Z. split; [exists m, d; auto|]. intros s V. destruct (H s V). auto. Qed.
Lemma cell_fr S S' j (P Q : list N -> Prop) : (forall d, P d -> Q d) -> cellP S j P Q -> fr C S S' j -> cellP S' j P Q.
Proof.
  intros I [(m & d & A & B) H] [N1 F]. cbv beta in *. split; [exists m, d; rewrite N1; auto|]. intros s V.
  destruct F as [F|[_ [F|(m0 & d0 & N2 & F)]]]; rewrite F in V; [auto|discriminate|]. injection V as <-. cbn [sl_comm sl_buf]. split; auto. apply I. congruence.
Qed.
Lemma cell_vis S j (P Q : list N -> Prop) m d : (forall x, P x -> Q x) -> cellP S j P Q -> vis C S j = Some (m, d) -> Q d.
Proof.
  intros I [(m1 & d1 & A & B) H] V. unfold vis in V. destruct (vw S j) as [s|] eqn:E; [injection V as <- <-; apply (H s eq_refl)|]. cbv beta in A. apply I. congruence.
Qed.
Lemma cell_put Y i0 i S1 f j (P Q : list N -> Prop) : (forall d, P d -> Q d) -> fr C (at_ Y i) S1 j -> cellP (at_ Y i0) j P Q ->
  cellP (at_ (mkHsys (put_ks (hy_ks Y) i S1) f) i0) j P Q.
Proof.
  intros I F H. destruct (Bool.bool_dec (is_global C j) true) as [GL|GL]; [|apply Bool.not_true_is_false in GL; destruct (Nat.eq_dec i i0) as [->|NE]].
  - assert (X : cellP S1 j P Q). { eapply cell_fr; [exact I| |exact F]. destruct H as [A B]. split; [exact A|]. intros s V. apply B. rewrite (vw_glob C Y i0 i j GL). exact V. }
    destruct X as [A B]. split; [exact A|]. intros s V. apply B. rewrite <- V. symmetry. apply (vw_put C Y i S1 f i0 j). auto.
  - assert (X : cellP S1 j P Q) by (eapply cell_fr; eauto).
    destruct X as [A B]. split; [exact A|]. intros s V. apply B. rewrite <- V. symmetry. apply (vw_put C Y i0 S1 f i0 j). auto.
  - destruct H as [(m & d & A & B) H]. split.
    + exists m, d. split; [|auto]. change (nv S1 j = Some (m, d)). cbv beta. rewrite (proj1 F). exact A.
    + intros s V. apply H. rewrite <- V. symmetry. apply (vw_put_other C Y i S1 f i0 j GL NE).
Qed.

Section Starts.
Variable i0 : nat.
Variable client0 : N.
Variable s0 sec : list N.
Hypothesis s0_len : length s0 = 16%nat.
Hypothesis sec_len : length sec = 16%nat.
Let ks0 := she_id C client0 SLOT_SECRET.
Let k := she_id C client0 SLOT_SEED.
Let it (n : nat) : list N := Nat.iter n (next_seed aes cbc_enc sec) s0.

Lemma it_len n : length (it n) = 16%nat.
Proof. unfold it. induction n as [|n IH]; cbn [Nat.iter nat_rect]; auto. unfold next_seed. rewrite enc_len. exact IH. Qed.
Definition near (p n : nat) (d : list N) : Prop := exists a, d = it a /\ (p <= a <= n)%nat.
Definition Inv (p n : nat) (Y : hsys) : Prop :=
  cellP (at_ Y i0) ks0 (eq sec) (eq sec) /\
  cellP (at_ Y i0) k (near p n) (fun d => h_rnd (hy_she Y i0) = false -> near p n d).

Lemma pop_small m1 : pop_id (exactly 16 m1) mod 256 = pop_id (exactly 16 m1).
Proof. apply N.mod_small. rewrite pop_id_slot. eapply N.lt_trans; [apply N.mod_lt; discriminate|reflexivity]. Qed.
(** Cells of the two slots are only read by everything but initialisation. *)
Lemma alone_fr i client e q h S S' s : (s = SLOT_SECRET \/ s = SLOT_SEED) -> alone C i0 client0 (HShe i client e q) ->
  scell C aes cbc_dec cmac e client q h S S' (she_id C client0 s) ->
  (q = SInitRnd -> she_id C client SLOT_SEED <> k) -> fr C S S' (she_id C client0 s).
Proof.
  intros HS AL K NI. cbn [alone] in AL. destruct AL as [[_ AL]|AL].
  - destruct K as [F _|key Q J N1 V|m1 m2 m3 S2 o Q J F U X|S2 m d m' d' Q J F].
    + exact F.
    + exfalso. apply (f_equal kid_id) in J. destruct HS as [-> | ->]; rewrite !sid_id in J by reflexivity; discriminate.
    + exfalso. subst q. apply (f_equal kid_id) in J. unfold she_id in J. rewrite !mk_id, pop_small in J. destruct AL as [A B]. destruct HS as [-> | ->]; [apply A|apply B]; symmetry; exact J.
    + exfalso. destruct Q as [->|(x & ->)]; [|contradiction]. destruct HS as [-> | ->].
      * apply (f_equal kid_id) in J. rewrite !sid_id in J by reflexivity. discriminate.
      * apply (NI eq_refl). symmetry. exact J.
  - destruct K as [F _|key Q J N1 V|m1 m2 m3 S2 o Q J F U X|S2 m d m' d' Q J F]; [exact F|exfalso; symmetry in J; eapply AL; exact J..].
Qed.
Lemma user_same client : she_id C client SLOT_SEED = k -> she_id C client SLOT_SECRET = ks0.
Proof.
  unfold k, ks0, she_id. rewrite !mk_arith. change (SLOT_SEED mod 256) with 15. change (SLOT_SECRET mod 256) with 0. lia.
Qed.
Lemma near_grow p n n' d : (n <= n')%nat -> near p n d -> near p n' d.
Proof. intros L (a & -> & B). exists a. split; auto. lia. Qed.

Lemma Inv_she ev p n Y : sys_ok C (hy_ks Y) -> alone C i0 client0 ev -> Inv p n Y ->
  (forall i client e, ev = HShe i client e SInitRnd -> she_id C client SLOT_SEED <> k) -> Inv p n (snd (step ev Y)).
Proof.
  intros O AL [H1 H2] NI. destruct ev as [i client e q|ev]; cbn [hstep].
  - destruct (sstep e client q (hy_she Y i) (at_ Y i)) as [[r h] S1] eqn:E. cbn [snd]. destruct (O i) as [W G].
    destruct (sstep_eff _ _ _ _ _ _ _ _ _ _ _ _ _ _ W G E) as (W1 & G1 & K).
    assert (F : forall s, s = SLOT_SECRET \/ s = SLOT_SEED -> fr C (at_ Y i) S1 (she_id C client0 s)).
    { intros s HS. eapply alone_fr; [exact HS|exact AL| |intros ->; eapply NI; reflexivity]. apply K. apply (she_assigned C). apply sid_type. }
    split; [apply cell_put; auto; apply F; auto|]. cbn [hy_she].
    apply (cell_weak _ _ (near p n) (fun d => h_rnd (hy_she Y i0) = false -> near p n d)); [apply cell_put; auto; apply F; auto|auto|].
    intros d D HF. apply D. revert HF. unfold upd_she. destruct (Nat.eqb_spec i0 i) as [<-|NE]; [|auto].
    intros HF. destruct (h_rnd (hy_she Y i0)) eqn:HR; [|reflexivity]. rewrite (rnd_mono _ _ _ _ _ _ _ _ W G E HR) in HF. discriminate.
  - destruct (sys_step C crypt pub ots gcm_enc gcm_dec she_count max_read ev (hy_ks Y)) as [a K] eqn:E. cbn [snd].
    pose proof (step_effect _ _ _ _ _ _ _ _ _ _ _ _ O E) as [_ EF].
    assert (T1 : kid_type ks0 = KT_SHE) by apply sid_type. assert (T2 : kid_type k = KT_SHE) by apply sid_type.
    assert (Z1 : ks0 <> 0) by (intros Q; rewrite Q in T1; discriminate). assert (Z2 : k <> 0) by (intros Q; rewrite Q in T2; discriminate).
    pose proof (EF _ Z1) as E1. pose proof (EF _ Z2) as E2. clear EF.
    assert (SAME : forall f j (P Q : list N -> Prop), cellP (at_ Y i0) j P Q -> stored K j = stored (hy_ks Y) j -> (copy C K i0 j = copy C (hy_ks Y) i0 j \/ copy C K i0 j = None) ->
      cellP (at_ (mkHsys K f) i0) j P Q).
    { intros f j P Q [(m & d & A & B) H] ST CP. split; [exists m, d; split; [|auto]; etransitivity; [exact ST|exact A]|]. intros s V. change (copy C K i0 j = Some s) in V.
      destruct CP as [CP|CP]; rewrite CP in V; [apply H; exact V|discriminate]. }
    assert (NONE : forall f j (P Q Q' : list N -> Prop), cellP (at_ Y i0) j P Q -> stored K j = stored (hy_ks Y) j -> copy C K i0 j = None -> cellP (at_ (mkHsys K f) i0) j P Q').
    { intros f j P Q Q' [(m & d & A & B) H] ST CP. split; [exists m, d; split; [|auto]; etransitivity; [exact ST|exact A]|]. intros s V. change (copy C K i0 j = Some s) in V. congruence. }
    destruct ev as [i client e q|e q|client e q|x|].
    + cbn [sys_step] in E. destruct (ks_step C crypt pub ots gcm_enc gcm_dec she_count e client q (at_ Y i)) as [r S1] eqn:EK. injection E as <- <-. destruct (O i) as [W G].
      assert (F : forall j, kid_type j = KT_SHE -> fr C (at_ Y i) S1 j).
      { intros j T. destruct (kstep_she C crypt pub ots gcm_enc gcm_dec _ _ _ _ _ _ _ W G T EK) as [F|(kek & b & m & d & Q & _)]; [exact F|]. subst q. destruct AL. }
      split; apply cell_put; auto.
    + destruct AL as [A1 A2]. destruct E1 as [F1 V1], E2 as [F2 V2]. split; apply SAME; auto; eapply st_find; eauto.
    + destruct E1 as [F1 V1], E2 as [F2 V2]. split; (apply SAME; [auto| |auto]); (eapply st_find; [eauto|]); intros Q; cbv beta in Q; [rewrite T1 in Q|rewrite T2 in Q]; discriminate.
    + destruct E1 as [F1 V1], E2 as [F2 V2]. specialize (V1 i0). specialize (V2 i0). split.
      * apply SAME; auto. rewrite V1. destruct (_ && _); auto.
      * cbn [hy_she]. unfold upd_she. destruct (Nat.eqb_spec i0 x) as [<-|NE].
        -- eapply NONE; [exact H2|exact F2|]. rewrite V2. cbn [alone] in AL. fold k in AL. rewrite (AL eq_refl). reflexivity.
        -- rewrite ?(Nat.eqb_sym x i0). destruct (Nat.eqb_spec i0 x); [contradiction|]. apply SAME; auto.
    + destruct E1 as [F1 V1], E2 as [F2 V2]. split; [apply SAME; auto|]. eapply NONE; [exact H2|exact F2|apply V2].
Qed.

Lemma Inv_init client e p n Y : sys_ok C (hy_ks Y) -> Inv p n Y -> she_id C client SLOT_SEED = k ->
  let a := fst (step (HShe i0 client e SInitRnd) Y) in let Y' := snd (step (HShe i0 client e SInitRnd) Y) in
  if rc_is a OK then exists b m, (p <= b <= n)%nat /\ in_nvm (hy_ks Y') k = Some (m, it (Datatypes.S b)) /\ Inv (Datatypes.S b) (Datatypes.S n) Y'
  else Inv p (Datatypes.S n) Y'.
Proof.
  intros O [H1 H2] EK. cbn [hstep]. destruct (sstep e client SInitRnd (hy_she Y i0) (at_ Y i0)) as [[r h] S'] eqn:E. cbn [fst snd]. destruct (O i0) as [W G].
  pose proof (user_same _ EK) as ES. assert (T1 : kid_type ks0 = KT_SHE) by apply sid_type. assert (T2 : kid_type k = KT_SHE) by apply sid_type.
  assert (Z1 : ks0 <> 0) by (intros Q; rewrite Q in T1; discriminate). assert (Z2 : k <> 0) by (intros Q; rewrite Q in T2; discriminate).
  assert (NO : sr_rc r <> OK -> rc_is (Some r) OK = false) by (intros B; destruct (rc_is (Some r) OK) eqn:X; auto; apply rc_ok in X; contradiction).
  assert (PUT : forall (j : N) (P Q : list N -> Prop), cellP S' j P Q -> cellP (at_ (mkHsys (put_ks (hy_ks Y) i0 S') (upd_she (hy_she Y) i0 h)) i0) j P Q).
  { intros j P Q [A B]. split; [exact A|]. intros s V. apply B. rewrite <- V. symmetry. apply (vw_put C Y i0 S' _ i0 j). auto. }
  destruct (init_cases _ _ _ _ _ _ _ W G E) as [(N1 & HR & _ & _ & _ & K)|(HR & Sa & Sb & ms & sc & mo & old & seed & V & Wa & Ga & Fa & Vo & Fb & EQ & (m & LM & NV) & VV & X)].
  - rewrite (NO N1). assert (F : forall j, j <> 0 -> fr C (at_ Y i0) S' j).
    { intros j NJ. destruct (K j NJ) as [F _|key Q|m1 m2 m3 S2 o Q|S2 m d m' d' Q]; [exact F|discriminate Q|discriminate Q|destruct Q as [Q|(x & Q)]; discriminate Q]. }
    split; apply PUT.
    + eapply cell_fr; [auto|exact H1|apply F; auto].
    + cbn [hy_she]. unfold upd_she. rewrite Nat.eqb_refl, HR. apply (cell_weak _ _ (near p n) (fun d => h_rnd (hy_she Y i0) = false -> near p n d)); [eapply cell_fr; [intros ? ? ?; assumption|exact H2|apply F; auto]| |]; cbv beta; intros d; [|intros D B; specialize (D B); revert D]; apply near_grow; lia.
  - rewrite ES in V. rewrite EK in Vo, NV. rewrite HR in H2.
    assert (SC : sec = sc) by (eapply (cell_vis _ _ _ (eq sec)); [|exact H1|exact V]; auto). subst sc.
    assert (I2 : cellP (at_ Y i0) k (near p n) (near p n)) by (eapply cell_weak; [exact H2|auto|auto]).
    assert (Ia : cellP Sa k (near p n) (near p n)) by (eapply cell_fr; [|exact I2|apply Fa; auto]; auto).
    pose proof (cell_vis _ _ _ _ _ _ (fun d D => D) Ia Vo) as (b & EB & LB).
    assert (Ib : cellP Sb k (near p n) (near p n)) by (eapply cell_fr; [|exact Ia|apply Fb; auto]; auto).
    assert (Js : cellP Sb ks0 (eq sec) (eq sec)) by (eapply cell_fr; [|eapply cell_fr; [|exact H1|apply Fa; auto]|apply Fb; auto]; auto).
    assert (SD : seed = it (Datatypes.S b)).
    { rewrite EQ, EB, (buf16_id e sec sec_len), (buf16_id e _ (it_len b)). apply exact_id. apply (it_len (Datatypes.S b)). }
    assert (NK : N.eqb ks0 k = false). { apply N.eqb_neq. intros Q. apply (f_equal kid_id) in Q. unfold ks0, k in Q. rewrite !sid_id in Q by reflexivity. discriminate. }
    assert (J' : cellP S' ks0 (eq sec) (eq sec)).
    { destruct Js as [(m1 & d1 & A & B) D]. split; [exists m1, d1; cbv beta; rewrite NV, NK; auto|]. intros s Q. rewrite VV in Q. auto. }
    assert (NV' : nv S' k = Some (m, seed)) by (cbv beta; rewrite NV, N.eqb_refl; reflexivity).
    destruct X as [(N1 & HF)|(OKR & HT & ST & PK)].
    + rewrite (NO N1). split; [apply PUT; exact J'|]. apply PUT. cbn [hy_she]. split.
      * exists m, seed. split; [exact NV'|]. exists (Datatypes.S b). split; [exact SD|lia].
      * intros s Q. rewrite VV in Q. destruct Ib as [_ D]. destruct (D s Q) as [D1 D2]. split; [exact D1|]. intros _. eapply near_grow; [|exact D2]. lia.
    + rewrite (proj2 (rc_ok r) OKR). exists b, m. split; [exact LB|]. split; [rewrite <- SD; exact NV'|]. split; [apply PUT; exact J'|]. apply PUT. cbn [hy_she]. split.
      * exists m, seed. split; [exact NV'|]. exists (Datatypes.S b). split; [exact SD|lia].
      * intros s Q. rewrite VV in Q. destruct Ib as [_ D]. destruct (D s Q) as [D1 _]. split; [exact D1|]. unfold upd_she. rewrite Nat.eqb_refl, HT. discriminate.
Qed.

Notation starts := (starts C crypt pub ots gcm_enc gcm_dec max_read aes cbc_enc cbc_dec cmac use_op).
Lemma Inv_grow p n n' Y : (n <= n')%nat -> Inv p n Y -> Inv p n' Y.
Proof. intros L [A B]. split; [exact A|]. eapply cell_weak; [exact B| |]; cbv beta; intros d; [|intros D X; specialize (D X); revert D]; apply near_grow; auto. Qed.
Theorem starts_run evs : forall p n Y, sys_ok C (hy_ks Y) -> Inv p n Y -> Forall (alone C i0 client0) evs ->
  exists ns, starts k evs Y = map it ns /\ later p ns /\ Forall (fun x => (x <= n + inits evs)%nat) ns.
Proof.
  induction evs as [|ev evs IH]; intros p n Y O H AL; [exists []; cbn; auto|].
  inversion AL as [|? ? A1 A2]; subst.
  pose proof (hstep_ok C crypt pub ots gcm_enc gcm_dec max_read aes cbc_enc cbc_dec cmac use_op ev Y O) as O1.
  assert (II : inits (ev :: evs) = ((if is_init ev then 1 else 0) + inits evs)%nat) by (unfold inits; cbn [filter]; destruct (is_init ev); reflexivity).
  assert (CASE : (exists client e, ev = HShe i0 client e SInitRnd /\ she_id C client SLOT_SEED = k) \/
                 (forall i client e, ev = HShe i client e SInitRnd -> she_id C client SLOT_SEED <> k)).
  { destruct ev as [i client e q|ev]; [|right; discriminate]. destruct (N.eq_dec (she_id C client SLOT_SEED) k) as [EK|NK].
    - destruct A1 as [[-> _]|A1]; [|exfalso; apply (A1 SLOT_SEED SLOT_SEED); exact EK].
      destruct q; try (right; intros ? ? ? Q; discriminate Q). left. exists client, e. auto.
    - right. intros i1 c1 e1 Q. injection Q as <- <- <- _. exact NK. }
  destruct CASE as [(client & e & -> & EK)|NI].
  - pose proof (Inv_init client e p n Y O H EK) as X. cbv zeta in X. cbn [SrndSpec.starts]. rewrite EK, N.eqb_refl. cbn [andb].
    destruct (step (HShe i0 client e SInitRnd) Y) as [a Y1]. cbn [fst snd] in *. rewrite II. cbn [is_init].
    destruct (rc_is a OK).
    + destruct X as (b & m & LB & NV & H1). rewrite NV. destruct (IH _ _ _ O1 H1 A2) as (ns & R & L & F).
      exists (Datatypes.S b :: ns). split; [cbn [map]; rewrite R; reflexivity|]. split; [split; [lia|exact L]|]. constructor; [lia|]. eapply Forall_impl; [|exact F]. cbv beta. lia.
    + destruct (IH _ _ _ O1 X A2) as (ns & R & L & F). exists ns. split; [exact R|]. split; [exact L|]. eapply Forall_impl; [|exact F]. cbv beta. lia.
  - pose proof (Inv_she ev p n Y O A1 H NI) as H1. destruct (IH _ _ _ O1 H1 A2) as (ns & R & L & F). exists ns.
    split; [|split; [exact L|eapply Forall_impl; [|exact F]; cbv beta; lia]]. rewrite <- R. cbn [SrndSpec.starts].
    destruct ev as [i client e q|ev]; [|destruct (step (HSys ev) Y) as [a Y1]; reflexivity].
    destruct q; try (destruct (step _ Y) as [? ?]; reflexivity).
    pose proof (NI _ _ _ eq_refl) as NK. apply N.eqb_neq in NK. rewrite NK. cbn [andb]. destruct (step _ Y) as [? ?]. reflexivity.
Qed.
Lemma Inv_fresh st r b m ms : sp_find st k = Some (m, s0) -> sp_find st ks0 = Some (ms, sec) -> Inv 0 0 (fresh_hsys st r b).
Proof.
  intros A B. assert (E : forall j, kid_type j = KT_SHE -> vw (at_ (fresh_hsys st r b) i0) j = None).
  { intros j T. unfold find_cache, get_ctx, ks_of, fresh_hsys, fresh_sys. cbn [hy_ks k_glob k_loc y_glob y_loc].
    assert (NZ : j <> 0) by (intros ->; discriminate T). destruct (is_global C j); rewrite zero_find; auto. }
  split; (split; [eexists; eexists; split; [eassumption|]|intros s V; rewrite E in V; [discriminate|apply sid_type]]); [reflexivity|]. exists 0%nat. split; [reflexivity|lia].
Qed.
Lemma later_nodup (f : nat -> list N) b : (forall a c, (a < c <= b)%nat -> f a <> f c) -> forall ns p, later p ns -> Forall (fun x => (x <= b)%nat) ns -> NoDup (map f ns).
Proof.
  intros NR. assert (LW : forall ns p x, later p ns -> In x ns -> (p < x)%nat).
  { induction ns as [|y ns IHn]; intros p x L I; [destruct I|]. destruct L as [L1 L2]. destruct I as [->|I]; [exact L1|]. specialize (IHn _ _ L2 I). lia. }
  induction ns as [|x ns IHn]; intros p L F; cbn [map]; [constructor|]. destruct L as [L1 L2]. inversion F as [|? ? F1 F2]; subst. constructor; [|eapply IHn; eauto].
  intros I. apply in_map_iff in I as (y & EY & I). pose proof (LW _ _ _ L2 I). apply (NR x y); [|auto].
  split; auto. rewrite Forall_forall in F2. auto.
Qed.
End Starts.
End Srnd.
