(** What the SHE requests do to what is found under an id, in the cache and in NVM. *)
From Verif Require Import Base BaseLemmas NvmSpec Flags KeyId Store NvmReqModel NvmReqProof KsModel KsCache KsEff KsReq KsStep KsOnly SheModel.
Local Open Scope N_scope.
Local Arguments N.eqb : simpl never.

Section Eff.
Variable C : kscfg.
Notation vw := (find_cache C).
Notation nv := (fun S => sp_find (k_st S)).
Notation sid := (she_id C).

Lemma sid_type c s : kid_type (sid c s) = KT_SHE.
Proof. apply mk_type. reflexivity. Qed.
Lemma sid_id c s : s < 256 -> kid_id (sid c s) = s.
Proof. intros H. unfold she_id. rewrite mk_id. apply N.mod_small; auto. Qed.
Lemma she_assigned id : kid_type id = KT_SHE -> kid_unassigned id = false /\ hwkey C id = false /\ kid_wrapped id = false /\ id <> 0.
Proof.
  intros T. assert (U : kid_unassigned id = false) by (unfold kid_unassigned; rewrite T; change (negb (N.eqb KT_SHE KT_SHE)) with false; apply Bool.andb_false_r).
  split; [auto|]. split; [unfold hwkey, kid_hw; rewrite T; apply Bool.andb_false_r|]. split; [unfold kid_wrapped; rewrite T; reflexivity|].
  eapply assigned_nz; eauto.
Qed.
Lemma exact_len n l : length (exactly n l) = n.
Proof. unfold exactly. rewrite firstn_length, app_length, repeat_length. lia. Qed.
Lemma exact_id n l : length l = n -> exactly n l = l.
Proof. intros H. unfold exactly. rewrite firstn_app, H, Nat.sub_diag, <- H, firstn_all. cbn [firstn]. apply app_nil_r. Qed.

(** The key under an id as a request sees it. *)
Definition vis (S : ks) (id : N) : option (meta * list N) :=
  match vw S id with Some s => Some (sl_meta s, sl_buf s) | None => nv S id end.

Lemma she_read_eff rd S id rc S' m d : wf S -> good C S -> kid_type id = KT_SHE -> she_read C rd S id = (rc, S', m, d) ->
  wf S' /\ good C S' /\ k_st S' = k_st S /\ (forall j, j <> 0 -> fr C S S' j) /\ (forall j, j <> 0 -> j <> id -> dr C S S' j) /\
  (rc = OK -> vis S id = Some (m, d) \/ (vis S id = None /\ she_zero C id m d)) /\
  (rd = OK -> rc <> OK -> (vis S id = None /\ rc = NOTFOUND /\ m = meta_zero) \/
     exists m0 d0, vis S id = Some (m0, d0) /\
       (rc = NOSPACE \/ (rc <> NOTFOUND /\ m = m0))) /\
  (rc <> OK -> d = []).
Proof.
  intros W G T H. destruct (she_assigned _ T) as (U & HW & WR & NZ).
  assert (X : forall rc1 S1 m1 d1, read_key C S id 16 = (rc1, S1, m1, d1) -> rd = OK \/ vw S id <> None -> (rc, S', m, d) = (rc1, S1, meta_read C S id, d1) ->
    wf S' /\ good C S' /\ k_st S' = k_st S /\ (forall j, j <> 0 -> fr C S S' j) /\ (forall j, j <> 0 -> j <> id -> dr C S S' j) /\
    (rc = OK -> vis S id = Some (m, d) \/ (vis S id = None /\ she_zero C id m d)) /\
    (rd = OK -> rc <> OK -> (vis S id = None /\ rc = NOTFOUND /\ m = meta_zero) \/
     exists m0 d0, vis S id = Some (m0, d0) /\ (rc = NOSPACE \/ (rc <> NOTFOUND /\ m = m0))) /\
    (rc <> OK -> d = [])).
  { intros rc1 S1 m1 d1 R _ E. injection E as -> -> -> ->. pose proof R as R0.
    destruct (read_key_eff _ _ _ _ _ _ _ _ W G R) as (W1 & T1 & F1 & _ & Z1).
    split; [auto|]. split; [eapply fr_good; eauto|]. split; [auto|]. split; [auto|]. split; [intros j NJ NE; eapply read_only; eauto|].
    split; [|split; [|auto]]; unfold read_key in R; rewrite U, HW in R; unfold vis, meta_read; destruct (vw S id) as [s|] eqn:V.
    - intros E. left. destruct (16 <? m_len (sl_meta s)); [injection R as <- <- <- <-; discriminate|]. injection R as <- <- <- <-. reflexivity.
    - intros E. rewrite WR in R. destruct (sp_find (k_st S) id) as [[m2 d2]|] eqn:F.
      + left. destruct (16 <? m_len m2); [injection R as <- <- <- <-; discriminate|].
        rewrite (read_whole _ _ _ _ (proj1 G) NZ F) in R. destruct (0 <? length d2)%nat; [|injection R as <- <- <- <-; discriminate].
        change (is_ok OK) with true in R. cbn [negb] in R. destruct (N.eqb (kid_type (m_id m2)) KT_SHE && kid_erased (m_id m2)); [injection R as <- <- <- <-; auto|].
        destruct (cache_key C false S m2 d2). injection R as <- <- <- <-. auto.
      + right. split; auto. destruct (have_she C && N.eqb (kid_type id) KT_SHE && N.eqb (kid_id id) SHE_MASTER_ECU) eqn:B; [|injection R as <- <- <- <-; discriminate].
        injection R as <- <- <- <-. apply Bool.andb_true_iff in B as [B B3]. apply Bool.andb_true_iff in B as [B1 B2]. rewrite B1, B3. cbn [andb].
        apply N.eqb_eq in B2, B3. unfold she_zero. auto.
    - intros _ E. right. exists (sl_meta s), (sl_buf s). split; auto.
      destruct (16 <? m_len (sl_meta s)); injection R as <- <- <- <-; [left; auto|congruence].
    - intros _ E. rewrite WR in R. destruct (sp_find (k_st S) id) as [[m2 d2]|] eqn:F.
      + right. exists m2, d2. split; auto. destruct (16 <? m_len m2); [injection R as <- <- <- <-; auto|].
        rewrite (read_whole _ _ _ _ (proj1 G) NZ F) in R. destruct (0 <? length d2)%nat.
        * change (is_ok OK) with true in R. cbn [negb] in R. destruct (N.eqb (kid_type (m_id m2)) KT_SHE && kid_erased (m_id m2)); [injection R as <- <- <- <-; congruence|].
          destruct (cache_key C false S m2 d2). injection R as <- <- <- <-. congruence.
        * change (is_ok BADARGS) with false in R. cbn [negb] in R. injection R as <- <- <- <-. right. split; [discriminate|auto].
      + left. split; auto. rewrite T in R. change (N.eqb KT_SHE KT_SHE) with true in R. rewrite Bool.andb_true_r in R.
        destruct (have_she C && N.eqb (kid_id id) SHE_MASTER_ECU); injection R as <- <- <- <-; [congruence|auto]. }
  unfold she_read in H. destruct (read_key C S id 16) as [[[rc1 S1] m1] d1] eqn:R. destruct (vw S id) as [s|] eqn:V.
  { eapply X; eauto. right; discriminate. }
  destruct (is_ok rd) eqn:O. { apply is_ok_iff in O. eapply X; eauto. }
  apply is_ok_false in O. injection H as <- <- <- <-.
  split; [auto|]. split; [auto|]. split; [auto|]. split; [intros; apply fr_refl|]. split; [intros; apply dr_refl|].
  split; [congruence|]. split; [congruence|auto].
Qed.

Lemma vis_st S st j : vis (set_st S st) j = match vw S j with Some s => Some (sl_meta s, sl_buf s) | None => sp_find st j end.
Proof. reflexivity. Qed.
Variable aes : list N -> list N -> list N.
Variable cbc_enc cbc_dec : list N -> list N -> list N.
Variable cmac : list N -> list N -> list N.
Variable use_op : sop -> list N -> list N -> option (list N).
Notation handle := (she_handle C aes cbc_enc cbc_dec cmac use_op).

(** The key update a request asks for is authentic and allowed in the slot as it
    is in [S1], provided the slot could be read ([rd]); [o] is the new content. *)
Definition update_of (rd : Z) (client : N) (m1 m2 m3 uid : list N) (S S1 : ks) (j : N) (o : meta * list N) : Prop :=
  exists ak, length ak = 16%nat /\
    ((exists m, vis S (sid client (pop_auth m1)) = Some (m, ak)) \/
     (vis S (sid client (pop_auth m1)) = None /\ have_she C = true /\ pop_auth m1 = SHE_MASTER_ECU /\ ak = repeat 0 16)) /\
    m3 = exactly 16 (cmac (mp16 aes (ak ++ MAC_C)) (m1 ++ m2)) /\
    let clear := exactly 32 (cbc_dec (mp16 aes (ak ++ ENC_C)) m2) in
    (rd = OK -> forall m d, vis S1 j = Some (m, d) ->
       N.testbit (she_flags (m_label m)) 0 = false /\ she_count (m_label m) < N.shiftr (be32 clear) 4) /\
    (if list_eq_dec N.eq_dec (firstn UID_SZ m1) (repeat 0 UID_SZ)
     then rd = OK -> exists m d, vis S1 j = Some (m, d) /\ N.testbit (she_flags (m_label m)) 4 = true
     else firstn UID_SZ m1 = uid) /\
    snd o = skipn 16 clear /\ m_id (fst o) = j /\ m_len (fst o) = 16 /\
    exists rest, m_label (fst o) = to_be32 (N.shiftr (be32 clear) 4) ++ to_be32 (pop_flags clear) ++ rest.

(** The effect of one request on one id. *)
Inductive scell (e : senv) (client : N) (q : sreq) (h : she) (S S' : ks) (j : N) : Prop :=
| sc_fr : fr C S S' j -> ((forall s, j <> sid client s) -> dr C S S' j) -> scell e client q h S S' j
| sc_ram key : q = SLoadPlain key -> j = sid client SLOT_RAM -> nv S' j = nv S j ->
    (vw S' j = Some (mkSlot (ram_meta C client) (exactly 16 key) false) \/ vw S' j = None) -> scell e client q h S S' j
| sc_load m1 m2 m3 S1 o : q = SLoadKey m1 m2 m3 -> j = sid client (pop_id (exactly 16 m1)) -> fr C S S1 j ->
    update_of (se_rd e 1) client (exactly 16 m1) (exactly 32 m2) (exactly 16 m3) (h_uid h) S S1 j o ->
    (if N.eqb (kid_id j) SLOT_RAM
     then nv S' j = nv S j /\ (vw S' j = Some (mkSlot (fst o) (snd o) false) \/ vw S' j = None)
     else nv S' j = Some o /\ (vw S' j = Some (mkSlot (fst o) (snd o) true) \/ vw S' j = None)) ->
    scell e client q h S S' j
| sc_seed S1 m d m' d' : q = SInitRnd \/ (exists x, q = SExtendSeed x) -> j = sid client SLOT_SEED -> fr C S S1 j ->
    vis S1 j = Some (m, d) -> nv S' j = Some (m', d') -> m_label m' = m_label m -> m_len m' = 16 -> length d' = 16%nat ->
    (vw S' j = vw S1 j \/ (not_unc (vw S1 j) /\ (vw S' j = None \/ exists m0 d0, nv S1 j = Some (m0, d0) /\ vw S' j = Some (mkSlot m0 d0 true)))) ->
    scell e client q h S S' j.
Definition scells e client q h (S S' : ks) : Prop := wf S' /\ good C S' /\ forall j, j <> 0 -> scell e client q h S S' j.

Lemma scells_refl e client q h S : wf S -> good C S -> scells e client q h S S.
Proof. intros W G. split; [auto|]. split; [auto|]. intros j NJ. apply sc_fr; [apply fr_refl|intros; apply dr_refl]. Qed.
Lemma scells_read e client q h rd S slot rc S' m d : wf S -> good C S -> she_read C rd S (sid client slot) = (rc, S', m, d) ->
  scells e client q h S S'.
Proof.
  intros W G H. destruct (she_read_eff _ _ _ _ _ _ _ W G (sid_type _ _) H) as (W1 & G1 & _ & F1 & D1 & _).
  split; [auto|]. split; [auto|]. intros j NJ. apply sc_fr; auto.
Qed.
(** Two reads in a row, and a request that only reads. *)
Lemma scells_reads e client q h rd rd2 S slot slot2 rc S1 m d rc2 S2 m2 d2 : wf S -> good C S ->
  she_read C rd S (sid client slot) = (rc, S1, m, d) -> she_read C rd2 S1 (sid client slot2) = (rc2, S2, m2, d2) ->
  scells e client q h S S2.
Proof.
  intros W G H1 H2. destruct (she_read_eff _ _ _ _ _ _ _ W G (sid_type _ _) H1) as (W1 & G1 & _ & F1 & D1 & _).
  destruct (she_read_eff _ _ _ _ _ _ _ W1 G1 (sid_type _ _) H2) as (W2 & G2 & _ & F2 & D2 & _).
  split; [auto|]. split; [auto|]. intros j NJ. apply sc_fr; [eapply fr_trans; eauto|]. intros NE. eapply dr_trans; eauto.
Qed.

Lemma good_st S st : good C S -> good_store st -> good C (set_st S st).
Proof. intros [A B] H. split; auto. Qed.
Lemma add_good r m d st : good_store st -> good_store (snd (nv_add r m d st)).
Proof.
  intros G id m0 d0 NZ F. unfold nv_add in F. destruct (is_ok r); cbn [snd] in F; [|eapply G; eauto].
  rewrite find_add in F. destruct (N.eqb id (m_id m)); [|eapply G; eauto]. injection F as <- <-. reflexivity.
Qed.

Lemma eff_plain e client key h S : wf S -> good C S ->
  scells e client (SLoadPlain key) h S (snd (do_load_plain C client key h S)).
Proof.
  intros W G. unfold do_load_plain. destruct (cache_key C false S (ram_meta C client) (exactly 16 key)) as [rc S1] eqn:E.
  destruct (cache_key_eff _ _ _ _ _ _ _ W E) as [(W1 & T1 & K1 & F1 & O1) _]. change (m_id (ram_meta C client)) with (sid client SLOT_RAM) in *.
  assert (X : scells e client (SLoadPlain key) h S S1).
  { split; [auto|]. split.
    - destruct G as [GA GB]. split; [rewrite T1; auto|]. intros j s NJ V. destruct (N.eq_dec j (sid client SLOT_RAM)) as [->|NE].
      + destruct (Z.eq_dec rc OK) as [R|R].
        * destruct (K1 R) as [_ V1]. rewrite V1 in V. injection V as <-. unfold good_slot; cbn [sl_meta sl_buf]. rewrite exact_len. reflexivity.
        * destruct (F1 R) as [->|[_ V1]]; [eapply GB; eauto|congruence].
      + destruct (O1 j NJ NE) as [X|[X _]]; [|congruence]. apply (GB j); auto. congruence.
    - intros j NJ. destruct (N.eq_dec j (sid client SLOT_RAM)) as [->|NE].
      + destruct (Z.eq_dec rc OK) as [R|R].
        * destruct (K1 R) as [_ V1]. eapply sc_ram; eauto. rewrite T1; auto.
        * destruct (F1 R) as [->|[_ V1]]; [apply sc_fr; [apply fr_refl|intros; apply dr_refl]|]. eapply sc_ram; eauto. rewrite T1; auto.
      + apply sc_fr; [apply fr_drop; [rewrite T1; auto|auto]|]. intros _. apply dropped_dr; auto. }
  destruct (is_ok rc); exact X.
Qed.

Notation res X := (snd X) (only parsing).
Lemma eff_boot_init e client sz h S : wf S -> good C S -> scells e client (SBootInit sz) h S (res (do_boot_init C e client sz h S)).
Proof.
  intros W G. unfold do_boot_init. destruct (negb _); [apply scells_refl; auto|].
  destruct (she_read C (se_rd e 0) S _) as [[[rc S1] m] k] eqn:R. pose proof (scells_read e client (SBootInit sz) h _ _ _ _ _ _ _ W G R) as X.
  destruct (negb (is_ok rc) || _); [exact X|]. destruct (negb (se_c1 e)); exact X.
Qed.
Lemma eff_boot_update e client d h S : wf S -> good C S -> scells e client (SBootUpdate d) h S (res (do_boot_update e d h S)).
Proof.
  intros W G. pose proof (scells_refl e client (SBootUpdate d) h S W G) as X. unfold do_boot_update. destruct (negb (sb_eqb _ _)); [exact X|]. cbv zeta.
  destruct (_ <? _); [exact X|]. destruct (negb (se_c1 e)); exact X.
Qed.
Lemma eff_boot_finish e client h S : wf S -> good C S -> scells e client SBootFinish h S (res (do_boot_finish C cmac e client h S)).
Proof.
  intros W G. unfold do_boot_finish. destruct (negb (sb_eqb _ _)); [apply scells_refl; auto|]. destruct (negb (se_c1 e)); [apply scells_refl; auto|].
  destruct (she_read C (se_rd e 0) S _) as [[[rc S1] m] k] eqn:R. pose proof (scells_read e client SBootFinish h _ _ _ _ _ _ _ W G R) as X.
  destruct (negb (is_ok rc)); [exact X|]. destruct (list_eq_dec _ _ _); exact X.
Qed.
Lemma eff_use e client op slot d h S : wf S -> good C S -> scells e client (SUse op slot d) h S (res (do_use C use_op op client slot d e h S)).
Proof.
  intros W G. unfold do_use. cbv zeta. destruct (she_read C (se_rd e 0) S _) as [[[rc S1] m] k] eqn:R.
  pose proof (scells_read e client (SUse op slot d) h _ _ _ _ _ _ _ W G R) as X.
  destruct (negb (is_ok rc) || _); [exact X|]. destruct op; try exact X; destruct (if se_c1 e then _ else None); exact X.
Qed.
Lemma eff_export e client h S : wf S -> good C S -> scells e client SExportRam h S (res (do_export_ram C aes cbc_enc cmac e client h S)).
Proof.
  intros W G. unfold do_export_ram. cbv zeta. destruct (negb (h_plain h)); [apply scells_refl; auto|].
  destruct (she_read C (se_rd e 0) S _) as [[[rc S1] m] k] eqn:R. pose proof (scells_read e client SExportRam h _ _ _ _ _ _ _ W G R) as X.
  destruct (negb (is_ok rc) || _); [exact X|]. destruct (negb (se_c1 e)); [exact X|].
  destruct (she_read C (se_rd e 1) S1 _) as [[[rc2 S2] m2] k2] eqn:R2. pose proof (scells_reads e client SExportRam h _ _ _ _ _ _ _ _ _ _ _ _ _ W G R R2) as X2.
  destruct (negb (is_ok rc2) || _); [exact X2|]. destruct (negb (se_c2 e)); exact X2.
Qed.

(** Writing the seed after reading it in [S1]. *)
Lemma eff_seed e client q h S S1 rd rc S2 m d seed rw S3 : wf S -> good C S -> q = SInitRnd \/ (exists x, q = SExtendSeed x) ->
  wf S1 -> good C S1 -> k_st S1 = k_st S -> (forall j, j <> 0 -> fr C S S1 j) -> (forall j, j <> 0 -> (forall s, j <> sid client s) -> dr C S S1 j) ->
  she_read C rd S1 (sid client SLOT_SEED) = (rc, S2, m, d) -> rc = OK ->
  write_seed C e client m seed S2 = (rw, S3) -> scells e client q h S S3.
Proof.
  intros W G Q W1 G1 T1 F1 D1 R O H. destruct (she_read_eff _ _ _ _ _ _ _ W1 G1 (sid_type _ _) R) as (W2 & G2 & T2 & F2 & D2 & V2 & _).
  unfold write_seed in H. destruct (nv_add _ _ _ (k_st S2)) as [rw1 st] eqn:A. injection H as <- <-.
  assert (GS : good_store st). { pose proof (add_good (se_nvm e) (mkMeta (sid client SLOT_SEED) (m_access m) (m_flags m) (N.of_nat SHE_KEY_SZ) (m_label m)) (exactly 16 seed) (k_st S2) (proj1 G2)) as X. rewrite A in X. exact X. }
  split; [exact W2|]. split; [apply good_st; auto|]. intros j NJ.
  pose proof (nv_add_find _ _ _ _ _ _ j A) as NF. cbn [m_id] in NF.
  assert (FR : is_ok rw1 && N.eqb j (sid client SLOT_SEED) = false -> scell e client q h S (set_st S2 st) j).
  { intros B. rewrite B in NF. assert (Q2 : fr C S2 (set_st S2 st) j) by (split; [exact NF|left; reflexivity]).
    apply sc_fr.
    - eapply fr_trans; [|exact Q2]. eapply fr_trans; eauto.
    - intros NE. eapply dr_trans; [|left; reflexivity]. eapply dr_trans; [apply D1|apply D2]; auto. }
  destruct (is_ok rw1) eqn:OW; cbn [andb] in *; [|auto]. destruct (N.eqb_spec j (sid client SLOT_SEED)) as [E|NE]; [|auto].
  destruct (V2 O) as [V|[_ (_ & _ & Z & _)]].
  2:{ rewrite sid_id in Z by reflexivity. discriminate. }
  subst j. rewrite exact_len in NF. pose proof (exact_len 16 seed).
  eapply (sc_seed e client q h S (set_st S2 st) _ S1 m d); [exact Q|reflexivity|auto|exact V|exact NF|reflexivity|reflexivity|auto|].
  - change (vw (set_st S2 st) (sid client SLOT_SEED)) with (vw S2 (sid client SLOT_SEED)). destruct (F2 _ NJ) as [_ X]. exact X.
Qed.
Lemma eff_init_rnd e client h S : wf S -> good C S -> scells e client SInitRnd h S (res (do_init_rnd C aes cbc_enc e client h S)).
Proof.
  intros W G. unfold do_init_rnd. cbv zeta. destruct (h_rnd h); [apply scells_refl; auto|].
  destruct (she_read C (se_rd e 0) S _) as [[[rc S1] m] k] eqn:R. pose proof (scells_read e client SInitRnd h _ _ _ _ _ _ _ W G R) as X.
  destruct (negb (is_ok rc)); [exact X|]. destruct (negb (se_c1 e)); [exact X|].
  destruct (she_read C (se_rd e 1) S1 _) as [[[rc2 S2] m2] k2] eqn:R2. pose proof (scells_reads e client SInitRnd h _ _ _ _ _ _ _ _ _ _ _ _ _ W G R R2) as X2.
  destruct (is_ok rc2) eqn:O2; cbn [negb]; [|exact X2]. apply is_ok_iff in O2.
  match goal with |- context[write_seed C e client m2 ?s S2] => destruct (write_seed C e client m2 s S2) as [rw S3] eqn:WS end.
  destruct (she_read_eff _ _ _ _ _ _ _ W G (sid_type _ _) R) as (W1 & G1 & T1 & F1 & D1 & _).
  assert (Y : scells e client SInitRnd h S S3) by (eapply eff_seed; eauto).
  destruct (negb (is_ok rw)); [exact Y|]. destruct (negb (se_c2 e)); exact Y.
Qed.
Lemma eff_extend e client x h S : wf S -> good C S -> scells e client (SExtendSeed x) h S (res (do_extend_seed C aes e client x h S)).
Proof.
  intros W G. unfold do_extend_seed. cbv zeta. destruct (negb (h_rnd h)); [apply scells_refl; auto|]. destruct (negb (se_c1 e)); [apply scells_refl; auto|].
  destruct (she_read C (se_rd e 0) S _) as [[[rc S1] m] k] eqn:R. pose proof (scells_read e client (SExtendSeed x) h _ _ _ _ _ _ _ W G R) as X.
  destruct (is_ok rc) eqn:O2; cbn [negb]; [|exact X]. apply is_ok_iff in O2. destruct (negb (se_c2 e)); [exact X|].
  match goal with |- context[write_seed C e client m ?s S1] => destruct (write_seed C e client m s S1) as [rw S3] eqn:WS end.
  assert (Y : scells e client (SExtendSeed x) h S S3) by (eapply (eff_seed e client _ h S S); eauto; intros; [apply fr_refl|apply dr_refl]).
  destruct (negb (is_ok rw)); exact Y.
Qed.

(** The write of a key update: into the cache (RAM key) or into NVM. *)
Lemma nm_len (nm : meta) (key : list N) : m_len nm = 16 -> length key = 16%nat -> with_len nm (N.of_nat (length key)) = nm.
Proof. intros H E. rewrite E. destruct nm; cbn in *; subst; reflexivity. Qed.
Lemma key_len l : length (skipn 16 (exactly 32 l)) = 16%nat.
Proof. rewrite skipn_length, exact_len. reflexivity. Qed.

Lemma eff_load e client m1 m2 m3 h S : wf S -> good C S ->
  scells e client (SLoadKey m1 m2 m3) h S (res (do_load_key C aes cbc_dec cmac e client m1 m2 m3 h S)).
Proof.
  intros W G. set (q := SLoadKey m1 m2 m3). unfold do_load_key.
  set (a1 := exactly 16 m1). set (a2 := exactly 32 m2). set (a3 := exactly 16 m3). cbv zeta.
  set (j0 := sid client (pop_id a1)). assert (T0 : kid_type j0 = KT_SHE) by apply sid_type. destruct (she_assigned _ T0) as (U0 & HW0 & WR0 & NZ0).
  destruct (she_read C (se_rd e 0) S _) as [[[rc S1] m] ak] eqn:R. pose proof (scells_read e client q h _ _ _ _ _ _ _ W G R) as X1.
  destruct (Z.eqb rc NOSPACE || is_ok rc && negb (Nat.eqb (length ak) 16)) eqn:B1; [exact X1|]. destruct (is_ok rc) eqn:O1; cbn [negb]; [|exact X1].
  apply is_ok_iff in O1. apply Bool.orb_false_iff in B1 as [_ B1]. cbn [andb] in B1. apply Bool.negb_false_iff, Nat.eqb_eq in B1.
  destruct (negb (se_c1 e)); [exact X1|].
  destruct (list_eq_dec N.eq_dec a3 _) as [M3|]; cbn [negb]; [|exact X1].
  set (clear := exactly 32 (cbc_dec (mp16 aes (ak ++ ENC_C)) a2)).
  destruct (she_read_eff _ _ _ _ _ _ _ W G (sid_type _ _) R) as (W1 & G1 & T1 & F1 & D1 & V1 & _).
  destruct (she_read C (se_rd e 1) S1 j0) as [[[rt S2] mo] old] eqn:R2. pose proof (scells_reads e client q h _ _ _ _ _ _ _ _ _ _ _ _ _ W G R R2) as X2.
  destruct (she_read_eff _ _ _ _ _ _ _ W1 G1 T0 R2) as (W2 & G2 & T2 & F2 & D2 & V2 & N2 & _).
  destruct (Z.eqb rt NOSPACE || is_ok rt && negb (Nat.eqb (length old) 16)) eqn:B2; [exact X2|].
  destruct (negb (Z.eqb rt NOTFOUND) && N.testbit (she_flags (m_label mo)) 0) eqn:B3; [exact X2|].
  match goal with |- context[if (if list_eq_dec N.eq_dec ?a ?b then ?c else ?d) then _ else _] => destruct (if list_eq_dec N.eq_dec a b then c else d) eqn:B4; [exact X2|] end.
  set (cnt := N.shiftr (be32 clear) 4) in *. destruct (negb (Z.eqb rt NOTFOUND) && (cnt <=? she_count (m_label mo))) eqn:B5; [exact X2|].
  set (key := skipn 16 clear). set (nm := mkMeta j0 (m_access mo) (m_flags mo) (N.of_nat SHE_KEY_SZ) (she_label cnt (pop_flags clear) (m_label mo))).
  assert (KL : length key = 16%nat) by apply key_len.
  (* the slot as seen in S1 *)
  assert (VS : se_rd e 1 = OK -> (vis S1 j0 = None /\ (rt = NOTFOUND /\ mo = meta_zero \/ she_flags (m_label mo) = 0)) \/ exists d0, vis S1 j0 = Some (mo, d0) /\ rt <> NOTFOUND).
  { intros RD. destruct (Z.eq_dec rt OK) as [E|E].
    - destruct (V2 E) as [V|[V (_ & _ & _ & E2 & _)]]; [right; exists old; split; [auto|subst rt; discriminate]|]. left. split; auto. right. subst mo. reflexivity.
    - destruct (N2 RD E) as [(A & B & D)|(m0 & d0 & A & B)]; [left; auto|]. right. exists d0.
      destruct B as [B|[B ->]]; [|auto]. subst rt. discriminate. }
  assert (UP : update_of (se_rd e 1) client a1 a2 a3 (h_uid h) S S1 j0 (nm, key)).
  { exists ak. split; [auto|]. split; [|split; [exact M3|]].
    - destruct (V1 O1) as [V|[V (A & B & D & _ & F)]]; [left; eauto|]. right. split; auto. split; auto. split.
      + rewrite sid_id in D; [exact D|]. unfold pop_auth. rewrite low4. apply N.lt_le_trans with 16; [apply N.mod_lt; discriminate|discriminate].
      + exact F.
    - fold clear cnt. split; [|split].
      + intros RD m0 d0 V. destruct (VS RD) as [[V' _]|(d1 & V' & NF)]; [congruence|]. rewrite V' in V. injection V as <- <-.
        apply Z.eqb_neq in NF. rewrite NF in B3, B5. cbn [negb andb] in B3, B5. apply N.leb_gt in B5. auto.
      + destruct (list_eq_dec N.eq_dec (firstn UID_SZ a1) (repeat 0 UID_SZ)).
        * intros RD. apply Bool.negb_false_iff in B4. destruct (VS RD) as [[_ [[_ E]|E]]|(d1 & V' & _)]; [subst mo; discriminate|rewrite E in B4; discriminate|eauto].
        * destruct (list_eq_dec N.eq_dec (firstn UID_SZ a1) (h_uid h)); [auto|discriminate].
      + split; [reflexivity|]. split; [reflexivity|]. split; [reflexivity|]. eexists. reflexivity. }
  assert (FR : forall j, j <> 0 -> fr C S S2 j) by (intros j NJ; eapply fr_trans; eauto).
  assert (DR : forall j, j <> 0 -> (forall s, j <> sid client s) -> dr C S S2 j) by (intros j NJ NE; eapply dr_trans; [apply D1|apply D2]; auto; apply NE).
  (* the write *)
  assert (Y : forall rw S3 fm fk,
    (if N.eqb (kid_id j0) SLOT_RAM then let '(rw, S3) := cache_key C false S2 nm key in (rw, S3, nm, key)
     else let '(rw, st) := nv_add (se_nvm e) nm key (k_st S2) in
       if negb (is_ok rw) then (rw, set_st S2 st, nm, key) else
       let '(rv, S4) := evict_key C (set_st S2 st) j0 in
       if negb (is_ok rv) && negb (Z.eqb rv NOTFOUND) then (rv, S4, nm, key) else she_read C (se_rd e 2) S4 j0) = (rw, S3, fm, fk) ->
    scells e client q h S S3).
  { intros rw S3 fm fk. destruct (N.eqb (kid_id j0) SLOT_RAM) eqn:RAM.
    - destruct (cache_key C false S2 nm key) as [rw1 S3'] eqn:CK. intros H; injection H as <- <- <- <-.
      destruct (cache_key_eff _ _ _ _ _ _ _ W2 CK) as [(W3 & T3 & K3 & F3 & O3) _]. change (m_id nm) with j0 in *.
      split; [auto|]. split.
      + destruct G2 as [GA GB]. split; [rewrite T3; auto|]. intros j s NJ V. destruct (N.eq_dec j j0) as [->|NE].
        * destruct (Z.eq_dec rw1 OK) as [E|E].
          -- destruct (K3 E) as [_ V3]. rewrite V3 in V. injection V as <-. unfold good_slot; cbn [sl_meta sl_buf]. rewrite KL. reflexivity.
          -- destruct (F3 E) as [->|[_ V3]]; [eapply GB; eauto|congruence].
        * destruct (O3 j NJ NE) as [Q|[Q _]]; [|congruence]. apply (GB j); auto. congruence.
      + intros j NJ. destruct (N.eq_dec j j0) as [->|NE].
        * assert (NVE : nv S3' j0 = nv S j0) by (cbv beta; rewrite T3, T2, T1; auto).
          destruct (Z.eq_dec rw1 OK) as [E|E].
          -- destruct (K3 E) as [_ V3]. apply (sc_load e client q h S S3' j0 m1 m2 m3 S1 (nm, key)); auto. rewrite RAM. auto.
          -- destruct (F3 E) as [->|[_ V3]]; [apply sc_fr; auto|]. apply (sc_load e client q h S S3' j0 m1 m2 m3 S1 (nm, key)); auto. rewrite RAM. auto.
        * apply sc_fr.
          -- eapply fr_trans; [apply FR; auto|]. apply fr_drop; [cbv beta; rewrite T3; auto|auto].
          -- intros NS. eapply dr_trans; [apply DR; auto|]. apply dropped_dr; auto.
    - destruct (nv_add (se_nvm e) nm key (k_st S2)) as [rw1 st] eqn:A.
      assert (GS : good_store st) by (pose proof (add_good (se_nvm e) nm key (k_st S2) (proj1 G2)) as Q; rewrite A in Q; exact Q).
      pose proof (fun j => nv_add_find _ _ _ _ _ _ j A) as NF. change (m_id nm) with j0 in NF. rewrite (nm_len nm key eq_refl KL) in NF.
      destruct (is_ok rw1) eqn:OW; cbn [negb].
      2:{ intros H; injection H as <- <- <- <-. split; [exact W2|]. split; [apply good_st; auto|]. intros j NJ. apply sc_fr.
          - eapply fr_trans; [apply FR; auto|]. split; [apply NF|left; reflexivity].
          - intros NS. eapply dr_trans; [apply DR; auto|]. left; reflexivity. }
      destruct (evict_key C (set_st S2 st) j0) as [rv S4] eqn:EV. assert (WS : wf (set_st S2 st)) by exact W2.
      destruct (evict_key_eff _ _ _ _ _ WS EV) as (W4 & T4 & _ & _ & E4 & O4). specialize (E4 U0 HW0). cbn [set_st k_st] in T4.
      assert (G4 : good C S4).
      { split; [rewrite T4; auto|]. intros j s NJ V. destruct (N.eq_dec j j0) as [->|NE]; [congruence|]. rewrite O4 in V by auto. apply (proj2 G2 j); auto. }
      assert (Z4 : forall S5, wf S5 -> good C S5 -> k_st S5 = st -> (vw S5 j0 = None \/ vw S5 j0 = Some (mkSlot nm key true)) ->
         (forall j, j <> 0 -> j <> j0 -> fr C S4 S5 j /\ dr C S4 S5 j) -> scells e client q h S S5).
      { intros S5 W5 G5 T5 V5 F5. split; [auto|]. split; [auto|]. intros j NJ. destruct (N.eq_dec j j0) as [->|NE].
        - apply (sc_load e client q h S S5 j0 m1 m2 m3 S1 (nm, key)); auto. rewrite RAM. split; [|tauto].
          cbv beta. rewrite T5, NF, N.eqb_refl. reflexivity.
        - destruct (F5 j NJ NE) as [FA FB]. assert (Q4 : fr C S2 S4 j).
          { split; [cbv beta; rewrite T4, NF; apply N.eqb_neq in NE; rewrite NE; reflexivity|left; rewrite O4 by auto; reflexivity]. }
          apply sc_fr.
          + eapply fr_trans; [apply FR; auto|]. eapply fr_trans; [exact Q4|exact FA].
          + intros NS. eapply dr_trans; [apply DR; auto|]. eapply dr_trans; [|exact FB]. left. rewrite O4 by auto. reflexivity. }
      destruct (negb (is_ok rv) && negb (Z.eqb rv NOTFOUND)).
      { intros H; injection H as <- <- <- <-. apply Z4; auto. intros; split; [apply fr_refl|apply dr_refl]. }
      intros H. destruct (she_read_eff _ _ _ _ _ _ _ W4 G4 T0 H) as (W5 & G5 & T5 & F5 & D5 & _).
      apply Z4; auto; [congruence|]. destruct (F5 _ NZ0) as [_ [V|[_ [V|(m5 & d5 & NV5 & V)]]]]; [left; congruence|auto|].
      right. rewrite V. cbv beta in NV5. rewrite T4, NF, N.eqb_refl in NV5. cbn [andb] in NV5. injection NV5 as <- <-. reflexivity. }
  match type of Y with forall rw S3 fm fk, ?t = _ -> _ => destruct t as [[[rw S3] fm] fk] eqn:E end.
  specialize (Y rw S3 fm fk eq_refl). destruct (negb (is_ok rw)); [exact Y|]. destruct (negb (se_c2 e)); exact Y.
Qed.

Theorem she_eff e client q h S rc w out h' S' : wf S -> good C S ->
  handle e client q h S = (rc, w, out, h', S') -> scells e client q h S S'.
Proof.
  intros W G H. assert (E : S' = snd (handle e client q h S)) by (rewrite H; reflexivity). subst S'. clear H.
  unfold she_handle. destruct (_ && _); [apply scells_refl; auto|].
  destruct q; try (apply scells_refl; assumption).
  - unfold do_set_uid. destruct (h_uidset h); apply scells_refl; auto.
  - apply eff_boot_init; auto.
  - apply eff_boot_update; auto.
  - apply eff_boot_finish; auto.
  - apply eff_load; auto.
  - apply eff_plain; auto.
  - apply eff_export; auto.
  - apply eff_init_rnd; auto.
  - unfold do_rnd. destruct (negb _); [apply scells_refl; auto|]. destruct (negb _); apply scells_refl; auto.
  - apply eff_extend; auto.
  - apply eff_use; auto.
Qed.
End Eff.
