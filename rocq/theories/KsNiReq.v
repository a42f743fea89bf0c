(** Key requests on two states that differ only in the bytes of some keys. *)
From Verif Require Import Base BaseLemmas NvmSpec Flags KeyId Store NvmReqModel NvmReqProof KsModel KsCache KsReq KsEff KsNi.
Local Open Scope N_scope.

Section NiReq.
Variable C : kscfg.
Variable crypt : cop -> list N -> list N -> Z * list N.
Variable pub : N -> list N -> Z * list N.
Variable ots : list N -> list N -> option (list N * list N).
Variable gcm_enc : list N -> list N -> N -> list N -> option (list N).
Variable gcm_dec : list N -> list N -> N -> list N -> option (list N).
Variable she_count : list N -> N.
Variable sec : meta -> bool.
Hypothesis sec_len : forall m n, sec (with_len m n) = sec m.
Hypothesis sec_rev : forall m, sec (with_flags m (revoke_flags (m_flags m))) = sec m.
Hypothesis sec_zero : sec meta_zero = false.
Notation krel := (krel sec).
Notation prel := (prel sec).
Notation fc := (from_client (kc C) KT_CRYPTO).
Definition qrel (a b : kresp * ks) : Prop := fst a = fst b /\ krel (snd a) (snd b).

(** Keys with this id are not among those whose bytes may differ; or, if they
    are, they may not be exported. *)
Definition plain (id : N) : Prop := forall m, m_id m = id -> sec m = false.
Definition closed (id : N) : Prop := forall m, m_id m = id -> sec m = true -> has (m_flags m) F_NONEXPORTABLE = true \/ has (m_flags m) F_TRUSTED = true.

Ltac split_p P :=
  match type of P with KsNi.prel _ ?a ?b =>
    let rc := fresh "rc" in let S1 := fresh "S" in let T1 := fresh "T" in let E := fresh "E" in let K := fresh "K" in
    destruct a as [? S1], b as [? T1]; destruct P as [E K]; cbn [fst snd] in E, K; subst
  end.
Ltac cases H id :=
  let X := fresh "X" in pose proof (fcache_rel C sec _ _ id H) as X;
  match type of X with op_rel _ (find_cache C ?S ?i) (find_cache C ?T ?i) =>
    let s := fresh "s" in let t := fresh "t" in let V := fresh "V" in
    destruct (find_cache C S i) as [s|] eqn:V, (find_cache C T i) as [t|] eqn:?; cbn [op_rel] in X; try contradiction
  end.
Lemma slot_plain S id s t : plain id -> find_cache C S id = Some s -> lrel sec s t -> sl_buf s = sl_buf t.
Proof. intros P V (_ & _ & _ & A). apply A, P. apply (vw_id C _ _ _ V). Qed.

Lemma read_id S id cap rc S' m d : read_key C S id cap = (rc, S', m, d) -> m = meta_zero \/ m_id m = id.
Proof.
  unfold read_key. destruct (kid_unassigned id); [intros H; injection H as _ _ <- _; auto|].
  destruct (hwkey C id); [intros H; injection H as _ _ <- _; auto|].
  destruct (find_cache C S id) as [s|] eqn:V.
  { destruct (_ <? _); intros H; injection H as _ _ <- _; auto. right. apply (vw_id C _ _ _ V). }
  destruct (kid_wrapped id); [intros H; injection H as _ _ <- _; auto|].
  destruct (sp_find (k_st S) id) as [[m0 d0]|] eqn:F.
  - destruct (_ <? _); [intros H; injection H as _ _ <- _; auto|]. destruct (sp_read _ _ _ _) as [rr x].
    destruct (negb (is_ok rr)); [intros H; injection H as _ _ <- _; auto|].
    assert (M : m_id m0 = id) by exact (find_id _ _ _ F).
    destruct (_ && _); [intros H; injection H as _ _ <- _; auto|]. destruct (cache_key C false S m0 x) as [rc1 S1].
    intros H; injection H as _ _ <- _; auto.
  - destruct (_ && _ && _); intros H; injection H as _ _ <- _; auto.
Qed.
Lemma read_plain S T id cap : krel S T -> plain id ->
  let '(r1, X, m1, d1) := read_key C S id cap in let '(r2, Y, m2, d2) := read_key C T id cap in
  r1 = r2 /\ m1 = m2 /\ d1 = d2 /\ krel X Y.
Proof.
  intros H P. pose proof (read_rel C sec sec_len sec_rev S T id cap H) as R. destruct (read_key C S id cap) as [[[r1 X] m1] d1] eqn:E.
  destruct (read_key C T id cap) as [[[r2 Y] m2] d2]. destruct R as (A & B & D & _ & F).
  split; [auto|]. split; [auto|]. split; [|auto]. apply F. destruct (read_id _ _ _ _ _ _ _ E) as [->|M]; auto.
Qed.
(** A checked read. *)
Lemma readc_open S id cap S' m d : read_key_checked C S id cap = (OK, S', m, d) ->
  m_id m = id /\ has (m_flags m) F_NONEXPORTABLE = false /\ has (m_flags m) F_TRUSTED = false.
Proof.
  unfold read_key_checked. destruct (is_ok (check_ks C OpExport S id)) eqn:O; [|intros H; injection H as E; apply is_ok_false in O; contradiction].
  apply is_ok_iff in O. revert O. unfold check_ks, read_key.
  destruct (kid_unassigned id); [discriminate|]. destruct (hwkey C id); [discriminate|].
  destruct (find_cache C S id) as [s|] eqn:V.
  - change (is_ok OK) with true. cbn [negb]. destruct (has _ F_TRUSTED) eqn:T; [discriminate|]. destruct (has _ F_NONEXPORTABLE) eqn:X; [discriminate|].
    intros _. destruct (_ <? _); intros H; [discriminate|]. injection H as _ <- _. split; auto. apply (vw_id C _ _ _ V).
  - rewrite nv_meta_find. destruct (sp_find (k_st S) id) as [[m0 d0]|] eqn:F; [|discriminate].
    change (is_ok OK) with true. cbn [negb]. destruct (has _ F_TRUSTED) eqn:T; [discriminate|]. destruct (has _ F_NONEXPORTABLE) eqn:X; [discriminate|].
    intros _. destruct (kid_wrapped id); [discriminate|]. destruct (_ <? _); [discriminate|]. destruct (sp_read _ _ _ _) as [rr x].
    destruct (negb (is_ok rr)) eqn:RR; [intros H; injection H as -> _ _ _; discriminate|].
    destruct (_ && _); [intros H; injection H as _ <- _; split; [exact (find_id _ _ _ F)|auto]|].
    destruct (cache_key C false S m0 x) as [rc1 S1]. intros H; injection H as _ <- _; split; [exact (find_id _ _ _ F)|auto].
Qed.
Lemma readc_same S T id cap : krel S T -> closed id ->
  let '(r1, X, m1, d1) := read_key_checked C S id cap in let '(r2, Y, m2, d2) := read_key_checked C T id cap in
  r1 = r2 /\ (r1 = OK -> m1 = m2 /\ d1 = d2) /\ krel X Y.
Proof.
  intros H P. pose proof (readc_rel C sec sec_len sec_rev S T id cap H) as R. destruct (read_key_checked C S id cap) as [[[r1 X] m1] d1] eqn:E.
  destruct (read_key_checked C T id cap) as [[[r2 Y] m2] d2]. destruct R as (A & B & D & _ & F).
  split; [auto|]. split; [|auto]. intros ->. split; auto. apply F. destruct (readc_open _ _ _ _ _ _ E) as (M & N1 & N2).
  destruct (sec m1) eqn:SM; auto. destruct (P _ M SM); congruence.
Qed.

Lemma kek_rel tr e S T id : krel S T -> plain id ->
  let '(r1, X, k1) := resolve_kek C tr e S id in let '(r2, Y, k2) := resolve_kek C tr e T id in
  r1 = r2 /\ k1 = k2 /\ krel X Y.
Proof.
  intros H P. unfold resolve_kek. destruct (hwkey C id); [auto|]. pose proof (freshen_rel C sec sec_len sec_rev S T id H) as F. split_p F.
  destruct (negb (is_ok _)); [auto|]. cases K id; [|auto].
  rewrite <- (slot_plain _ _ _ _ P V X). destruct X as (<- & _). destruct (negb (is_ok (enforce _ _))); [auto|]. destruct (tr && _); auto.
Qed.

(** The ids whose bytes a request works with. *)
Definition touched (client : N) (q : kreq) (k : N) : Prop :=
  match q with
  | KExportPublic id _ _ | KUse id _ _ _ | KSign id _ _ => k = fc client id
  | KWrap kek _ _ | KWrapExport kek _ _ | KUnwrapExport kek _ | KUnwrapCache kek _ | KDataWrap kek _ | KDataUnwrap kek _ => k = fc client kek
  | _ => False
  end.
(** … and those it hands out. *)
Definition handed (client : N) (q : kreq) (k : N) : Prop :=
  match q with
  | KExport id | KExportDma id _ => k = fc client id
  | KWrapExport _ kty id => wx_target C kty client id = Some k
  | _ => False
  end.
Notation step := (ks_step C crypt pub ots gcm_enc gcm_dec she_count).

Lemma pick_rel need S T id : krel S T -> pick_id C need S id = pick_id C need T id.
Proof. intros H. unfold pick_id. rewrite (unique_rel C sec id S T H). reflexivity. Qed.

Lemma gcm_same e k a pt1 pt2 : pt1 = pt2 -> gcm_wrap gcm_enc e k a pt1 = gcm_wrap gcm_enc e k a pt2.
Proof. intros ->. reflexivity. Qed.
Lemma kek_step tr e S T id (f : list N -> ks -> kresp * ks) : krel S T -> plain id ->
  (forall k X Y, krel X Y -> qrel (f k X) (f k Y)) ->
  qrel (let '(rc, X, k) := resolve_kek C tr e S id in if negb (is_ok rc) then (rrc rc, X) else f k X)
       (let '(rc, X, k) := resolve_kek C tr e T id in if negb (is_ok rc) then (rrc rc, X) else f k X).
Proof.
  intros H P F. pose proof (kek_rel tr e S T id H P) as R. destruct (resolve_kek C tr e S id) as [[r1 X] k1], (resolve_kek C tr e T id) as [[r2 Y] k2].
  destruct R as (<- & <- & K). destruct (negb (is_ok r1)); [split; auto|]. apply F; auto.
Qed.

Theorem step_rel e client q S T : wf S -> good C S -> krel S T ->
  (forall k, touched client q k -> plain k) -> (forall k, handed client q k -> closed k) ->
  qrel (step e client q S) (step e client q T).
Proof.
  intros W G H TP HC. unfold ks_step. destruct (negb (is_ok (v_lock e))); [split; auto|].
  assert (CODE : forall a b : Z * ks, prel a b -> qrel (rrc (fst a), snd a) (rrc (fst b), snd b)).
  { intros a b [A B]. split; cbn [fst snd]; [rewrite A; auto|auto]. }
  destruct q; cbn [touched handed] in TP, HC.
  - unfold h_cache. rewrite (pick_rel _ S T _ H). destruct (pick_id _ _ T _) as [rc k]. destruct (negb (is_ok rc)); [split; auto|].
    pose proof (cachekey_rel C sec true S T (req_meta k flags (N.of_nat (length data)) label) data data H (alike_refl sec _ _) (or_introl eq_refl)) as P. split_p P.
    destruct (is_ok _); split; auto.
  - unfold h_cache_random. rewrite (pick_rel _ S T _ H). destruct (pick_id _ _ T _) as [rc k]. destruct (negb (is_ok rc)); [split; auto|].
    pose proof (random_rel C sec S T (req_meta k flags len label) (v_rng e) (exactly (N.to_nat len) (v_rngd e)) H) as P. split_p P.
    destruct (is_ok _); split; auto.
  - unfold h_cache_dma. rewrite (pick_rel _ S T _ H). destruct (pick_id _ _ T _) as [rc k]. destruct (negb (is_ok rc)); [split; auto|]. cbv zeta.
    pose proof (dma_rel C sec S T (req_meta k flags (N.land sz 65535) label) (v_dma e) (exactly (N.to_nat (N.land sz 65535)) (v_mem e)) H) as P. split_p P.
    destruct (is_ok _); split; auto.
  - unfold h_export. pose proof (readc_same S T (fc client id) (exp_max C) H (HC _ eq_refl)) as R.
    destruct (read_key_checked C S _ _) as [[[r1 X] m1] d1], (read_key_checked C T _ _) as [[[r2 Y] m2] d2]. destruct R as (<- & R & K).
    destruct (is_ok r1) eqn:O; [|split; auto]. apply is_ok_iff in O. destruct (R O) as [-> ->]. split; auto.
  - unfold h_export_dma. cbv zeta. pose proof (check_rel C sec OpExport S T (fc client id) H) as CK. rewrite CK.
    destruct (negb (is_ok (check_ks C OpExport T _))) eqn:O; [split; auto|]. apply Bool.negb_false_iff, is_ok_iff in O. rewrite <- CK in O. clear CK.
    destruct (freshen C S (fc client id)) as [ra SA] eqn:FA. pose proof (freshen_rel C sec sec_len sec_rev S T (fc client id) H) as F. rewrite FA in F.
    destruct (freshen C T (fc client id)) as [rb TB]. destruct F as [E K]. cbn [fst snd] in E, K. subst rb.
    destruct (negb (is_ok ra)) eqn:O1; [split; auto|]. apply Bool.negb_false_iff, is_ok_iff in O1. subst ra.
    destruct (freshen_curs _ _ _ _ W G FA) as (CU & _ & _).
    cases K (fc client id); [|split; auto].
    assert (OPEN : sec (sl_meta s) = false).
    { destruct (sec (sl_meta s)) eqn:SM; auto. exfalso. destruct (check_assigned _ _ _ _ (or_introl O)) as [U HW].
      rewrite (check_cases _ _ _ _ U HW) in O. unfold curm, cur in O. unfold curs in CU.
      destruct (find_cache C S (fc client id)) as [s0|].
      - injection CU as ->. cbv zeta in O. destruct (HC _ eq_refl (sl_meta s0) (vw_id C _ _ _ V) SM) as [B|B]; rewrite B in O; [|discriminate].
        destruct (has _ F_TRUSTED); discriminate.
      - destruct (sp_find (k_st S) (fc client id)) as [[m0 d0]|]; [|discriminate]. injection CU as ->. cbn [option_map fst sl_meta] in *. cbv zeta in O.
        destruct (HC _ eq_refl m0 (vw_id C _ _ _ V) SM) as [B|B]; rewrite B in O; [|discriminate].
        destruct (has _ F_TRUSTED); discriminate. }
    destruct X as (<- & _ & _ & A). rewrite (A OPEN). destruct (_ <? _); [split; auto|]. destruct (negb (is_ok (v_dma e))); split; auto.
  - unfold h_export_public. cbv zeta. rewrite (check_rel C sec OpExportPublic S T (fc client id) H).
    destruct (negb (is_ok (check_ks _ _ _ _))); [split; auto|].
    pose proof (freshen_rel C sec sec_len sec_rev S T (fc client id) H) as F. split_p F.
    destruct (negb (is_ok _)); [split; auto|]. cases K (fc client id); [|split; auto].
    rewrite <- (slot_plain _ _ _ _ (TP _ eq_refl) V X). destruct X as (<- & _). destruct (pub algo (sl_buf s)) as [rc d].
    destruct (negb (is_ok rc)); [split; auto|]. destruct (_ <? _); split; auto.
  - apply CODE, evictc_rel; auto.
  - apply CODE, commitc_rel; auto.
  - apply CODE, erase_rel; auto.
  - apply CODE, revoke_rel; auto.
  - unfold h_import. rewrite (pick_rel _ S T _ H). destruct (pick_id _ _ T _) as [rc k]. destruct (negb (is_ok rc)); [split; auto|]. cbv zeta.
    pose proof (import_rel C sec S T (req_meta k flags (N.of_nat (length (v_rngd e))) label) slotsz (v_rng e) (v_rngd e) H) as P. split_p P.
    destruct (is_ok _); split; auto.
  - unfold h_use. destruct (nth_error (usages o) alt) as [u|]; [|split; auto]. cbv zeta. destruct (reads_copy o).
    + unfold read_key_enforce. pose proof (read_plain S T (fc client id) (v_cap e) H (TP _ eq_refl)) as R.
      destruct (read_key C S _ _) as [[[r1 X] m1] d1], (read_key C T _ _) as [[[r2 Y] m2] d2]. destruct R as (<- & <- & <- & K).
      destruct (negb (is_ok r1)) eqn:O; cbv iota zeta.
      * rewrite O. split; auto.
      * destruct (is_ok (enforce (m_flags m1) u)) eqn:EN; cbv iota zeta.
        -- change (is_ok OK) with true. cbn [negb]. destruct (crypt o input d1). split; auto.
        -- rewrite EN. cbn [negb]. split; auto.
    + unfold use_key. destruct (kid_erased (fc client id)); [split; auto|].
      pose proof (freshen_rel C sec sec_len sec_rev S T (fc client id) H) as F. split_p F.
      destruct (negb (is_ok _)) eqn:O; [rewrite O; split; auto|]. cases K (fc client id); [|split; auto].
      rewrite <- (slot_plain _ _ _ _ (TP _ eq_refl) V X). destruct X as (<- & _). cbv zeta.
      destruct (is_ok (enforce _ u)) eqn:EN.
      * change (is_ok OK) with true. cbn [negb]. destruct (crypt o input (sl_buf s)). split; auto.
      * rewrite EN. cbn [negb]. split; auto.
  - split; auto. cbn [snd]. apply (evictkey_rel C sec S T (fc client id) H).
  - unfold h_sign_gen. destruct (has _ _); [split; auto|]. cbv zeta. rewrite (pick_rel _ S T _ H). destruct (pick_id _ _ T _) as [rc k]. destruct (negb (is_ok rc)); [split; auto|].
    set (m := with_flags _ _). set (s := if is_ok (v_rng e) then _ else _). clearbody s.
    pose proof (slotc_rel C sec S T k (bigsz C) s s H (lrel_refl sec _)) as P. split_p P.
    destruct (is_ok _); cbn [negb]; [|split; auto]. destruct (negb (is_ok (v_rng e))); [split; auto|].
    pose proof (commit_rel C sec sec_len (v_nvm e) _ _ k K) as P. split_p P. destruct (is_ok _); split; auto.
  - unfold h_sign. set (k := fc client id). destruct (kid_erased k); [split; auto|].
    set (fin := fun x : kresp * ks => if ev then (fst x, snd (evict_key C (snd x) k)) else x).
    assert (FIN : forall a b, qrel a b -> qrel (fin a) (fin b)).
    { intros [a1 a2] [b1 b2] [A B]. cbn [fst snd] in A, B. unfold fin. destruct ev; split; auto. cbn [fst snd]. apply (evictkey_rel C sec _ _ k B). }
    pose proof (freshen_rel C sec sec_len sec_rev S T k H) as F. split_p F. destruct (negb (is_ok _)); [apply FIN; split; auto|].
    cases K k; [|apply FIN; split; auto]. rewrite <- (slot_plain _ _ _ _ (TP _ eq_refl) V X).
    destruct X as (EM & _ & _). rewrite <- EM.
    destruct (negb (is_ok (v_dma e))); [apply FIN; split; auto|].
    destruct (ots (sl_buf s) msg) as [[sg nb]|]; [|apply FIN; split; auto]. destruct (_ <? _); [apply FIN; split; auto|]. cbv zeta.
    set (m' := with_len _ _).
    assert (L : krel (set_ctx C S0 k (cupd k (fun x => mkSlot m' nb (sl_comm x)) (get_ctx C S0 k)))
                     (set_ctx C T0 k (cupd k (fun x => mkSlot m' nb (sl_comm x)) (get_ctx C T0 k)))).
    { apply setctx_rel; auto. apply cupd_rel; [apply getctx_rel; auto|]. intros x y (_ & E2 & _) _. split; [auto|]. split; [exact E2|]. apply alike_refl. }
    destruct (nvadd_rel sec sec_len (v_nvm e) m' nb nb _ _ (proj1 L) (alike_refl sec _ _)) as [B1 B2].
    destruct (nv_add _ m' nb (k_st (set_ctx C S0 _ _))) as [rc1 st1], (nv_add _ m' nb (k_st (set_ctx C T0 _ _))) as [rc2 st2]. cbn [fst snd] in B1, B2. subst rc2.
    destruct (is_ok rc1); apply FIN; split; auto. cbn [snd]. apply setst_rel; auto.
  - unfold h_wrap. cbv zeta. destruct (_ <? _); [split; auto|]. destruct (negb (kid_wrapped _)); [split; auto|]. destruct (_ <? _); [split; auto|].
    apply kek_step; auto. intros k X Y K. destruct (gcm_wrap _ _ _ _ _). split; auto.
  - unfold h_wrap_export. destruct (wx_target C kty client id) as [t|] eqn:WX; [|split; auto].
    pose proof (readc_same S T t (kw_max C) H (HC _ eq_refl)) as R.
    destruct (read_key_checked C S _ _) as [[[r1 X] m1] d1], (read_key_checked C T _ _) as [[[r2 Y] m2] d2]. destruct R as (<- & R & K).
    destruct (is_ok r1) eqn:O; cbn [negb]; [|split; auto]. apply is_ok_iff in O. destruct (R O) as [-> ->].
    destruct (_ <? _); [split; auto|]. apply kek_step; auto. intros k X1 Y1 K1. destruct (gcm_wrap _ _ _ _ _). split; auto.
  - unfold h_unwrap_export. destruct (_ <? _)%nat; [split; auto|]. cbv zeta. destruct (_ <? _); [split; auto|].
    apply kek_step; auto. intros k X Y K. destruct (_ <? _); [split; auto|]. destruct (gcm_unwrap _ _ _ _) as [rc pt].
    destruct (negb (is_ok rc)); [split; auto|]. destruct (kid_unassigned _); [split; auto|]. destruct (negb _); [split; auto|].
    destruct (has _ _); [split; auto|]. destruct (negb _); split; auto.
  - unfold h_unwrap_cache. destruct (_ <? _)%nat; [split; auto|]. cbv zeta.
    apply kek_step; auto. intros k X Y K. destruct (_ <? _); [split; auto|]. destruct (gcm_unwrap _ _ _ _) as [rc pt].
    destruct (negb (is_ok rc)); [split; auto|]. destruct (negb (N.eqb _ _)); [split; auto|]. destruct (kid_unassigned _); [split; auto|].
    destruct (negb _ && negb _); [split; auto|]. destruct (negb (owner_ok _ _ _)); [split; auto|]. destruct (_ && _ && _ && _); [split; auto|].
    set (m := if _ && she_global C then _ else _).
    cases K (m_id m); [split; auto|]. pose proof (ofind_rel sec _ _ (m_id m) (proj1 K)) as OF.
    match goal with |- qrel (if ?a then _ else _) (if ?b then _ else _) => assert (AB : a = b) end.
    { destruct (sp_find (k_st X) (m_id m)) as [[ma da]|], (sp_find (k_st Y) (m_id m)) as [[mb db]|]; cbn in OF; try contradiction; auto.
      destruct OF as [OF _]. cbn in OF. subst. reflexivity. }
    rewrite AB. clear AB. match goal with |- qrel (if ?a then _ else _) _ => destruct a end; [split; auto|].
    destruct (_ && stateful_blob _); [split; auto|].
    match goal with |- qrel (let '(_, _) := cache_key C false X m ?d in _) _ =>
      pose proof (cachekey_rel C sec false X Y m d d K (alike_refl sec _ _) (or_intror eq_refl)) as P end.
    split_p P. split; auto.
  - unfold h_data_wrap. cbv zeta. destruct (_ <? _); [split; auto|]. destruct (_ <? _); [split; auto|].
    apply kek_step; auto. intros k X Y K. destruct (gcm_wrap _ _ _ _ _). split; auto.
  - unfold h_data_unwrap. destruct (_ <? _)%nat; [split; auto|]. cbv zeta. destruct (_ <? _); [split; auto|].
    apply kek_step; auto. intros k X Y K. destruct (_ <? _); [split; auto|]. destruct (gcm_unwrap _ _ _ _) as [rc pt]. split; auto.
Qed.
End NiReq.
