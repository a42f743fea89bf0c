(** Two runs that differ only in the bytes of some keys.  [sec] says of which
    keys the bytes may differ; metadata, lengths, slots and commit marks agree.
    Key requests act alike on both, and answer alike unless they read such a
    key. *)
From Verif Require Import Base BaseLemmas NvmSpec Flags KeyId Store NvmReqModel NvmReqProof KsModel KsReq.
Local Open Scope N_scope.

Section Ni.
Variable C : kscfg.
Variable sec : meta -> bool.
Hypothesis sec_len : forall m n, sec (with_len m n) = sec m.
Hypothesis sec_rev : forall m, sec (with_flags m (revoke_flags (m_flags m))) = sec m.

Definition alike (m : meta) (d1 d2 : list N) : Prop := length d1 = length d2 /\ (sec m = false -> d1 = d2).
Definition orel (o1 o2 : object) : Prop := fst o1 = fst o2 /\ alike (fst o1) (snd o1) (snd o2).
Definition lrel (s1 s2 : slot) : Prop := sl_meta s1 = sl_meta s2 /\ sl_comm s1 = sl_comm s2 /\ alike (sl_meta s1) (sl_buf s1) (sl_buf s2).
Definition crel (c1 c2 : cache) : Prop := Forall2 lrel (c_reg c1) (c_reg c2) /\ Forall2 lrel (c_big c1) (c_big c2).
Definition krel (S T : ks) : Prop := Forall2 orel (k_st S) (k_st T) /\ crel (k_glob S) (k_glob T) /\ crel (k_loc S) (k_loc T).
Definition op_rel {A} (R : A -> A -> Prop) (a b : option A) : Prop :=
  match a, b with Some x, Some y => R x y | None, None => True | _, _ => False end.
Definition prel (a b : Z * ks) : Prop := fst a = fst b /\ krel (snd a) (snd b).

Lemma alike_refl m d : alike m d d.
Proof. split; auto. Qed.
Lemma lrel_refl s : lrel s s.
Proof. split; [auto|]. split; [auto|]. apply alike_refl. Qed.
Lemma lrel_id s t : lrel s t -> sl_id s = sl_id t.
Proof. intros (H & _). unfold sl_id. rewrite H. reflexivity. Qed.

(** ** Slots *)
Lemma upd_rel p f g l1 l2 : Forall2 lrel l1 l2 -> (forall s t, lrel s t -> p s = p t) -> (forall s t, lrel s t -> p s = true -> lrel (f s) (g t)) ->
  op_rel (Forall2 lrel) (upd p f l1) (upd p g l2).
Proof.
  intros H P F. induction H as [|s t l1 l2 R H IH]; [exact I|]. cbn [upd]. rewrite <- (P s t R). destruct (p s) eqn:E.
  - cbn. constructor; auto.
  - destruct (upd p f l1), (upd p g l2); cbn in *; try contradiction; auto.
Qed.
Lemma is_id_rel id s t : lrel s t -> is_id id s = is_id id t.
Proof. intros R. unfold is_id. rewrite (lrel_id _ _ R). reflexivity. Qed.
Lemma find_rel id l1 l2 : Forall2 lrel l1 l2 -> op_rel lrel (find (is_id id) l1) (find (is_id id) l2).
Proof.
  intros H. induction H as [|s t l1 l2 R H IH]; [exact I|]. cbn [find]. rewrite <- (is_id_rel id s t R). destruct (is_id id s); auto.
Qed.
Lemma cfind_rel id c1 c2 : crel c1 c2 -> op_rel lrel (cfind c1 id) (cfind c2 id).
Proof.
  intros [H1 H2]. unfold cfind. pose proof (find_rel id _ _ H1) as X.
  destruct (find _ (c_reg c1)), (find _ (c_reg c2)); cbn in X; try contradiction; auto. apply find_rel; auto.
Qed.
Lemma cupd_rel id f g c1 c2 : crel c1 c2 -> (forall s t, lrel s t -> sl_id s = id -> lrel (f s) (g t)) -> crel (cupd id f c1) (cupd id g c2).
Proof.
  intros H F. assert (F' : forall s t, lrel s t -> is_id id s = true -> lrel (f s) (g t)).
  { intros s t R E. apply F; auto. apply N.eqb_eq. exact E. }
  pose proof H as [H1 H2]. unfold cupd.
  pose proof (upd_rel (is_id id) f g _ _ H1 (is_id_rel id) F') as X. pose proof (upd_rel (is_id id) f g _ _ H2 (is_id_rel id) F') as Y.
  destruct (upd _ f (c_reg c1)), (upd _ g (c_reg c2)); cbn in X; try contradiction; [split; auto|].
  destruct (upd _ f (c_big c1)), (upd _ g (c_big c2)); cbn in Y; try contradiction; [split; auto|auto].
Qed.
Lemma evict_rel id c1 c2 : crel c1 c2 -> crel (evict c1 id) (evict c2 id).
Proof.
  intros H. apply cupd_rel; auto. intros s t (M & Cm & L & _) _. unfold evict_slot. split; [cbn; congruence|]. split; [auto|].
  cbn [sl_buf sl_meta]. rewrite L. apply alike_refl.
Qed.
Lemma mark_rel b id c1 c2 : crel c1 c2 -> crel (mark b id c1) (mark b id c2).
Proof. intros H. apply cupd_rel; auto. intros s t (M & Cm & A) _. split; [auto|]. split; auto. Qed.
Lemma place_rel s t l1 l2 : lrel s t -> Forall2 lrel l1 l2 -> op_rel (Forall2 lrel) (place s l1) (place t l2).
Proof.
  intros R H. unfold place. pose proof (upd_rel (is_id 0) (fun _ => s) (fun _ => t) _ _ H (is_id_rel 0) (fun _ _ _ _ => R)) as X.
  destruct (upd (is_id 0) _ l1), (upd (is_id 0) _ l2); cbn in X; try contradiction; [auto|].
  apply upd_rel; auto. intros x y (_ & E & _); auto.
Qed.
Lemma alloc_rel sz s t c1 c2 : lrel s t -> crel c1 c2 -> op_rel crel (alloc C sz s c1) (alloc C sz t c2).
Proof.
  intros R [H1 H2]. unfold alloc. destruct (sz <=? bufsz C).
  - pose proof (place_rel s t _ _ R H1) as X. destruct (place s _), (place t _); cbn in *; try contradiction; auto. split; auto.
  - pose proof (place_rel s t _ _ R H2) as X. destruct (place s _), (place t _); cbn in *; try contradiction; auto. split; auto.
Qed.

(** ** The store *)
Lemma ofind_rel s1 s2 id : Forall2 orel s1 s2 -> op_rel orel (sp_find s1 id) (sp_find s2 id).
Proof.
  intros H. induction H as [|o1 o2 s1 s2 [E A] H IH]; [exact I|]. cbn [sp_find]. unfold oid. rewrite <- E.
  destruct (N.eqb _ id); auto. split; auto.
Qed.
Lemma odestroy_rel s1 s2 ids : Forall2 orel s1 s2 -> Forall2 orel (sp_destroy ids s1) (sp_destroy ids s2).
Proof.
  intros H. induction H as [|o1 o2 s1 s2 [E A] H IH]; [constructor|]. unfold sp_destroy in *. cbn [filter].
  replace (oid o2) with (oid o1) by (unfold oid; rewrite E; reflexivity).
  destruct (negb _); auto. constructor; auto. split; auto.
Qed.
Lemma oadd_rel s1 s2 m d1 d2 : Forall2 orel s1 s2 -> alike m d1 d2 -> Forall2 orel (sp_add m d1 s1) (sp_add m d2 s2).
Proof.
  intros H [L A]. unfold sp_add. apply Forall2_app; [apply odestroy_rel; auto|]. constructor; [|constructor].
  split; cbn [fst snd]; [rewrite L; auto|]. split; auto. rewrite sec_len. auto.
Qed.
Lemma nvmeta_rel s1 s2 id : Forall2 orel s1 s2 -> nv_meta s1 id = nv_meta s2 id.
Proof.
  intros H. rewrite !nv_meta_find. pose proof (ofind_rel _ _ id H) as X.
  destruct (sp_find s1 id) as [[m1 d1]|], (sp_find s2 id) as [[m2 d2]|]; cbn in X; try contradiction; auto.
  destruct X as [E _]. cbn in E. subst. reflexivity.
Qed.
Lemma nvadd_rel r m d1 d2 s1 s2 : Forall2 orel s1 s2 -> alike m d1 d2 ->
  fst (nv_add r m d1 s1) = fst (nv_add r m d2 s2) /\ Forall2 orel (snd (nv_add r m d1 s1)) (snd (nv_add r m d2 s2)).
Proof. intros H A. unfold nv_add. destruct (is_ok r); split; auto. apply oadd_rel; auto. Qed.
Lemma oread_rel s1 s2 id off len : Forall2 orel s1 s2 ->
  fst (sp_read s1 id off len) = fst (sp_read s2 id off len) /\
  length (snd (sp_read s1 id off len)) = length (snd (sp_read s2 id off len)) /\
  (forall m d, sp_find s1 id = Some (m, d) -> sec m = false -> snd (sp_read s1 id off len) = snd (sp_read s2 id off len)).
Proof.
  intros H. unfold sp_read. pose proof (ofind_rel _ _ id H) as X.
  destruct (sp_find s1 id) as [[m1 d1]|], (sp_find s2 id) as [[m2 d2]|]; cbn in X; try contradiction.
  - destruct X as [E [L A]]. cbn in E, L, A. subst m2. rewrite <- L. destruct (_ && _); cbn [fst snd]; (split; [auto|]; split).
    + rewrite !firstn_length, !skipn_length. lia.
    + intros m d X S. injection X as <- <-. rewrite (A S). reflexivity.
    + auto.
    + auto.
  - split; [auto|]. split; auto.
Qed.
Lemma policy_rel op s1 s2 id : Forall2 orel s1 s2 -> check_policy op s1 id = check_policy op s2 id.
Proof. intros H. unfold check_policy. rewrite (nvmeta_rel _ _ id H). reflexivity. Qed.
Lemma destroy_policy_rel s1 s2 ids : Forall2 orel s1 s2 -> destroy_policy s1 ids = destroy_policy s2 ids.
Proof. intros H. induction ids as [|i l IH]; cbn [destroy_policy]; auto. rewrite (policy_rel _ _ _ i H), IH. reflexivity. Qed.

(** ** Key store functions *)
Lemma getctx_rel S T id : krel S T -> crel (get_ctx C S id) (get_ctx C T id).
Proof. intros (A & B & D). unfold get_ctx. destruct (is_global C id); auto. Qed.
Lemma setctx_rel S T id c1 c2 : krel S T -> crel c1 c2 -> krel (set_ctx C S id c1) (set_ctx C T id c2).
Proof. intros (A & B & D) H. unfold set_ctx. destruct (is_global C id); split; cbn; auto. Qed.
Lemma setst_rel S T s1 s2 : krel S T -> Forall2 orel s1 s2 -> krel (set_st S s1) (set_st T s2).
Proof. intros (A & B & D) H. split; cbn; auto. Qed.
Lemma fcache_rel S T id : krel S T -> op_rel lrel (find_cache C S id) (find_cache C T id).
Proof. intros H. apply cfind_rel, getctx_rel, H. Qed.
Ltac cache_cases H id :=
  let X := fresh "X" in pose proof (fcache_rel _ _ id H) as X;
  match type of X with op_rel _ (find_cache C ?S ?i) (find_cache C ?T ?i) =>
    let s := fresh "s" in let t := fresh "t" in
    destruct (find_cache C S i) as [s|] eqn:?, (find_cache C T i) as [t|] eqn:?; cbn [op_rel] in X; try contradiction
  end.
Lemma committed_rel S T id : krel S T -> committed C S id = committed C T id.
Proof. intros H. unfold committed. cache_cases H id; auto. apply X. Qed.
Lemma check_rel op S T id : krel S T -> check_ks C op S id = check_ks C op T id.
Proof.
  intros H. unfold check_ks. rewrite (committed_rel _ _ _ H), (nvmeta_rel _ _ id (proj1 H)).
  cache_cases H id; auto. destruct X as (-> & _). reflexivity.
Qed.
Lemma ufrom_rel ty u c1 c2 S T : krel S T -> crel c1 c2 -> forall n, unique_from n ty u S c1 = unique_from n ty u T c2.
Proof.
  intros H G. induction n as [|n IH]; [reflexivity|]. cbn [unique_from]. set (k := mk_keyid ty u _).
  pose proof (cfind_rel k _ _ G) as X. pose proof (ofind_rel _ _ k (proj1 H)) as Y.
  destruct (cfind c1 k), (cfind c2 k); cbn in X; try contradiction; [exact IH|].
  destruct (sp_find (k_st S) k), (sp_find (k_st T) k); cbn in Y; try contradiction; [exact IH|reflexivity].
Qed.
Lemma unique_rel id S T : krel S T -> unique_id C S id = unique_id C T id.
Proof.
  intros H. unfold unique_id. destruct (kid_wrapped id); [reflexivity|]. destruct (hwkey C id); [reflexivity|].
  apply ufrom_rel; [exact H|]. apply getctx_rel, H.
Qed.
Lemma evictkey_rel S T id : krel S T -> prel (evict_key C S id) (evict_key C T id).
Proof.
  intros H. unfold evict_key. destruct (kid_unassigned id); [split; auto|]. destruct (hwkey C id); [split; auto|].
  cache_cases H id; split; auto. apply setctx_rel; auto. apply evict_rel, getctx_rel, H.
Qed.
Lemma slot_rel S T id sz s t : krel S T -> lrel s t -> prel (cache_slot C S id sz s) (cache_slot C T id sz t).
Proof.
  intros H R. unfold cache_slot. destruct (_ && _); [split; auto|]. destruct (hwkey C id); [split; auto|].
  assert (E : prel (match find_cache C S id with Some _ => evict_key C S id | None => (OK, S) end)
                   (match find_cache C T id with Some _ => evict_key C T id | None => (OK, T) end)).
  { cache_cases H id; [apply evictkey_rel; auto|split; auto]. }
  destruct (match find_cache C S id with Some _ => _ | None => _ end) as [rc1 S1], (match find_cache C T id with Some _ => _ | None => _ end) as [rc2 T1].
  destruct E as [E1 E2]. cbn [fst snd] in E1, E2. subst rc2. destruct (negb (is_ok rc1)); [split; auto|].
  pose proof (alloc_rel sz s t _ _ R (getctx_rel _ _ id E2)) as X.
  destruct (alloc C sz s _), (alloc C sz t _); cbn in X; try contradiction; split; auto. apply setctx_rel; auto.
Qed.
Lemma slotc_rel S T id sz s t : krel S T -> lrel s t -> prel (cache_slot_checked C S id sz s) (cache_slot_checked C T id sz t).
Proof.
  intros H R. unfold cache_slot_checked. rewrite (check_rel OpCache _ _ id H). destruct (fatal _); [split; auto|]. apply slot_rel; auto.
Qed.
Ltac split_prel P :=
  match type of P with prel ?a ?b =>
    let rc := fresh "rc" in let S1 := fresh "S" in let T1 := fresh "T" in let E := fresh "E" in let K := fresh "K" in
    destruct a as [rc S1], b as [? T1]; destruct P as [E K]; cbn [fst snd] in E, K; subst
  end.
Lemma unc_rel S T id b : krel S T -> krel (set_ctx C S id (mark b id (get_ctx C S id))) (set_ctx C T id (mark b id (get_ctx C T id))).
Proof. intros H. apply setctx_rel; auto. apply mark_rel, getctx_rel, H. Qed.
Lemma cachekey_rel chk S T m d1 d2 : krel S T -> alike m d1 d2 -> stateful_blob d1 = stateful_blob d2 \/ chk = false ->
  prel (cache_key C chk S m d1) (cache_key C chk T m d2).
Proof.
  intros H A SB. unfold cache_key. destruct (_ || _); [split; auto|].
  replace (have_st C && chk && stateful_blob d2) with (have_st C && chk && stateful_blob d1)
    by (destruct SB as [->| ->]; auto; rewrite !Bool.andb_false_r; reflexivity).
  destruct (_ && stateful_blob d1); [split; auto|]. destruct (hwkey C _); [split; auto|].
  assert (R : lrel (mkSlot m d1 false) (mkSlot m d2 false)) by (split; [auto|]; split; auto).
  assert (P : prel ((if chk then cache_slot_checked C else cache_slot C) S (m_id m) (m_len m) (mkSlot m d1 false))
                   ((if chk then cache_slot_checked C else cache_slot C) T (m_id m) (m_len m) (mkSlot m d2 false)))
    by (destruct chk; [apply slotc_rel|apply slot_rel]; auto).
  split_prel P. destruct (negb (is_ok _)); split; auto. apply unc_rel; auto.
Qed.
Lemma random_rel S T m rng d : krel S T -> prel (cache_random C S m rng d) (cache_random C T m rng d).
Proof.
  intros H. unfold cache_random. destruct (_ || _ || _); [split; auto|].
  pose proof (slotc_rel S T (m_id m) (m_len m) _ _ H (lrel_refl (if is_ok rng then mkSlot m d false else slot_zero))) as P.
  split_prel P. destruct (negb (is_ok _)); [split; auto|]. destruct (negb (is_ok rng)); split; auto. apply unc_rel; auto.
Qed.
Lemma dma_rel S T m dma d : krel S T -> prel (cache_dma C S m dma d) (cache_dma C T m dma d).
Proof.
  intros H. unfold cache_dma. cbv zeta. set (ret := if negb (is_ok dma) then _ else _). set (s := if is_ok ret then _ else _).
  pose proof (slotc_rel S T (m_id m) (m_len m) s s H (lrel_refl _)) as P. clearbody s. clearbody ret.
  split_prel P. destruct (negb (is_ok _)); [split; auto|]. destruct (negb (is_ok ret)); split; auto. apply unc_rel; auto.
Qed.
Lemma import_rel S T m sz imp d : krel S T -> prel (import_key C S m sz imp d) (import_key C T m sz imp d).
Proof.
  intros H. unfold import_key. destruct (kid_erased _); [split; auto|]. set (s := if is_ok imp then _ else _).
  pose proof (slotc_rel S T (m_id m) sz s s H (lrel_refl _)) as P. split_prel P. destruct (negb (is_ok _)); split; auto.
Qed.
Lemma freshen_rel S T id : krel S T -> prel (freshen C S id) (freshen C T id).
Proof.
  intros H. unfold freshen. destruct (kid_unassigned id); [split; auto|]. destruct (hwkey C id); [split; auto|].
  cache_cases H id; [split; auto|]. destruct (kid_wrapped id); [split; auto|].
  rewrite (nvmeta_rel _ _ id (proj1 H)). destruct (nv_meta (k_st T) id) as [rc m] eqn:NM. destruct (negb (is_ok rc)) eqn:O; [split; auto|].
  destruct (oread_rel _ _ id 0 (N.to_nat (m_len m)) (proj1 H)) as (R1 & R2 & R3).
  destruct (sp_read (k_st S) id 0 _) as [rr d1], (sp_read (k_st T) id 0 _) as [rr' d2]. cbn [fst snd] in R1, R2, R3. subst rr'.
  assert (A : alike m d1 d2).
  { split; auto. intros SM. rewrite nv_meta_find in NM. pose proof (ofind_rel _ _ id (proj1 H)) as Y.
    destruct (sp_find (k_st T) id) as [[m2 x2]|], (sp_find (k_st S) id) as [[m1 x1]|]; cbn in Y; try contradiction.
    - injection NM as <- <-. destruct Y as [Y _]. cbn in Y. subst m1. eauto.
    - injection NM as <- <-. discriminate O. }
  clear O.
  assert (L : lrel (if is_ok rr then mkSlot m d1 false else slot_zero) (if is_ok rr then mkSlot m d2 false else slot_zero))
    by (destruct (is_ok rr); [split; [auto|]; split; auto|apply lrel_refl]).
  pose proof (slot_rel S T id (m_len m) _ _ H L) as P. split_prel P. destruct (negb (is_ok _)); [split; auto|].
  destruct (negb (is_ok rr)); split; auto. apply unc_rel; auto.
Qed.
(** Reading: same answer and metadata; the bytes are alike. *)
Definition rrel (a b : Z * ks * meta * list N) : Prop :=
  let '(r1, X, m1, d1) := a in let '(r2, Y, m2, d2) := b in
  r1 = r2 /\ m1 = m2 /\ krel X Y /\ alike m1 d1 d2.
Lemma read_rel S T id cap : krel S T -> rrel (read_key C S id cap) (read_key C T id cap).
Proof.
  intros H. assert (N0 : forall rc m d, rrel (rc, S, m, d) (rc, T, m, d)) by (intros; split; [auto|]; split; [auto|]; split; [auto|apply alike_refl]).
  unfold read_key. destruct (kid_unassigned id); auto. destruct (hwkey C id); auto.
  cache_cases H id.
  - destruct X as (E & _ & A). rewrite <- E. destruct (cap <? _); auto. split; [auto|]. split; auto.
  - destruct (kid_wrapped id); auto. pose proof (ofind_rel _ _ id (proj1 H)) as Y.
    destruct (sp_find (k_st S) id) as [[m x1]|] eqn:F1, (sp_find (k_st T) id) as [[m2 x2]|]; cbn in Y; try contradiction; [|destruct (_ && _ && _); auto].
    destruct Y as [E _]. cbn in E. subst m2. destruct (cap <? _); auto.
    destruct (oread_rel _ _ id 0 (N.to_nat (m_len m)) (proj1 H)) as (R1 & R2 & R3).
    destruct (sp_read (k_st S) id 0 _) as [rr d1], (sp_read (k_st T) id 0 _) as [rr' d2]. cbn [fst snd] in R1, R2, R3. subst rr'.
    assert (A : alike m d1 d2) by (split; eauto).
    destruct (negb (is_ok rr)); auto. destruct (_ && _); [split; [auto|]; split; auto|].
    pose proof (cachekey_rel false S T m d1 d2 H A (or_intror eq_refl)) as P. split_prel P.
    split; [auto|]. split; [auto|]. split; auto. destruct (is_ok _); auto. apply unc_rel; auto.
Qed.
Lemma readc_rel S T id cap : krel S T -> rrel (read_key_checked C S id cap) (read_key_checked C T id cap).
Proof.
  intros H. unfold read_key_checked. rewrite (check_rel OpExport _ _ id H). destruct (is_ok _); [apply read_rel; auto|].
  split; [auto|]. split; [auto|]. split; [auto|apply alike_refl].
Qed.
Lemma evictc_rel S T id : krel S T -> prel (evict_checked C S id) (evict_checked C T id).
Proof. intros H. unfold evict_checked. rewrite (check_rel OpEvict _ _ id H). destruct (is_ok _); [apply evictkey_rel; auto|split; auto]. Qed.
Lemma commit_rel r S T id : krel S T -> prel (commit_key C r S id) (commit_key C r T id).
Proof.
  intros H. unfold commit_key. destruct (kid_unassigned id); [split; auto|]. destruct (kid_wrapped id); [split; auto|].
  destruct (hwkey C id); [split; auto|]. cache_cases H id; [|split; auto]. destruct X as (E & _ & A).
  destruct (nvadd_rel r (sl_meta s) (sl_buf s) (sl_buf t) _ _ (proj1 H) A) as [B1 B2]. rewrite <- E.
  destruct (nv_add r (sl_meta s) (sl_buf s) _) as [rc st1], (nv_add r (sl_meta s) (sl_buf t) _) as [rc' st2]. cbn [fst snd] in B1, B2. subst rc'.
  destruct (is_ok rc); split; auto. cbn [snd]. apply setctx_rel; [apply setst_rel; auto|]. apply mark_rel, getctx_rel, H.
Qed.
Lemma commitc_rel r S T id : krel S T -> prel (commit_checked C r S id) (commit_checked C r T id).
Proof. intros H. unfold commit_checked. rewrite (check_rel OpCommit _ _ id H). destruct (is_ok _); [apply commit_rel; auto|split; auto]. Qed.
Lemma erase_rel r S T id : krel S T -> prel (erase_checked C r S id) (erase_checked C r T id).
Proof.
  intros H. unfold erase_checked. destruct (kid_unassigned id); [split; auto|]. destruct (kid_wrapped id); [split; auto|].
  destruct (hwkey C id); [split; auto|]. pose proof (evictc_rel _ _ id H) as P. split_prel P. destruct (fatal _); [split; auto|].
  unfold destroy_checked. cbv zeta. rewrite (destroy_policy_rel _ _ [id] (proj1 K)). destruct (is_ok (destroy_policy _ _)).
  - unfold nv_destroy. destruct (is_ok r); split; auto; cbn [snd]; apply setst_rel; auto; try apply odestroy_rel; apply K.
  - split; auto.
Qed.
Lemma revoke_rel r S T id : krel S T -> prel (revoke_key C r S id) (revoke_key C r T id).
Proof.
  intros H. unfold revoke_key. destruct (kid_unassigned id); [split; auto|]. cbv zeta. rewrite (check_rel OpRevoke _ _ id H).
  destruct (negb _); [split; auto|]. rewrite (nvmeta_rel _ _ id (proj1 H)).
  pose proof (freshen_rel _ _ id H) as P. split_prel P. destruct (negb (is_ok _)); [split; auto|].
  cache_cases K id; [|split; auto]. destruct X as (E & Cm & A). rewrite <- E, <- Cm. destruct (_ && _); [split; auto|].
  assert (A' : alike (sl_meta (revoke_slot s)) (sl_buf s) (sl_buf t)).
  { destruct A as [A1 A2]. split; auto. unfold revoke_slot. cbn [sl_meta]. rewrite sec_rev. auto. }
  assert (L : krel (set_ctx C S0 id (cupd id revoke_slot (get_ctx C S0 id))) (set_ctx C T0 id (cupd id revoke_slot (get_ctx C T0 id)))).
  { apply setctx_rel; auto. apply cupd_rel; [apply getctx_rel; auto|]. intros x y (E1 & E2 & B1 & B2) _. unfold revoke_slot.
    split; cbn [sl_meta sl_comm sl_buf]; [rewrite E1; auto|]. split; auto. split; auto. rewrite sec_rev. auto. }
  destruct (is_ok (fst (nv_meta _ _))); [|split; auto].
  replace (sl_meta (revoke_slot t)) with (sl_meta (revoke_slot s)) by (unfold revoke_slot; cbn [sl_meta]; rewrite E; reflexivity).
  change (sl_buf (revoke_slot s)) with (sl_buf s). change (sl_buf (revoke_slot t)) with (sl_buf t).
  destruct (nvadd_rel r (sl_meta (revoke_slot s)) (sl_buf s) (sl_buf t) _ _ (proj1 L) A') as [B1 B2].
  destruct (nv_add r _ (sl_buf s) _) as [rc1 st1], (nv_add r _ (sl_buf t) _) as [rc2 st2]. cbn [fst snd] in B1, B2. subst rc2.
  destruct (is_ok rc1); split; auto. cbn [snd]. apply setctx_rel; [apply setst_rel; auto|]. apply mark_rel, getctx_rel, L.
Qed.
End Ni.
