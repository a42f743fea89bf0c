(** What the key store operations do to what is found under an id, in the cache
    and in NVM. *)
From Verif Require Import Base BaseLemmas NvmSpec Flags KeyId Store NvmReqModel NvmReqProof KsModel KsCache.
Local Open Scope N_scope.

Section Eff.
Variable C : kscfg.
Notation vw := (find_cache C).
Notation nv := (fun S => sp_find (k_st S)).

Definition wf (S : ks) : Prop := wf_cache (k_glob S) /\ wf_cache (k_loc S).
(** The recorded length is the number of bytes. *)
Definition good_store (st : store) : Prop :=
  forall id m d, id <> 0 -> sp_find st id = Some (m, d) -> m_len m = N.of_nat (length d).
Definition good_slot (s : slot) : Prop := m_len (sl_meta s) = N.of_nat (length (sl_buf s)).
Definition good (S : ks) : Prop :=
  good_store (k_st S) /\ forall j s, j <> 0 -> vw S j = Some s -> good_slot s.

Lemma assigned_nz id : kid_unassigned id = false -> id <> 0.
Proof. intros H ->. discriminate. Qed.
Lemma erased_nz id : kid_erased id = false -> id <> 0.
Proof. intros H ->. discriminate. Qed.
Lemma unassigned_erased id : kid_erased id = false -> kid_unassigned id = false.
Proof. unfold kid_unassigned. intros ->. reflexivity. Qed.

Lemma wf_ctx S id : wf S -> wf_cache (get_ctx C S id).
Proof. intros [A B]. unfold get_ctx. destruct (is_global C id); auto. Qed.
Lemma wf_set S id c : wf S -> wf_cache c -> wf (set_ctx C S id c).
Proof. intros [A B] H. unfold set_ctx. destruct (is_global C id); split; auto. Qed.
Lemma wf_set_st S st : wf S -> wf (set_st S st).
Proof. auto. Qed.
Lemma st_set S id c : k_st (set_ctx C S id c) = k_st S.
Proof. unfold set_ctx. destruct (is_global C id); reflexivity. Qed.
Lemma get_set S id c : get_ctx C (set_ctx C S id c) id = c.
Proof. unfold get_ctx, set_ctx. destruct (is_global C id); reflexivity. Qed.
Lemma get_set_st S st id : get_ctx C (set_st S st) id = get_ctx C S id.
Proof. reflexivity. Qed.
Lemma vw_set_st S st id : vw (set_st S st) id = vw S id.
Proof. reflexivity. Qed.
Lemma vw_set S id c j : vw (set_ctx C S id c) j =
  if Bool.eqb (is_global C j) (is_global C id) then cfind c j else vw S j.
Proof. unfold find_cache, get_ctx, set_ctx. destruct (is_global C id), (is_global C j); reflexivity. Qed.
Lemma vw_set_same S id c : vw (set_ctx C S id c) id = cfind c id.
Proof. rewrite vw_set, Bool.eqb_reflx. reflexivity. Qed.
Lemma vw_id S j s : vw S j = Some s -> sl_id s = j.
Proof. apply cfind_id. Qed.

(** Setting the context to a cache that agrees, except at [id]. *)
Lemma vw_set_other S id c (R : option slot -> option slot -> Prop) j :
  (forall o, R o o) -> R (cfind (get_ctx C S id) j) (cfind c j) -> R (vw S j) (vw (set_ctx C S id c) j).
Proof.
  intros H1 H2. rewrite vw_set. destruct (Bool.eqb (is_global C j) (is_global C id)) eqn:E; auto.
  apply Bool.eqb_prop in E. unfold find_cache, get_ctx in *. rewrite E. exact H2.
Qed.

(** ** Untouched ids *)
Definition not_unc (o : option slot) : Prop := forall s, o = Some s -> sl_comm s = true.
Definition fr (S S' : ks) (j : N) : Prop :=
  nv S' j = nv S j /\
  (vw S' j = vw S j \/
   (not_unc (vw S j) /\
    (vw S' j = None \/ exists m d, nv S j = Some (m, d) /\ vw S' j = Some (mkSlot m d true)))).

Lemma fr_refl S j : fr S S j.
Proof. split; auto. Qed.
Lemma fr_trans S1 S2 S3 j : fr S1 S2 j -> fr S2 S3 j -> fr S1 S3 j.
Proof.
  intros [N1 A] [N2 B]. split; [congruence|].
  destruct B as [B|[U B]].
  - rewrite B. destruct A as [A|[UA A]]; auto.
  - assert (U1 : not_unc (vw S1 j)).
    { destruct A as [A|[UA A]]; auto. rewrite A in U. exact U. }
    right. split; auto. destruct B as [B|(m & d & E & B)]; auto. right. exists m, d. split; auto. congruence.
Qed.
Lemma fr_drop S S' j : nv S' j = nv S j -> vw S' j = vw S j \/ dropped (vw S j) (vw S' j) -> fr S S' j.
Proof.
  intros E [H|[H (s & E1 & K)]]; split; auto. right. split; auto. intros s' E2. congruence.
Qed.

(** ** Evicting *)
Lemma evict_key_eff S id rc S' : wf S -> evict_key C S id = (rc, S') ->
  wf S' /\ k_st S' = k_st S /\
  (rc = OK -> kid_unassigned id = false /\ hwkey C id = false /\ vw S id <> None /\ vw S' id = None) /\
  (rc <> OK -> S' = S) /\
  (kid_unassigned id = false -> hwkey C id = false -> vw S' id = None) /\
  forall j, j <> 0 -> j <> id -> vw S' j = vw S j.
Proof.
  intros W. unfold evict_key. destruct (kid_unassigned id) eqn:U.
  { intros H; injection H as <- <-. repeat split; auto; try discriminate; apply W. }
  destruct (hwkey C id) eqn:HW.
  { intros H; injection H as <- <-. repeat split; auto; try discriminate; apply W. }
  pose proof (assigned_nz _ U) as NZ. destruct (vw S id) as [s|] eqn:F; intros H; injection H as <- <-.
  - assert (X : vw (set_ctx C S id (evict (get_ctx C S id) id)) id = None).
    { rewrite vw_set_same, evict_find, N.eqb_refl; auto. apply wf_ctx; auto. }
    split; [apply wf_set; auto; apply evict_wf, wf_ctx; auto|]. split; [apply st_set|].
    split; [intros _; repeat split; auto; congruence|]. split; [congruence|]. split; [auto|].
    intros j NJ NE. symmetry. apply (vw_set_other S id _ eq); auto.
    rewrite evict_find by (auto; apply wf_ctx; auto). destruct (N.eqb_spec j id); congruence.
  - split; [auto|]. split; [auto|]. split; [discriminate|]. split; [auto|]. auto.
Qed.

(** ** Obtaining and filling a slot *)
Lemma cache_slot_eff S id sz s rc S' : wf S -> id <> 0 -> sl_id s = id \/ sl_id s = 0 ->
  cache_slot C S id sz s = (rc, S') ->
  wf S' /\ k_st S' = k_st S /\
  (rc = OK -> vw S' id = if N.eqb (sl_id s) id then Some s else None) /\
  (rc <> OK -> S' = S \/ (rc = NOSPACE /\ vw S' id = None)) /\
  forall j, j <> 0 -> j <> id -> vw S' j = vw S j \/ dropped (vw S j) (vw S' j).
Proof.
  intros W NZ IDS. unfold cache_slot. destruct ((bufsz C <? sz) && (bigsz C <? sz)).
  { intros H; injection H as <- <-. split; [auto|]. split; [auto|]. split; [discriminate|]. split; auto. }
  destruct (hwkey C id) eqn:HW.
  { intros H; injection H as <- <-. split; [auto|]. split; [auto|]. split; [discriminate|]. split; auto. }
  assert (X : exists rc1 S1, match vw S id with Some _ => evict_key C S id | None => (OK, S) end = (rc1, S1) /\
    wf S1 /\ k_st S1 = k_st S /\ (rc1 = OK -> vw S1 id = None) /\ (rc1 <> OK -> S1 = S) /\
    forall j, j <> 0 -> j <> id -> vw S1 j = vw S j).
  { destruct (vw S id) as [x|] eqn:F.
    - destruct (evict_key C S id) as [rc1 S1] eqn:E. exists rc1, S1. split; auto.
      destruct (evict_key_eff _ _ _ _ W E) as (A & B & D & D' & _ & F').
      split; [auto|]. split; [auto|]. split; [intros O; apply D in O; tauto|]. split; auto.
    - exists OK, S. auto 8. }
  destruct X as (rc1 & S1 & -> & W1 & T1 & N1 & E1 & O1).
  destruct (is_ok rc1) eqn:OK1; cbn [negb].
  - apply is_ok_iff in OK1. specialize (N1 OK1).
    destruct (alloc C sz s (get_ctx C S1 id)) as [c|] eqn:A; intros H; injection H as <- <-.
    + assert (HS : sl_id s = 0 \/ cfind (get_ctx C S1 id) (sl_id s) = None).
      { destruct IDS as [->|]; auto. }
      split; [apply wf_set; auto; apply (alloc_wf C sz s (get_ctx C S1 id)); auto; apply wf_ctx; auto|].
      split; [rewrite st_set; auto|]. split.
      { intros _. rewrite vw_set_same.
        destruct (alloc_find C sz s _ c id (wf_ctx _ _ W1) A HS NZ) as [[E F]|[NE F]].
        - rewrite F, E, N.eqb_refl. reflexivity.
        - destruct (N.eqb_spec (sl_id s) id); [congruence|].
          unfold find_cache in N1. rewrite N1 in F. destruct F as [F|[F _]]; auto. }
      split; [congruence|]. intros j NJ NE. rewrite <- (O1 j NJ NE).
      apply (vw_set_other S1 id c (fun o o' => o' = o \/ dropped o o')); auto.
      destruct (alloc_find C sz s _ c j (wf_ctx _ _ W1) A HS NJ) as [[E F]|[_ F]]; auto.
      destruct IDS; congruence.
    + split; [auto|]. split; [auto|]. split; [discriminate|]. split; [right; auto|]. intros j NJ NE. left. auto.
  - apply is_ok_false in OK1. specialize (E1 OK1). intros H; injection H as <- <-. subst S1.
    split; [auto|]. split; [auto|]. split; [congruence|]. split; auto.
Qed.

Lemma cache_slot_checked_eff S id sz s rc S' : wf S -> id <> 0 -> sl_id s = id \/ sl_id s = 0 ->
  cache_slot_checked C S id sz s = (rc, S') ->
  wf S' /\ k_st S' = k_st S /\
  (rc = OK -> fatal (check_ks C OpCache S id) = false /\ vw S' id = if N.eqb (sl_id s) id then Some s else None) /\
  (rc <> OK -> S' = S \/ (rc = NOSPACE /\ fatal (check_ks C OpCache S id) = false /\ vw S' id = None)) /\
  forall j, j <> 0 -> j <> id -> vw S' j = vw S j \/ dropped (vw S j) (vw S' j).
Proof.
  intros W NZ IDS. unfold cache_slot_checked. destruct (fatal (check_ks C OpCache S id)) eqn:F.
  - intros H; injection H as <- <-. split; [auto|]. split; [auto|]. split.
    + intros E. rewrite E in F. discriminate.
    + split; auto.
  - intros H. destruct (cache_slot_eff _ _ _ _ _ _ W NZ IDS H) as (A & B & D & D' & E).
    split; [auto|]. split; [auto|]. split; [auto|]. split; [|auto]. intros X. apply D' in X as [X|[X Y]]; auto.
Qed.

(** Marking *)
Lemma mark_eff S id b : wf S -> id <> 0 ->
  let S' := set_ctx C S id (mark b id (get_ctx C S id)) in
  wf S' /\ k_st S' = k_st S /\
  vw S' id = option_map (fun s => mkSlot (sl_meta s) (sl_buf s) b) (vw S id) /\
  forall j, j <> 0 -> j <> id -> vw S' j = vw S j.
Proof.
  intros W NZ S'. unfold S'. split; [apply wf_set; auto; apply mark_wf, wf_ctx; auto|]. split; [apply st_set|]. split.
  - rewrite vw_set_same, mark_find, N.eqb_refl; auto. apply wf_ctx; auto.
  - intros j NJ NE. symmetry. apply (vw_set_other S id _ eq); auto.
    rewrite mark_find by (auto; apply wf_ctx; auto). destruct (N.eqb_spec j id); congruence.
Qed.

(** ** Caching a key *)
Definition slot_kept (chk : bool) (S S' : ks) (id : N) (rc : Z) (s : slot) : Prop :=
  wf S' /\ k_st S' = k_st S /\
  (rc = OK -> (chk = true -> fatal (check_ks C OpCache S id) = false) /\ vw S' id = Some s) /\
  (rc <> OK -> S' = S \/
     ((chk = true -> fatal (check_ks C OpCache S id) = false) /\ vw S' id = None)) /\
  forall j, j <> 0 -> j <> id -> vw S' j = vw S j \/ dropped (vw S j) (vw S' j).

Lemma cache_key_eff chk S m d rc S' : wf S -> cache_key C chk S m d = (rc, S') ->
  slot_kept chk S S' (m_id m) rc (mkSlot m d false) /\
  (rc = OK -> kid_unassigned (m_id m) = false /\ hwkey C (m_id m) = false /\ (chk = true -> have_st C = true -> stateful_blob d = false)).
Proof.
  intros W. unfold cache_key, slot_kept. destruct (kid_unassigned (m_id m)) eqn:U; cbn [orb].
  { intros H; injection H as <- <-. split; [|discriminate]. split; [auto|]. split; [auto|]. split; [discriminate|]. split; auto. }
  destruct (too_big C (m_len m)).
  { intros H; injection H as <- <-. split; [|discriminate]. split; [auto|]. split; [auto|]. split; [discriminate|]. split; auto. }
  destruct (have_st C && chk && stateful_blob d) eqn:SB.
  { intros H; injection H as <- <-. split; [|discriminate]. split; [auto|]. split; [auto|]. split; [discriminate|]. split; auto. }
  destruct (hwkey C (m_id m)) eqn:HW.
  { intros H; injection H as <- <-. split; [|discriminate]. split; [auto|]. split; [auto|]. split; [discriminate|]. split; auto. }
  pose proof (assigned_nz _ U) as NZ. set (s := mkSlot m d false).
  destruct ((if chk then cache_slot_checked C else cache_slot C) S (m_id m) (m_len m) s) as [rc1 S1] eqn:E.
  assert (X : wf S1 /\ k_st S1 = k_st S /\
    (rc1 = OK -> (chk = true -> fatal (check_ks C OpCache S (m_id m)) = false) /\ vw S1 (m_id m) = Some s) /\
    (rc1 <> OK -> S1 = S \/ ((chk = true -> fatal (check_ks C OpCache S (m_id m)) = false) /\ vw S1 (m_id m) = None)) /\
    forall j, j <> 0 -> j <> m_id m -> vw S1 j = vw S j \/ dropped (vw S j) (vw S1 j)).
  { destruct chk.
    - destruct (cache_slot_checked_eff _ _ _ s _ _ W NZ (or_introl eq_refl) E) as (A & B & D & D' & F).
      change (sl_id s) with (m_id m) in D. rewrite N.eqb_refl in D.
      split; [auto|]. split; [auto|]. split; [intros O; apply D in O; tauto|]. split; [|auto].
      intros O. apply D' in O as [O|(_ & O & O')]; auto.
    - destruct (cache_slot_eff _ _ _ s _ _ W NZ (or_introl eq_refl) E) as (A & B & D & D' & F).
      change (sl_id s) with (m_id m) in D. rewrite N.eqb_refl in D.
      split; [auto|]. split; [auto|]. split; [intros O; split; [discriminate|auto]|]. split; [|auto].
      intros O. apply D' in O as [O|(_ & O)]; auto. right. split; [discriminate|auto]. }
  destruct X as (W1 & T1 & K1 & F1 & O1). destruct (is_ok rc1) eqn:OK1; cbn [negb].
  - apply is_ok_iff in OK1. intros H; injection H as <- <-. destruct (K1 OK1) as [K2 K3].
    destruct (mark_eff S1 (m_id m) false W1 NZ) as (A & B & D & F).
    split.
    + split; [auto|]. split; [congruence|]. split.
      * intros _. split; auto. rewrite D, K3. reflexivity.
      * split; [congruence|]. intros j NJ NE. rewrite F by auto. auto.
    + intros _. split; [auto|]. split; [auto|]. intros E1 E2. rewrite E1, E2 in SB. exact SB.
  - apply is_ok_false in OK1. intros H; injection H as <- <-. split; [|congruence].
    split; [auto|]. split; [auto|]. split; [congruence|]. auto.
Qed.

(** ** Loading a key *)
Lemma read_whole st id m d : good_store st -> id <> 0 -> sp_find st id = Some (m, d) ->
  sp_read st id 0 (N.to_nat (m_len m)) = if (0 <? length d)%nat then (OK, d) else (BADARGS, []).
Proof.
  intros G NZ F. unfold sp_read. rewrite F, (G _ _ _ NZ F), Nnat.Nat2N.id, Nat.sub_0_r, Nat.leb_refl, Bool.andb_true_r.
  destruct (0 <? length d)%nat; auto. cbn [skipn]. rewrite firstn_all. reflexivity.
Qed.

Lemma fr_set S S' id j : (forall j, j <> 0 -> j <> id -> vw S' j = vw S j \/ dropped (vw S j) (vw S' j)) ->
  k_st S' = k_st S -> j <> 0 -> j <> id -> fr S S' j.
Proof. intros H E NJ NE. apply fr_drop; auto. rewrite E. reflexivity. Qed.

Lemma freshen_eff S id rc S' : wf S -> good S -> freshen C S id = (rc, S') ->
  wf S' /\ k_st S' = k_st S /\
  (forall j, j <> 0 -> fr S S' j) /\
  (rc = OK -> kid_unassigned id = false /\ hwkey C id = false /\
     ((exists s, vw S id = Some s /\ S' = S) \/
      (vw S id = None /\ kid_wrapped id = false /\ exists m d, nv S id = Some (m, d) /\ (0 < length d)%nat /\ vw S' id = Some (mkSlot m d true)))) /\
  (rc <> OK -> vw S' id = vw S id).
Proof.
  intros W G. unfold freshen. destruct (kid_unassigned id) eqn:U.
  { intros H; injection H as <- <-. split; [auto|]. split; [auto|]. split; [intros; apply fr_refl|]. split; [discriminate|auto]. }
  destruct (hwkey C id) eqn:HW.
  { intros H; injection H as <- <-. split; [auto|]. split; [auto|]. split; [intros; apply fr_refl|]. split; [discriminate|auto]. }
  pose proof (assigned_nz _ U) as NZ. destruct (vw S id) as [s|] eqn:F.
  { intros H; injection H as <- <-. split; [auto|]. split; [auto|]. split; [intros; apply fr_refl|]. split; [|congruence].
    intros _. split; [auto|]. split; [auto|]. left. eauto. }
  destruct (kid_wrapped id) eqn:KW.
  { intros H; injection H as <- <-. split; [auto|]. split; [auto|]. split; [intros; apply fr_refl|]. split; [discriminate|auto]. }
  unfold nv_meta. destruct (sp_find (k_st S) id) as [[m d]|] eqn:NV; cbn [is_ok negb].
  2:{ intros H; injection H as <- <-. split; [auto|]. split; [auto|]. split; [intros; apply fr_refl|]. split; [discriminate|auto]. }
  change (is_ok OK) with true. cbn [negb].
  pose proof (find_id _ _ _ NV) as MI. cbn [fst] in MI.
  rewrite (read_whole _ _ _ _ (proj1 G) NZ NV).
  destruct (0 <? length d)%nat eqn:LD; cbn [is_ok].
  - change (is_ok OK) with true. cbn [negb].
    destruct (cache_slot C S id (m_len m) (mkSlot m d false)) as [rc1 S1] eqn:E.
    destruct (cache_slot_eff _ _ _ (mkSlot m d false) _ _ W NZ (or_introl MI) E) as (W1 & T1 & K1 & F1 & O1).
    destruct (is_ok rc1) eqn:OK1; cbn [negb]; intros H; injection H as <- <-.
    + apply is_ok_iff in OK1. specialize (K1 OK1). unfold sl_id in K1; cbn [sl_meta] in K1. rewrite MI, N.eqb_refl in K1.
      destruct (mark_eff S1 id true W1 NZ) as (A & B & D & X). rewrite K1 in D. cbn [option_map sl_meta sl_buf] in D.
      split; [auto|]. split; [congruence|]. split; [|split; [|congruence]].
      * intros j NJ. destruct (N.eq_dec j id) as [->|NE].
        -- split; [rewrite B, T1; auto|]. right. rewrite F. split; [discriminate|]. right. exists m, d. auto.
        -- apply fr_drop; [rewrite B, T1; auto|]. rewrite X by auto. auto.
      * intros _. split; [auto|]. split; [auto|]. right. split; [auto|]. split; [auto|]. exists m, d.
        split; [auto|]. split; [apply Nat.ltb_lt; auto|auto].
    + apply is_ok_false in OK1. split; [auto|]. split; [auto|]. split; [|split; [congruence|]].
      * intros j NJ. destruct (N.eq_dec j id) as [->|NE]; [|apply (fr_set S S1 id); auto].
        destruct (F1 OK1) as [->|[_ V]]; [apply fr_refl|]. split; [rewrite T1; auto|]. left. congruence.
      * intros _. destruct (F1 OK1) as [->|[_ V]]; congruence.
  - change (is_ok BADARGS) with false. cbn [negb].
    destruct (cache_slot C S id (m_len m) slot_zero) as [rc1 S1] eqn:E.
    destruct (cache_slot_eff _ _ _ slot_zero _ _ W NZ (or_intror eq_refl) E) as (W1 & T1 & K1 & F1 & O1).
    assert (V : vw S1 id = None).
    { destruct (is_ok rc1) eqn:OK1; [apply is_ok_iff in OK1|apply is_ok_false in OK1].
      - rewrite (K1 OK1). change (sl_id slot_zero) with 0. destruct (N.eqb_spec 0 id); [congruence|auto].
      - destruct (F1 OK1) as [->|[_ V]]; auto. }
    assert (FR : forall j, j <> 0 -> fr S S1 j).
    { intros j NJ. destruct (N.eq_dec j id) as [->|NE]; [|apply (fr_set S S1 id); auto].
      split; [rewrite T1; auto|]. left. congruence. }
    destruct (is_ok rc1) eqn:OK1; cbn [negb]; intros H; injection H as <- <-.
    + split; [auto|]. split; [auto|]. split; [auto|]. split; [discriminate|]. congruence.
    + apply is_ok_false in OK1. split; [auto|]. split; [auto|]. split; [auto|]. split; [congruence|]. congruence.
Qed.

(** What is kept in a cache or loaded is good. *)
Lemma good_same S S' : good S -> k_st S' = k_st S ->
  (forall j s, j <> 0 -> vw S' j = Some s -> vw S j = Some s \/ good_slot s) -> good S'.
Proof.
  intros [A B] E H. split; [rewrite E; auto|]. intros j s NJ V. destruct (H j s NJ V); eauto.
Qed.
Lemma fr_good S S' : good S -> k_st S' = k_st S -> (forall j, j <> 0 -> fr S S' j) -> good S'.
Proof.
  intros G E H. apply (good_same S S' G E). intros j s NJ V. destruct (H j NJ) as [_ [X|[_ [X|(m & d & F & X)]]]].
  - left. congruence.
  - congruence.
  - right. rewrite V in X. injection X as ->. unfold good_slot; cbn [sl_meta sl_buf]. apply (proj1 G) in F; auto.
Qed.

(** ** Reading a key *)
Definition she_zero (id : N) (m : meta) (d : list N) : Prop :=
  have_she C = true /\ kid_type id = KT_SHE /\ kid_id id = SHE_MASTER_ECU /\
  m = with_len (with_id meta_zero id) (N.of_nat SHE_KEY_SZ) /\ d = repeat 0 SHE_KEY_SZ.
Lemma read_key_eff S id cap rc S' m d : wf S -> good S -> read_key C S id cap = (rc, S', m, d) ->
  wf S' /\ k_st S' = k_st S /\ (forall j, j <> 0 -> fr S S' j) /\
  (rc = OK -> kid_unassigned id = false /\ hwkey C id = false /\
     ((vw S id = Some (mkSlot m d true) \/ vw S id = Some (mkSlot m d false)) \/
      (vw S id = None /\ kid_wrapped id = false /\ nv S id = Some (m, d)) \/
      (vw S id = None /\ nv S id = None /\ she_zero id m d))) /\
  (rc <> OK -> d = []).
Proof.
  intros W G. unfold read_key. destruct (kid_unassigned id) eqn:U.
  { intros H; injection H as <- <- <- <-. split; [auto|]. split; [auto|]. split; [intros; apply fr_refl|]. split; [discriminate|auto]. }
  destruct (hwkey C id) eqn:HW.
  { intros H; injection H as <- <- <- <-. split; [auto|]. split; [auto|]. split; [intros; apply fr_refl|]. split; [discriminate|auto]. }
  pose proof (assigned_nz _ U) as NZ. destruct (vw S id) as [s|] eqn:F.
  { destruct (cap <? m_len (sl_meta s)); intros H; injection H as <- <- <- <-;
      (split; [auto|]; split; [auto|]; split; [intros; apply fr_refl|]; split; [|congruence || auto]).
    - discriminate.
    - intros _. split; [auto|]. split; [auto|]. left. destruct s as [sm sb sc]. destruct sc; cbn [sl_meta sl_buf]; auto. }
  destruct (kid_wrapped id) eqn:KW.
  { intros H; injection H as <- <- <- <-. split; [auto|]. split; [auto|]. split; [intros; apply fr_refl|]. split; [discriminate|auto]. }
  destruct (sp_find (k_st S) id) as [[m1 d1]|] eqn:NV.
  - pose proof (find_id _ _ _ NV) as MI. cbn [fst] in MI.
    destruct (cap <? m_len m1).
    { intros H; injection H as <- <- <- <-. split; [auto|]. split; [auto|]. split; [intros; apply fr_refl|]. split; [discriminate|auto]. }
    rewrite (read_whole _ _ _ _ (proj1 G) NZ NV). destruct (0 <? length d1)%nat eqn:LD.
    2:{ change (is_ok BADARGS) with false. cbn [negb]. intros H; injection H as <- <- <- <-. split; [auto|]. split; [auto|]. split; [intros; apply fr_refl|]. split; [discriminate|auto]. }
    change (is_ok OK) with true. cbn [negb].
    destruct (N.eqb (kid_type (m_id m1)) KT_SHE && kid_erased (m_id m1)).
    { intros H; injection H as <- <- <- <-. split; [auto|]. split; [auto|]. split; [intros; apply fr_refl|]. split; [|congruence].
      intros _. split; [auto|]. split; [auto|]. right. left. auto. }
    destruct (cache_key C false S m1 d1) as [rc1 S1] eqn:E. intros H; injection H as <- <- <- <-.
    destruct (cache_key_eff _ _ _ _ _ _ W E) as ((W1 & T1 & K1 & F1 & O1) & _). rewrite MI in *.
    assert (X : wf (if is_ok rc1 then set_ctx C S1 id (mark true id (get_ctx C S1 id)) else S1) /\
      k_st (if is_ok rc1 then set_ctx C S1 id (mark true id (get_ctx C S1 id)) else S1) = k_st S /\
      forall j, j <> 0 -> fr S (if is_ok rc1 then set_ctx C S1 id (mark true id (get_ctx C S1 id)) else S1) j).
    { destruct (is_ok rc1) eqn:OK1; [apply is_ok_iff in OK1|apply is_ok_false in OK1].
      - destruct (K1 OK1) as [_ V]. destruct (mark_eff S1 id true W1 NZ) as (A & B & D & X).
        split; [auto|]. split; [congruence|]. intros j NJ. destruct (N.eq_dec j id) as [->|NE].
        + split; [rewrite B, T1; auto|]. right. rewrite F. split; [discriminate|]. right. exists m1, d1. split; auto.
          rewrite D, V. reflexivity.
        + apply fr_drop; [rewrite B, T1; auto|]. rewrite X by auto. auto.
      - split; [auto|]. split; [auto|]. intros j NJ. destruct (N.eq_dec j id) as [->|NE]; [|apply (fr_set S S1 id); auto].
        destruct (F1 OK1) as [->|[_ V]]; [apply fr_refl|]. split; [rewrite T1; auto|]. left. congruence. }
    destruct X as (A & B & D). split; [auto|]. split; [auto|]. split; [auto|]. split; [|congruence].
    intros _. split; [auto|]. split; [auto|]. right. left. auto.
  - destruct (have_she C && N.eqb (kid_type id) KT_SHE && N.eqb (kid_id id) SHE_MASTER_ECU) eqn:SH;
      intros H; injection H as <- <- <- <-; (split; [auto|]; split; [auto|]; split; [intros; apply fr_refl|]; split; [|auto || congruence]).
    + intros _. split; [auto|]. split; [auto|]. right. right. split; [auto|]. split; [auto|].
      apply Bool.andb_true_iff in SH as [SH S3]. apply Bool.andb_true_iff in SH as [S1 S2].
      apply N.eqb_eq in S2, S3. unfold she_zero. auto.
    + discriminate.
Qed.

Lemma read_checked_eff S id cap rc S' m d : wf S -> good S -> read_key_checked C S id cap = (rc, S', m, d) ->
  wf S' /\ k_st S' = k_st S /\ (forall j, j <> 0 -> fr S S' j) /\
  (rc = OK -> check_ks C OpExport S id = OK /\
     ((vw S id = Some (mkSlot m d true) \/ vw S id = Some (mkSlot m d false)) \/
      (vw S id = None /\ kid_wrapped id = false /\ nv S id = Some (m, d)))) /\
  (rc <> OK -> d = []).
Proof.
  intros W G. unfold read_key_checked. destruct (is_ok (check_ks C OpExport S id)) eqn:P.
  - intros H. destruct (read_key_eff _ _ _ _ _ _ _ W G H) as (A & B & D & E & F).
    split; [auto|]. split; [auto|]. split; [auto|]. split; [|auto]. intros O. apply is_ok_iff in P. split; auto.
    destruct (E O) as (_ & _ & [X|[X|(X & Y & _)]]); auto. exfalso.
    revert P. unfold check_ks. destruct (kid_unassigned id); [discriminate|]. destruct (hwkey C id); [discriminate|].
    rewrite X. unfold nv_meta. rewrite Y. discriminate.
  - intros H; injection H as <- <- <- <-. split; [auto|]. split; [auto|]. split; [intros; apply fr_refl|]. split; auto.
    intros E. apply is_ok_false in P. contradiction.
Qed.

Lemma read_enforce_eff S id u cap rc S' d : wf S -> good S -> read_key_enforce C S id u cap = (rc, S', d) ->
  wf S' /\ k_st S' = k_st S /\ (forall j, j <> 0 -> fr S S' j) /\
  (rc = OK -> exists m, enforce (m_flags m) u = OK /\
     ((vw S id = Some (mkSlot m d true) \/ vw S id = Some (mkSlot m d false)) \/
      (vw S id = None /\ kid_wrapped id = false /\ nv S id = Some (m, d)) \/
      (vw S id = None /\ nv S id = None /\ she_zero id m d))) /\
  (rc <> OK -> d = []).
Proof.
  intros W G. unfold read_key_enforce. destruct (read_key C S id cap) as [[[rc1 S1] m] d1] eqn:R.
  destruct (read_key_eff _ _ _ _ _ _ _ W G R) as (A & B & D & E & F).
  destruct (is_ok rc1) eqn:OK1; cbn [negb]; [apply is_ok_iff in OK1|apply is_ok_false in OK1].
  - destruct (is_ok (enforce (m_flags m) u)) eqn:EN; intros H; injection H as <- <- <-; (split; [auto|]; split; [auto|]; split; [auto|]; split).
    + intros _. apply is_ok_iff in EN. exists m. split; auto. apply E in OK1. tauto.
    + congruence.
    + intros O. apply is_ok_false in EN. contradiction.
    + auto.
  - intros H; injection H as <- <- <-. split; [auto|]. split; [auto|]. split; [auto|]. split; [congruence|auto].
Qed.

(** A key just freshened is in the cache. *)
Lemma freshen_found S id S' : wf S -> good S -> freshen C S id = (OK, S') -> exists s, vw S' id = Some s /\
  (vw S id = Some s \/ (vw S id = None /\ kid_wrapped id = false /\ exists m d, nv S id = Some (m, d) /\ s = mkSlot m d true)).
Proof.
  intros W G H. destruct (freshen_eff _ _ _ _ W G H) as (_ & _ & _ & K & _).
  destruct (K eq_refl) as (_ & _ & [(s & V & ->)|(V & KW & m & d & N1 & _ & V')]).
  - exists s. auto.
  - eexists. split; [exact V'|]. right. split; auto. split; auto. eauto.
Qed.

Lemma use_key_eff S id u rc S' d : wf S -> good S -> use_key C S id u = (rc, S', d) ->
  wf S' /\ k_st S' = k_st S /\ (forall j, j <> 0 -> fr S S' j) /\
  (rc = OK -> exists m, enforce (m_flags m) u = OK /\
     ((vw S id = Some (mkSlot m d true) \/ vw S id = Some (mkSlot m d false)) \/
      (vw S id = None /\ kid_wrapped id = false /\ nv S id = Some (m, d)))) /\
  (rc <> OK -> d = []).
Proof.
  intros W G. unfold use_key. destruct (kid_erased id) eqn:U.
  { intros H; injection H as <- <- <-. split; [auto|]. split; [auto|]. split; [intros; apply fr_refl|]. split; [discriminate|auto]. }
  destruct (freshen C S id) as [rc1 S1] eqn:F. destruct (freshen_eff _ _ _ _ W G F) as (A & B & D & _ & _).
  destruct (is_ok rc1) eqn:OK1; cbn [negb]; [apply is_ok_iff in OK1; subst rc1|apply is_ok_false in OK1].
  - destruct (freshen_found _ _ _ W G F) as (s & V & X). rewrite V.
    destruct (is_ok (enforce (m_flags (sl_meta s)) u)) eqn:EN; intros H; injection H as <- <- <-; (split; [auto|]; split; [auto|]; split; [auto|]; split).
    + intros _. exists (sl_meta s). apply is_ok_iff in EN. split; auto.
      destruct X as [X|(X & KW & m & d & N1 & ->)]; [left|right; auto]. destruct s as [sm sb sc]. cbn [sl_meta sl_buf]. destruct sc; auto.
    + congruence.
    + intros O. apply is_ok_false in EN. contradiction.
    + auto.
  - intros H; injection H as <- <- <-. split; [auto|]. split; [auto|]. split; [auto|]. split; [congruence|auto].
Qed.

(** ** Fresh ids *)
Lemma unique_from_ok ty u S ctx : forall n rc k, unique_from n ty u S ctx = (rc, k) -> rc = OK ->
  exists i, (0 < i <= n)%nat /\ k = mk_keyid ty u (N.of_nat i) /\ cfind ctx k = None /\ nv S k = None.
Proof.
  induction n as [|n IH]; intros rc k; cbn [unique_from]; [intros H; injection H as <- <-; discriminate|].
  destruct (cfind ctx _) eqn:F.
  - intros H O. destruct (IH _ _ H O) as (i & L & R). exists i. split; [lia|auto].
  - destruct (sp_find _ _) eqn:G.
    + intros H O. destruct (IH _ _ H O) as (i & L & R). exists i. split; [lia|auto].
    + intros H _. injection H as <- <-. exists (Datatypes.S n). split; [lia|]. auto.
Qed.
Lemma unique_from_fail ty u S ctx : forall n rc k, unique_from n ty u S ctx = (rc, k) -> rc <> OK ->
  rc = NOSPACE /\ forall i, (0 < i <= n)%nat -> cfind ctx (mk_keyid ty u (N.of_nat i)) <> None \/ nv S (mk_keyid ty u (N.of_nat i)) <> None.
Proof.
  induction n as [|n IH]; intros rc k; cbn [unique_from].
  { intros H; injection H as <- <-. intros _. split; auto. intros; lia. }
  destruct (cfind ctx _) eqn:F.
  - intros H O. destruct (IH _ _ H O) as (E & R). split; auto. intros i L.
    destruct (Nat.eq_dec i (Datatypes.S n)) as [->|]; [left; congruence|]. apply R. lia.
  - destruct (sp_find _ _) eqn:G.
    + intros H O. destruct (IH _ _ H O) as (E & R). split; auto. intros i L.
      destruct (Nat.eq_dec i (Datatypes.S n)) as [->|]; [right; congruence|]. apply R. lia.
    + intros H O. injection H as <- <-. congruence.
Qed.

Lemma kid_type_lt k : kid_type k < 16.
Proof. rewrite type_arith. apply N.mod_lt. discriminate. Qed.
Lemma kid_user_lt k : kid_user k < 16.
Proof. rewrite user_arith. apply N.mod_lt. discriminate. Qed.
Lemma mk_global ty u i : u < 16 -> is_global C (mk_keyid ty u i) = k_global (kc C) && N.eqb u 0.
Proof. intros H. unfold is_global. rewrite mk_user by auto. reflexivity. Qed.

Lemma unique_id_ok S k0 k : unique_id C S k0 = (OK, k) ->
  exists i, (0 < i <= 255)%nat /\ k = mk_keyid (kid_type k0) (kid_user k0) (N.of_nat i) /\
  kid_wrapped k0 = false /\ hwkey C k0 = false /\ vw S k = None /\ nv S k = None.
Proof.
  unfold unique_id. destruct (kid_wrapped k0); [discriminate|]. destruct (hwkey C k0); [discriminate|].
  intros H. destruct (unique_from_ok _ _ _ _ _ _ _ H eq_refl) as (i & L & E & F & G). exists i.
  split; [auto|]. split; [auto|]. split; [auto|]. split; [auto|]. split; [|auto].
  unfold find_cache. replace (get_ctx C S k) with (get_ctx C S k0); auto.
  unfold get_ctx. rewrite E, mk_global by apply kid_user_lt. reflexivity.
Qed.

(** ** Random, DMA and generated keys *)
Lemma put_eff S m sz ret d z rc1 S1 rc2 S2 :
  wf S -> m_id m <> 0 -> sl_id z = 0 ->
  cache_slot_checked C S (m_id m) sz (if is_ok ret then mkSlot m d false else z) = (rc1, S1) ->
  (if negb (is_ok rc1) then (rc1, S1) else
   if negb (is_ok ret) then (ret, S1)
   else (OK, set_ctx C S1 (m_id m) (mark false (m_id m) (get_ctx C S1 (m_id m))))) = (rc2, S2) ->
  slot_kept true S S2 (m_id m) rc2 (mkSlot m d false).
Proof.
  intros W NZ Z E. set (s := if is_ok ret then mkSlot m d false else z) in *.
  assert (IDS : sl_id s = m_id m \/ sl_id s = 0) by (unfold s; destruct (is_ok ret); auto).
  destruct (cache_slot_checked_eff _ _ _ s _ _ W NZ IDS E) as (A & B & D & D' & F).
  destruct (is_ok rc1) eqn:OK1; cbn [negb]; [apply is_ok_iff in OK1|apply is_ok_false in OK1].
  - destruct (D OK1) as [P V]. unfold s in V, IDS |- *. destruct (is_ok ret) eqn:R; cbn [negb]; intros H; injection H as <- <-.
    + change (sl_id (mkSlot m d false)) with (m_id m) in V. rewrite N.eqb_refl in V.
      destruct (mark_eff S1 (m_id m) false A NZ) as (A1 & B1 & D1 & F1).
      split; [auto|]. split; [congruence|]. split; [|split; [congruence|]].
      * intros _. split; auto. rewrite D1, V. reflexivity.
      * intros j NJ NE. rewrite F1 by auto. auto.
    + apply is_ok_false in R. rewrite Z in V. destruct (N.eqb_spec 0 (m_id m)); [congruence|].
      split; [auto|]. split; [auto|]. split; [congruence|]. split; [|auto]. intros _. right. auto.
  - intros H; injection H as <- <-. split; [auto|]. split; [auto|]. split; [congruence|]. split; [|auto].
    intros _. destruct (D' OK1) as [X|(_ & X & Y)]; auto.
Qed.
Lemma kept_refl chk S id rc s : wf S -> rc <> OK -> slot_kept chk S S id rc s.
Proof. intros W H. split; [auto|]. split; [auto|]. split; [contradiction|]. split; auto. Qed.
Lemma cache_random_eff S m rng d rc S' : wf S -> cache_random C S m rng d = (rc, S') ->
  slot_kept true S S' (m_id m) rc (mkSlot m d false) /\ (rc = OK -> rng = OK /\ kid_erased (m_id m) = false).
Proof.
  intros W. unfold cache_random. destruct (_ || _ || _) eqn:G.
  { intros H; injection H as <- <-. split; [apply kept_refl; auto; discriminate|discriminate]. }
  apply Bool.orb_false_iff in G as [G _]. apply Bool.orb_false_iff in G as [_ G].
  destruct (cache_slot_checked C S (m_id m) (m_len m) _) as [rc1 S1] eqn:E. intros H. split.
  - exact (put_eff S m _ rng d slot_zero rc1 S1 rc S' W (erased_nz _ G) eq_refl E H).
  - intros O. split; auto. destruct (is_ok rc1) eqn:O1; cbn [negb] in H; [|injection H as <- <-; apply is_ok_false in O1; contradiction].
    destruct (is_ok rng) eqn:R; [apply is_ok_iff; auto|]. cbn [negb] in H. injection H as <- <-. apply is_ok_false in R. contradiction.
Qed.
Lemma cache_dma_eff S m dma d rc S' : wf S -> m_id m <> 0 -> cache_dma C S m dma d = (rc, S') ->
  slot_kept true S S' (m_id m) rc (mkSlot m d false) /\ (rc = OK -> dma = OK /\ (have_st C = true -> stateful_blob d = false)).
Proof.
  intros W NZ. unfold cache_dma. set (ret := if negb (is_ok dma) then dma else if have_st C && stateful_blob d then ACCESS else OK).
  destruct (cache_slot_checked C S (m_id m) (m_len m) _) as [rc1 S1] eqn:E. intros H. split.
  - exact (put_eff S m _ ret d (mkSlot (with_id m 0) (repeat 0 (N.to_nat (m_len m))) false) rc1 S1 rc S' W NZ eq_refl E H).
  - intros O. destruct (is_ok rc1) eqn:O1; cbn [negb] in H; [|injection H as <- <-; apply is_ok_false in O1; contradiction].
    destruct (is_ok ret) eqn:R; cbn [negb] in H; [|injection H as <- <-; apply is_ok_false in R; contradiction].
    unfold ret in R. destruct (is_ok dma) eqn:DM; cbn [negb] in R; [|congruence]. apply is_ok_iff in DM. split; auto.
    intros HS. rewrite HS in R. destruct (stateful_blob d); cbn [andb] in R; [discriminate|auto].
Qed.
Lemma import_key_eff S m sz imp d rc S' : wf S -> import_key C S m sz imp d = (rc, S') ->
  slot_kept true S S' (m_id m) rc (mkSlot m d false) /\ (rc = OK -> imp = OK /\ kid_erased (m_id m) = false).
Proof.
  intros W. unfold import_key. destruct (kid_erased (m_id m)) eqn:G.
  { intros H; injection H as <- <-. split; [apply kept_refl; auto; discriminate|discriminate]. }
  pose proof (erased_nz _ G) as NZ. set (s := if is_ok imp then mkSlot m d false else slot_zero).
  destruct (cache_slot_checked C S (m_id m) sz s) as [rc1 S1] eqn:E.
  assert (IDS : sl_id s = m_id m \/ sl_id s = 0) by (unfold s; destruct (is_ok imp); auto).
  destruct (cache_slot_checked_eff _ _ _ s _ _ W NZ IDS E) as (A & B & D & D' & F).
  destruct (is_ok rc1) eqn:OK1; cbn [negb]; intros H; injection H as <- <-; [apply is_ok_iff in OK1|apply is_ok_false in OK1].
  - destruct (D OK1) as [P V]. unfold s in V. split.
    + split; [auto|]. split; [auto|]. split; [|split; [|auto]].
      * intros ->. split; auto. change (is_ok OK) with true in V.
        change (sl_id (mkSlot m d false)) with (m_id m) in V. rewrite N.eqb_refl in V. exact V.
      * intros R. apply is_ok_false in R. rewrite R in V. right. split; auto.
        change (sl_id slot_zero) with 0 in V. destruct (N.eqb_spec 0 (m_id m)); congruence.
    + auto.
  - split; [|congruence]. split; [auto|]. split; [auto|]. split; [congruence|]. split; [|auto].
    intros _. destruct (D' OK1) as [X|(_ & X & Y)]; auto.
Qed.

(** ** Commit, erase, revoke *)
Lemma with_len_same m n : m_len m = n -> with_len m n = m.
Proof. intros <-. destruct m; reflexivity. Qed.

Lemma commit_eff r S id rc S' : wf S -> good S -> commit_key C r S id = (rc, S') ->
  wf S' /\ (rc <> OK -> S' = S) /\
  (rc = OK -> kid_unassigned id = false /\ kid_wrapped id = false /\ hwkey C id = false /\ r = OK /\
     exists s, vw S id = Some s /\ nv S' id = Some (sl_meta s, sl_buf s) /\ vw S' id = Some (mkSlot (sl_meta s) (sl_buf s) true)) /\
  (forall j, j <> 0 -> j <> id -> nv S' j = nv S j /\ vw S' j = vw S j).
Proof.
  intros W G. unfold commit_key. destruct (kid_unassigned id) eqn:U.
  { intros H; injection H as <- <-. split; [auto|]. split; [auto|]. split; [discriminate|auto]. }
  destruct (kid_wrapped id) eqn:KW.
  { intros H; injection H as <- <-. split; [auto|]. split; [auto|]. split; [discriminate|auto]. }
  destruct (hwkey C id) eqn:HW.
  { intros H; injection H as <- <-. split; [auto|]. split; [auto|]. split; [discriminate|auto]. }
  pose proof (assigned_nz _ U) as NZ. destruct (vw S id) as [s|] eqn:F.
  2:{ intros H; injection H as <- <-. split; [auto|]. split; [auto|]. split; [discriminate|auto]. }
  destruct (nv_add r (sl_meta s) (sl_buf s) (k_st S)) as [rc1 st] eqn:A.
  pose proof (nv_add_rc r (sl_meta s) (sl_buf s) (k_st S)) as R. rewrite A in R. cbn [fst] in R. subst rc1.
  destruct (is_ok r) eqn:O; intros H; injection H as <- <-; [apply is_ok_iff in O|apply is_ok_false in O].
  - assert (MI : m_id (sl_meta s) = id) by exact (vw_id _ _ _ F).
    destruct (mark_eff (set_st S st) id true W NZ) as (A1 & B1 & D1 & F1).
    rewrite get_set_st in A1, B1, D1, F1. rewrite vw_set_st, F in D1. cbn [option_map] in D1.
    assert (NF : forall j, sp_find st j = if N.eqb j id then Some (sl_meta s, sl_buf s) else nv S j).
    { intros j. rewrite (nv_add_find _ _ _ _ _ _ j A), O, MI. change (is_ok OK) with true. cbn [andb].
      rewrite with_len_same; auto. apply (proj2 G id s NZ F). }
    split; [exact A1|]. split; [congruence|]. split.
    + intros _. split; [auto|]. split; [auto|]. split; [auto|]. split; [auto|]. exists s.
      split; [auto|]. split; [|exact D1]. rewrite B1. cbn [k_st set_st]. rewrite NF, N.eqb_refl. reflexivity.
    + intros j NJ NE. split; [|rewrite F1 by auto; reflexivity]. rewrite B1. cbn [k_st set_st]. rewrite NF.
      destruct (N.eqb_spec j id); congruence.
  - split; [auto|]. split; [auto|]. split; [congruence|auto].
Qed.

(** Current metadata of a key: the cached copy, else the stored one. *)
Definition cur (n : option object) (o : option slot) : option meta :=
  match o with Some s => Some (sl_meta s) | None => option_map fst n end.
Definition curm (S : ks) (id : N) : option meta := cur (nv S id) (vw S id).
Lemma check_cases op S id : kid_unassigned id = false -> hwkey C id = false ->
  check_ks C op S id =
  match curm S id with
  | None => NOTFOUND
  | Some m => let fl := m_flags m in if has fl F_TRUSTED then ACCESS else
      match op with
      | OpCache => if has fl F_NONMODIFIABLE then ACCESS else OK
      | OpEvict => if committed C S id then OK
                   else if has fl (N.lor F_NONMODIFIABLE F_NONDESTROYABLE) then ACCESS else OK
      | OpExport => if has fl F_NONEXPORTABLE then ACCESS else OK
      | OpExportPublic | OpCommit | OpRevoke => OK
      end
  end.
Proof.
  intros U H. unfold check_ks, curm, cur. rewrite U, H. destruct (vw S id) as [s|].
  - change (is_ok OK) with true. reflexivity.
  - rewrite nv_meta_find. destruct (sp_find (k_st S) id) as [[m d]|]; reflexivity.
Qed.
Lemma check_assigned op S id : check_ks C op S id = OK \/ check_ks C op S id = NOTFOUND ->
  kid_unassigned id = false /\ hwkey C id = false.
Proof.
  unfold check_ks. destruct (kid_unassigned id); [intros [H|H]; discriminate|].
  destruct (hwkey C id); [intros [H|H]; discriminate|]. auto.
Qed.

Definition writable (o : option meta) : Prop :=
  forall m, o = Some m -> has (m_flags m) F_TRUSTED = false /\ has (m_flags m) F_NONMODIFIABLE = false.
Lemma check_writable S id : fatal (check_ks C OpCache S id) = false -> writable (curm S id).
Proof.
  intros H m E. unfold fatal in H.
  assert (X : check_ks C OpCache S id = OK \/ check_ks C OpCache S id = NOTFOUND).
  { destruct (is_ok (check_ks C OpCache S id)) eqn:O; [left; apply is_ok_iff; auto|right].
    cbn [negb andb] in H. apply Bool.negb_false_iff in H. apply Z.eqb_eq in H. auto. }
  destruct (check_assigned _ _ _ X) as [U HW]. rewrite (check_cases _ _ _ U HW), E in X. cbv zeta in X.
  destruct (has (m_flags m) F_TRUSTED); [destruct X; discriminate|].
  destruct (has (m_flags m) F_NONMODIFIABLE); [destruct X; discriminate|]. auto.
Qed.
Definition evictable (o : option slot) : Prop := forall s, o = Some s ->
  has (m_flags (sl_meta s)) F_TRUSTED = false /\
  (sl_comm s = true \/ has (m_flags (sl_meta s)) (N.lor F_NONMODIFIABLE F_NONDESTROYABLE) = false).
Lemma check_evictable S id : check_ks C OpEvict S id = OK -> evictable (vw S id).
Proof.
  intros H s E. destruct (check_assigned _ _ _ (or_introl H)) as [U HW]. rewrite (check_cases _ _ _ U HW) in H.
  unfold curm, cur, committed in H. rewrite E in H. cbv zeta in H.
  destruct (has (m_flags (sl_meta s)) F_TRUSTED); [discriminate|]. split; auto.
  destruct (sl_comm s); auto. destruct (has _ (N.lor _ _)); [discriminate|]. auto.
Qed.

Lemma evict_checked_eff S id rc S' : wf S -> evict_checked C S id = (rc, S') ->
  wf S' /\ k_st S' = k_st S /\ (rc <> OK -> S' = S) /\
  (rc = OK -> kid_unassigned id = false /\ hwkey C id = false /\ evictable (vw S id) /\ vw S id <> None /\ vw S' id = None) /\
  (rc = NOTFOUND -> vw S id = None) /\
  forall j, j <> 0 -> j <> id -> vw S' j = vw S j.
Proof.
  intros W. unfold evict_checked. destruct (is_ok (check_ks C OpEvict S id)) eqn:O.
  - apply is_ok_iff in O. intros H. destruct (evict_key_eff _ _ _ _ W H) as (A & B & D & D' & _ & F).
    split; [auto|]. split; [auto|]. split; [auto|]. split; [|split; [|auto]].
    + intros E. destruct (D E) as (U & HW & V & V'). split; [auto|]. split; [auto|]. split; [apply check_evictable; auto|]. auto.
    + intros E. destruct (check_assigned _ _ _ (or_introl O)) as [U HW]. revert H. unfold evict_key. rewrite U, HW.
      destruct (vw S id); auto. intros H; injection H as <- _. discriminate.
  - intros H; injection H as <- <-. split; [auto|]. split; [auto|]. split; [auto|].
    split; [intros E; apply is_ok_false in O; contradiction|]. split; [|auto]. intros E.
    destruct (check_assigned _ _ _ (or_intror E)) as [U HW]. rewrite (check_cases _ _ _ U HW) in E.
    unfold curm, cur in E. destruct (vw S id); auto. cbv zeta in E. destruct (has _ F_TRUSTED); [discriminate|].
    destruct (committed C S id); [discriminate|]. destruct (has _ _); discriminate.
Qed.

Definition destroyable (n : option object) : Prop := forall m d, n = Some (m, d) ->
  has (m_flags m) F_TRUSTED = false /\ has (m_flags m) F_NONMODIFIABLE = false /\ has (m_flags m) F_NONDESTROYABLE = false.
Lemma erase_eff r S id rc S' : wf S -> erase_checked C r S id = (rc, S') ->
  wf S' /\
  (S' = S \/ (kid_unassigned id = false /\ kid_wrapped id = false /\ hwkey C id = false /\ evictable (vw S id) /\ vw S' id = None /\
     (nv S' id = nv S id \/ (destroyable (nv S id) /\ nv S' id = None)))) /\
  (rc = OK -> kid_wrapped id = false /\ nv S' id = None /\ vw S' id = None) /\
  (forall j, j <> 0 -> j <> id -> nv S' j = nv S j /\ vw S' j = vw S j).
Proof.
  intros W. unfold erase_checked. destruct (kid_unassigned id) eqn:U.
  { intros H; injection H as <- <-. split; [auto|]. split; [auto|]. split; [discriminate|auto]. }
  destruct (kid_wrapped id) eqn:KW.
  { intros H; injection H as <- <-. split; [auto|]. split; [auto|]. split; [discriminate|auto]. }
  destruct (hwkey C id) eqn:HW.
  { intros H; injection H as <- <-. split; [auto|]. split; [auto|]. split; [discriminate|auto]. }
  destruct (evict_checked C S id) as [rc1 S1] eqn:E. destruct (evict_checked_eff _ _ _ _ W E) as (A & B & D & F & G & I).
  destruct (fatal rc1) eqn:FT.
  { intros H; injection H as <- <-. assert (N1 : rc1 <> OK) by (intros ->; discriminate). rewrite (D N1).
    split; [auto|]. split; [auto|]. split; [congruence|auto]. }
  assert (V : vw S1 id = None /\ evictable (vw S id)).
  { destruct (is_ok rc1) eqn:O; [apply is_ok_iff in O; destruct (F O) as (_ & _ & X & _ & Y); auto|].
    unfold fatal in FT. rewrite O in FT. cbn [negb andb] in FT. apply Bool.negb_false_iff, Z.eqb_eq in FT.
    apply is_ok_false in O. rewrite (D O). rewrite (G FT). split; auto. intros s X. discriminate. }
  destruct V as [V EV]. destruct (destroy_checked r [id] (k_st S1)) as [rc2 st] eqn:DS. intros H; injection H as <- <-.
  rewrite B in DS. pose proof (destroy_change _ _ _ _ _ id DS) as CH.
  revert DS. unfold destroy_checked.
  destruct (is_ok (destroy_policy (k_st S) [id])) eqn:P; intros DS.
  - pose proof (fun j => nv_destroy_find _ _ _ _ _ j DS) as ND. cbn [existsb] in ND.
    split; [exact A|]. split; [|split].
    + right. split; [auto|]. split; [auto|]. split; [auto|]. split; [auto|]. split; [exact V|].
      destruct CH as [X|m d X _ _|X Y].
      * left. exact X.
      * left. cbn [k_st set_st]. rewrite X, ND in *. destruct (is_ok rc2 && (N.eqb id id || false)) eqn:Q; [discriminate|congruence].
      * right. split; [|exact X]. intros m d Z. destruct (Y m d Z) as (T1 & T2 & T3). auto.
    + intros ->. split; [auto|]. split; [|exact V]. cbn [k_st set_st]. rewrite ND, N.eqb_refl. reflexivity.
    + intros j NJ NE. split; [|exact (I j NJ NE)]. cbn [k_st set_st]. rewrite ND.
      destruct (N.eqb_spec j id); [congruence|]. cbn [orb]. rewrite Bool.andb_false_r. reflexivity.
  - injection DS as <- <-. split; [exact A|]. split; [|split].
    + right. split; [auto|]. split; [auto|]. split; [auto|]. split; [auto|]. split; [exact V|]. left. reflexivity.
    + intros E2. apply is_ok_false in P. contradiction.
    + intros j NJ NE. split; [reflexivity|exact (I j NJ NE)].
Qed.

(** The key as a request finds it: the cached copy, else the stored object. *)
Definition curs (n : option object) (o : option slot) : option slot :=
  match o with
  | Some s => Some s
  | None => match n with Some (m, d) => Some (mkSlot m d true) | None => None end
  end.
Definition revoked_meta (m : meta) : meta := with_flags m (revoke_flags (m_flags m)).

Lemma cupd_eff S id f : wf S -> id <> 0 -> (forall s, sl_id s = id -> sl_id (f s) = id) ->
  let S' := set_ctx C S id (cupd id f (get_ctx C S id)) in
  wf S' /\ k_st S' = k_st S /\ vw S' id = option_map f (vw S id) /\ forall j, j <> 0 -> j <> id -> vw S' j = vw S j.
Proof.
  intros W NZ HF S'. unfold S'. split; [apply wf_set; auto; apply cupd_wf; [apply wf_ctx; auto|]; intros s E; left; auto|].
  split; [apply st_set|]. split.
  - rewrite vw_set_same, cupd_find, N.eqb_refl; auto. apply wf_ctx; auto.
  - intros j NJ NE. symmetry. apply (vw_set_other S id _ eq); auto.
    rewrite cupd_find; auto; [|apply wf_ctx; auto]. destruct (N.eqb_spec j id); congruence.
Qed.

Lemma freshen_curs S id S' : wf S -> good S -> freshen C S id = (OK, S') ->
  vw S' id = curs (nv S id) (vw S id) /\ vw S' id <> None /\ (vw S id = None -> kid_wrapped id = false).
Proof.
  intros W G H. destruct (freshen_found _ _ _ W G H) as (s & V & X). rewrite V. unfold curs.
  destruct X as [->|(-> & KW & m & d & -> & ->)]; (split; [auto|]; split; [congruence|]); auto. discriminate.
Qed.

Lemma revoke_eff r S id rc S' : wf S -> good S -> revoke_key C r S id = (rc, S') ->
  wf S' /\
  (forall j, j <> 0 -> j <> id -> fr S S' j) /\
  (fr S S' id \/ exists s b, curs (nv S id) (vw S id) = Some s /\ has (m_flags (sl_meta s)) F_TRUSTED = false /\
     kid_unassigned id = false /\ hwkey C id = false /\
     vw S' id = Some (mkSlot (revoked_meta (sl_meta s)) (sl_buf s) b) /\
     ((nv S' id = nv S id /\ b = sl_comm s) \/
      (nv S id <> None /\ b = true /\ nv S' id = Some (revoked_meta (sl_meta s), sl_buf s)))) /\
  (rc = OK -> exists s, curs (nv S id) (vw S id) = Some s /\
     ((fr S S' id /\ is_revoked (m_flags (sl_meta s)) = true /\ sl_comm s = true) \/
      exists b, vw S' id = Some (mkSlot (revoked_meta (sl_meta s)) (sl_buf s) b) /\
        (nv S id = None -> nv S' id = None) /\ (nv S id <> None -> nv S' id = Some (revoked_meta (sl_meta s), sl_buf s)))).
Proof.
  intros W G. unfold revoke_key. destruct (kid_unassigned id) eqn:U.
  { intros H; injection H as <- <-. split; [auto|]. split; [intros; apply fr_refl|]. split; [left; apply fr_refl|discriminate]. }
  pose proof (assigned_nz _ U) as NZ.
  destruct (is_ok (check_ks C OpRevoke S id)) eqn:P; cbn [negb].
  2:{ intros H; injection H as <- <-. split; [auto|]. split; [intros; apply fr_refl|]. split; [left; apply fr_refl|].
      intros E. apply is_ok_false in P. contradiction. }
  apply is_ok_iff in P. destruct (check_assigned _ _ _ (or_introl P)) as [_ HW].
  destruct (freshen C S id) as [rc1 S1] eqn:F. destruct (freshen_eff _ _ _ _ W G F) as (W1 & T1 & FR & _ & _).
  destruct (is_ok rc1) eqn:O1; cbn [negb].
  2:{ intros H; injection H as <- <-. split; [auto|]. split; [auto|]. split; [auto|].
      intros E. apply is_ok_false in O1. contradiction. }
  apply is_ok_iff in O1. subst rc1. destruct (freshen_curs _ _ _ W G F) as (V & VN & _).
  destruct (vw S1 id) as [s|] eqn:V1; [|contradiction]. symmetry in V.
  assert (TR : has (m_flags (sl_meta s)) F_TRUSTED = false).
  { rewrite (check_cases _ _ _ U HW) in P. unfold curm, cur in P. unfold curs in V.
    destruct (vw S id) as [s0|].
    - injection V as ->. cbv zeta in P. destruct (has _ F_TRUSTED); [discriminate|auto].
    - destruct (sp_find (k_st S) id) as [[m d]|]; [|discriminate]. injection V as <-. cbn [option_map fst sl_meta] in *.
      cbv zeta in P. destruct (has _ F_TRUSTED); [discriminate|auto]. }
  destruct (is_revoked (m_flags (sl_meta s)) && sl_comm s) eqn:RV.
  { intros H; injection H as <- <-. split; [auto|]. split; [auto|]. split; [auto|].
    intros _. exists s. split; auto. left. apply Bool.andb_true_iff in RV. split; [apply FR; auto|auto]. }
  destruct (cupd_eff S1 id revoke_slot W1 NZ (fun s E => E)) as (W2 & T2 & V2 & O2). cbv zeta in *.
  set (S2 := set_ctx C S1 id (cupd id revoke_slot (get_ctx C S1 id))) in *.
  rewrite V1 in V2. cbn [option_map] in V2.
  change (revoke_slot s) with (mkSlot (revoked_meta (sl_meta s)) (sl_buf s) (sl_comm s)) in V2 |- *. cbn [sl_meta sl_buf].
  assert (FR2 : forall j, j <> 0 -> j <> id -> fr S S2 j).
  { intros j NJ NE. apply (fr_trans S S1 S2); auto. apply fr_drop; [rewrite T2; auto|]. left. auto. }
  assert (NS : k_st S2 = k_st S) by congruence.
  rewrite nv_meta_find. destruct (sp_find (k_st S) id) as [[m0 d0]|] eqn:NV; cbn [fst].
  - change (is_ok OK) with true. cbv iota.
    destruct (nv_add r (revoked_meta (sl_meta s)) (sl_buf s) (k_st S2)) as [rc2 st] eqn:A.
    assert (MI : m_id (revoked_meta (sl_meta s)) = id) by exact (vw_id _ _ _ V1).
    assert (GS : m_len (revoked_meta (sl_meta s)) = N.of_nat (length (sl_buf s))).
    { assert (G1 : good S1) by exact (fr_good _ _ G T1 FR). exact (proj2 G1 id s NZ V1). }
    destruct (is_ok rc2) eqn:O2'.
    + destruct (mark_eff (set_st S2 st) id true W2 NZ) as (W3 & T3 & V3 & O3). rewrite get_set_st in W3, T3, V3, O3.
      rewrite vw_set_st, V2 in V3. cbn [option_map sl_meta sl_buf] in V3. intros H; injection H as <- <-.
      set (S3 := set_ctx C (set_st S2 st) id (mark true id (get_ctx C S2 id))) in *.
      assert (NF : forall j, nv S3 j = if N.eqb j id then Some (revoked_meta (sl_meta s), sl_buf s) else nv S j).
      { intros j. rewrite T3. cbn [k_st set_st]. rewrite (nv_add_find _ _ _ _ _ _ j A), O2', MI. cbn [andb].
        rewrite with_len_same by auto. rewrite NS. reflexivity. }
      cbv beta in NF. split; [auto|]. split; [|split].
      * intros j NJ NE. apply (fr_trans S S2 S3); auto. apply fr_drop.
        -- rewrite NF, NS. destruct (N.eqb_spec j id); congruence.
        -- left. rewrite (O3 j NJ NE). reflexivity.
      * right. exists s, true. split; [auto|]. split; [auto|]. split; [auto|]. split; [auto|]. split; [auto|].
        right. split; [congruence|]. split; [auto|]. rewrite NF, N.eqb_refl. reflexivity.
      * intros _. exists s. split; [auto|]. right. exists true. split; [auto|]. split; [congruence|].
        intros _. rewrite NF, N.eqb_refl. reflexivity.
    + intros H; injection H as <- <-. split; [auto|]. split; [auto|]. split.
      * right. exists s, (sl_comm s). split; [auto|]. split; [auto|]. split; [auto|]. split; [auto|]. split; [auto|].
        left. rewrite NS. auto.
      * intros E. apply is_ok_false in O2'. contradiction.
  - change (is_ok NOTFOUND) with false. cbv iota. intros H; injection H as <- <-. split; [auto|]. split; [auto|]. split.
    + right. exists s, (sl_comm s). split; [auto|]. split; [auto|]. split; [auto|]. split; [auto|]. split; [auto|].
      left. rewrite NS. auto.
    + intros _. exists s. split; [auto|]. right. exists (sl_comm s). split; [auto|]. split; [rewrite NS; auto|congruence].
Qed.
End Eff.
