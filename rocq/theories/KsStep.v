(** What one key request changes, key by key. *)
From Verif Require Import Base BaseLemmas NvmSpec Flags KeyId Store NvmReqModel NvmReqProof KsModel KsCache KsReq KsEff.
Local Open Scope N_scope.

Section Step.
Variable C : kscfg.
Variable crypt : cop -> list N -> list N -> Z * list N.
Variable pub : N -> list N -> Z * list N.
Variable ots : list N -> list N -> option (list N * list N).
Variable gcm_enc : list N -> list N -> N -> list N -> option (list N).
Variable gcm_dec : list N -> list N -> N -> list N -> option (list N).
Variable she_count : list N -> N.
Notation vw := (find_cache C).
Notation nv := (fun S => sp_find (k_st S)).
Notation step := (ks_step C crypt pub ots gcm_enc gcm_dec she_count).
Notation fc := (from_client (kc C) KT_CRYPTO).

(** Requests that put a new key under the id they name (or under a fresh one). *)
Definition put_id (q : kreq) : option N :=
  match q with
  | KCache id _ _ _ | KCacheRandom id _ _ _ | KCacheDma id _ _ _ | KImport id _ _ _ | KSignGen id _ _ => Some id
  | _ => None
  end.
(** Requests that drop the cached copy without a check. *)
Definition drop_id (q : kreq) : option N :=
  match q with KCryptoEvict id | KSign id _ true => Some id | _ => None end.

(** The new key goes under the id named, or, when none is named, under an id of
    the same namespace that was free. *)
Definition addr (client id : N) (j : N) (n : option object) (o : option slot) : Prop :=
  (kid_unassigned (fc client id) = false /\ j = fc client id) \/
  (kid_erased (fc client id) = true /\ kid_wrapped (fc client id) = false /\ hwkey C (fc client id) = false /\
   n = None /\ o = None /\
   exists i, 0 < i <= 255 /\ j = mk_keyid (kid_type (fc client id)) (kid_user (fc client id)) i).

Inductive cell (client : N) (j : N) (n : option object) (o : option slot) (q : kreq) :
  option object -> option slot -> Prop :=
| x_same : cell client j n o q n o
| x_drop : not_unc o -> cell client j n o q n None
| x_load m d : not_unc o -> n = Some (m, d) -> cell client j n o q n (Some (mkSlot m d true))
| x_put id m d : put_id q = Some id -> addr client id j n o -> writable (cur n o) ->
    m_id m = j -> has (m_flags m) F_TRUSTED = false -> m_len m = N.of_nat (length d) ->
    cell client j n o q n (Some (mkSlot m d false))
| x_lost id : put_id q = Some id -> addr client id j n o -> writable (cur n o) -> cell client j n o q n None
| x_gen id fl lb m d : q = KSignGen id fl lb -> addr client id j n o -> writable (cur n o) ->
    m_id m = j -> has (m_flags m) F_TRUSTED = false -> has (m_flags m) F_NONEXPORTABLE = true ->
    m_len m = N.of_nat (length d) ->
    cell client j n o q (Some (m, d)) (Some (mkSlot m d true))
| x_evict id : q = KEvict id \/ q = KErase id -> j = fc client id -> evictable o -> cell client j n o q n None
| x_cevict id : drop_id q = Some id -> j = fc client id -> cell client j n o q n None
| x_erase id : q = KErase id -> j = fc client id -> evictable o -> destroyable n -> cell client j n o q None None
| x_commit id s : q = KCommit id -> j = fc client id -> o = Some s -> has (m_flags (sl_meta s)) F_TRUSTED = false ->
    kid_wrapped j = false ->
    cell client j n o q (Some (sl_meta s, sl_buf s)) (Some (mkSlot (sl_meta s) (sl_buf s) true))
| x_revoke id s : q = KRevoke id -> j = fc client id -> curs n o = Some s -> has (m_flags (sl_meta s)) F_TRUSTED = false ->
    cell client j n o q n (Some (mkSlot (revoked_meta (sl_meta s)) (sl_buf s) (sl_comm s)))
| x_revoken id s : q = KRevoke id -> j = fc client id -> curs n o = Some s -> has (m_flags (sl_meta s)) F_TRUSTED = false ->
    n <> None ->
    cell client j n o q (Some (revoked_meta (sl_meta s), sl_buf s)) (Some (mkSlot (revoked_meta (sl_meta s)) (sl_buf s) true))
| x_sign id msg ev s nb sg n' o' : q = KSign id msg ev -> j = fc client id -> curs n o = Some s ->
    ots (sl_buf s) msg = Some (sg, nb) ->
    (n' = n \/ n' = Some (with_len (sl_meta s) (N.of_nat (length nb)), nb)) ->
    (o' = None /\ ev = true \/ o' = Some (mkSlot (with_len (sl_meta s) (N.of_nat (length nb))) nb (sl_comm s))) ->
    cell client j n o q n' o'
| x_unwrap kek b m d : q = KUnwrapCache kek b -> not_unc o -> m_id m = j -> has (m_flags m) F_TRUSTED = false ->
    m_len m = N.of_nat (length d) ->
    kid_wrapped j = true \/ (have_she C = true /\ kid_type j = KT_SHE) ->
    kid_user j = client \/ kid_user j = 0 ->
    cell client j n o q n (Some (mkSlot m d false)).

Definition cells client q (S S' : ks) : Prop := wf S' /\ forall j, j <> 0 -> cell client j (nv S j) (vw S j) q (nv S' j) (vw S' j).

Lemma cell_fr client q S S' j : fr C S S' j -> cell client j (nv S j) (vw S j) q (nv S' j) (vw S' j).
Proof.
  intros [N1 [V|[U [V|(m & d & E & V)]]]]; cbv beta in *; rewrite N1, V.
  - apply x_same.
  - apply x_drop; auto.
  - apply x_load; auto.
Qed.
Lemma cells_fr client q S S' : wf S' -> (forall j, j <> 0 -> fr C S S' j) -> cells client q S S'.
Proof. intros W H. split; auto. intros j NJ. apply cell_fr; auto. Qed.
Lemma cells_refl client q S : wf S -> cells client q S S.
Proof. intros W. apply cells_fr; auto. intros. apply fr_refl. Qed.

Lemma exactly_length n l : length (exactly n l) = n.
Proof. unfold exactly. rewrite firstn_length, app_length, repeat_length. lia. Qed.

Lemma fc_lt client id : fc client id < 65536.
Proof. unfold from_client. apply mk_lt. Qed.
Lemma kid_parts k : k < 65536 -> k = mk_keyid (kid_type k) (kid_user k) (kid_id k).
Proof.
  intros H. rewrite mk_arith, type_arith, user_arith, id_arith, !N.mod_mod by discriminate.
  assert (k / 4096 < 16) by (apply N.div_lt_upper_bound; lia). rewrite (N.mod_small (k / 4096)) by auto.
  replace (k / 4096) with (k / 256 / 16) by (rewrite N.div_div by discriminate; reflexivity).
  pose proof (N.div_mod k 256 ltac:(discriminate)). pose proof (N.div_mod (k / 256) 16 ltac:(discriminate)). lia.
Qed.

(** The id a cache request works on. *)
Lemma pick_addr need S client id rc k : (need = true -> kid_erased (fc client id) = true) ->
  (need = false -> kid_unassigned (fc client id) = false) ->
  pick_id C need S (fc client id) = (rc, k) -> rc = OK ->
  k <> 0 /\ addr client id k (nv S k) (vw S k).
Proof.
  intros H1 H2 P O. subst rc. unfold pick_id in P. destruct need.
  - destruct (unique_id_ok _ _ _ _ P) as (i & L & E & KW & HW & V & N1). split.
    + rewrite E. intros Z. pose proof (f_equal kid_id Z) as Z'. rewrite mk_id in Z'. change (kid_id 0) with 0 in Z'.
      rewrite N.mod_small in Z' by lia. lia.
    + right. split; [auto|]. split; [auto|]. split; [auto|]. split; [auto|]. split; [auto|]. exists (N.of_nat i). split; [lia|auto].
  - injection P as <-. split; [apply assigned_nz; auto|]. left. auto.
Qed.
Lemma unassigned_is_erased k : kid_unassigned k = true -> kid_erased k = true.
Proof. unfold kid_unassigned. intros H. apply Bool.andb_true_iff in H. tauto. Qed.

(** A slot filled under a check. *)
Lemma kept_cells client q id S S' k rc m d :
  put_id q = Some id -> k <> 0 -> addr client id k (nv S k) (vw S k) -> m_id m = k ->
  has (m_flags m) F_TRUSTED = false -> m_len m = N.of_nat (length d) ->
  slot_kept C true S S' k rc (mkSlot m d false) -> cells client q S S'.
Proof.
  intros PQ NZ AD MI TR ML (W & T & K & F & O). split; [auto|]. intros j NJ. destruct (N.eq_dec j k) as [->|NE].
  - rewrite T. destruct (is_ok rc) eqn:R; [apply is_ok_iff in R|apply is_ok_false in R].
    + destruct (K R) as [P V]. rewrite V. apply (x_put client k _ _ q id m d); auto.
      apply (check_writable C S k (P eq_refl)).
    + destruct (F R) as [->|[P V]]; [apply x_same|]. rewrite V. apply (x_lost client k _ _ q id); auto.
      apply (check_writable C S k (P eq_refl)).
  - apply cell_fr. apply fr_drop; [rewrite T; auto|]. apply O; auto.
Qed.

Lemma req_meta_trusted id fl n lb : has (m_flags (req_meta id fl n lb)) F_TRUSTED = false.
Proof. cbn [req_meta m_flags]. apply has_clear_self. Qed.

Lemma cells_cache client id fl lb d S r S' : wf S -> h_cache C client id fl lb d S = (r, S') ->
  cells client (KCache id fl lb d) S S'.
Proof.
  intros W. unfold h_cache. destruct (pick_id C _ S (fc client id)) as [rc k] eqn:P.
  destruct (is_ok rc) eqn:O; cbn [negb].
  2:{ intros H; injection H as <- <-. apply cells_refl; auto. }
  apply is_ok_iff in O. destruct (pick_addr _ _ _ _ _ _ (unassigned_is_erased (fc client id)) (fun x => x) P O) as [NZ AD].
  destruct (cache_key C true S _ d) as [rc1 S1] eqn:E. intros H; injection H as _ <-.
  destruct (cache_key_eff _ _ _ _ _ _ _ W E) as [K _].
  apply (kept_cells client _ id S S1 k rc1 (req_meta k fl (N.of_nat (length d)) lb) d); auto. apply req_meta_trusted.
Qed.

Lemma cells_random e client id fl len lb S r S' : wf S -> h_cache_random C e client id fl len lb S = (r, S') ->
  cells client (KCacheRandom id fl len lb) S S'.
Proof.
  intros W. unfold h_cache_random. destruct (pick_id C _ S (fc client id)) as [rc k] eqn:P.
  destruct (is_ok rc) eqn:O; cbn [negb].
  2:{ intros H; injection H as <- <-. apply cells_refl; auto. }
  apply is_ok_iff in O. destruct (pick_addr _ _ _ _ _ _ (fun x => x) (unassigned_erased _) P O) as [NZ AD].
  destruct (cache_random C S _ (v_rng e) _) as [rc1 S1] eqn:E. intros H; injection H as _ <-.
  destruct (cache_random_eff _ _ _ _ _ _ _ W E) as [K _].
  apply (kept_cells client _ id S S1 k rc1 (req_meta k fl len lb) (exactly (N.to_nat len) (v_rngd e))); auto.
  - apply req_meta_trusted.
  - cbn [req_meta m_len]. rewrite exactly_length. lia.
Qed.

Lemma cells_dma e client id fl sz lb S r S' : wf S -> h_cache_dma C e client id fl sz lb S = (r, S') ->
  cells client (KCacheDma id fl sz lb) S S'.
Proof.
  intros W. unfold h_cache_dma. destruct (pick_id C _ S (fc client id)) as [rc k] eqn:P.
  destruct (is_ok rc) eqn:O; cbn [negb].
  2:{ intros H; injection H as <- <-. apply cells_refl; auto. }
  apply is_ok_iff in O. destruct (pick_addr _ _ _ _ _ _ (unassigned_is_erased (fc client id)) (fun x => x) P O) as [NZ AD].
  cbv zeta. set (len := N.land sz 65535).
  destruct (cache_dma C S _ (v_dma e) _) as [rc1 S1] eqn:E. intros H; injection H as _ <-.
  destruct (cache_dma_eff C S (req_meta k fl len lb) _ _ _ _ W NZ E) as [K _].
  apply (kept_cells client _ id S S1 k rc1 (req_meta k fl len lb) (exactly (N.to_nat len) (v_mem e))); auto.
  - apply req_meta_trusted.
  - cbn [req_meta m_len]. rewrite exactly_length. lia.
Qed.

Lemma cells_import e client id fl lb sz S r S' : wf S -> h_import C e client id fl lb sz S = (r, S') ->
  cells client (KImport id fl lb sz) S S'.
Proof.
  intros W. unfold h_import. destruct (pick_id C _ S (fc client id)) as [rc k] eqn:P.
  destruct (is_ok rc) eqn:O; cbn [negb].
  2:{ intros H; injection H as <- <-. apply cells_refl; auto. }
  apply is_ok_iff in O. destruct (pick_addr _ _ _ _ _ _ (fun x => x) (unassigned_erased _) P O) as [NZ AD].
  cbv zeta. destruct (import_key C S _ sz (v_rng e) _) as [rc1 S1] eqn:E. intros H; injection H as _ <-.
  destruct (import_key_eff _ _ _ _ _ _ _ _ W E) as [K _].
  apply (kept_cells client _ id S S1 k rc1 (req_meta k fl (N.of_nat (length (v_rngd e))) lb) (v_rngd e)); auto. apply req_meta_trusted.
Qed.

Lemma put_good S S' k rc m d : good C S -> m_len m = N.of_nat (length d) -> k <> 0 ->
  slot_kept C true S S' k rc (mkSlot m d false) -> good C S'.
Proof.
  intros G ML NZ (W & T & K & F & O). apply (good_same C S S' G T). intros j s NJ V. destruct (N.eq_dec j k) as [->|NE].
  - destruct (is_ok rc) eqn:R; [apply is_ok_iff in R|apply is_ok_false in R].
    + destruct (K R) as [_ V']. right. rewrite V in V'. injection V' as ->. exact ML.
    + destruct (F R) as [->|[_ V']]; [auto|congruence].
  - destruct (O j NJ NE) as [E|[E _]]; [left; congruence|congruence].
Qed.

Lemma sgen_trusted id fl n lb : has (setf (m_flags (req_meta id fl n lb)) F_NONEXPORTABLE) F_TRUSTED = false.
Proof.
  pose proof (req_meta_trusted id fl n lb) as H. set (x := m_flags (req_meta id fl n lb)) in *. clearbody x.
  unfold setf. change F_TRUSTED with (2 ^ 12) in *. rewrite has_pow2 in *. rewrite N.lor_spec, H. reflexivity.
Qed.
Lemma setf_has x : has (setf x F_NONEXPORTABLE) F_NONEXPORTABLE = true.
Proof. unfold setf. change F_NONEXPORTABLE with (2 ^ 2). rewrite has_pow2, N.lor_spec, N.pow2_bits_true. apply Bool.orb_true_r. Qed.

Lemma cells_gen e client id fl lb S r S' : wf S -> good C S -> h_sign_gen C e client id fl lb S = (r, S') ->
  cells client (KSignGen id fl lb) S S'.
Proof.
  intros W G. unfold h_sign_gen. destruct (has fl F_EPHEMERAL).
  { intros H; injection H as <- <-. apply cells_refl; auto. }
  destruct (pick_id C _ S (fc client id)) as [rc k] eqn:P.
  destruct (is_ok rc) eqn:O; cbn [negb].
  2:{ intros H; injection H as <- <-. apply cells_refl; auto. }
  apply is_ok_iff in O. destruct (pick_addr _ _ _ _ _ _ (fun x => x) (unassigned_erased _) P O) as [NZ AD].
  cbv zeta. set (d := v_rngd e). set (m := with_flags _ _).
  assert (MI : m_id m = k) by reflexivity.
  destruct (cache_slot_checked C S k (bigsz C) _) as [rc1 S1] eqn:E.
  assert (K : slot_kept C true S S1 k (if is_ok rc1 then v_rng e else rc1) (mkSlot m d false)).
  { set (s := if is_ok (v_rng e) then mkSlot m d false else slot_zero) in *.
    assert (IDS : sl_id s = k \/ sl_id s = 0) by (unfold s; destruct (is_ok (v_rng e)); auto).
    destruct (cache_slot_checked_eff _ _ _ _ s _ _ W NZ IDS E) as (A & B & D & D' & F).
    split; [auto|]. split; [auto|]. destruct (is_ok rc1) eqn:O1; [apply is_ok_iff in O1|apply is_ok_false in O1].
    - destruct (D O1) as [X V]. unfold s in V. split; [|split; [|auto]].
      + intros R. rewrite R in V. change (is_ok OK) with true in V. unfold sl_id in V; cbn [sl_meta] in V. rewrite MI, N.eqb_refl in V. auto.
      + intros R. apply is_ok_false in R. rewrite R in V. change (sl_id slot_zero) with 0 in V.
        right. split; auto. destruct (N.eqb_spec 0 k); congruence.
    - split; [congruence|]. split; [|auto]. intros _. destruct (D' O1) as [X|(_ & X & Y)]; auto. }
  assert (TR : has (m_flags m) F_TRUSTED = false) by apply sgen_trusted.
  assert (NX : has (m_flags m) F_NONEXPORTABLE = true) by apply setf_has.
  assert (ML : m_len m = N.of_nat (length d)) by reflexivity.
  pose proof (kept_cells client (KSignGen id fl lb) id S S1 k _ m d eq_refl NZ AD MI TR ML K) as CK.
  destruct (is_ok rc1) eqn:O1; cbn [negb].
  2:{ intros H; injection H as <- <-. exact CK. }
  destruct (is_ok (v_rng e)) eqn:R; cbn [negb].
  2:{ intros H; injection H as <- <-. exact CK. }
  pose proof (put_good S S1 k _ m d G ML NZ K) as G1.
  destruct (commit_key C (v_nvm e) S1 k) as [rc2 S2] eqn:CM. intros H; injection H as _ <-.
  destruct CK as [W1 CK]. destruct (commit_eff _ _ _ _ _ _ W1 G1 CM) as (W2 & F2 & K2 & O2).
  destruct (is_ok rc2) eqn:R2; [apply is_ok_iff in R2|apply is_ok_false in R2].
  - split; [auto|]. intros j NJ. destruct (N.eq_dec j k) as [->|NE].
    + destruct (K2 R2) as (_ & _ & _ & _ & s & V & N2 & V2). destruct K as (_ & _ & K & _).
      apply is_ok_iff in R. destruct (K R) as [PC V']. rewrite V' in V. injection V as <-. cbv beta. rewrite N2, V2.
      apply (x_gen client k _ _ _ id fl lb m d); auto. apply (check_writable C S k (PC eq_refl)).
    + destruct (O2 j NJ NE) as [-> ->]. apply CK; auto.
  - rewrite (F2 R2). split; auto.
Qed.

Lemma cells_evict client id S rc S' q : wf S -> q = KEvict id -> evict_checked C S (fc client id) = (rc, S') -> cells client q S S'.
Proof.
  intros W Q H. destruct (evict_checked_eff _ _ _ _ _ W H) as (A & B & D & E & _ & F). split; [auto|]. intros j NJ. rewrite B.
  destruct (is_ok rc) eqn:R; [apply is_ok_iff in R|apply is_ok_false in R].
  - destruct (N.eq_dec j (fc client id)) as [->|NE]; [|rewrite F by auto; apply x_same].
    destruct (E R) as (_ & _ & X & _ & ->). apply (x_evict _ _ _ _ _ id); auto.
  - rewrite (D R). apply x_same.
Qed.
Lemma cells_cevict client id S q : wf S -> drop_id q = Some id -> cells client q S (snd (evict_key C S (fc client id))).
Proof.
  intros W Q. destruct (evict_key C S (fc client id)) as [rc S'] eqn:H. cbn [snd].
  destruct (evict_key_eff _ _ _ _ _ W H) as (A & B & D & E & _ & F). split; [auto|]. intros j NJ. rewrite B.
  destruct (is_ok rc) eqn:R; [apply is_ok_iff in R|apply is_ok_false in R].
  - destruct (N.eq_dec j (fc client id)) as [->|NE]; [|rewrite F by auto; apply x_same].
    destruct (D R) as (_ & _ & _ & ->). apply (x_cevict _ _ _ _ _ id); auto.
  - rewrite (E R). apply x_same.
Qed.
Lemma cells_erase client id r S rc S' : wf S -> erase_checked C r S (fc client id) = (rc, S') -> cells client (KErase id) S S'.
Proof.
  intros W H. destruct (erase_eff _ _ _ _ _ _ W H) as (A & B & _ & F). split; [auto|]. intros j NJ.
  destruct (N.eq_dec j (fc client id)) as [->|NE].
  - destruct B as [->|(_ & _ & _ & EV & V & [N1|[DS N1]])]; [apply x_same| |]; cbv beta in N1; rewrite V, N1.
    + apply (x_evict _ _ _ _ _ id); auto.
    + apply (x_erase _ _ _ _ _ id); auto.
  - destruct (F j NJ NE) as [-> ->]. apply x_same.
Qed.
Lemma cells_commit client id r S rc S' : wf S -> good C S -> commit_checked C r S (fc client id) = (rc, S') -> cells client (KCommit id) S S'.
Proof.
  intros W G. unfold commit_checked. destruct (is_ok (check_ks C OpCommit S (fc client id))) eqn:P.
  2:{ intros H; injection H as <- <-. apply cells_refl; auto. }
  intros H. destruct (commit_eff _ _ _ _ _ _ W G H) as (A & B & D & F). split; [auto|]. intros j NJ.
  destruct (is_ok rc) eqn:R; [apply is_ok_iff in R|apply is_ok_false in R; rewrite (B R); apply x_same].
  destruct (N.eq_dec j (fc client id)) as [->|NE]; [|destruct (F j NJ NE) as [-> ->]; apply x_same].
  destruct (D R) as (U & KW & HW & _ & s & V & N1 & V1). cbv beta. rewrite N1, V1. apply (x_commit _ _ _ _ _ id); auto.
  apply is_ok_iff in P. rewrite (check_cases _ _ _ _ U HW) in P. unfold curm, cur in P. rewrite V in P. cbv zeta in P.
  destruct (has _ F_TRUSTED); [discriminate|auto].
Qed.
Lemma cells_revoke client id r S rc S' : wf S -> good C S -> revoke_key C r S (fc client id) = (rc, S') -> cells client (KRevoke id) S S'.
Proof.
  intros W G H. destruct (revoke_eff _ _ _ _ _ _ W G H) as (A & B & D & _). split; [auto|]. intros j NJ.
  destruct (N.eq_dec j (fc client id)) as [->|NE]; [|apply cell_fr; auto].
  destruct D as [D|(s & b & CU & TR & _ & _ & V & [[N1 ->]|(NN & -> & N1)])]; [apply cell_fr; auto| |]; cbv beta in *; rewrite V, N1.
  - apply (x_revoke _ _ _ _ _ id); auto.
  - apply (x_revoken _ _ _ _ _ id); auto.
Qed.

(** Composition after a step that only loads and drops copies. *)
Lemma cell_after client q S S1 S2 j : fr C S S1 j -> vw S2 j = vw S1 j -> nv S2 j = nv S1 j ->
  cell client j (nv S j) (vw S j) q (nv S2 j) (vw S2 j).
Proof. intros H V N1. cbv beta in *. rewrite V, N1. apply (cell_fr client q S S1); auto. Qed.

Lemma cells_sign e client id msg ev S r S' : wf S -> good C S -> h_sign C ots e client id msg ev S = (r, S') ->
  cells client (KSign id msg ev) S S'.
Proof.
  intros W G. unfold h_sign. set (k := fc client id). destruct (kid_erased k) eqn:U.
  { intros H; injection H as <- <-. apply cells_refl; auto. }
  pose proof (erased_nz _ U) as NZ.
  destruct (freshen C S k) as [rc1 S1] eqn:F. destruct (freshen_eff _ _ _ _ _ W G F) as (W1 & T1 & FR & _ & _).
  (* the optional eviction at the end *)
  assert (FIN : forall x : kresp * ks, wf (snd x) ->
     (forall j, j <> 0 -> j <> k -> fr C S (snd x) j) ->
     (cell client k (nv S k) (vw S k) (KSign id msg ev) (nv (snd x) k) (vw (snd x) k)) ->
     (ev = true -> cell client k (nv S k) (vw S k) (KSign id msg ev) (nv (snd x) k) None) ->
     (if ev then (fst x, snd (evict_key C (snd x) k)) else x) = (r, S') -> cells client (KSign id msg ev) S S').
  { intros [rx Sx] Wx Ox K1 K2 H. cbn [fst snd] in *. destruct ev.
    - destruct (evict_key C Sx k) as [rc S2] eqn:E. cbn [snd] in H. injection H as _ <-.
      destruct (evict_key_eff _ _ _ _ _ Wx E) as (A & B & D & D' & _ & O). split; [auto|]. intros j NJ.
      destruct (N.eq_dec j k) as [->|NE].
      + rewrite B. destruct (is_ok rc) eqn:R; [apply is_ok_iff in R|apply is_ok_false in R].
        * destruct (D R) as (_ & _ & _ & ->). auto.
        * rewrite (D' R). exact K1.
      + apply (cell_after client _ S Sx S2); [auto|rewrite O; auto|rewrite B; auto].
    - injection H as <- <-. split; auto. intros j NJ. destruct (N.eq_dec j k) as [->|NE]; auto. apply cell_fr; auto. }
  assert (SAME : cell client k (nv S k) (vw S k) (KSign id msg ev) (nv S1 k) (vw S1 k)) by (apply cell_fr; auto).
  assert (DROP : ev = true -> cell client k (nv S k) (vw S k) (KSign id msg ev) (nv S1 k) None).
  { intros ->. rewrite T1. apply (x_cevict _ _ _ _ _ id); auto. }
  destruct (is_ok rc1) eqn:O1; cbn [negb].
  2:{ intros H. apply (FIN (rrc rc1, S1)); cbn [snd]; auto. }
  apply is_ok_iff in O1. subst rc1. destruct (freshen_curs _ _ _ _ W G F) as (V & VN & _).
  destruct (vw S1 k) as [s|] eqn:V1; [|contradiction]. symmetry in V.
  destruct (is_ok (v_dma e)) eqn:DM; cbn [negb].
  2:{ intros H. apply (FIN (rrc (v_dma e), S1)); cbn [snd]; auto. rewrite V1. auto. }
  destruct (ots (sl_buf s) msg) as [[sg nb]|] eqn:OT.
  2:{ intros H. apply (FIN (rrc ABORTED, S1)); cbn [snd]; auto. rewrite V1. auto. }
  destruct (bigsz C <? N.of_nat (length nb)).
  { intros H. apply (FIN (rrc ABORTED, S1)); cbn [snd]; auto. rewrite V1. auto. }
  set (m' := with_len (sl_meta s) (N.of_nat (length nb))).
  assert (MI : m_id m' = k) by exact (vw_id _ _ _ _ V1).
  destruct (cupd_eff C S1 k (fun x => mkSlot m' nb (sl_comm x)) W1 NZ (fun s E => MI)) as (W2 & T2 & V2 & O2). cbv zeta in *.
  set (S2 := set_ctx C S1 k (cupd k (fun x => mkSlot m' nb (sl_comm x)) (get_ctx C S1 k))) in *.
  rewrite V1 in V2. cbn [option_map] in V2.
  assert (FR2 : forall j, j <> 0 -> j <> k -> fr C S S2 j).
  { intros j NJ NE. apply (fr_trans C S S1 S2); auto. apply fr_drop; [rewrite T2; auto|]. left. auto. }
  assert (NS : k_st S2 = k_st S) by congruence.
  assert (SG : forall n' o', (n' = nv S k \/ n' = Some (m', nb)) -> (o' = None /\ ev = true \/ o' = Some (mkSlot m' nb (sl_comm s))) ->
     cell client k (nv S k) (vw S k) (KSign id msg ev) n' o').
  { intros n' o' A B. apply (x_sign client k _ _ _ id msg ev s nb sg); auto. }
  destruct (nv_add (v_nvm e) m' nb (k_st S2)) as [rc2 st] eqn:A.
  destruct (is_ok rc2) eqn:R2; intros H.
  - assert (NF : forall j, sp_find st j = if N.eqb j k then Some (m', nb) else nv S j).
    { intros j. rewrite (nv_add_find _ _ _ _ _ _ j A), R2, MI, NS. cbn [andb]. reflexivity. }
    apply (FIN (mkKr OK 0 None sg, set_st S2 st)); cbn [snd]; auto.
    + intros j NJ NE. apply (fr_trans C S S2); auto. apply fr_drop; [|left; reflexivity].
      cbn [k_st set_st]. rewrite NF, NS. destruct (N.eqb_spec j k); congruence.
    + cbn [k_st set_st]. rewrite vw_set_st, V2. apply SG; [right|right; auto]. rewrite NF, N.eqb_refl. reflexivity.
    + intros EV. apply SG; [right|left; auto]. cbn [k_st set_st]. rewrite NF, N.eqb_refl. reflexivity.
  - apply (FIN (rrc ABORTED, S2)); cbn [snd]; auto.
    + rewrite V2, NS. apply SG; auto.
    + intros EV. apply SG; [left; rewrite NS; auto|left; auto].
Qed.

Lemma kek_eff tr e S id rc S' k : wf S -> good C S -> resolve_kek C tr e S id = (rc, S', k) ->
  wf S' /\ k_st S' = k_st S /\ (forall j, j <> 0 -> fr C S S' j).
Proof.
  intros W G. unfold resolve_kek. destruct (hwkey C id).
  { intros H; injection H as <- <- <-. split; [auto|]. split; [auto|]. intros; apply fr_refl. }
  destruct (freshen C S id) as [rc1 S1] eqn:F. destruct (freshen_eff _ _ _ _ _ W G F) as (W1 & T1 & FR & _ & _).
  assert (X : forall rc0 k0, (rc0, S1, k0) = (rc, S', k) -> wf S' /\ k_st S' = k_st S /\ (forall j, j <> 0 -> fr C S S' j)).
  { intros rc0 k0 H; injection H as _ <- _. auto. }
  destruct (negb (is_ok rc1)); [apply X|]. destruct (vw S1 id); [|apply X].
  destruct (negb _); [apply X|]. destruct (tr && _); apply X.
Qed.

Lemma cells_unwrap e client kek b S r S' : wf S -> good C S ->
  h_unwrap_cache C gcm_dec she_count e client kek b S = (r, S') -> cells client (KUnwrapCache kek b) S S'.
Proof.
  intros W G. unfold h_unwrap_cache. destruct (length b <? 60)%nat.
  { intros H; injection H as <- <-. apply cells_refl; auto. }
  destruct (resolve_kek C true e S _) as [[rc1 S1] k] eqn:RK. destruct (kek_eff _ _ _ _ _ _ _ W G RK) as (W1 & T1 & FR).
  assert (X : forall r0, (r0, S1) = (r, S') -> cells client (KUnwrapCache kek b) S S').
  { intros r0 H; injection H as _ <-. apply cells_fr; auto. }
  cbv zeta. destruct (negb (is_ok rc1)); [apply X|]. destruct (kw_max C <? _); [apply X|].
  destruct (gcm_unwrap gcm_dec k AAD_KEY b) as [rc2 pt]. destruct (negb (is_ok rc2)); [apply X|].
  set (m0 := des_meta pt). set (m1 := with_flags m0 (clear (m_flags m0) F_SERVER_ONLY)).
  set (key := exactly _ _).
  destruct (N.eqb (N.of_nat (length b - 60)) (m_len m1)) eqn:LE; cbn [negb]; [|apply X]. apply N.eqb_eq in LE.
  destruct (kid_unassigned (m_id m1)) eqn:U; [apply X|].
  set (she := have_she C && N.eqb (kid_type (m_id m1)) KT_SHE).
  destruct (negb (kid_wrapped (m_id m1)) && negb she) eqn:KS; [apply X|].
  destruct (owner_ok C client (m_id m1)) eqn:OW; cbn [negb]; [|apply X].
  destruct (she && negb (she_global C) && k_global (kc C) && N.eqb (kid_user (m_id m1)) 0); [apply X|].
  set (m := if she && she_global C then _ else m1).
  assert (ML : m_len m = N.of_nat (length key)).
  { unfold key. rewrite exactly_length, LE. unfold m. destruct (she && she_global C); reflexivity. }
  assert (TR : has (m_flags m) F_TRUSTED = false).
  { replace (m_flags m) with (clear (m_flags m0) F_SERVER_ONLY) by (unfold m; destruct (she && she_global C); reflexivity).
    apply has_clear_self. }
  assert (TY : kid_wrapped (m_id m) = true \/ (have_she C = true /\ kid_type (m_id m) = KT_SHE)).
  { unfold m. destruct she eqn:SE.
    - right. unfold she in SE. apply Bool.andb_true_iff in SE as [SE1 SE2]. apply N.eqb_eq in SE2. split; auto.
      destruct (true && she_global C); auto. cbn [with_id m_id]. apply mk_type. reflexivity.
    - left. cbn [andb]. apply Bool.andb_false_iff in KS as [KS|KS]; [apply Bool.negb_false_iff; auto|discriminate]. }
  assert (US : kid_user (m_id m) = client \/ kid_user (m_id m) = 0).
  { unfold m. destruct (she && she_global C); [right; apply mk_user; reflexivity|].
    unfold owner_ok in OW. apply Bool.orb_true_iff in OW as [OW|OW]; [left; apply N.eqb_eq; auto|right].
    apply Bool.andb_true_iff in OW as [_ OW]. apply N.eqb_eq; auto. }
  clearbody m key. destruct (vw S1 (m_id m)) as [x|] eqn:V1; [apply X|].
  destruct (match sp_find (k_st S1) (m_id m) with Some _ => _ | None => _ end); [apply X|].
  destruct (have_st C && stateful_blob key); [apply X|].
  destruct (cache_key C false S1 m key) as [rc3 S2] eqn:CK. intros H; injection H as _ <-.
  destruct (cache_key_eff _ _ _ _ _ _ _ W1 CK) as [(W2 & T2 & K2 & F2 & O2) K3]. split; [auto|]. intros j NJ.
  destruct (N.eq_dec j (m_id m)) as [->|NE].
  - destruct (is_ok rc3) eqn:R; [apply is_ok_iff in R|apply is_ok_false in R].
    + destruct (K2 R) as [_ V2]. cbv beta. rewrite T2, V2.
      destruct (FR _ NJ) as [N1 VV]. cbv beta in N1. rewrite N1. rewrite V1 in VV.
      apply (x_unwrap client (m_id m) _ _ _ kek b m key); auto.
      destruct VV as [E|[E _]]; auto. rewrite <- E. intros s0 Q. discriminate.
    + destruct (F2 R) as [->|[_ V2]]; [apply cell_fr; auto|].
      apply (cell_after client _ S S1 S2); [auto|congruence|cbv beta; rewrite T2; auto].
  - apply cell_fr. apply (fr_trans C S S1 S2); auto. apply fr_drop; [rewrite T2; auto|]. apply O2; auto.
Qed.

Lemma cell_good client q j n o n' o' : cell client j n o q n' o' ->
  (forall m d, n = Some (m, d) -> m_len m = N.of_nat (length d)) -> (forall s, o = Some s -> good_slot s) ->
  (forall m d, n' = Some (m, d) -> m_len m = N.of_nat (length d)) /\ (forall s, o' = Some s -> good_slot s).
Proof.
  intros H G1 G2.
  assert (GC : forall s, curs n o = Some s -> good_slot s).
  { unfold curs. intros s. destruct o as [s0|]; [auto|]. destruct n as [[m d]|]; [|discriminate].
    intros E; injection E as <-. unfold good_slot; cbn [sl_meta sl_buf]. auto. }
  destruct H; subst; split; intros; try discriminate; auto;
    repeat match goal with
    | E : Some _ = Some _ |- _ => injection E as <-; try subst
    | E : _ \/ _ |- _ => destruct E
    | E : _ /\ _ |- _ => destruct E
    end; subst; unfold good_slot; cbn [sl_meta sl_buf revoked_meta with_flags m_len with_len]; try discriminate; auto;
    try (match goal with E : Some _ = Some _ |- _ => injection E as <- <- end; auto);
    try (match goal with E : Some _ = Some _ |- _ => injection E as <-; reflexivity end);
    try (apply GC; auto); try (apply G2; auto).
Qed.
Lemma cells_good client q S S' : good C S -> cells client q S S' -> good C S'.
Proof.
  intros [G1 G2] [_ H]. split.
  - intros id m d NZ F. destruct (cell_good _ _ _ _ _ _ _ (H id NZ)) as [A _]; eauto.
  - intros j s NJ V. destruct (cell_good _ _ _ _ _ _ _ (H j NJ)) as [_ A]; eauto.
Qed.

Lemma cells_use e client id o alt inp S r S' : wf S -> good C S -> h_use C crypt e client id o alt inp S = (r, S') ->
  wf S' /\ k_st S' = k_st S /\ forall j, j <> 0 -> fr C S S' j.
Proof.
  intros W G. unfold h_use. destruct (nth_error (usages o) alt) as [u|].
  2:{ intros H; injection H as <- <-. split; [auto|]. split; [auto|]. intros; apply fr_refl. }
  destruct (if reads_copy o then _ else _) as [[rc S1] d] eqn:E.
  assert (X : wf S1 /\ k_st S1 = k_st S /\ forall j, j <> 0 -> fr C S S1 j).
  { destruct (reads_copy o).
    - destruct (read_enforce_eff _ _ _ _ _ _ _ _ W G E) as (A & B & D & _). auto.
    - destruct (use_key_eff _ _ _ _ _ _ _ W G E) as (A & B & D & _). auto. }
  destruct (negb (is_ok rc)); [intros H; injection H as _ <-; auto|].
  destruct (crypt o inp d). intros H; injection H as _ <-. auto.
Qed.

Ltac close H := injection H as _ <-; auto.
(** Requests that change no key. *)
Definition reader (q : kreq) : bool :=
  match q with
  | KExport _ | KExportDma _ _ | KExportPublic _ _ _ | KUse _ _ _ _ | KWrap _ _ _ | KWrapExport _ _ _
  | KUnwrapExport _ _ | KDataWrap _ _ | KDataUnwrap _ _ => true
  | _ => false
  end.
Lemma reader_fr e client q S r S' : wf S -> good C S -> reader q = true -> step e client q S = (r, S') ->
  wf S' /\ k_st S' = k_st S /\ forall j, j <> 0 -> fr C S S' j.
Proof.
  intros W G RQ. unfold ks_step. destruct (negb (is_ok (v_lock e))).
  { intros H; injection H as <- <-. split; [auto|]. split; [auto|]. intros; apply fr_refl. }
  assert (Z : wf S /\ k_st S = k_st S /\ forall j, j <> 0 -> fr C S S j)
    by (split; [auto|]; split; [auto|]; intros; apply fr_refl).
  destruct q; try discriminate; cbv zeta.
  - unfold h_export. destruct (read_key_checked C S _ _) as [[[rc S1] m] d] eqn:E.
    destruct (read_checked_eff _ _ _ _ _ _ _ _ W G E) as (A & B & D & _). intros H; close H.
  - unfold h_export_dma. destruct (negb _); [intros H; close H|].
    destruct (freshen C S _) as [rc1 S1] eqn:F. destruct (freshen_eff _ _ _ _ _ W G F) as (W1 & T1 & FR & _ & _).
    destruct (negb (is_ok rc1)); [intros H; close H|]. destruct (vw S1 _) as [s|]; [|intros H; close H].
    destruct (_ <? _); [intros H; close H|]. destruct (negb _); intros H; close H.
  - unfold h_export_public. destruct (negb _); [intros H; close H|].
    destruct (freshen C S _) as [rc1 S1] eqn:F. destruct (freshen_eff _ _ _ _ _ W G F) as (W1 & T1 & FR & _ & _).
    destruct (negb (is_ok rc1)); [intros H; close H|]. destruct (vw S1 _) as [s|]; [|intros H; close H].
    destruct (pub algo (sl_buf s)) as [rc2 d]. destruct (negb _); [intros H; close H|]. destruct (_ <? _); intros H; close H.
  - intros H. eapply cells_use; eauto.
  - unfold h_wrap. destruct (_ <? _); [intros H; close H|]. destruct (negb _); [intros H; close H|].
    destruct (_ <? _); [intros H; close H|]. destruct (resolve_kek C false e S _) as [[rc1 S1] k] eqn:RK.
    destruct (kek_eff _ _ _ _ _ _ _ W G RK) as (W1 & T1 & FR). destruct (negb _); [intros H; close H|].
    destruct (gcm_wrap gcm_enc e k AAD_KEY _) as [rc2 b]. intros H; close H.
  - unfold h_wrap_export. destruct (wx_target C kty client id) as [t|]; [|intros H; close H].
    destruct (read_key_checked C S _ _) as [[[rc S1] m] d] eqn:E.
    destruct (read_checked_eff _ _ _ _ _ _ _ _ W G E) as (A & B & D & _). destruct (negb _); [intros H; close H|].
    destruct (_ <? _); [intros H; close H|]. destruct (resolve_kek C true e S1 _) as [[rc1 S2] k] eqn:RK.
    assert (G1 : good C S1) by (apply (fr_good C S S1); auto).
    destruct (kek_eff _ _ _ _ _ _ _ A G1 RK) as (W1 & T1 & FR).
    assert (Z2 : wf S2 /\ k_st S2 = k_st S /\ forall j, j <> 0 -> fr C S S2 j).
    { split; [auto|]. split; [congruence|]. intros j NJ. apply (fr_trans C S S1 S2); auto. }
    destruct (negb _); [intros H; close H|].
    destruct (gcm_wrap gcm_enc e k AAD_KEY _) as [rc2 b]. intros H; close H.
  - unfold h_unwrap_export. destruct (_ <? _)%nat; [intros H; close H|]. destruct (_ <? _); [intros H; close H|].
    destruct (resolve_kek C false e S _) as [[rc1 S1] k] eqn:RK. destruct (kek_eff _ _ _ _ _ _ _ W G RK) as (W1 & T1 & FR).
    destruct (negb _); [intros H; close H|]. destruct (_ <? _); [intros H; close H|].
    destruct (gcm_unwrap gcm_dec k AAD_KEY blob) as [rc2 pt]. destruct (negb _); [intros H; close H|].
    destruct (kid_unassigned _); [intros H; close H|]. destruct (negb _); [intros H; close H|].
    destruct (has _ _); [intros H; close H|]. destruct (negb _); intros H; close H.
  - unfold h_data_wrap. destruct (_ <? _); [intros H; close H|]. destruct (_ <? _); [intros H; close H|].
    destruct (resolve_kek C false e S _) as [[rc1 S1] k] eqn:RK. destruct (kek_eff _ _ _ _ _ _ _ W G RK) as (W1 & T1 & FR).
    destruct (negb _); [intros H; close H|]. destruct (gcm_wrap gcm_enc e k AAD_DATA _) as [rc2 b]. intros H; close H.
  - unfold h_data_unwrap. destruct (_ <? _)%nat; [intros H; close H|]. destruct (_ <? _); [intros H; close H|].
    destruct (resolve_kek C false e S _) as [[rc1 S1] k] eqn:RK. destruct (kek_eff _ _ _ _ _ _ _ W G RK) as (W1 & T1 & FR).
    destruct (negb _); [intros H; close H|]. destruct (_ <? _); [intros H; close H|].
    destruct (gcm_unwrap gcm_dec k AAD_DATA blob) as [rc2 pt]. intros H; close H.
Qed.

Theorem step_cells e client q S r S' : wf S -> good C S -> step e client q S = (r, S') -> cells client q S S' /\ good C S'.
Proof.
  intros W G H. cut (cells client q S S'); [intros X; split; auto; eapply cells_good; eauto|].
  destruct (reader q) eqn:RQ.
  { destruct (reader_fr _ _ _ _ _ _ W G RQ H) as (A & _ & D). apply cells_fr; auto. }
  revert H. unfold ks_step. destruct (negb (is_ok (v_lock e))).
  { intros H; injection H as <- <-. apply cells_refl; auto. }
  cbv zeta. destruct q; try discriminate; intros H.
  - eapply cells_cache; eauto.
  - eapply cells_random; eauto.
  - eapply cells_dma; eauto.
  - destruct (evict_checked C S _) as [rc S1] eqn:E. injection H as _ <-. eapply cells_evict; eauto.
  - destruct (commit_checked C _ S _) as [rc S1] eqn:E. injection H as _ <-. eapply cells_commit; eauto.
  - destruct (erase_checked C _ S _) as [rc S1] eqn:E. injection H as _ <-. eapply cells_erase; eauto.
  - destruct (revoke_key C _ S _) as [rc S1] eqn:E. injection H as _ <-. eapply cells_revoke; eauto.
  - eapply cells_import; eauto.
  - injection H as _ <-. apply cells_cevict; auto.
  - eapply cells_gen; eauto.
  - eapply cells_sign; eauto.
  - eapply cells_unwrap; eauto.
Qed.
End Step.
