(** Proofs about public-key calls. *)
From Verif Require Import Base BaseLemmas NvmSpec Flags KeyId Store NvmReqModel KsModel KsCache KsEff KsReq KsStep KsResp PkModel PkSpec PropertiesKeyId.
Local Open Scope N_scope.

(** ** The request *)
Lemma len_app a b : len (a ++ b) = len a + len b.
Proof. unfold len. rewrite app_length. lia. Qed.
Lemma len_nil : len [] = 0.
Proof. reflexivity. Qed.
Lemma size_ok c : fixed c + len (body c) = request_bytes c.
Proof.
  destruct c as [| | | | | | [] | [] | [] | [] | [] | []]; unfold fixed; cbn [body request_bytes]; rewrite ?len_app, ?len_nil; lia.
Qed.
Lemma to_nat_len a : N.to_nat (len a) = length a.
Proof. unfold len. lia. Qed.
Lemma slice_all a : slice a 0 (len a) = a.
Proof. unfold slice. rewrite to_nat_len. cbn [N.to_nat skipn]. apply firstn_all. Qed.
Lemma slice_head a b : slice (a ++ b) 0 (len a) = a.
Proof. unfold slice. rewrite to_nat_len. cbn [N.to_nat skipn]. rewrite firstn_app, firstn_all, Nat.sub_diag. cbn [firstn]. apply app_nil_r. Qed.
Lemma slice_tail a b n : slice (a ++ b) (len a) n = slice b 0 n.
Proof.
  unfold slice. rewrite to_nat_len, skipn_app, skipn_all, Nat.sub_diag. reflexivity.
Qed.
Lemma slice_tail2 a b c n : slice (a ++ b ++ c) (len a + len b) n = slice c 0 n.
Proof. rewrite app_assoc, <- len_app. apply slice_tail. Qed.

Lemma sum_le c : sum c <= request_bytes c.
Proof.
  rewrite <- size_ok. unfold sum. destruct (wrap_at c) as [w|] eqn:E; [|lia]. apply N.mod_le.
  intros ->. destruct c as [| | | | | | [] | [] | | | [] | []]; discriminate.
Qed.
Lemma ltb_add a b : a + b - a <? b = false.
Proof. apply N.ltb_ge. lia. Qed.

Lemma known_asks c : known_rsa c -> exists o, asks c = Some o.
Proof.
  destruct c; cbn [known_rsa asks]; eauto. intros H.
  assert (C : ty = 0 \/ ty = 1 \/ ty = 2 \/ ty = 3) by lia. destruct C as [C|[C|[C|C]]]; subst ty; eauto.
Qed.

Section Parse.
Variable DL : N.
Variable level_ok : N -> bool.

Lemma first_ok c : refused_first DL c = false -> proper c.
Proof.
  destruct c; cbn [refused_first proper]; auto; intros H; apply Bool.orb_false_iff in H as [H _]; apply Bool.orb_false_iff in H as [H X];
    apply Bool.orb_false_iff in H as [T Y]; apply N.ltb_ge in X; (split; [|split; [|exact X]]).
  1,3: unfold ed_type in T; destruct (N.eqb_spec ty 255), (N.eqb_spec ty 0), (N.eqb_spec ty 1); cbn in T; auto; discriminate.
  all: intros ->; cbn in Y; apply Bool.negb_false_iff, N.eqb_eq in Y; unfold len in Y; destruct ctx; [reflexivity|cbn in Y; lia].
Qed.
Lemma proper_ed ty x : (ty = 255 \/ ty = 0 \/ ty = 1) -> (ty = 255 -> x = []) -> len x <= 255 ->
  ed_type ty = true /\ N.eqb ty 255 && negb (N.eqb (len x) 0) = false /\ (255 <? len x) = false.
Proof.
  intros T Y X. split; [destruct T as [T|[T|T]]; subst ty; reflexivity|]. split; [|apply N.ltb_ge; auto].
  destruct (N.eqb_spec ty 255) as [E|]; [|reflexivity]. rewrite (Y E). reflexivity.
Qed.
Lemma proper_first c : proper c -> request_bytes c <= DL -> refused_first DL c = false.
Proof.
  destruct c; cbn [refused_first proper]; auto; intros (T & Y & X) F; destruct (proper_ed _ _ T Y X) as (-> & -> & ->); cbn [negb orb];
    apply N.ltb_ge; (eapply N.le_trans; [apply sum_le|exact F]).
Qed.

(** What the server makes of the client's request. *)
Lemma parse_build c id ev : well_typed c -> known_rsa c -> proper c ->
  parse DL level_ok (build c id ev) =
  match asks c with
  | Some o => match c with
              | KemEnc _ lv _ | KemDec _ lv _ =>
                  if level_ok lv then Go o (parameters DL c) (inputs c) else Clean BADARGS
              | _ => Go o (parameters DL c) (inputs c)
              end
  | None => Refuse BADARGS
  end.
Proof.
  destruct c as [ty i cap| |h|x s h| |cu p|dma ty m x cap|dma ty s m x|dma lv pre m x cap|dma lv pre s m x|dma lv cap|dma lv ct];
    cbn [well_typed known_rsa proper]; intros WT KR PR.
  - unfold parse, build; cbn [q_body q_fields body]. rewrite N.ltb_irrefl, slice_all.
    assert (C : ty = 0 \/ ty = 1 \/ ty = 2 \/ ty = 3) by lia. destruct C as [C|[C|[C|C]]]; subst ty; reflexivity.
  - reflexivity.
  - unfold parse, build; cbn [q_body q_fields body]. rewrite N.ltb_irrefl, slice_all. reflexivity.
  - unfold parse, build; cbn [q_body q_fields body]. rewrite len_app, ltb_add, slice_head, slice_tail, slice_all.
    replace (len s + len h <? len s) with false by (symmetry; apply N.ltb_ge; lia). reflexivity.
  - reflexivity.
  - unfold parse, build; cbn [q_body q_fields body]. rewrite N.ltb_irrefl, slice_all. reflexivity.
  - destruct PR as (T & Y & X). destruct (proper_ed _ _ T Y X) as (E1 & E2 & E3). destruct dma; unfold parse, build; cbn [q_body q_fields body].
    + rewrite N.ltb_irrefl, slice_all, E1, E3. reflexivity.
    + rewrite len_app, ltb_add, slice_head, slice_tail, slice_all, E1, E2, E3.
      replace (len m + len x <? len m) with false by (symmetry; apply N.ltb_ge; lia). reflexivity.
  - destruct PR as (T & Y & X). destruct (proper_ed _ _ T Y X) as (E1 & E2 & E3). destruct dma; unfold parse, build; cbn [q_body q_fields body].
    + rewrite N.ltb_irrefl, slice_all, E1, E3. reflexivity.
    + rewrite slice_head, slice_tail, slice_head, slice_tail2, slice_all, !len_app, E1, E3.
      replace (len s + (len m + len x) <? len s) with false by (symmetry; apply N.ltb_ge; lia).
      replace (len s + (len m + len x) - len s <? len m) with false by (symmetry; apply N.ltb_ge; lia).
      replace (len s + (len m + len x) - len s - len m <? len x) with false by (symmetry; apply N.ltb_ge; lia). reflexivity.
  - assert (E3 : 255 <? len x = false) by (apply N.ltb_ge; lia). destruct dma; unfold parse, build; cbn [q_body q_fields body].
    + rewrite N.ltb_irrefl, slice_all, E3, Bool.andb_false_r. reflexivity.
    + rewrite len_app, ltb_add, slice_head, slice_tail, slice_all, E3.
      replace (len m + len x <? len m) with false by (symmetry; apply N.ltb_ge; lia). reflexivity.
  - assert (E3 : 255 <? len x = false) by (apply N.ltb_ge; lia). destruct dma; unfold parse, build; cbn [q_body q_fields body].
    + rewrite N.ltb_irrefl, slice_all, E3, Bool.andb_false_r. reflexivity.
    + rewrite slice_head, slice_tail, slice_head, slice_tail2, slice_all, !len_app, E3.
      replace (len s + (len m + len x) <? len s) with false by (symmetry; apply N.ltb_ge; lia).
      replace (len s + (len m + len x) <? len m) with false by (symmetry; apply N.ltb_ge; lia).
      replace (len s + (len m + len x) - len m <? len s) with false by (symmetry; apply N.ltb_ge; lia).
      replace (len s + (len m + len x) - len s - len m <? len x) with false by (symmetry; apply N.ltb_ge; lia). reflexivity.
  - destruct dma; unfold parse, build; cbn [q_body q_fields body asks parameters inputs]; destruct (level_ok lv); reflexivity.
  - destruct dma; unfold parse, build; cbn [q_body q_fields body asks parameters inputs]; destruct (level_ok lv); try reflexivity; cbn [negb];
      rewrite ?N.ltb_irrefl, ?slice_all; reflexivity.
Qed.
End Parse.

(** ** The import *)
Definition pub0 : N -> list N -> Z * list N := fun _ _ => (OK, []).
Lemma exactly_all (l : list N) : exactly (length l) l = l.
Proof. unfold exactly. rewrite firstn_app, firstn_all, Nat.sub_diag. apply app_nil_r. Qed.
Lemma land16 n : n < 65536 -> N.land n 65535 = n.
Proof. intros H. change 65535 with (N.ones 16). rewrite N.land_ones. apply N.mod_small. exact H. Qed.

Section Eff.
Variable C : kscfg.
Notation vw := (find_cache C).
Notation nv := (fun S => sp_find (k_st S)).
Notation fc client id := (from_client (kc C) KT_CRYPTO client id).

Lemma kept_refl S j : kept C S S j.
Proof. left. reflexivity. Qed.
Lemma kept_same S S' j : vw S' j = vw S j -> kept C S S' j.
Proof. left. auto. Qed.
Lemma kept_trans S1 S2 S3 j : kept C S1 S2 j -> vw S3 j = vw S2 j -> kept C S1 S3 j.
Proof. unfold kept. intros [H|[H1 H2]] E; rewrite E; auto. Qed.

(** A key just imported. *)
Definition new_key (client kid : N) (S : ks) (k : N) : Prop :=
  k <> 0 /\ fc client (to_client (kc C) k) = k /\ kid_erased k = false /\ hwkey C k = false /\
  vw S k = None /\ nv S k = None /\ is_global C k = k_global (kc C) && has kid CF_GLOBAL.

Lemma erased_from client kid : kid_erased kid = true -> kid_unassigned (fc client kid) = true.
Proof.
  intros E. unfold kid_unassigned. rewrite from_client_mk. unfold kid_erased in *. rewrite mk_id. apply N.eqb_eq in E. unfold kid_id in E. rewrite E.
  change (0 mod 256 =? 0) with true. cbn [andb]. rewrite mk_type.
  - unfold means_kind. destruct (k_hw (kc C) && flag_hw kid); [reflexivity|]. destruct (k_wrap (kc C) && flag_wrapped kid); reflexivity.
  - unfold means_kind. destruct (k_hw (kc C) && flag_hw kid); [reflexivity|]. destruct (k_wrap (kc C) && flag_wrapped kid); reflexivity.
Qed.
Lemma pick_new client kid S k : 1 <= client <= 15 -> kid_erased kid = true ->
  pick_id C true S (fc client kid) = (OK, k) -> new_key client kid S k.
Proof.
  intros CL E P. pose proof (erased_from client _ E) as U. apply (unassigned_is_erased pub0) in U.
  destruct (pick_addr C pub0 true S client kid _ _ (fun _ => U) ltac:(discriminate) P eq_refl) as [NZ AD].
  unfold pick_id in P. destruct (unique_id_ok _ _ _ _ P) as (i & L & K & KW & HW & V & NN).
  assert (T : kid_type (fc client kid) = KT_CRYPTO).
  { revert KW HW. unfold kid_wrapped, hwkey, kid_hw. rewrite from_client_mk, mk_type.
    - unfold means_kind. destruct (k_hw (kc C) && flag_hw kid) eqn:A; [|destruct (k_wrap (kc C) && flag_wrapped kid); [discriminate|reflexivity]].
      apply Bool.andb_true_iff in A as [A _]. rewrite A. discriminate.
    - unfold means_kind. destruct (k_hw (kc C) && flag_hw kid); [reflexivity|]. destruct (k_wrap (kc C) && flag_wrapped kid); reflexivity. }
  assert (UL : kid_user (fc client kid) = if k_global (kc C) && has kid CF_GLOBAL then 0 else client).
  { unfold from_client. apply mk_user. destruct (k_global (kc C) && has kid CF_GLOBAL); lia. }
  split; [auto|]. split; [apply (addr_roundtrip C pub0 client kid k _ _ CL T AD)|]. rewrite T in K. repeat split; auto.
  - unfold kid_erased. rewrite K, mk_id. apply N.eqb_neq. rewrite N.mod_small by lia. lia.
  - unfold hwkey, kid_hw. rewrite K, mk_type by reflexivity. apply Bool.andb_false_r.
  - rewrite K, mk_global by (rewrite UL; destruct (k_global (kc C) && has kid CF_GLOBAL); lia). rewrite UL.
    destruct (k_global (kc C)); cbn [andb]; [|reflexivity]. destruct (has kid CF_GLOBAL); [reflexivity|]. apply N.eqb_neq. lia.
Qed.

Lemma kept_fresh S S' k rc s : slot_kept C true S S' k rc s -> vw S k = None ->
  wf S' /\ k_st S' = k_st S /\ (rc = OK -> vw S' k = Some s) /\ (rc <> OK -> vw S' k = vw S k) /\
  forall j, j <> 0 -> j <> k -> kept C S S' j.
Proof.
  intros (W & T & K & F & O) V. split; [auto|]. split; [auto|]. split; [intros E; apply (K E)|]. split.
  - intros E. destruct (F E) as [->|[_ ->]]; auto.
  - intros j NJ NE. destruct (O j NJ NE) as [H|H]; [left; auto|right; exact H].
Qed.

Lemma cached_new (dma : bool) x ne client kid fl lb key S r S' : wf S -> good C S -> 1 <= client <= 15 -> kid_erased kid = true -> len key < 65536 ->
  (if dma then h_cache_dma C (mkKenv OK OK OK [] x key OK [] 0 ne) client kid fl (len key) lb S else h_cache C client kid fl lb key S) = (r, S') ->
  wf S' /\ good C S' /\ k_st S' = k_st S /\
  ((r_rc r <> OK /\ forall j, j <> 0 -> kept C S S' j) \/
   (r_rc r = OK /\ exists k, new_key client kid S k /\ r_id r = to_client (kc C) k /\
      vw S' k = Some (mkSlot (req_meta k fl (len key) lb) key false) /\ forall j, j <> 0 -> j <> k -> kept C S S' j)).
Proof.
  intros W G CL E LK. pose proof (erased_from client _ E) as U.
  assert (X : forall rc k, pick_id C true S (fc client kid) = (rc, k) ->
    (let '(rc1, S1) := if dma then cache_dma C S (req_meta k fl (len key) lb) x key
                       else cache_key C true S (req_meta k fl (len key) lb) key in
     rc = OK -> new_key client kid S k /\ slot_kept C true S S1 k rc1 (mkSlot (req_meta k fl (len key) lb) key false))).
  { intros rc k P. destruct dma.
    - destruct (cache_dma C S _ x key) as [rc1 S1] eqn:F. intros ->. pose proof (pick_new _ _ _ _ CL E P) as NK. split; [auto|].
      apply (cache_dma_eff C S (req_meta k fl (len key) lb) x key rc1 S1 W (proj1 NK) F).
    - destruct (cache_key C true S _ key) as [rc1 S1] eqn:F. intros ->. split; [apply (pick_new _ _ _ _ CL E P)|].
      apply (cache_key_eff C true S (req_meta k fl (len key) lb) key rc1 S1 W F). }
  assert (Y : forall r S', (let '(rc, k) := pick_id C true S (fc client kid) in
      if negb (is_ok rc) then (rrc rc, S) else
      let '(rc, S1) := if dma then cache_dma C S (req_meta k fl (len key) lb) x key
                       else cache_key C true S (req_meta k fl (len key) lb) key in
      (if is_ok rc then mkKr OK (to_client (kc C) k) None [] else rrc rc, S1)) = (r, S') ->
    wf S' /\ good C S' /\ k_st S' = k_st S /\
    ((r_rc r <> OK /\ forall j, j <> 0 -> kept C S S' j) \/
     (r_rc r = OK /\ exists k, new_key client kid S k /\ r_id r = to_client (kc C) k /\
      vw S' k = Some (mkSlot (req_meta k fl (len key) lb) key false) /\ forall j, j <> 0 -> j <> k -> kept C S S' j))).
  { clear r S'. intros r S'. destruct (pick_id C true S (fc client kid)) as [rc k] eqn:P. specialize (X rc k eq_refl).
    destruct (is_ok rc) eqn:O; cbn [negb].
    2:{ intros H; injection H as <- <-. apply is_ok_false in O. split; [auto|]. split; [auto|]. split; [auto|]. left. split; [exact O|]. intros; apply kept_refl. }
    apply is_ok_iff in O. destruct (if dma then _ else _) as [rc1 S1] eqn:F. destruct (X O) as [NK SK]. intros H; injection H as <- <-.
    pose proof NK as (NZ & _ & _ & _ & V & _).
    destruct (kept_fresh _ _ _ _ _ SK V) as (W1 & T1 & K1 & F1 & O1).
    split; [auto|]. split; [exact (put_good C S S1 k rc1 (req_meta k fl (len key) lb) key G eq_refl NZ SK)|]. split; [auto|].
    destruct (is_ok rc1) eqn:OO; [apply is_ok_iff in OO; right|apply is_ok_false in OO; left].
    - split; [reflexivity|]. exists k. auto.
    - split; [exact OO|]. intros j NJ. destruct (N.eq_dec j k) as [->|NE]; auto. left. auto. }
  intros H. apply Y. rewrite <- H. destruct dma; unfold h_cache, h_cache_dma; rewrite U; destruct (pick_id C true S (fc client kid)) as [rc k]; [|reflexivity].
  cbv zeta. cbn [v_dma v_mem]. rewrite land16 by auto. rewrite to_nat_len, exactly_all. reflexivity.
Qed.

Lemma import_eff DL e client c kid key S rc id S' : wf S -> good C S -> 1 <= client <= 15 -> kid_erased kid = true -> len key < 65536 ->
  import C DL e client c kid key S = (rc, id, S') ->
  wf S' /\ good C S' /\ k_st S' = k_st S /\
  (rc <> OK -> h_recv (v_imp e) = OK -> forall j, j <> 0 -> kept C S S' j) /\
  (rc = OK -> exists k, new_key client kid S k /\ id = to_client (kc C) k /\
      vw S' k = Some (mkSlot (req_meta k (import_flags c) (len key) (v_label e)) key false) /\ forall j, j <> 0 -> j <> k -> kept C S S' j).
Proof.
  intros W G CL E LK. unfold import.
  assert (X : forall rc0, is_ok rc0 = false -> (rc0, kid, S) = (rc, id, S') ->
    wf S' /\ good C S' /\ k_st S' = k_st S /\
    (rc <> OK -> h_recv (v_imp e) = OK -> forall j, j <> 0 -> kept C S S' j) /\
    (rc = OK -> exists k, new_key client kid S k /\ id = to_client (kc C) k /\
      vw S' k = Some (mkSlot (req_meta k (import_flags c) (len key) (v_label e)) key false) /\ forall j, j <> 0 -> j <> k -> kept C S S' j)).
  { intros rc0 O H. injection H as <- <- <-. apply is_ok_false in O. split; [auto|]. split; [auto|]. split; [auto|].
    split; [intros _ _ j _; apply kept_refl|]. contradiction. }
  destruct (is_ok (v_ser e)) eqn:O1; cbn [negb]; [|apply X; auto].
  destruct (dma_key c && negb (is_ok (v_idma e))) eqn:O2; [apply X; apply Bool.andb_true_iff in O2 as [_ O2]; apply Bool.negb_true_iff in O2; exact O2|].
  destruct (negb (dma_key c) && _) eqn:O3; [apply X; reflexivity|]. cbv zeta.
  destruct (is_ok (h_send (v_imp e))) eqn:O4; cbn [negb]; [|apply X; auto]. clear X.
  destruct (if negb (is_ok (h_auth (v_imp e))) then _ else _) as [r S1] eqn:F.
  assert (Y : wf S1 /\ good C S1 /\ k_st S1 = k_st S /\
  ((r_rc r <> OK /\ forall j, j <> 0 -> kept C S S1 j) \/
   (r_rc r = OK /\ exists k, new_key client kid S k /\ r_id r = to_client (kc C) k /\
      vw S1 k = Some (mkSlot (req_meta k (import_flags c) (len key) (v_label e)) key false) /\ forall j, j <> 0 -> j <> k -> kept C S S1 j))).
  { destruct (is_ok (h_auth (v_imp e))) eqn:O5; cbn [negb] in F.
    2:{ injection F as <- <-. split; [auto|]. split; [auto|]. split; [auto|]. left. apply is_ok_false in O5. split; [exact O5|]. intros; apply kept_refl. }
    destruct (is_ok (h_lock (v_imp e))) eqn:O6; cbn [negb] in F.
    2:{ injection F as <- <-. split; [auto|]. split; [auto|]. split; [auto|]. left. apply is_ok_false in O6. split; [exact O6|]. intros; apply kept_refl. }
    eapply (cached_new (dma_key c)); eauto. }
  destruct Y as (W1 & G1 & T1 & Y). destruct (is_ok (h_recv (v_imp e))) eqn:O5; cbn [negb].
  2:{ intros H; injection H as <- <- <-. apply is_ok_false in O5. split; [auto|]. split; [auto|]. split; [auto|]. split; [contradiction|contradiction]. }
  destruct (is_ok (r_rc r)) eqn:O6; intros H; injection H as <- <- <-; (split; [auto|]; split; [auto|]; split; [auto|]).
  - split; [congruence|]. intros _. apply is_ok_iff in O6. destruct Y as [[Y _]|[_ Y]]; [contradiction|exact Y].
  - apply is_ok_false in O6. split; [|contradiction]. intros _ _. destruct Y as [[_ Y]|[Y _]]; [exact Y|contradiction].
Qed.

(** ** The key in use *)
Lemma use_cached S k u s : wf S -> good C S -> kid_erased k = false -> hwkey C k = false -> vw S k = Some s ->
  use_key C S k u = if is_ok (enforce (m_flags (sl_meta s)) u) then (OK, S, sl_buf s) else (USAGE, S, []).
Proof.
  intros W G E HW V. unfold use_key. rewrite E. unfold freshen. rewrite (unassigned_erased _ E), HW.
  rewrite V. change (is_ok OK) with true. cbn [negb]. rewrite V. unfold enforce. destruct (N.eqb _ _); reflexivity.
Qed.

Lemma freshen_current S k rc S' : wf S -> good C S -> freshen C S k = (rc, S') -> current C S' k = current C S k.
Proof.
  intros W G H. destruct (freshen_eff C S k rc S' W G H) as (_ & T & _ & K & F). unfold current. rewrite T.
  destruct (is_ok rc) eqn:O; [apply is_ok_iff in O|apply is_ok_false in O].
  - destruct (K O) as (_ & _ & [(s & V & ->)|(V & _ & m & d & N1 & _ & V')]); [rewrite V; reflexivity|]. rewrite V, V', N1. reflexivity.
  - rewrite (F O). reflexivity.
Qed.
Lemma use_key_current S k u rc S' d : wf S -> good C S -> use_key C S k u = (rc, S', d) -> current C S' k = current C S k.
Proof.
  intros W G. unfold use_key. destruct (kid_erased k); [intros H; injection H as _ <- _; reflexivity|].
  destruct (freshen C S k) as [r1 S1] eqn:F. pose proof (freshen_current _ _ _ _ W G F) as CU.
  destruct (is_ok r1); cbn [negb]; [|intros H; injection H as _ <- _; exact CU].
  destruct (vw S1 k); [|intros H; injection H as _ <- _; exact CU].
  destruct (is_ok _); intros H; injection H as _ <- _; exact CU.
Qed.
Lemma use_key_full S k u rc S' d : wf S -> good C S -> use_key C S k u = (rc, S', d) ->
  wf S' /\ good C S' /\ k_st S' = k_st S /\ (forall j, j <> 0 -> fr C S S' j) /\ current C S' k = current C S k /\
  (rc = OK -> exists m, enforce (m_flags m) u = OK /\ current C S k = Some (m, d)) /\ (rc <> OK -> d = []).
Proof.
  intros W G H. pose proof (use_key_current _ _ _ _ _ _ W G H) as CU.
  destruct (use_key_eff C S k u rc S' d W G H) as (W1 & T1 & F1 & K1 & D1).
  split; [auto|]. split; [apply (fr_good C S S'); auto|]. split; [auto|]. split; [auto|]. split; [auto|]. split; [|auto].
  intros O. destruct (K1 O) as (m & EN & X). exists m. split; [auto|]. unfold current.
  destruct X as [[X|X]|(X & _ & X')]; rewrite X; auto.
Qed.

Lemma load_eff e o k S rc S' d : wf S -> good C S -> load C e o k S = (rc, S', d) ->
  wf S' /\ good C S' /\ k_st S' = k_st S /\ (forall j, j <> 0 -> fr C S S' j) /\
  (rc = OK -> exists m u, In u (usages o) /\ enforce (m_flags m) u = OK /\ current C S k = Some (m, d)) /\ (rc <> OK -> d = []).
Proof.
  intros W G. unfold load. destruct (negb (lock_free o) && negb (is_ok (h_lock (v_op e)))) eqn:L.
  { intros H; injection H as <- <- <-. split; [auto|]. split; [auto|]. split; [auto|]. split; [intros; apply fr_refl|]. split; [|auto].
    intros O. rewrite O in L. change (is_ok OK) with true in L. rewrite Bool.andb_false_r in L. discriminate. }
  clear L. destruct (usages o) as [|u rest] eqn:US.
  { intros H; injection H as <- <- <-. split; [auto|]. split; [auto|]. split; [auto|]. split; [intros; apply fr_refl|]. split; [discriminate|auto]. }
  destruct (use_key C S k u) as [[r1 S1] d1] eqn:U1. destruct (use_key_full _ _ _ _ _ _ W G U1) as (W1 & G1 & T1 & F1 & C1 & K1 & D1).
  assert (X : (r1, S1, d1) = (rc, S', d) -> wf S' /\ good C S' /\ k_st S' = k_st S /\ (forall j, j <> 0 -> fr C S S' j) /\
    (rc = OK -> exists m u', In u' (u :: rest) /\ enforce (m_flags m) u' = OK /\ current C S k = Some (m, d)) /\ (rc <> OK -> d = [])).
  { intros H; injection H as <- <- <-. split; [auto|]. split; [auto|]. split; [auto|]. split; [auto|]. split; [|auto].
    intros O. destruct (K1 O) as (m & E1 & E2). exists m, u. split; [left; auto|]. auto. }
  destruct rest as [|u2 rest]; [exact X|]. destruct (Z.eqb r1 USAGE); [|exact X]. clear X.
  intros U2. destruct (use_key_full _ _ _ _ _ _ W1 G1 U2) as (W2 & G2 & T2 & F2 & C2 & K2 & D2).
  split; [auto|]. split; [auto|]. split; [congruence|]. split; [intros j NJ; eapply fr_trans; eauto|]. split; [|auto].
  intros O. destruct (K2 O) as (m & E1 & E2). exists m, u2. split; [right; left; auto|]. split; [auto|]. congruence.
Qed.

Lemma flags_suffice c o k n lb : asks c = Some o ->
  exists u rest, usages o = u :: rest /\ enforce (m_flags (req_meta k (import_flags c) n lb)) u = OK.
Proof.
  assert (R : forall ty, ty < 4 -> ty = 0 \/ ty = 1 \/ ty = 2 \/ ty = 3) by (intros; lia).
  destruct c as [ty i cap| | | | | |[] ? ? ? ?|[] ? ? ? ?| | | | ]; intros H.
  { assert (T : ty < 4). { destruct ty as [|[[|[]|]|[|[]|]|]]; try discriminate; reflexivity. }
    destruct (R ty T) as [E|[E|[E|E]]]; subst ty; injection H as <-; do 2 eexists; split; reflexivity. }
  all: injection H as <-; do 2 eexists; split; reflexivity.
Qed.
Lemma asks_known c o : asks c = Some o -> known_rsa c.
Proof.
  destruct c; cbn [known_rsa]; auto. intros H. destruct ty as [|[[|[]|]|[|[]|]|]]; try discriminate; reflexivity.
Qed.

Lemma load_new e c o k n lb key cm S : asks c = Some o -> wf S -> good C S -> kid_erased k = false -> hwkey C k = false ->
  vw S k = Some (mkSlot (req_meta k (import_flags c) n lb) key cm) ->
  load C e o k S = if lock_free o || is_ok (h_lock (v_op e)) then (OK, S, key) else (h_lock (v_op e), S, []).
Proof.
  intros A W G E HW V. unfold load. destruct (lock_free o), (is_ok (h_lock (v_op e))); cbn [negb andb orb]; try reflexivity.
  all: destruct (flags_suffice c o k n lb A) as (u & rest & US & EN); rewrite US, (use_cached _ _ u _ W G E HW V); cbn [sl_meta sl_buf];
    rewrite EN; change (is_ok OK) with true; cbv iota; destruct rest; reflexivity.
Qed.

(** ** The handler *)
Variable DL : N.
Variable level_ok : N -> bool.
Variable alg : cop -> list N -> list (list N) -> list N -> Z * list N.
Notation serve := (serve C DL level_ok alg).
Notation pk_call := (pk_call C DL level_ok alg).

Lemma out_ok rc (out : list N) : (rc = OK -> (if is_ok rc then out else []) = out) /\ (rc <> OK -> (if is_ok rc then out else []) = []).
Proof. destruct (is_ok rc) eqn:O; [apply is_ok_iff in O|apply is_ok_false in O]; split; congruence. Qed.

Lemma serve_named e client m S rc out S' : wf S -> good C S -> q_evict m = false -> serve e client m S = (rc, out, S') ->
  wf S' /\ good C S' /\ k_st S' = k_st S /\ (forall j, j <> 0 -> fr C S S' j) /\ (rc <> OK -> out = []) /\
  (rc = OK -> (exists o ps args d mt u, parse DL level_ok m = Go o ps args /\ alg o ps args d = (OK, out) /\
     In u (usages o) /\ enforce (m_flags mt) u = OK /\ current C S (fc client (q_key m)) = Some (mt, d)) \/
     parse DL level_ok m = Refuse OK \/ parse DL level_ok m = Clean OK).
Proof.
  intros W G QE. unfold PkModel.serve. rewrite QE. set (k := fc client (q_key m)). cbv zeta.
  assert (Z : forall r0, (r0 = OK -> False) -> forall o0, (forall S0, S0 = S -> (r0, (if is_ok r0 then o0 else []), S0) = (rc, out, S') ->
    wf S' /\ good C S' /\ k_st S' = k_st S /\ (forall j, j <> 0 -> fr C S S' j) /\ (rc <> OK -> out = []) /\ (rc = OK -> False))).
  { intros r0 N0 o0 S0 -> H. injection H as <- <- <-. split; [auto|]. split; [auto|]. split; [auto|]. split; [intros; apply fr_refl|].
    split; [apply out_ok|auto]. }
  destruct (parse DL level_ok m) as [r0|r0|o ps args] eqn:P.
  - intros H; injection H as <- <- <-. split; [auto|]. split; [auto|]. split; [auto|]. split; [intros; apply fr_refl|].
    split; [auto|]. intros ->. auto.
  - intros H; injection H as <- <- <-. split; [auto|]. split; [auto|]. split; [auto|]. split; [intros; apply fr_refl|].
    split; [apply out_ok|]. intros ->. auto.
  - destruct (dma_first m && negb (is_ok (v_sdma e))) eqn:D1.
    { apply Bool.andb_true_iff in D1 as [_ D1]. apply Bool.negb_true_iff, is_ok_false in D1. intros H.
      destruct (Z _ D1 _ S eq_refl H) as (? & ? & ? & ? & ? & F). repeat (split; [assumption|]). intros O. destruct (F O). }
    destruct (is_ok (v_init e)) eqn:I1; cbn [negb].
    2:{ apply is_ok_false in I1. destruct (init_returns m).
        - intros H; injection H as <- <- <-. split; [auto|]. split; [auto|]. split; [auto|]. split; [intros; apply fr_refl|]. split; [auto|]. contradiction.
        - intros H; injection H as <- <- <-. split; [auto|]. split; [auto|]. split; [auto|]. split; [intros; apply fr_refl|]. split; [auto|]. contradiction. }
    clear Z. destruct (load C e o k S) as [[r1 S1] d] eqn:L. destruct (load_eff _ _ _ _ _ _ _ W G L) as (W1 & G1 & T1 & F1 & K1 & D2).
    destruct (is_ok r1) eqn:O1; cbn [negb].
    2:{ apply is_ok_false in O1. intros H; injection H as <- <- <-. split; [auto|]. split; [auto|]. split; [auto|]. split; [auto|]. split; [auto|contradiction]. }
    apply is_ok_iff in O1. destruct (K1 O1) as (mt & u & IU & EN & CU).
    destruct (dma_then m && negb (is_ok (v_sdma e))) eqn:D3.
    { apply Bool.andb_true_iff in D3 as [_ D3]. apply Bool.negb_true_iff, is_ok_false in D3.
      intros H; injection H as <- <- <-. split; [auto|]. split; [auto|]. split; [auto|]. split; [auto|]. split; [apply out_ok|contradiction]. }
    destruct (alg o ps args d) as [r2 o2] eqn:A. intros H; injection H as <- <- <-.
    split; [auto|]. split; [auto|]. split; [auto|]. split; [auto|]. split; [apply out_ok|]. intros ->.
    left. exists o, ps, args, d, mt, u. auto.
Qed.

(** With the imported key: what comes out, and that the handler ends with the eviction. *)
Lemma serve_new e client c id n lb key cm k S rc out S' : wf S -> good C S -> well_typed c -> known_rsa c -> proper c ->
  fc client id = k -> kid_erased k = false -> hwkey C k = false ->
  vw S k = Some (mkSlot (req_meta k (import_flags c) n lb) key cm) ->
  serve e client (build c id true) S = (rc, out, S') ->
  ((match c with MlVer true _ _ _ _ _ => v_init e = OK | _ => True end) -> exists free, S' = drop C e free k (v_gap2 e S)) /\
  (rc <> OK -> out = []) /\
  (rc = OK -> exists o, asks c = Some o /\ alg o (parameters DL c) (inputs c) key = (OK, out)).
Proof.
  intros W G WT KR PR FC E HW V. unfold PkModel.serve. rewrite (parse_build DL level_ok c id true WT KR PR).
  destruct (known_asks c KR) as [o A]. rewrite A at 1. cbn [build q_evict q_key]. rewrite FC. cbv zeta. set (m := build c id true).
  assert (Z : forall free r0 o0, (r0, (if is_ok r0 then o0 else []), drop C e free k (v_gap2 e S)) = (rc, out, S') ->
    (r0 = OK -> alg o (parameters DL c) (inputs c) key = (OK, o0)) ->
    ((match c with MlVer true _ _ _ _ _ => v_init e = OK | _ => True end) -> exists free, S' = drop C e free k (v_gap2 e S)) /\
    (rc <> OK -> out = []) /\
    (rc = OK -> exists o, asks c = Some o /\ alg o (parameters DL c) (inputs c) key = (OK, out))).
  { intros free r0 o0 H K. injection H as <- <- <-. split; [eauto|]. split; [apply out_ok|]. intros O. exists o. split; [exact A|].
    rewrite (proj1 (out_ok r0 o0) O). auto. }
  assert (GO : (if dma_first m && negb (is_ok (v_sdma e))
     then (v_sdma e, if is_ok (v_sdma e) then [] else [], drop C e (lock_free o) k (v_gap2 e S))
     else if negb (is_ok (v_init e))
       then if init_returns m then (v_init e, [], S)
            else (v_init e, if is_ok (v_init e) then [] else [], drop C e (lock_free o) k (v_gap2 e S))
       else let '(rc0, S1, d) := load C e o k S in
         if negb (is_ok rc0) then (rc0, if is_ok rc0 then [] else [], drop C e (lock_free o) k (v_gap2 e S1)) else
         if dma_then m && negb (is_ok (v_sdma e)) then (v_sdma e, if is_ok (v_sdma e) then [] else [], drop C e (lock_free o) k (v_gap2 e S1)) else
         let '(rc1, out0) := alg o (parameters DL c) (inputs c) d in
         (rc1, if is_ok rc1 then out0 else [], drop C e (lock_free o) k (v_gap2 e S1))) = (rc, out, S') ->
    ((match c with MlVer true _ _ _ _ _ => v_init e = OK | _ => True end) -> exists free, S' = drop C e free k (v_gap2 e S)) /\
    (rc <> OK -> out = []) /\
    (rc = OK -> exists o, asks c = Some o /\ alg o (parameters DL c) (inputs c) key = (OK, out))).
  { destruct (dma_first m && negb (is_ok (v_sdma e))) eqn:D1.
    { apply Bool.andb_true_iff in D1 as [_ D1]. apply Bool.negb_true_iff, is_ok_false in D1. intros H. apply (Z _ _ _ H). contradiction. }
    destruct (is_ok (v_init e)) eqn:I1; cbn [negb].
    2:{ apply is_ok_false in I1. destruct (init_returns m) eqn:IR.
        - intros H; injection H as <- <- <-. split; [|split; [auto|contradiction]].
          destruct c as [| | | | | |[]|[]|[]|[]|[]|[]]; try discriminate. contradiction.
        - intros H. apply (Z (lock_free o) (v_init e) []); [destruct (is_ok (v_init e)); exact H|contradiction]. }
    rewrite (load_new e c o k n lb key cm S A W G E HW V). destruct (lock_free o || is_ok (h_lock (v_op e))) eqn:LK; cbn beta iota.
    2:{ apply Bool.orb_false_iff in LK as [_ LK]. rewrite LK. cbn [negb]. intros H. apply (Z (lock_free o) (h_lock (v_op e)) []); [rewrite LK; exact H|].
        intros O. rewrite O in LK. discriminate. }
    change (is_ok OK) with true. cbn [negb].
    destruct (dma_then m && negb (is_ok (v_sdma e))) eqn:D3.
    { apply Bool.andb_true_iff in D3 as [_ D3]. apply Bool.negb_true_iff, is_ok_false in D3. intros H. apply (Z _ _ _ H). contradiction. }
    destruct (alg o (parameters DL c) (inputs c) key) as [r2 o2] eqn:AL. intros H. apply (Z _ _ _ H). intros ->. reflexivity. }
  destruct c as [| | | | | | | | | |dma lv cap|dma lv ct]; [exact GO..| |]; destruct (level_ok lv); try exact GO; intros H; apply (Z false BADARGS []); try exact H; discriminate.
Qed.

(** ** The call *)
Definition gap_ok (g : ks -> ks) (j : N) : Prop :=
  forall S0, wf S0 -> good C S0 -> wf (g S0) /\ good C (g S0) /\ vw (g S0) j = vw S0 j.

Lemma plain_flags c k n lb : known_rsa c ->
  has (m_flags (req_meta k (import_flags c) n lb)) (N.lor F_NONMODIFIABLE F_NONDESTROYABLE) = false.
Proof.
  destruct c as [ty i cap| | | | | |[] ? ? ? ?|[] ? ? ? ?| | | | ]; intros KR; try reflexivity. cbn [known_rsa] in KR.
  assert (T : ty = 0 \/ ty = 1 \/ ty = 2 \/ ty = 3) by (clear - KR; lia). destruct T as [T|[T|[T|T]]]; subst ty; reflexivity.
Qed.
Lemma manual_new e client c id k n lb key cm S : known_rsa c -> fc client id = k -> kid_erased k = false -> hwkey C k = false ->
  vw S k = Some (mkSlot (req_meta k (import_flags c) n lb) key cm) ->
  h_send (v_man e) = OK -> h_auth (v_man e) = OK -> h_lock (v_man e) = OK ->
  manual_evict C e client id S = snd (evict_key C S k).
Proof.
  intros KR FC E HW V M1 M2 M3. unfold manual_evict. rewrite M1, M2, M3. change (is_ok OK) with true. cbn [andb]. rewrite FC.
  unfold evict_checked. replace (check_ks C OpEvict S k) with OK; [reflexivity|]. unfold check_ks. rewrite (unassigned_erased _ E), HW, V.
  change (is_ok OK) with true. cbv zeta. cbn [negb sl_meta]. pose proof (plain_flags c k n lb KR) as P.
  rewrite (req_meta_trusted k (import_flags c) n lb), P. destruct (committed C S k); reflexivity.
Qed.
Lemma evict_vw S k j : wf S -> kid_erased k = false -> hwkey C k = false -> j <> 0 ->
  k_st (snd (evict_key C S k)) = k_st S /\ vw (snd (evict_key C S k)) j = if N.eqb j k then None else vw S j.
Proof.
  intros W E HW NJ. destruct (evict_key C S k) as [rc S'] eqn:H. destruct (evict_key_eff C S k rc S' W H) as (_ & T & _ & _ & N1 & O). cbn [snd].
  split; [auto|]. destruct (N.eqb_spec j k) as [->|NE]; auto. apply N1; auto. apply unassigned_erased; auto.
Qed.

(** One call with a key to import, up to the handler. *)
Lemma call_cases e client c kid key S r S' : wf S -> good C S -> 1 <= client <= 15 -> kid_erased kid = true -> len key < 65536 ->
  pk_call e client c kid key S = (r, S') -> r <> Overrun ->
  (exists rc, rc <> OK /\ r = Done rc [] /\ S' = S) \/
  (exists rc id S1, rc <> OK /\ import C DL e client c kid key S = (rc, id, S1) /\ r = Done (mapped c rc) [] /\ S' = v_gap1 e S1) \/
  (proper c /\ exists id S1, import C DL e client c kid key S = (OK, id, S1) /\
     ((exists rc, rc <> OK /\ r = Done rc [] /\ S' = manual_evict C e client id (v_gap1 e S1)) \/
      (exists rc, rc <> OK /\ h_auth (v_op e) <> OK /\ r = Done rc [] /\ S' = v_gap1 e S1) \/
      (request_bytes c <= DL /\ h_auth (v_op e) = OK /\ exists rc out, serve e client (build c id true) (v_gap1 e S1) = (rc, out, S') /\
         ((h_recv (v_op e) = OK /\ r = Done (mapped c rc) out) \/ (exists rc', rc' <> OK /\ r = Done rc' []))))).
Proof.
  intros W G CL E LK. unfold PkModel.pk_call. destruct (refused_first DL c) eqn:RF.
  { intros H _; injection H as <- <-. left. exists BADARGS. split; [discriminate|auto]. }
  pose proof (first_ok DL level_ok c RF) as PR. rewrite E. destruct (import C DL e client c kid key S) as [[rc id] S1] eqn:IM.
  assert (MP : forall x, x <> OK -> mapped c x <> OK).
  { intros x NX. unfold mapped. destruct c; auto; destruct (Z.eqb x ASN_PARSE_E); auto; discriminate. }
  destruct (is_ok rc) eqn:O; cbv iota zeta; cbn [negb].
  2:{ apply is_ok_false in O. intros H _; injection H as <- <-. right. left. exists rc, id, S1. auto. }
  apply is_ok_iff in O. subst rc. change (is_ok OK) with true. cbn [negb]. intros H NO. right. right. split; [exact PR|]. exists id, S1. split; [auto|]. revert H NO.
  destruct (DL <? sum c) eqn:L1.
  { intros H _; injection H as <- <-. left. exists (mapped c BADARGS). split; [apply MP; discriminate|auto]. }
  rewrite size_ok. destruct (DL <? request_bytes c) eqn:L2.
  { intros H NO. injection H as <- <-. congruence. }
  apply N.ltb_ge in L2. destruct (is_dma c && negb (is_ok (v_cdma e))) eqn:DM.
  { intros H _; injection H as <- <-. left. apply Bool.andb_true_iff in DM as [_ DM]. apply Bool.negb_true_iff, is_ok_false in DM.
    exists (mapped c (v_cdma e)). split; [apply MP; exact DM|auto]. }
  destruct (is_ok (h_send (v_op e))) eqn:SE; cbn [negb].
  2:{ apply is_ok_false in SE. intros H _; injection H as <- <-. left. exists (mapped c (h_send (v_op e))). split; [apply MP; exact SE|auto]. }
  destruct (is_ok (h_auth (v_op e))) eqn:AU; cbn [negb].
  2:{ apply is_ok_false in AU. intros H _. right. left. destruct (is_ok (h_recv (v_op e))) eqn:RE; cbn [negb] in H; injection H as <- <-.
      - exists (mapped c (h_auth (v_op e))). split; [apply MP; exact AU|auto].
      - apply is_ok_false in RE. exists (mapped c (h_recv (v_op e))). split; [apply MP; exact RE|auto]. }
  apply is_ok_iff in AU. destruct (serve e client (build c id true) (v_gap1 e S1)) as [[rc out] S2] eqn:SV.
  intros H _. right. right. split; [exact L2|]. split; [exact AU|]. destruct (is_ok (h_recv (v_op e))) eqn:RE; cbn [negb] in H; injection H as <- <-.
  - exists rc, out. split; [reflexivity|]. left. apply is_ok_iff in RE. auto.
  - exists rc, out. split; [reflexivity|]. right. exists (mapped c (h_recv (v_op e))). split; [|auto]. apply is_ok_false in RE. apply MP. exact RE.
Qed.

Lemma call_kept e client c kid key S rc out S' j : wf S -> good C S -> 1 <= client <= 15 -> kid_erased kid = true -> len key < 65536 ->
  well_typed c -> known_rsa c ->
  (forall k, new_key client kid S k -> gap_ok (v_gap1 e) k) -> gap_ok (v_gap1 e) j -> gap_ok (v_gap2 e) j -> j <> 0 ->
  h_recv (v_imp e) = OK -> h_auth (v_op e) = OK -> v_elock e = OK ->
  (match c with MlVer true _ _ _ _ _ => v_init e = OK | _ => True end) ->
  h_send (v_man e) = OK -> h_auth (v_man e) = OK -> h_lock (v_man e) = OK ->
  pk_call e client c kid key S = (Done rc out, S') ->
  kept C S S' j /\
  ((forall S0, k_st (v_gap1 e S0) = k_st S0) -> (forall S0, k_st (v_gap2 e S0) = k_st S0) -> k_st S' = k_st S).
Proof.
  intros W G CL E LK WT KR GK GJ1 GJ2 NJ HI HA HE HV M1 M2 M3 H.
  destruct (call_cases e client c kid key S _ S' W G CL E LK H ltac:(discriminate)) as
    [(rc0 & _ & _ & ->)|[(rc0 & id & S1 & N0 & IM & _ & ->)|(PR & id & S1 & IM & X)]].
  - split; [apply kept_refl|auto].
  - destruct (import_eff DL e client c kid key S _ _ _ W G CL E LK IM) as (W1 & G1 & T1 & K1 & _).
    destruct (GJ1 S1 W1 G1) as (_ & _ & V1). split; [|intros P1 P2; rewrite P1; auto]. eapply kept_trans; [apply K1; auto|exact V1].
  - destruct (import_eff DL e client c kid key S _ _ _ W G CL E LK IM) as (W1 & G1 & T1 & _ & K1).
    destruct (K1 eq_refl) as (k & NK & -> & V & O). destruct (GK k NK S1 W1 G1) as (W2 & G2 & V2). rewrite V in V2.
    destruct (GJ1 S1 W1 G1) as (_ & _ & VJ1).
    pose proof NK as (NZ & FC & KE & HW & VN & _).
    assert (FIN : forall S0, wf S0 -> vw S0 j = vw (v_gap1 e S1) j -> kept C S (snd (evict_key C S0 k)) j /\ k_st (snd (evict_key C S0 k)) = k_st S0).
    { intros S0 W0 V0. destruct (evict_vw S0 k j W0 KE HW NJ) as [T0 EV]. split; [|exact T0].
      destruct (N.eqb_spec j k) as [->|NE]; [left; congruence|].
      eapply kept_trans; [apply O; auto|]. congruence. }
    destruct X as [(rc0 & _ & _ & ->)|[(rc0 & _ & NA & _)|(LE & _ & rc1 & out1 & SV & _)]].
    + rewrite (manual_new e client c _ k _ _ _ _ _ KR FC KE HW V2 M1 M2 M3). destruct (FIN _ W2 eq_refl) as [F1 F2]. split; [exact F1|].
      intros P1 P2. rewrite F2, P1. auto.
    + contradiction.
    + destruct (serve_new e client c _ _ _ _ _ k _ _ _ _ W2 G2 WT KR PR FC KE HW V2 SV) as (SD & _ & _).
      destruct (SD HV) as [free ->]. unfold drop. rewrite HE. change (is_ok OK) with true. rewrite Bool.orb_true_r.
      destruct (GJ2 _ W2 G2) as (W3 & G3 & V3). destruct (FIN _ W3 V3) as [F1 F2]. split; [exact F1|]. intros P1 P2. rewrite F2, P2, P1. auto.
Qed.

Lemma mapped_ok c rc : mapped c rc = OK -> rc = OK.
Proof. unfold mapped. destruct c; auto; destruct (Z.eqb rc ASN_PARSE_E) eqn:A; auto; discriminate. Qed.

Lemma known_dec c : known_rsa c \/ ~ known_rsa c.
Proof. destruct c; cbn [known_rsa]; auto. clear. lia. Qed.
Lemma parse_unknown c id ev : ~ known_rsa c -> parse DL level_ok (build c id ev) = Refuse BAD_FUNC_ARG.
Proof.
  destruct c; cbn [known_rsa]; intros H; try (destruct H; exact I). unfold parse, build; cbn [q_body q_fields body]. rewrite N.ltb_irrefl. unfold rsa_op.
  destruct (N.eqb_spec ty 0); [destruct H; clear - e; lia|]. destruct (N.eqb_spec ty 1); [destruct H; clear - e; lia|].
  destruct (N.eqb_spec ty 2); [destruct H; clear - e; lia|]. destruct (N.eqb_spec ty 3); [destruct H; clear - e; lia|]. reflexivity.
Qed.

Lemma call_result e client c kid key S out S' : wf S -> good C S -> 1 <= client <= 15 -> kid_erased kid = true -> len key < 65536 ->
  well_typed c -> (forall k, new_key client kid S k -> gap_ok (v_gap1 e) k) ->
  pk_call e client c kid key S = (Done OK out, S') ->
  exists o, asks c = Some o /\ alg o (parameters DL c) (inputs c) key = (OK, out).
Proof.
  intros W G CL E LK WT GK H.
  destruct (call_cases e client c kid key S _ S' W G CL E LK H ltac:(discriminate)) as
    [(rc0 & N0 & R & _)|[(rc0 & id & S1 & N0 & IM & R & _)|(PR & id & S1 & IM & X)]].
  - injection R as R _. congruence.
  - injection R as R _. symmetry in R. apply mapped_ok in R. contradiction.
  - destruct (import_eff DL e client c kid key S _ _ _ W G CL E LK IM) as (W1 & G1 & T1 & _ & K1).
    destruct (K1 eq_refl) as (k & NK & -> & V & O). destruct (GK k NK S1 W1 G1) as (W2 & G2 & V2). rewrite V in V2.
    pose proof NK as (NZ & FC & KE & HW & VN & _).
    destruct X as [(rc0 & N0 & R & _)|[(rc0 & N0 & _ & R & _)|(LE & _ & rc1 & out1 & SV & X)]].
    + injection R as R _. congruence.
    + injection R as R _. congruence.
    + destruct X as [[_ R]|(rc0 & N0 & R)]; [|injection R as R _; congruence].
      injection R as R <-. symmetry in R. apply mapped_ok in R. destruct (known_dec c) as [KR|KR].
      * destruct (serve_new e client c _ _ _ _ _ k _ _ _ _ W2 G2 WT KR PR FC KE HW V2 SV) as (_ & _ & RS). auto.
      * revert SV. unfold PkModel.serve. rewrite (parse_unknown c _ _ KR). intros SV. injection SV as <- _ _. discriminate.
Qed.

(** An error comes without output. *)
Lemma serve_error e client m S rc out S' : serve e client m S = (rc, out, S') -> rc <> OK -> out = [].
Proof.
  unfold PkModel.serve. cbv zeta. intros H N0.
  assert (Z : forall r0 o0 S0, (r0, (if is_ok r0 then o0 else []), S0) = (rc, out, S') -> out = []).
  { intros r0 o0 S0 Q. injection Q as <- <- <-. apply out_ok. exact N0. }
  destruct (parse DL level_ok m) as [r0|r0|o ps args]; [injection H as _ <- _; reflexivity|eapply Z; exact H|].
  destruct (dma_first m && _); [eapply Z; exact H|]. destruct (negb (is_ok (v_init e))).
  { destruct (init_returns m); [injection H as _ <- _; reflexivity|eapply Z; exact H]. }
  destruct (load C e o _ S) as [[r1 S1] d]. destruct (negb (is_ok r1)); [eapply Z; exact H|]. destruct (dma_then m && _); [eapply Z; exact H|].
  destruct (alg o ps args d) as [r2 o2]. eapply Z; exact H.
Qed.
Lemma call_error e client c kid key S rc out S' : pk_call e client c kid key S = (Done rc out, S') -> rc <> OK -> out = [].
Proof.
  intros H N0. revert H. unfold PkModel.pk_call. destruct (refused_first DL c); [intros H; injection H as _ <- _; reflexivity|].
  destruct (if kid_erased kid then _ else _) as [[[rc0 id] tmp] S1]. cbv zeta.
  destruct (negb (is_ok rc0)); [intros H; injection H as _ <- _; reflexivity|].
  destruct (DL <? sum c); [intros H; injection H as _ <- _; reflexivity|].
  destruct (DL <? _); [discriminate|].
  destruct (is_dma c && _); [intros H; injection H as _ <- _; reflexivity|].
  destruct (negb (is_ok (h_send (v_op e)))); [intros H; injection H as _ <- _; reflexivity|].
  destruct (if negb (is_ok (h_auth (v_op e))) then _ else _) as [[rc1 out1] S2] eqn:SV.
  destruct (negb (is_ok (h_recv (v_op e)))); [intros H; injection H as _ <- _; reflexivity|].
  intros H. injection H as <- <- _. destruct (negb (is_ok (h_auth (v_op e)))); [injection SV as _ <- _; reflexivity|].
  apply (serve_error _ _ _ _ _ _ _ SV). intros ->. apply N0. destruct c; reflexivity.
Qed.

(** ** A key the server holds *)
Lemma call_named e client c kid key S r S' : wf S -> good C S -> kid_erased kid = false -> well_typed c ->
  pk_call e client c kid key S = (r, S') ->
  wf S' /\ good C S' /\ k_st S' = k_st S /\ (forall j, j <> 0 -> fr C S S' j) /\
  (forall out, r = Done OK out -> exists o m d, asks c = Some o /\ current C S (fc client kid) = Some (m, d) /\
     may_use o (m_flags m) = true /\ alg o (parameters DL c) (inputs c) d = (OK, out)).
Proof.
  intros W G E WT. unfold PkModel.pk_call.
  assert (Z : forall r0, (forall out, r0 <> Done OK out) -> (r0, S) = (r, S') ->
    wf S' /\ good C S' /\ k_st S' = k_st S /\ (forall j, j <> 0 -> fr C S S' j) /\
    (forall out, r = Done OK out -> exists o m d, asks c = Some o /\ current C S (fc client kid) = Some (m, d) /\
     may_use o (m_flags m) = true /\ alg o (parameters DL c) (inputs c) d = (OK, out))).
  { intros r0 N0 H. injection H as <- <-. split; [auto|]. split; [auto|]. split; [auto|]. split; [intros; apply fr_refl|].
    intros out R. destruct (N0 _ R). }
  assert (MP : forall x out o, x <> OK -> Done (mapped c x) o <> Done OK out).
  { intros x out o NX R. injection R as R _. apply mapped_ok in R. contradiction. }
  destruct (refused_first DL c) eqn:RF; [apply Z; discriminate|]. pose proof (first_ok DL level_ok c RF) as PR.
  rewrite E. cbv iota zeta. change (is_ok OK) with true. cbn [negb].
  destruct (DL <? sum c); [apply Z; intros; apply MP; discriminate|]. destruct (DL <? _); [apply Z; discriminate|].
  destruct (is_dma c && negb (is_ok (v_cdma e))) eqn:DM.
  { apply Bool.andb_true_iff in DM as [_ DM]. apply Bool.negb_true_iff, is_ok_false in DM. apply Z. intros; apply MP; exact DM. }
  destruct (is_ok (h_send (v_op e))) eqn:SE; cbn [negb]; [|apply is_ok_false in SE; apply Z; intros; apply MP; exact SE].
  destruct (is_ok (h_auth (v_op e))) eqn:AU; cbn [negb].
  2:{ destruct (is_ok (h_recv (v_op e))) eqn:RE; cbn [negb]; apply Z; intros; apply MP; apply is_ok_false; assumption. }
  destruct (serve e client (build c kid false) S) as [[rc out] S2] eqn:SV.
  destruct (serve_named e client (build c kid false) S rc out S2 W G eq_refl SV) as (W1 & G1 & T1 & F1 & D1 & K1).
  destruct (is_ok (h_recv (v_op e))) eqn:RE; cbn [negb]; intros H; injection H as <- <-; (split; [auto|]; split; [auto|]; split; [auto|]; split; [auto|]).
  2:{ intros out' R. apply is_ok_false in RE. destruct (MP _ _ _ RE R). }
  intros out' R. injection R as R <-. apply mapped_ok in R. subst rc. destruct (K1 eq_refl) as [(o & ps & args & d & m & u & P & A & IU & EN & CU)|X].
  - destruct (known_dec c) as [KR|KR]; [|rewrite (parse_unknown c _ _ KR) in P; discriminate].
    rewrite (parse_build DL level_ok c kid false WT KR PR) in P. destruct (known_asks c KR) as [o' A']. rewrite A' in P.
    assert (Q : Go o' (parameters DL c) (inputs c) = Go o ps args).
    { destruct c; try exact P; destruct (level_ok level); try exact P; discriminate. }
    injection Q as -> <- <-. exists o, m, d. split; [auto|]. split; [exact CU|]. split; [|auto].
    unfold may_use. apply existsb_exists. exists u. split; [auto|]. apply Z.eqb_eq. exact EN.
  - exfalso. destruct (known_dec c) as [KR|KR].
    + rewrite (parse_build DL level_ok c kid false WT KR PR) in X. destruct (known_asks c KR) as [o' A']. rewrite A' in X.
      destruct c; destruct X as [X|X]; try discriminate X; destruct (level_ok level); discriminate X.
    + rewrite (parse_unknown c _ _ KR) in X. destruct X as [X|X]; discriminate X.
Qed.

(** ** Completion *)
Lemma is_ok_eqb rc : is_ok rc = Z.eqb rc OK.
Proof. reflexivity. Qed.
Lemma mapped_reported c a : Done (mapped c (fst a)) (if is_ok (fst a) then snd a else []) = reported c a.
Proof.
  assert (X : forall a, Done (if Z.eqb (fst a) ASN_PARSE_E then BADARGS else fst a) (if is_ok (fst a) then snd a else []) =
     match a with ((-140)%Z, _) => Done BADARGS [] | (rc, out) => Done rc (if Z.eqb rc OK then out else []) end).
  { intros [rc out]. cbn [fst snd]. destruct (Z.eqb_spec rc ASN_PARSE_E) as [->|NE]; [reflexivity|].
    destruct rc as [|q|q]; try reflexivity.
    repeat (first [reflexivity | destruct q as [q|q|]]); destruct NE; reflexivity. }
  destruct a as [rc out]. destruct c; try reflexivity; apply X.
Qed.

Lemma load_cached e o k s S : wf S -> good C S -> kid_erased k = false -> hwkey C k = false -> vw S k = Some s ->
  h_lock (v_op e) = OK ->
  load C e o k S = if may_use o (m_flags (sl_meta s)) then (OK, S, sl_buf s) else (USAGE, S, []).
Proof.
  intros W G E HW V L. unfold load. rewrite L. change (is_ok OK) with true. rewrite Bool.andb_false_r. unfold may_use.
  destruct o; cbn [usages existsb]; rewrite (use_cached S k _ s W G E HW V), is_ok_eqb;
    match goal with |- context [Z.eqb (enforce ?f ?u) OK] => destruct (Z.eqb (enforce f u) OK) end; cbn [orb]; try reflexivity.
  all: change (Z.eqb USAGE USAGE) with true; cbv iota; rewrite (use_cached S k _ s W G E HW V), is_ok_eqb;
    match goal with |- context [Z.eqb (enforce ?f ?u) OK] => destruct (Z.eqb (enforce f u) OK) end; reflexivity.
Qed.

Lemma serve_done e client c id ev k s o S : wf S -> good C S -> well_typed c -> asks c = Some o -> proper c -> known_level level_ok c ->
  fc client id = k -> kid_erased k = false -> hwkey C k = false -> vw S k = Some s ->
  h_lock (v_op e) = OK -> v_init e = OK -> v_sdma e = OK ->
  exists S', serve e client (build c id ev) S =
    (if may_use o (m_flags (sl_meta s))
     then (fst (alg o (parameters DL c) (inputs c) (sl_buf s)),
           if is_ok (fst (alg o (parameters DL c) (inputs c) (sl_buf s))) then snd (alg o (parameters DL c) (inputs c) (sl_buf s)) else [], S')
     else (USAGE, [], S')).
Proof.
  intros W G WT A PR KL FC E HW V L1 L2 L3. unfold PkModel.serve.
  assert (P : parse DL level_ok (build c id ev) = Go o (parameters DL c) (inputs c)).
  { rewrite (parse_build DL level_ok c id ev WT (asks_known c o A) PR), A. destruct c; try reflexivity; cbn [known_level] in KL; rewrite KL; reflexivity. }
  rewrite P. cbn [build q_evict q_key]. rewrite FC. cbv zeta. rewrite L2, L3. change (is_ok OK) with true. cbn [negb]. rewrite !Bool.andb_false_r.
  rewrite (load_cached e o k s S W G E HW V L1). destruct (may_use o (m_flags (sl_meta s))).
  - change (is_ok OK) with true. cbn [negb]. destruct (alg o (parameters DL c) (inputs c) (sl_buf s)) as [r2 o2]. cbn [fst snd]. eexists. reflexivity.
  - change (is_ok USAGE) with false. cbn [negb]. eexists. reflexivity.
Qed.

Lemma call_completes e client c kid key o S : wf S -> good C S -> 1 <= client <= 15 -> kid_erased kid = true -> len key < 65536 ->
  well_typed c -> asks c = Some o -> proper c -> known_level level_ok c -> request_bytes c <= DL ->
  (forall k, new_key client kid S k -> gap_ok (v_gap1 e) k) ->
  faultless e -> key_fits DL c key -> accepts C client c kid (v_label e) key S ->
  fst (pk_call e client c kid key S) = reported c (alg o (parameters DL c) (inputs c) key).
Proof.
  intros W G CL E LK WT A PR KL RB GK (V1 & (I1 & I2 & I3 & I4) & V2 & V3 & (O1 & O2 & O3 & O4) & V4 & V5) KF AC.
  assert (IM : exists id S1, import C DL e client c kid key S = (OK, id, S1)).
  { unfold import. rewrite V1, V2, I1, I2, I3, I4, V5. change (is_ok OK) with true. cbn [negb]. rewrite Bool.andb_false_r.
    replace (negb (dma_key c) && (N.eqb (len key) 0 || (DL <? 40 + len key))) with false.
    2:{ destruct KF as [->|[K1 K2]]; [reflexivity|]. symmetry. apply Bool.andb_false_iff. right. apply Bool.orb_false_iff. split.
        - apply N.eqb_neq. intros K. apply K1. unfold len in K. destruct key; [reflexivity|cbn [length] in K; clear - K; lia].
        - apply N.ltb_ge. exact K2. }
    unfold accepts in AC. cbv zeta. destruct (if dma_key c then _ else _) as [r S1]. cbn [fst] in AC. rewrite AC. change (is_ok OK) with true. cbv iota. do 2 eexists. reflexivity. }
  destruct IM as (id & S1 & IM). destruct (import_eff DL e client c kid key S _ _ _ W G CL E LK IM) as (W1 & G1 & T1 & _ & K1).
  destruct (K1 eq_refl) as (k & NK & -> & V & O). destruct (GK k NK S1 W1 G1) as (W2 & G2 & W3). rewrite V in W3.
  pose proof NK as (NZ & FC & KE & HW & VN & _).
  unfold PkModel.pk_call. rewrite (proper_first DL c PR RB), E, IM. change (is_ok OK) with true. cbv iota zeta. cbn [negb].
  replace (DL <? sum c) with false by (symmetry; apply N.ltb_ge; eapply N.le_trans; [apply sum_le|exact RB]).
  rewrite size_ok. replace (DL <? request_bytes c) with false by (symmetry; apply N.ltb_ge; exact RB).
  rewrite V3, O1, O2, O4. change (is_ok OK) with true. cbn [negb]. rewrite Bool.andb_false_r.
  destruct (serve_done e client c _ true k _ o _ W2 G2 WT A PR KL FC KE HW W3 O3 V4 V5) as [S' ->]. cbn [sl_meta sl_buf].
  replace (may_use o _) with true.
  - cbv iota. cbn [fst]. apply mapped_reported.
  - symmetry. destruct (flags_suffice c o k (len key) (v_label e) A) as (u & rest & US & EN). unfold may_use. rewrite US. cbn [existsb]. rewrite EN. reflexivity.
Qed.
Lemma call_named_done e client c kid key o s S : wf S -> good C S -> kid_erased kid = false ->
  well_typed c -> asks c = Some o -> proper c -> known_level level_ok c -> request_bytes c <= DL -> faultless e ->
  hwkey C (fc client kid) = false -> vw S (fc client kid) = Some s ->
  fst (pk_call e client c kid key S) =
    if may_use o (m_flags (sl_meta s)) then reported c (alg o (parameters DL c) (inputs c) (sl_buf s)) else Done USAGE [].
Proof.
  intros W G E WT A PR KL RB (_ & _ & _ & V3 & (O1 & O2 & O3 & O4) & V4 & V5) HW V.
  assert (KE : kid_erased (fc client kid) = false).
  { revert E. unfold kid_erased. rewrite from_client_mk, mk_id. unfold kid_id. rewrite low8, N.mod_mod by discriminate. auto. }
  unfold PkModel.pk_call. rewrite (proper_first DL c PR RB), E. change (is_ok OK) with true. cbv iota zeta. cbn [negb].
  replace (DL <? sum c) with false by (symmetry; apply N.ltb_ge; eapply N.le_trans; [apply sum_le|exact RB]).
  rewrite size_ok. replace (DL <? request_bytes c) with false by (symmetry; apply N.ltb_ge; exact RB).
  rewrite V3, O1, O2, O4. change (is_ok OK) with true. cbn [negb]. rewrite Bool.andb_false_r.
  destruct (serve_done e client c kid false _ s o S W G WT A PR KL eq_refl KE HW V O3 V4 V5) as [S' ->].
  destruct (may_use o (m_flags (sl_meta s))); cbv iota; cbn [fst]; [apply mapped_reported|]. unfold mapped. destruct c; reflexivity.
Qed.
End Eff.
