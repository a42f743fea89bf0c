(** Stateful signature keys (LMS, XMSS): C48.  Vocabulary: KsSpec.v. *)
From Coq Require Import Sorted.
From Verif Require Import Base BaseLemmas NvmSpec Flags KeyId Store NvmReqModel NvmReqProof CounterModel KsModel KsCache KsReq KsEff KsStep KsSys KsSysProof KsSpec KsKeep KsResp KsOnly PropertiesKeyId PropertiesKeys PropertiesUse PropertiesRevoke.
Local Open Scope N_scope.

Section Props.
Variable C : kscfg.
Variable crypt : cop -> list N -> list N -> Z * list N.
Variable pub : N -> list N -> Z * list N.
Variable ots : list N -> list N -> option (list N * list N).
Variable gcm_enc : list N -> list N -> N -> list N -> option (list N).
Variable gcm_dec : list N -> list N -> N -> list N -> option (list N).
Variable she_count : list N -> N.
Variable mx : nat.
Notation step := (sys_step C crypt pub ots gcm_enc gcm_dec she_count mx).
Notation after := (sys_after C crypt pub ots gcm_enc gcm_dec she_count mx).
Notation ok := (reachable C crypt pub ots gcm_enc gcm_dec she_count mx).
Notation key_of := (key_of C).
Notation cached := (cached C).
Notation key_now := (key_now C).
Notation shares_cache := (shares_cache C).

(** What is assumed of the signature library: [idx] reads the index of the next
    unused leaf from a private key, and making a signature with a key hands out
    a key with a larger index. *)
Variable idx : list N -> N.
Definition ots_advances : Prop := forall d msg sg nb, ots d msg = Some (sg, nb) -> idx d < idx nb.

(** The private-key states with which signatures by key [k] were made and
    returned to a client with code OK, in order, over a history. *)
Definition signed_now (k : N) (ev : sev) (r : option kresp) (Y : sys) : list (list N) :=
  match ev, r with
  | SKey i client _ (KSign id _ _), Some a =>
      if N.eqb (key_of client id) k && Z.eqb (r_rc a) OK
      then match key_now Y i k with Some (_, d) => [d] | None => [] end
      else []
  | _, _ => []
  end.
Fixpoint states_used (k : N) (evs : list sev) (Y : sys) : list (list N) :=
  match evs with
  | [] => []
  | ev :: rest => signed_now k ev (fst (step ev Y)) Y ++ states_used k rest (snd (step ev Y))
  end.

Notation fc := (from_client (kc C) KT_CRYPTO).
Notation vw := (find_cache C).
Notation nv := (fun S => sp_find (k_st S)).
Lemma sign_ok e client id msg ev S r S' : wf S -> good C S -> h_sign C ots e client id msg ev S = (r, S') -> r_rc r = OK ->
  let k := fc client id in
  k <> 0 /\ exists s sg nb m', curs (nv S k) (vw S k) = Some s /\ ots (sl_buf s) msg = Some (sg, nb) /\ r_data r = sg /\
  nv S' k = Some (m', nb) /\ (vw S' k = None \/ exists c, vw S' k = Some (mkSlot m' nb c)).
Proof.
  intros W G H RO k. fold k in H. unfold h_sign in H. fold k in H. cbv zeta in H. destruct (kid_erased k) eqn:KE; [injection H as <- _; discriminate|]. pose proof (erased_nz _ KE) as NZ.
  destruct (freshen C S k) as [rc1 S1] eqn:F. destruct (freshen_eff _ _ _ _ _ W G F) as (W1 & T1 & _).
  assert (FIN : forall (a : kresp) (X : ks), (if ev then (a, snd (evict_key C X k)) else (a, X)) = (r, S') -> r = a /\ (S' = X \/ S' = snd (evict_key C X k))).
  { intros a X. destruct ev; intros E; injection E as <- <-; auto. }
  destruct (is_ok rc1) eqn:O1; cbn [negb fst snd] in H; [|destruct (FIN _ _ H) as [-> _]; apply is_ok_false in O1; contradiction].
  apply is_ok_iff in O1. subst rc1. destruct (freshen_curs _ _ _ _ W G F) as (V & VN & _). destruct (vw S1 k) as [s|] eqn:V1; [|contradiction].
  destruct (is_ok (v_dma e)) eqn:DM; cbn [negb fst snd] in H; [|destruct (FIN _ _ H) as [-> _]; apply is_ok_false in DM; contradiction].
  destruct (ots (sl_buf s) msg) as [[sg nb]|] eqn:OT; cbn [fst snd] in H; [|destruct (FIN _ _ H) as [-> _]; discriminate].
  destruct (_ <? _); cbn [fst snd] in H; [destruct (FIN _ _ H) as [-> _]; discriminate|].
  set (m' := with_len (sl_meta s) (N.of_nat (length nb))) in *. assert (MI : m_id m' = k) by exact (vw_id _ _ _ _ V1).
  destruct (cupd_eff C S1 k (fun x => mkSlot m' nb (sl_comm x)) W1 NZ (fun s E => MI)) as (W2 & T2 & V2 & O2). cbv zeta in *.
  set (S2 := set_ctx C S1 k (cupd k (fun x => mkSlot m' nb (sl_comm x)) (get_ctx C S1 k))) in *. rewrite V1 in V2. cbn [option_map] in V2.
  destruct (nv_add (v_nvm e) m' nb (k_st S2)) as [rc2 st] eqn:A. destruct (is_ok rc2) eqn:R2; cbn [fst snd] in H; [|destruct (FIN _ _ H) as [-> _]; discriminate].
  destruct (FIN _ _ H) as [-> SE]. split; auto. exists s, sg, nb, m'. split; [auto|]. split; auto. split; auto.
  assert (NF : sp_find st k = Some (m', nb)) by (rewrite (nv_add_find _ _ _ _ _ _ k A), R2, MI, N.eqb_refl; reflexivity).
  assert (V3 : vw (set_st S2 st) k = Some (mkSlot m' nb (sl_comm s))) by (rewrite vw_set_st; auto).
  destruct SE as [->|SE]; [split; [exact NF|right; eexists; exact V3]|].
  destruct (evict_key C (set_st S2 st) k) as [rce Se] eqn:EE. cbn [snd] in SE. subst Se. destruct (evict_key_eff C (set_st S2 st) _ _ _ W2 EE) as (_ & B & D & D' & _).
  split; [cbv beta; rewrite B; exact NF|]. destruct (is_ok rce) eqn:RE; [apply is_ok_iff in RE; left; apply D; auto|].
  apply is_ok_false in RE. rewrite (D' RE). right. eexists; exact V3.
Qed.

(** A signature returned with code OK is one the library made, for the message
    given, with the private key the server context saw when the request came. *)
Theorem C48_signature_from_current_state : forall Y i client e id msg ev r Y',
  ok Y -> step (SKey i client e (KSign id msg ev)) Y = (Some r, Y') -> r_rc r = OK ->
  exists m d sg nb, key_now Y i (key_of client id) = Some (m, d) /\ ots d msg = Some (sg, nb) /\ r_data r = sg.
Proof.
  intros Y i client e id msg ev r Y' R H RO. destruct (reachable_ok _ _ _ _ _ _ _ _ _ R i) as [W G]. cbn [sys_step] in H.
  destruct (ks_step _ _ _ _ _ _ _ e client _ (ks_of Y i)) as [r0 S'] eqn:E. injection H as -> _. unfold ks_step in E.
  destruct (is_ok (v_lock e)) eqn:LK; cbn [negb] in E; [|injection E as <- _; apply is_ok_false in LK; contradiction].
  destruct (sign_ok _ _ _ _ _ _ _ _ W G E RO) as (NZ & s & sg & nb & m' & CU & OT & D & _). exists (sl_meta s), (sl_buf s), sg, nb. split; auto. apply now_curs; auto.
Qed.

(** Events that leave the private key of [k] to the signing requests: nobody
    creates, imports, generates or erases a key under that id or writes the NVM
    object with that id; and clients served by a context with another cache do
    not own [k]. *)
Definition fair (i : nat) (k : N) (ev : sev) : Prop :=
  match ev with
  | SKey i' client _ q =>
      1 <= client <= 15 /\
      (shares_cache i' i k \/ (kid_user k <> client /\ kid_user k <> 0)) /\
      match q with
      | KCache id _ _ _ | KCacheRandom id _ _ _ | KCacheDma id _ _ _ | KImport id _ _ _ | KSignGen id _ _
      | KErase id => key_of client id <> k
      | _ => True
      end
  | SNvm _ q => ~ nvm_writes q k
  | _ => True
  end.

(** The invariant: every copy of [k] has an index of at least [b]. *)
Definition ahead (i : nat) (k b : N) (Y : sys) : Prop :=
  stored Y k <> None /\ (forall m d, stored Y k = Some (m, d) -> b <= idx d) /\
  (forall s, copy C Y i k = Some s -> b <= idx (sl_buf s)) /\
  (forall i', ~ shares_cache i' i k -> copy C Y i' k = None).
Lemma ahead_step (ADV : ots_advances) i k b ev Y r Y' : kid_type k = KT_CRYPTO -> k <> 0 -> sys_ok C Y -> fair i k ev -> ahead i k b Y -> step ev Y = (r, Y') -> ahead i k b Y'.
Proof.
  intros T NZ O F (NV & A & B & D) H. destruct (step_effect C crypt pub ots gcm_enc gcm_dec she_count mx _ _ _ _ O H) as [O' K]. specialize (K k NZ).
  destruct ev as [i' client e q|e q|client e q|x|].
  - destruct K as [K OT]. cbn [fair] in F. destruct F as (L & SH & NQ).
    assert (SHd : shares_cache i' i k \/ ~ shares_cache i' i k).
    { unfold PropertiesRevoke.shares_cache. destruct (Nat.eq_dec i' i); auto. destruct (k_global (kc C)); [|right; intros [?|[? _]]; congruence]. destruct (N.eq_dec (kid_user k) 0); auto. right. intros [?|[_ ?]]; congruence. }
    destruct SHd as [SH1|SH1].
    + (* a context with the same cache *)
      assert (CI : forall Z : sys, copy C Z i' k = copy C Z i k).
      { intros Z. destruct SH1 as [->|SH1]; auto. apply copy_global. apply (glob_iff C pub); auto. }
      assert (CO : forall i2, ~ shares_cache i2 i k -> copy C Y' i2 k = None).
      { intros i2 NS. destruct (is_global C k) eqn:GL; [apply (glob_iff C pub) in GL; exfalso; apply NS; right; auto|]. destruct SH1 as [->|SH1]; [|rewrite (proj2 (glob_iff C pub k) SH1) in GL; discriminate].
        rewrite OT; auto. intros ->. apply NS. left; auto. }
      rewrite !CI in K. assert (CU : forall s, curs (stored Y k) (copy C Y i k) = Some s -> b <= idx (sl_buf s)).
      { intros s. unfold curs. destruct (copy C Y i k) as [s0|]; [intros E; injection E as <-; auto|]. destruct (stored Y k) as [[m d]|] eqn:ST; [|discriminate]. intros E; injection E as <-. cbn [sl_buf]. eapply A; eauto. }
      clear OT SH. remember (stored Y' k) as n' eqn:En. remember (copy C Y' i k) as o' eqn:Eo. unfold ahead. rewrite <- En, <- Eo. clear En Eo.
      assert (NP : forall id, put_id q = Some id -> addr C client id k (stored Y k) (copy C Y i k) -> False).
      { intros id P [[_ E]|(_ & _ & _ & E & _)]; [|apply NV; auto]. destruct q; cbn [put_id] in P; try discriminate; injection P as ->; apply NQ; symmetry; exact E. }
      destruct K; subst; try (split; [auto|]; split; [auto|]; split; [first [discriminate|auto]|exact CO]; fail).
      * split; [auto|]. split; [auto|]. split; auto. intros s E; injection E as <-. cbn [sl_buf]. eapply A; eauto.
      * exfalso; eapply NP; eauto.
      * exfalso; eapply NP; eauto. reflexivity.
      * exfalso. apply NQ. reflexivity.
      * assert (BB : b <= idx (sl_buf s)) by (apply B; auto). split; [discriminate|]. split; [intros m d E; injection E as <- <-; auto|]. split; auto. intros s0 E; injection E as <-. exact BB.
      * split; [auto|]. split; [auto|]. split; auto. intros s0 E; injection E as <-. cbn [sl_buf]. auto.
      * split; [discriminate|]. split; [intros m d E; injection E as <- <-; auto|]. split; auto. intros s0 E; injection E as <-. cbn [sl_buf]. auto.
      * match goal with X : ots _ _ = Some _, Y : curs _ _ = Some _ |- _ => pose proof (ADV _ _ _ _ X); pose proof (CU _ Y) end.
        match goal with X : n' = _ \/ n' = _, Z : _ \/ o' = _ |- _ => split; [destruct X as [->| ->]; [auto|discriminate]|]; split; [destruct X as [->| ->]; [auto|intros m d E; injection E as <- <-; lia]|];
          split; [destruct Z as [[-> _]| ->]; [discriminate|intros s0 E; injection E as <-; cbn [sl_buf]; lia]|auto] end.
      * exfalso. match goal with X : kid_wrapped _ = true \/ _ |- _ => destruct X as [X|[_ X]]; [unfold kid_wrapped in X; rewrite T in X; discriminate|rewrite T in X; discriminate] end.
    + (* a context with another cache *)
      destruct SH as [SH|[U1 U2]]; [contradiction|]. assert (GL : is_global C k = false) by (unfold is_global; apply N.eqb_neq in U2; rewrite U2; apply Bool.andb_false_r).
      assert (LT : client < 16) by lia. assert (NF : forall id, k <> fc client id) by (intros id E; symmetry in E; revert E; apply foreign_fc; auto; [reflexivity|split; auto]).
      assert (ST : stored Y' k = stored Y k).
      { remember (stored Y' k) as n'. remember (copy C Y' i' k) as o'. destruct K; subst; auto; try (exfalso; eapply NF; eauto; fail).
        exfalso. match goal with X : addr _ _ _ _ _ _ |- _ => revert X end. intros X. apply (foreign_addr C pub _ _ _ _ _ _ LT (conj U1 U2) X). reflexivity. }
      assert (NI : i' <> i) by (intros ->; apply SH1; left; auto).
      split; [rewrite ST; auto|]. split; [rewrite ST; auto|]. split; [rewrite OT by auto; auto|].
      intros i2 NS. destruct (Nat.eq_dec i2 i') as [->|NE]; [|rewrite OT by auto; auto]. cbn [sys_step] in H. destruct (ks_step _ _ _ _ _ _ _ e client q (ks_of Y i')) as [r0 S0] eqn:E. injection H as _ <-.
      unfold copy. rewrite ks_put. destruct (O i') as [W G]. destruct (step_only C crypt pub ots gcm_enc gcm_dec she_count e client q (ks_of Y i') r0 S0 k W G E LT NZ (conj U1 U2)) as [X|X]; auto.
      rewrite X. apply (D i'). auto.
  - destruct K as [K1 K2]. unfold ahead. unfold stored. rewrite (st_find _ _ _ _ K1 F). rewrite K2. split; [auto|]. split; auto. split; auto. intros i' NS. rewrite K2. auto.
  - destruct K as [K1 K2]. assert (NN : ~ kid_type k = KT_COUNTER) by (rewrite T; discriminate). unfold ahead. unfold stored. rewrite (st_find _ _ _ _ K1 NN). rewrite K2. split; [auto|]. split; auto. split; auto. intros i' NS. rewrite K2. auto.
  - destruct K as [K1 K2]. unfold ahead. rewrite K1, K2. split; [auto|]. split; auto. split; [intros s; destruct (_ && _); [discriminate|auto]|]. intros i' NS. rewrite K2. destruct (_ && _); auto.
  - destruct K as [K1 K2]. unfold ahead. rewrite K1, K2. split; [auto|]. split; auto. split; [discriminate|]. intros i' NS. apply K2.
Qed.
Lemma ahead_sign (ADV : ots_advances) i k b i' client e id msg ev Y a Y' : k <> 0 -> sys_ok C Y -> fair i k (SKey i' client e (KSign id msg ev)) -> ahead i k b Y ->
  step (SKey i' client e (KSign id msg ev)) Y = (Some a, Y') -> key_of client id = k -> r_rc a = OK ->
  exists m d, key_now Y i' k = Some (m, d) /\ b <= idx d /\ ahead i k (idx d + 1) Y'.
Proof.
  intros NZ O F (NV & A & B & D) H KO RO. destruct (O i') as [W G].
  destruct (step_effect C crypt pub ots gcm_enc gcm_dec she_count mx _ _ _ _ O H) as [_ K]. destruct (K k NZ) as [_ OT]. clear K. cbn [sys_step] in H.
  destruct (ks_step _ _ _ _ _ _ _ e client _ (ks_of Y i')) as [r0 S'] eqn:E. injection H as -> HY. unfold ks_step in E.
  destruct (is_ok (v_lock e)) eqn:LK; cbn [negb] in E; [|injection E as <- _; apply is_ok_false in LK; contradiction].
  destruct (sign_ok _ _ _ _ _ _ _ _ W G E RO) as (_ & s & sg & nb & m' & CU & OTS & _ & N' & V'). change (fc client id) with (key_of client id) in *. rewrite KO in *.
  destruct F as (L & SH & _). destruct SH as [SH|[U1 U2]].
  2:{ exfalso. unfold KsSpec.key_of in KO. revert KO. apply (foreign_fc C pub); [lia|reflexivity|split; auto]. }
  assert (CI : forall Z : sys, copy C Z i' k = copy C Z i k).
  { intros Z. destruct SH as [->|SH]; auto. apply copy_global. apply (glob_iff C pub); auto. }
  exists (sl_meta s), (sl_buf s). split; [apply now_curs; auto|].
  assert (BB : b <= idx (sl_buf s)).
  { cbv beta in CU. change (find_cache C (ks_of Y i') k) with (copy C Y i' k) in CU. rewrite CI in CU. change (sp_find (k_st (ks_of Y i')) k) with (stored Y k) in CU. unfold curs in CU.
    destruct (copy C Y i k) as [s0|]; [injection CU as <-; auto|]. destruct (stored Y k) as [[m d]|] eqn:ST; [|discriminate]. injection CU as <-. cbn [sl_buf]. eapply A; eauto. }
  split; auto. pose proof (ADV _ _ _ _ OTS) as LT. assert (SN : stored Y' k = Some (m', nb)) by (rewrite <- HY; exact N').
  split; [rewrite SN; discriminate|]. split; [rewrite SN; intros m d X; injection X as <- <-; lia|]. split.
  - rewrite <- CI, <- HY. unfold copy. rewrite ks_put. intros s0 X. destruct V' as [V'|[c V']]; rewrite V' in X; [discriminate|]. injection X as <-. cbn [sl_buf]. lia.
  - intros i2 NS. destruct (is_global C k) eqn:GL; [apply (glob_iff C pub) in GL; exfalso; apply NS; right; auto|]. destruct SH as [->|SH]; [|rewrite (proj2 (glob_iff C pub k) SH) in GL; discriminate].
    rewrite OT; auto. intros ->. apply NS. left; auto.
Qed.
Lemma used_sorted (ADV : ots_advances) i k : kid_type k = KT_CRYPTO -> k <> 0 -> forall evs Y b, sys_ok C Y -> Forall (fair i k) evs -> ahead i k b Y ->
  StronglySorted N.lt (map idx (states_used k evs Y)) /\ Forall (fun d => b <= idx d) (states_used k evs Y).
Proof.
  intros T NZ. induction evs as [|ev evs IH]; intros Y b O F A; cbn [states_used]; [split; constructor|].
  inversion F as [|? ? F1 F2]; subst. destruct (step ev Y) as [r Y'] eqn:E. cbn [fst snd].
  destruct (step_effect C crypt pub ots gcm_enc gcm_dec she_count mx _ _ _ _ O E) as [O' _].
  assert (CASE : signed_now k ev r Y = [] \/ exists m d i' client e id msg x a, signed_now k ev r Y = [d] /\ ev = SKey i' client e (KSign id msg x) /\ r = Some a /\ r_rc a = OK /\ key_of client id = k /\ key_now Y i' k = Some (m, d)).
  { destruct ev as [i' client e q|e q|client e q|x|]; auto. destruct q; auto. destruct r as [a|]; auto. cbn [signed_now]. destruct (N.eqb_spec (key_of client id) k) as [KE|]; auto.
    destruct (Z.eqb_spec (r_rc a) OK) as [RE|]; auto. cbn [andb]. destruct (key_now Y i' k) as [[m d]|] eqn:KN; auto. right. exists m, d, i', client, e, id, msg, ev, a. auto 8. }
  destruct CASE as [->|(m & d & i' & client & e & id & msg & x & a & -> & -> & -> & RO & KO & KN)].
  - cbn [app]. apply IH; auto. apply (ahead_step ADV i k b ev Y r Y'); auto.
  - destruct (ahead_sign ADV i k b _ _ _ _ _ _ _ _ _ NZ O F1 A E KO RO) as (m2 & d2 & KN2 & BB & A2). assert (d2 = d) by congruence. subst d2.
    destruct (IH Y' (idx d + 1) O' F2 A2) as [SS FA]. cbn [app map]. split.
    + constructor; auto. rewrite Forall_forall in *. intros y I. apply in_map_iff in I as (d3 & <- & I). specialize (FA _ I). lia.
    + constructor; auto. eapply Forall_impl; [|exact FA]. cbv beta. intros; lia.
Qed.

(** From any state in which [k] is in NVM, and no other cache has a copy of it,
    the states used are all different: their indices strictly increase. *)
Theorem C48_states_strictly_increase : ots_advances -> forall Y i k evs,
  ok Y -> kid_type k = KT_CRYPTO -> in_nvm Y k <> None ->
  (forall i', ~ shares_cache i' i k -> cached Y i' k = None) ->
  Forall (fair i k) evs ->
  StronglySorted N.lt (map idx (states_used k evs Y)) /\ NoDup (states_used k evs Y).
Proof.
  intros ADV Y i k evs R T NV OTH F. pose proof (reachable_ok _ _ _ _ _ _ _ _ _ R) as O.
  assert (NZ : k <> 0) by (intros E; rewrite E in T; discriminate).
  assert (X : StronglySorted N.lt (map idx (states_used k evs Y)) /\ Forall (fun d => 0 <= idx d) (states_used k evs Y)).
  { apply (used_sorted ADV i k T NZ evs Y 0); auto. split; [exact NV|]. split; [intros; lia|]. split; [intros; lia|]. intros i' NS. rewrite <- cached_copy. apply OTH; auto. }
  destruct X as [X _]. split; auto. apply (NoDup_map_inv idx). revert X. generalize (map idx (states_used k evs Y)). intros l SS.
  induction SS as [|a l SS IH FA]; constructor; auto. intros I. rewrite Forall_forall in FA. specialize (FA _ I). lia.
Qed.
End Props.
Print Assumptions C48_signature_from_current_state.
Print Assumptions C48_states_strictly_increase.

(** ** Concrete cases *)
Module OtsExamples.
Import KeyExamples UseExamples.
(** The toy key of UseExamples has its index in byte 12. *)
Definition lms_idx (d : list N) : N := nth 12 d 0.
Definition lms_step_ots (d msg : list N) : option (list N * list N) :=
  if Nat.eqb (length d) 13 then Some (nth 12 d 0 :: msg, firstn 12 d ++ [nth 12 d 0 + 1]) else None.
Lemma lms_advances : ots_advances lms_step_ots lms_idx.
Proof.
  intros d msg sg nb H. unfold lms_step_ots in H. destruct (Nat.eqb_spec (length d) 13) as [L|]; [|discriminate]. injection H as _ <-. unfold lms_idx.
  rewrite (app_nth2 (firstn 12 d)) by (rewrite firstn_length; lia). rewrite firstn_length, L. cbn [Nat.min Nat.sub nth]. lia.
Qed.
Definition fail_env : kenv := mkKenv OK NOSPACE OK lms_key OK [] OK [] 100 (mkEnv OK OK OK OK []).
Definition orun evs := sys_run cfg toy_crypt toy_pub lms_step_ots toy_enc toy_dec toy_count 100 evs (fresh_sys [] 2 1).
Definition gen : list sev := [SKey 0 1 lms_env (KSignGen 3 0 [])].
(** Signatures, a failed write to NVM, evictions, resets and another client in
    between: states 7, 9, 10 and 11 are used (8 is skipped by the failed write). *)
Definition hist48 : list sev :=
  [SKey 0 1 lms_env (KSign 3 [1] false); SKey 0 1 fail_env (KSign 3 [2] false); SKey 0 1 lms_env (KSign 3 [2] true);
   SKey 1 2 lms_env (KSign 3 [2] false); SKey 1 2 lms_env (KCache 3 0 [] [1]);
   SKey 0 1 lms_env (KSign 3 [3] false); SReset; SKey 0 1 lms_env (KCryptoEvict 3); SKey 0 1 lms_env (KSign 3 [3] false)].
Lemma ex48_fair : Forall (fair cfg 0 (key 1 3)) hist48.
Proof.
  unfold hist48. repeat apply Forall_cons; try apply Forall_nil; cbn [fair]; auto;
    (split; [lia|]; split; [first [left; left; reflexivity|right; split; intros H; vm_compute in H; discriminate]|first [exact I|intros H; vm_compute in H; discriminate]]).
Qed.
Definition after48 := snd (orun gen).
Example ex48 :
  reachable cfg toy_crypt toy_pub lms_step_ots toy_enc toy_dec toy_count 100 after48 /\ in_nvm after48 (key 1 3) <> None /\
  (forall i', ~ shares_cache cfg i' 0 (key 1 3) -> cached cfg after48 i' (key 1 3) = None) /\
  map lms_idx (states_used cfg toy_crypt toy_pub lms_step_ots toy_enc toy_dec toy_count 100 (key 1 3) hist48 after48) = [7; 9; 10; 11].
Proof.
  split; [exists [], 2%nat, 1%nat, gen; split; [intros ? ? ? ? H; discriminate|reflexivity]|].
  split; [vm_compute; discriminate|]. split; [|vm_compute; reflexivity].
  intros i' NS. destruct i' as [|i']; [exfalso; apply NS; left; reflexivity|vm_compute; reflexivity].
Qed.
(** What the conditions exclude.  Two contexts that serve the same client keep a
    copy each: the second signs again with the state the first has used. *)
Definition two48 : list sev := [SKey 1 1 lms_env (KSign 3 [1] false); SKey 0 1 lms_env (KSign 3 [2] false)].
Theorem C48_two_contexts_refuted :
  ~ NoDup (states_used cfg toy_crypt toy_pub lms_step_ots toy_enc toy_dec toy_count 100 (key 1 3) two48 after48).
Proof.
  assert (E : states_used cfg toy_crypt toy_pub lms_step_ots toy_enc toy_dec toy_count 100 (key 1 3) two48 after48 = [lms_key; lms_key]) by (vm_compute; reflexivity).
  rewrite E. intros H. inversion H as [|? ? NI _]. apply NI. left. reflexivity.
Qed.
End OtsExamples.
Print Assumptions OtsExamples.C48_two_contexts_refuted.
