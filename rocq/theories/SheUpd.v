(** When a SHE key slot changes (C39). *)
From Verif Require Import Base BaseLemmas NvmSpec Flags KeyId Store NvmReqModel CounterModel KsModel KsCache KsReq KsEff KsOnly KsStep KsSys KsSpec KsSysProof SheModel SheSys SheSpec SheEff SheBoot SheInv.
Local Open Scope N_scope.

(** ** Fields of the messages *)
Lemma land15 x : N.land x 15 = x mod 16.
Proof. change 15 with (N.ones 4). apply N.land_ones. Qed.
Lemma pop_id_slot m1 : pop_id m1 = m1_slot m1.
Proof.
  unfold pop_id, m1_slot. rewrite N.shiftr_land. change (N.shiftr 240 4) with (N.ones 4). rewrite N.land_ones, N.shiftr_div_pow2. reflexivity.
Qed.
Lemma pop_auth_slot m1 : pop_auth m1 = m1_auth m1.
Proof. apply land15. Qed.
Lemma lt_cases (P : N -> Prop) n : Forall P (map N.of_nat (seq 0 n)) -> forall x, x < N.of_nat n -> P x.
Proof.
  intros F x L. rewrite Forall_forall in F. apply F, in_map_iff. exists (N.to_nat x). split; [apply N2Nat.id|]. apply in_seq. lia.
Qed.
Lemma flag_bits a b : a < 16 -> b < 2 -> N.lor (N.shiftl a 4) b = a * 16 + b.
Proof.
  intros A B. revert a A. apply (lt_cases (fun a => N.lor (N.shiftl a 4) b = a * 16 + b) 16). revert b B. apply (lt_cases _ 2).
  repeat constructor.
Qed.
Lemma pop_flags_bits m2 : pop_flags m2 = m2_flags m2.
Proof.
  unfold pop_flags, m2_flags. rewrite land15, N.shiftr_land. change (N.shiftr 128 7) with (N.ones 1). rewrite N.land_ones, N.shiftr_div_pow2.
  apply flag_bits; apply N.mod_lt; discriminate.
Qed.
Lemma m2_flags_lt m2 : m2_flags m2 < 2 ^ 32.
Proof.
  unfold m2_flags. pose proof (N.mod_lt (nth 3 m2 0) 16 ltac:(discriminate)). pose proof (N.mod_lt (nth 4 m2 0 / 128) 2 ltac:(discriminate)).
  change (2 ^ 32) with 4294967296. lia.
Qed.
Lemma label_flags c f rest : f < 2 ^ 32 -> she_flags (to_be32 c ++ to_be32 f ++ rest) = f.
Proof. intros L. unfold she_flags. change (skipn 4 (to_be32 c ++ to_be32 f ++ rest)) with (to_be32 f ++ rest). apply be32_to. exact L. Qed.

Section Upd.
Variable C : kscfg.
Variable crypt : cop -> list N -> list N -> Z * list N.
Variable pub : N -> list N -> Z * list N.
Variable ots : list N -> list N -> option (list N * list N).
Variable gcm_enc : list N -> list N -> N -> list N -> option (list N).
Variable gcm_dec : list N -> list N -> N -> list N -> option (list N).
Variable max_read : nat.
Variable aes : list N -> list N -> list N.
Variable cbc_enc cbc_dec : list N -> list N -> list N.
Variable cmac : list N -> list N -> list N.
Variable use_op : sop -> list N -> list N -> option (list N).
Hypothesis cbc_bytes : forall k d, is_bytes (cbc_dec k d).
Notation step := (hstep C crypt pub ots gcm_enc gcm_dec max_read aes cbc_enc cbc_dec cmac use_op).
Notation after := (hafter C crypt pub ots gcm_enc gcm_dec max_read aes cbc_enc cbc_dec cmac use_op).
Notation sstep := (she_step C aes cbc_enc cbc_dec cmac use_op).
Notation vw := (find_cache C).
Notation nv := (fun S => sp_find (k_st S)).
Notation at_ Y i := (ks_of (hy_ks Y) i).

Lemma count_lt ak m2 : m2_count (clear_m2 aes cbc_dec ak m2) < 2 ^ 32.
Proof.
  unfold m2_count, clear_m2. eapply N.le_lt_trans; [|apply be32_lt, exactly_bytes, (cbc_bytes (mp16 aes (ak ++ ENC_C)) m2)].
  apply N.div_le_upper_bound; [discriminate|]. apply N.le_trans with (1 * be32 (exactly 32 (cbc_dec (mp16 aes (ak ++ ENC_C)) m2))); [rewrite N.mul_1_l; apply N.le_refl|]. apply N.mul_le_mono_r. discriminate.
Qed.

(** A slot in NVM changes. *)
Definition changed (Y : hsys) (i : nat) (uid : list N) (client : N) (q : sreq) (k : N) (o : option (meta * list N)) : Prop :=
  let old := key_now C (hy_ks Y) i k in
  (exists m1 m2 m3 ak m', let M1 := exactly 16 m1 in let M2 := exactly 32 m2 in let clear := clear_m2 aes cbc_dec ak M2 in
     q = SLoadKey m1 m2 m3 /\ k = she_id C client (m1_slot M1) /\
     auth_key C Y i client (m1_auth M1) ak /\ authentic aes cmac ak M1 M2 (exactly 16 m3) /\
     addressed uid M1 old /\ allowed (m2_count clear) old /\
     o = Some (m', m2_key clear) /\ she_count (m_label m') = m2_count clear /\ she_flags (m_label m') = m2_flags clear) \/
  (exists m d m' d', (q = SInitRnd \/ exists x, q = SExtendSeed x) /\ k = she_id C client SLOT_SEED /\
     old = Some (m, d) /\ o = Some (m', d') /\ m_label m' = m_label m).

Lemma like_allowed k o o' n : like k o o' -> allowed n o' -> allowed n o.
Proof. destruct o as [[m d]|], o' as [[m' d']|]; cbn; try tauto. intros [L _] A x y Q. injection Q as <- <-. rewrite L. eapply A; eauto. Qed.
Lemma like_addressed k o o' uid m1 : like k o o' -> addressed uid m1 o' -> addressed uid m1 o.
Proof.
  unfold addressed. destruct (list_eq_dec _ _ _); [|auto]. destruct o as [[m d]|], o' as [[m' d']|]; cbn; try tauto.
  - intros [L _] (x & y & Q & B). injection Q as <- <-. exists m, d. rewrite L. auto.
Qed.

Lemma scell_changed Y i client e q k S1 : coh C (at_ Y i) k -> kid_type k = KT_SHE -> se_rd e 1%nat = OK ->
  scell C aes cbc_dec cmac e client q (hy_she Y i) (at_ Y i) S1 k -> nv S1 k <> nv (at_ Y i) k ->
  changed Y i (h_uid (hy_she Y i)) client q k (nv S1 k).
Proof.
  intros H T RD K NE. destruct K as [F _|key Q J N1 V|m1 m2 m3 S2 o Q J F U X|S2 m d m' d' Q J F VS N1 L LE LD V].
  - exfalso. apply NE, F.
  - exfalso. apply NE, N1.
  - left. destruct (N.eqb (kid_id k) SLOT_RAM). { destruct X as [N1 _]. exfalso. apply NE, N1. }
    destruct X as [N1 _]. destruct U as (ak & LA & AK & M3 & AL & AD & KEY & ID & LEN & rest & LB). destruct o as [m' d']. cbn [fst snd] in *.
    exists m1, m2, m3, ak, m'. cbv zeta. pose proof (vis_fr _ _ _ _ H F) as LK.
    split; [exact Q|]. split; [rewrite <- pop_id_slot; exact J|].
    split. { split; [exact LA|]. unfold slot_key. rewrite <- pop_auth_slot. change (key_now C (hy_ks Y) i (she_id C client (pop_auth (exactly 16 m1)))) with (vis C (at_ Y i) (she_id C client (pop_auth (exactly 16 m1)))).
             destruct AK as [[m0 ->]|(-> & HS & PA & ->)]; [reflexivity|auto]. }
    split; [exact M3|]. split.
    { eapply like_addressed; [exact LK|]. unfold addressed. cbv zeta. destruct (list_eq_dec _ _ _); [|exact AD]. destruct (AD RD) as (m & d & E & B). eauto. }
    split. { eapply like_allowed; [exact LK|]. intros m d E. destruct (AL RD m d E) as [A B]. split; [exact A|]. rewrite N.shiftr_div_pow2 in B. exact B. }
    rewrite N1, KEY, LB. split; [reflexivity|]. split.
    + unfold she_count. rewrite be32_to; rewrite N.shiftr_div_pow2; [reflexivity|]. apply (count_lt ak).
    + rewrite pop_flags_bits. apply label_flags, m2_flags_lt.
  - right. pose proof (vis_fr _ _ _ _ H F) as LK. rewrite VS in LK. change (key_now C (hy_ks Y) i k) with (vis C (at_ Y i) k).
    destruct (vis C (at_ Y i) k) as [[m0 d0]|]; [|destruct LK]. destruct LK as [LB _].
    exists m0, d0, m', d'. split; [exact Q|]. split; [exact J|]. split; [reflexivity|]. split; [exact N1|congruence].
Qed.

Theorem change_step i0 k ev Y : sys_ok C (hy_ks Y) -> kid_type k = KT_SHE -> sole C i0 k ev -> coh C (at_ Y i0) k ->
  let Y' := snd (step ev Y) in in_nvm (hy_ks Y') k <> in_nvm (hy_ks Y) k ->
  exists i client e q, ev = HShe i client e q /\ (is_global C k = true \/ i = i0) /\
    changed Y i (h_uid (hy_she Y i)) client q k (in_nvm (hy_ks Y') k) /\ refused q (hy_she Y i) = false.
Proof.
  intros O T SO H Y'. assert (NZ : k <> 0) by (intros ->; discriminate T). unfold Y'. clear Y'.
  destruct ev as [i client e q|ev]; cbn [hstep].
  - destruct (sstep e client q (hy_she Y i) (at_ Y i)) as [[r h] S1] eqn:E. cbn [snd]. destruct (O i) as [W G].
    intros NE. change (nv S1 k <> nv (at_ Y i) k) in NE. change (in_nvm _ k) with (nv S1 k).
    destruct (sstep_eff _ _ _ _ _ _ _ _ _ _ _ _ _ _ W G E) as (W1 & G1 & K). specialize (K k NZ). destruct SO as [SO RD].
    exists i, client, e, q. split; [reflexivity|].
    assert (D : is_global C k = true \/ i = i0).
    { unfold is_global. destruct SO as [SO|[SO|SO]]; auto. exfalso. apply NE.
      destruct K as [F _|key Q J N1 V|m1 m2 m3 S2 o Q J F U X|S2 m d m' d' Q J]; [apply F|exfalso; eapply SO; eauto..]. }
    split; [exact D|]. split.
    + eapply scell_changed; eauto. eapply same_cell; eauto.
    + unfold she_step in E. destruct (refused q (hy_she Y i)); [|reflexivity]. injection E as _ _ <-. exfalso. apply NE. reflexivity.
  - destruct (sys_step C crypt pub ots gcm_enc gcm_dec she_count max_read ev (hy_ks Y)) as [a K] eqn:E. cbn [snd hy_ks]. intros NE. exfalso. apply NE.
    pose proof (step_effect _ _ _ _ _ _ _ _ _ _ _ _ O E) as [_ EF]. specialize (EF k NZ).
    destruct ev as [i client e q|e q|client e q|x|].
    + cbn [sys_step] in E. destruct (ks_step C crypt pub ots gcm_enc gcm_dec she_count e client q (at_ Y i)) as [r S1] eqn:E1. injection E as <- <-. destruct (O i) as [W G].
      change (nv S1 k = nv (at_ Y i) k). destruct (kstep_she C crypt pub ots gcm_enc gcm_dec _ _ _ _ _ _ _ W G T E1) as [F|(kek & b & m & d & Q & N1 & _)]; [apply F|exact N1].
    + destruct EF as [F V]. apply (st_find _ _ _ _ F). exact SO.
    + destruct EF as [F V]. apply (st_find _ _ _ _ F). rewrite T. discriminate.
    + apply EF.
    + apply EF.
Qed.

(** ** Without unwrapping, cached copies are the stored ones *)
Definition comm (S : ks) (k : N) : Prop := forall s, vw S k = Some s -> sl_comm s = true.
Lemma comm_fr S S' k : comm S k -> fr C S S' k -> comm S' k.
Proof. intros H [_ [V|[U [V|(m & d & E & V)]]]] s VS; rewrite V in VS; [auto|discriminate|injection VS as <-; reflexivity]. Qed.
Lemma scell_comm e client q h S S' k : kid_id k <> SLOT_RAM -> scell C aes cbc_dec cmac e client q h S S' k -> comm S k -> comm S' k.
Proof.
  intros NR K H. destruct K as [F _|key Q J N1 V|m1 m2 m3 S2 o Q J F U X|S2 m d m' d' Q J F VS N1 L LE LD V].
  - eapply comm_fr; eauto.
  - exfalso. apply NR. rewrite J. apply slot_small. reflexivity.
  - apply N.eqb_neq in NR. rewrite NR in X. destruct X as [_ [V|V]]; intros s VS; rewrite V in VS; [injection VS as <-; reflexivity|discriminate].
  - pose proof (comm_fr _ _ _ H F) as H2. destruct V as [V|[_ [V|(m0 & d0 & _ & V)]]]; intros s V1; rewrite V in V1; [auto|discriminate|injection V1 as <-; reflexivity].
Qed.
Lemma comm_step k ev Y : sys_ok C (hy_ks Y) -> kid_type k = KT_SHE -> kid_id k <> SLOT_RAM -> no_unwrap ev ->
  (forall i, comm (at_ Y i) k) -> forall i, comm (at_ (snd (step ev Y)) i) k.
Proof.
  intros O T NR NU H i0. assert (NZ : k <> 0) by (intros ->; discriminate T).
  assert (P : forall i S1 f, comm S1 k -> comm (at_ (mkHsys (put_ks (hy_ks Y) i S1) f) i0) k).
  { intros i S1 f H1 s VS. change (copy C (put_ks (hy_ks Y) i S1) i0 k = Some s) in VS. rewrite copy_put in VS. destruct (_ || _); [exact (H1 s VS)|exact (H i0 s VS)]. }
  destruct ev as [i client e q|ev]; cbn [hstep].
  - destruct (sstep e client q (hy_she Y i) (at_ Y i)) as [[r h] S1] eqn:E. cbn [snd]. destruct (O i) as [W G].
    destruct (sstep_eff _ _ _ _ _ _ _ _ _ _ _ _ _ _ W G E) as (W1 & G1 & K). apply P. eapply scell_comm; eauto.
  - destruct (sys_step C crypt pub ots gcm_enc gcm_dec she_count max_read ev (hy_ks Y)) as [a K] eqn:E. cbn [snd].
    pose proof (step_effect _ _ _ _ _ _ _ _ _ _ _ _ O E) as [_ EF]. specialize (EF k NZ).
    assert (ST : (copy C K i0 k = copy C (hy_ks Y) i0 k \/ copy C K i0 k = None) -> forall s, copy C K i0 k = Some s -> sl_comm s = true).
    { intros [V|V] s VS; [|congruence]. apply (H i0). rewrite <- VS. symmetry. exact V. }
    destruct ev as [i client e q|e q|client e q|x|].
    + cbn [sys_step] in E. destruct (ks_step C crypt pub ots gcm_enc gcm_dec she_count e client q (at_ Y i)) as [r S1] eqn:E1. injection E as <- <-. destruct (O i) as [W G].
      apply (P i S1 (hy_she Y)). destruct (kstep_she C crypt pub ots gcm_enc gcm_dec _ _ _ _ _ _ _ W G T E1) as [F|(kek & b & m & d & Q & _)]; [eapply comm_fr; eauto|].
      subst q. destruct NU.
    + refine (ST _). left. apply (proj2 EF).
    + refine (ST _). left. apply (proj2 EF).
    + refine (ST _). destruct EF as [_ ->]. destruct (_ && _); auto.
    + refine (ST _). right. apply (proj2 EF).
Qed.
Lemma comm_run k evs : forall Y, sys_ok C (hy_ks Y) -> kid_type k = KT_SHE -> kid_id k <> SLOT_RAM -> Forall no_unwrap evs ->
  (forall i, comm (at_ Y i) k) -> forall i, comm (at_ (after evs Y) i) k.
Proof.
  induction evs as [|ev evs IH]; intros Y O T NR F H; cbn [hafter]; auto. inversion F; subst. apply IH; auto.
  - apply hstep_ok; auto.
  - apply comm_step; auto.
Qed.
Lemma comm_fresh st r b k : kid_type k = KT_SHE -> forall i, comm (at_ (fresh_hsys st r b) i) k.
Proof.
  intros T i s V. assert (NZ : k <> 0) by (intros ->; discriminate T). exfalso.
  unfold find_cache, get_ctx, ks_of, fresh_hsys, fresh_sys in V. cbn [hy_ks k_glob k_loc y_glob y_loc] in V.
  destruct (is_global C k); rewrite zero_find in V by auto; discriminate.
Qed.
(** The key a server context sees is the stored one. *)
Lemma seen_stored Y i k : kid_id k <> SLOT_SEED -> coh C (at_ Y i) k -> comm (at_ Y i) k -> key_now C (hy_ks Y) i k = in_nvm (hy_ks Y) k.
Proof.
  intros NS H H2. change (vis C (at_ Y i) k = nv (at_ Y i) k). unfold vis. destruct (vw (at_ Y i) k) as [s|] eqn:V; [|reflexivity].
  destruct (H s V) as [H1 _]. destruct (H1 (H2 s V)) as (m & d & E & _ & X). destruct (X NS). subst. symmetry. exact E.
Qed.

Lemma uid_len i evs : forall Y u v, uid_given C crypt pub ots gcm_enc gcm_dec max_read aes cbc_enc cbc_dec cmac use_op i evs Y u = Some v ->
  (forall w, u = Some w -> length w = UID_SZ) -> length v = UID_SZ.
Proof.
  induction evs as [|ev evs IH]; intros Y u v H L; cbn [uid_given] in H; [auto|].
  destruct (step ev Y) as [a Y1]. apply IH in H; auto. intros w Q.
  destruct ev as [j c e q|[]]; cbn [uid_by] in Q; auto.
  - destruct q; auto. destruct (_ && _); [injection Q as <-; apply exact_len|auto].
  - destruct (Nat.eqb _ _); [discriminate|auto].
  - discriminate.
Qed.
End Upd.
