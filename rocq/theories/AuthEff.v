(** Effects of deleting users, setting permissions and credentials, logging in
    and out. *)
From Verif Require Import Base BaseLemmas NvmSpec Flags Store NvmReqModel NvmReqProof ServerModel AuthModel AuthCodec AuthRep AuthOps.
Local Open Scope N_scope.
Local Arguments N.of_nat : simpl never.

Lemma wf_id us i : users_wf us -> (i < MAX_USERS)%nat -> b_id (nth i us urec_zero) <> 0 ->
  b_id (nth i us urec_zero) = N.of_nat (S i).
Proof. intros [_ HW] Hi HN. destruct (HW i Hi) as (_ & _ & _ & [Z|Z]); auto. rewrite Z in HN. contradiction HN; reflexivity. Qed.

Section Eff.
Variable nvm : bool.
Notation Rep := (Rep nvm).

Lemma eff_delete e cur uid D X C rc D1 : Rep D X C -> users_wf (a_users D) ->
  base_delete nvm e cur uid D = (rc, D1) ->
  rc <> OK /\ a_users D1 = a_users D /\
    (exists X', Rep D1 X' C /\ (X' = X \/ X' = a_users D \/
       exists i, (i < MAX_USERS)%nat /\ uid = N.of_nat (S i) /\ X' = set_nth i urec_zero (a_users D) /\ ae_w2 e <> OK /\ ae_w3 e <> OK)) \/
  rc = OK /\ is_admin (b_perm (user_at D cur)) = true /\
    exists i, (i < MAX_USERS)%nat /\ uid = N.of_nat (S i) /\ b_id (nth i (a_users D) urec_zero) <> 0 /\
      a_users D1 = set_nth i urec_zero (a_users D) /\
      exists C', Rep D1 (a_users D1) C' /\ (forall j, j <> i -> C' j = C j) /\
        (0 < b_clen (nth i (a_users D) urec_zero) -> C' i = None).
Proof.
  intros R HW. unfold base_delete.
  assert (refuse : forall rc0, rc0 <> OK -> (rc0, D) = (rc, D1) ->
    rc <> OK /\ a_users D1 = a_users D /\ (exists X', Rep D1 X' C /\ (X' = X \/ X' = a_users D \/
       exists i, (i < MAX_USERS)%nat /\ uid = N.of_nat (S i) /\ X' = set_nth i urec_zero (a_users D) /\ ae_w2 e <> OK /\ ae_w3 e <> OK))).
  { intros rc0 Hn H; injection H as <- <-. split; [auto|]. split; [auto|]. exists X. auto. }
  destruct ((uid =? 0) || _) eqn:E1; [intros H; left; apply (refuse NOTFOUND); [discriminate|exact H]|].
  destruct ((cur =? 0) || _) eqn:E2; [intros H; left; apply (refuse BADARGS); [discriminate|exact H]|].
  destruct (is_admin _) eqn:E3; cbn [negb]; [|intros H; left; apply (refuse ACCESS); [discriminate|exact H]].
  destruct (uid_slot uid E1) as (i & Hi & -> & _). unfold user_at. rewrite slot_of_id.
  set (u := nth i (a_users D) urec_zero).
  destruct (b_id u =? 0) eqn:E4; [intros H; left; apply (refuse NOTFOUND); [discriminate|exact H]|]. apply N.eqb_neq in E4.
  assert (HWz : users_wf (set_nth i urec_zero (a_users D))) by (apply users_set; auto using zero_wf).
  assert (EZ : set_user (N.of_nat (S i)) urec_zero D = mkDb (set_nth i urec_zero (a_users D)) (a_ram D) (a_st D))
    by (unfold set_user; now rewrite slot_of_id).
  destruct (persist_index nvm (ae_w1 e) _) as [r1 D2] eqn:EI.
  assert (R0 : Rep (set_user (N.of_nat (S i)) urec_zero D) X C) by exact (rep_set_user _ _ _ _ _ _ R).
  assert (HW0 : users_wf (a_users (set_user (N.of_nat (S i)) urec_zero D))) by now rewrite EZ.
  assert (back : forall D' v, a_users D' = set_nth i v (a_users D) -> a_users (set_user (N.of_nat (S i)) u D') = a_users D).
  { intros D' v E. unfold set_user. rewrite slot_of_id. cbn [a_users]. rewrite E, set_nth_twice. apply set_nth_id. }
  destruct (rep_index nvm _ _ _ _ _ _ R0 HW0 EI) as [_ [(-> & R2 & HU2)|(Hn & ->)]].
  - rewrite EZ in R2, HU2. cbn [a_users] in R2, HU2. change (negb (is_ok OK)) with false. cbv iota.
    destruct (0 <? b_clen u) eqn:E5.
    + destruct (destroy_cred nvm (ae_w2 e) _ D2) as [r3 D3] eqn:ED.
      destruct (rep_destroy nvm _ _ _ _ _ _ _ R2 Hi ED) as (EW2 & HU3 & [(-> & R3)|(Hn & ->)]).
      * change (is_ok OK) with true. cbv iota. intros H; injection H as <- <-. right. split; [auto|]. split; [auto|].
        exists i. split; [auto|]. split; [auto|]. split; [auto|]. split; [congruence|]. exists (cset C i None).
        split; [rewrite HU3, HU2; exact R3|]. split.
        -- intros j Hj. unfold cset. destruct (Nat.eqb_spec j i); [contradiction|auto].
        -- intros _. unfold cset. now rewrite Nat.eqb_refl.
      * assert (is_ok r3 = false) as -> by now apply is_ok_false. intros H; injection H as <- <-. left.
        split; [auto|]. destruct (persist_index nvm (ae_w3 e) _) as [r4 D4] eqn:EI4. cbn [snd].
        assert (HU4 : a_users (set_user (N.of_nat (S i)) u D2) = a_users D) by (apply (back D2 urec_zero); exact HU2).
        assert (R4 : Rep (set_user (N.of_nat (S i)) u D2) (set_nth i urec_zero (a_users D)) C) by exact (rep_set_user _ _ _ _ _ _ R2).
        assert (HW4 : users_wf (a_users (set_user (N.of_nat (S i)) u D2))) by now rewrite HU4.
        destruct (rep_index nvm _ _ _ _ _ _ R4 HW4 EI4) as [EW3 [(_ & R5 & HU5)|(Hn4 & ->)]].
        -- split; [congruence|]. exists (a_users D). rewrite HU4 in R5. auto.
        -- split; [exact HU4|]. exists (set_nth i urec_zero (a_users D)). split; [exact R4|]. right. right. exists i.
           split; [auto|]. split; [auto|]. split; [auto|]. destruct nvm; split; congruence.
    + intros H; injection H as <- <-. right. split; [auto|]. split; [auto|].
      exists i. split; [auto|]. split; [auto|]. split; [auto|]. split; [exact HU2|]. exists C. rewrite HU2.
      split; [exact R2|]. split; [auto|]. intros L. apply N.ltb_ge in E5. unfold u in E5. lia.
  - assert (is_ok r1 = false) as -> by now apply is_ok_false. cbn [negb]. intros H; injection H as <- <-. left.
    split; [auto|]. split; [apply (back _ urec_zero); now rewrite EZ|].
    exists X. split; [exact (rep_set_user _ _ _ _ _ _ R0)|auto].
Qed.

Lemma eff_set_perm e cur uid p D X C rc D1 : Rep D X C -> users_wf (a_users D) -> perms_wf p ->
  base_set_perm nvm e cur uid p D = (rc, D1) ->
  rc <> OK /\ a_users D1 = a_users D /\ Rep D1 X C \/
  rc = OK /\ is_admin (b_perm (user_at D cur)) = true /\
    exists i, (i < MAX_USERS)%nat /\ uid = N.of_nat (S i) /\ b_id (nth i (a_users D) urec_zero) <> 0 /\
      a_users D1 = set_nth i (with_perm (nth i (a_users D) urec_zero) (clamp p)) (a_users D) /\ Rep D1 (a_users D1) C.
Proof.
  intros R HW HP. unfold base_set_perm.
  assert (refuse : forall rc0, rc0 <> OK -> (rc0, D) = (rc, D1) -> rc <> OK /\ a_users D1 = a_users D /\ Rep D1 X C).
  { intros rc0 Hn H; injection H as <- <-. auto. }
  destruct ((uid =? 0) || _) eqn:E1; [intros H; left; apply (refuse NOTFOUND); [discriminate|exact H]|].
  destruct ((cur =? 0) || _) eqn:E2; [intros H; left; apply (refuse NOTFOUND); [discriminate|exact H]|].
  destruct (is_admin _) eqn:E3; cbn [negb]; [|intros H; left; apply (refuse ACCESS); [discriminate|exact H]].
  destruct (uid_slot uid E1) as (i & Hi & -> & _). unfold user_at. rewrite slot_of_id.
  set (u := nth i (a_users D) urec_zero).
  destruct (b_id u =? 0) eqn:E4; [intros H; left; apply (refuse NOTFOUND); [discriminate|exact H]|]. apply N.eqb_neq in E4.
  assert (Hw : user_wf i (with_perm u (clamp p))).
  { pose proof (wf_id (a_users D) i HW Hi E4) as EI. destruct HW as [_ HW]. destruct (HW i Hi) as (A & B & B2 & _).
    split; [exact A|]. split; [now apply clamp_wf|]. split; [apply N.le_min_r|]. right. exact EI. }
  assert (EZ : a_users (set_user (N.of_nat (S i)) (with_perm u (clamp p)) D) = set_nth i (with_perm u (clamp p)) (a_users D))
    by (unfold set_user; now rewrite slot_of_id).
  destruct (persist_index nvm (ae_w1 e) _) as [r1 D2] eqn:EI.
  assert (R0 : Rep (set_user (N.of_nat (S i)) (with_perm u (clamp p)) D) X C) by exact (rep_set_user _ _ _ _ _ _ R).
  assert (HW0 : users_wf (a_users (set_user (N.of_nat (S i)) (with_perm u (clamp p)) D))) by (rewrite EZ; now apply users_set).
  destruct (rep_index nvm _ _ _ _ _ _ R0 HW0 EI) as [_ [(-> & R2 & HU2)|(Hn & ->)]].
  - change (is_ok OK) with true. cbv iota. intros H; injection H as <- <-. right. split; [auto|]. split; [auto|].
    exists i. split; [auto|]. split; [auto|]. split; [auto|]. split; [rewrite HU2; exact EZ|]. rewrite HU2. exact R2.
  - assert (is_ok r1 = false) as -> by now apply is_ok_false. intros H; injection H as <- <-. left. split; [auto|].
    split; [|exact (rep_set_user _ _ _ _ _ _ R0)].
    unfold set_user at 1. rewrite slot_of_id. cbn [a_users]. rewrite EZ, set_nth_twice.
    replace (with_perm u (b_perm u)) with u by (destruct u; reflexivity). apply set_nth_id.
Qed.
End Eff.

Section Creds.
Variables (nvm crypto certs : bool) (sha : list N -> list N).
Hypothesis sha_len : forall l, length (sha l) = 32%nat.
Notation Rep := (Rep nvm).
Notation blob_of := (blob_of crypto sha).

(** RAM records agree with the credentials that are stored; a slot whose user
    has no credential may still hold one that was left over. *)
Definition cred_agrees (u : urec) (v : option (N * list N)) : Prop :=
  b_method u = METHOD_NONE /\ b_clen u = 0 \/
  exists m b, v = Some (m, b) /\ b_method u = m /\ b_clen u = len_of b.
Definition agree (us : list urec) (C : cslots) : Prop :=
  forall i, (i < MAX_USERS)%nat -> b_id (nth i us urec_zero) <> 0 -> cred_agrees (nth i us urec_zero) (C i).

Lemma eff_set_cred e cur uid m old new D X C rc D1 : Rep D X C -> users_wf (a_users D) -> agree (a_users D) C ->
  base_set_cred nvm crypto certs sha e cur uid m old new D = (rc, D1) ->
  rc <> OK /\ a_users D1 = a_users D /\ Rep D1 X C \/
  rc = OK /\ method_ok crypto certs m /\ (cur = uid \/ is_admin (b_perm (user_at D cur)) = true) /\
    exists i, (i < MAX_USERS)%nat /\ uid = N.of_nat (S i) /\ b_id (nth i (a_users D) urec_zero) <> 0 /\
      let u := nth i (a_users D) urec_zero in
      (b_clen u = 0 /\ old = [] \/
       exists m0 b0, C i = Some (m0, b0) /\ b_method u = m0 /\ b_clen u = len_of b0 /\ blob_of m0 old = b0 /\ old <> []) /\
      let v := if len_of new =? 0 then None else Some (m, blob_of m new) in
      a_users D1 = set_nth i (with_cred u (match v with None => METHOD_NONE | Some _ => m end)
                                          (match v with None => 0 | Some (_, b) => len_of b end)) (a_users D) /\
      exists C', Rep D1 X C' /\ (forall j, j <> i -> C' j = C j) /\ (C' i = v \/ v = None /\ b_clen u = 0 /\ C' i = C i).
Proof.
  intros R HW HA. unfold base_set_cred.
  assert (refuse : forall rc0, rc0 <> OK -> (rc0, D) = (rc, D1) -> rc <> OK /\ a_users D1 = a_users D /\ Rep D1 X C).
  { intros rc0 Hn H; injection H as <- <-. auto. }
  destruct ((uid =? 0) || _) eqn:E1; [intros H; left; apply (refuse BADARGS); [discriminate|exact H]|].
  destruct ((cur =? 0) || _) eqn:E2; [intros H; left; apply (refuse BADARGS); [discriminate|exact H]|].
  destruct (negb (cur =? uid) && _) eqn:E3; [intros H; left; apply (refuse ACCESS); [discriminate|exact H]|].
  assert (HC3 : cur = uid \/ is_admin (b_perm (user_at D cur)) = true).
  { destruct (N.eqb_spec cur uid); [auto|]. right. cbn [negb andb] in E3. now apply Bool.negb_false_iff in E3. }
  destruct (negb ((m =? METHOD_PIN) || _)) eqn:E4; [intros H; left; apply (refuse BADARGS); [discriminate|exact H]|].
  apply Bool.negb_false_iff in E4. pose proof (proj1 (method_ok_iff crypto certs m) E4) as HM.
  destruct (uid_slot uid E1) as (i & Hi & -> & _). cbv zeta.
  assert (EU : user_at D (N.of_nat (S i)) = nth i (a_users D) urec_zero) by (unfold user_at; now rewrite slot_of_id).
  rewrite !EU.
  set (u := nth i (a_users D) urec_zero).
  destruct (b_id u =? 0) eqn:E5; [intros H; left; apply (refuse NOTFOUND); [discriminate|exact H]|]. apply N.eqb_neq in E5.
  destruct (MAX_CRED <? len_of new) eqn:E6; [intros H; left; apply (refuse BUFFER_SIZE); [discriminate|exact H]|].
  apply N.ltb_ge in E6.
  pose proof (HA i Hi E5) as HAi. fold u in HAi.
  assert (Hpos : forall m0 b0, C i = Some (m0, b0) -> 0 < len_of b0).
  { intros m0 b0 EC. assert (HO : cred_ok (Some (m0, b0))) by (rewrite <- EC; apply R; auto). apply HO. }
  match goal with |- (if negb (is_ok ?V) then _ else _) = _ -> _ => set (verified := V) end.
  assert (HV : is_ok verified = true -> b_clen u = 0 /\ old = [] \/
     exists m0 b0, C i = Some (m0, b0) /\ b_method u = m0 /\ b_clen u = len_of b0 /\ blob_of m0 old = b0 /\ old <> []).
  { unfold verified. destruct HAi as [[HA1 HA2]|(m0 & b0 & EC & HA1 & HA2)]; rewrite HA2.
    - replace (0 <? 0) with false by reflexivity.
      destruct (0 <? len_of old) eqn:E7; [discriminate|]. intros _. left. split; [auto|].
      destruct old; [auto|]. unfold len_of in E7. cbn [length] in E7. apply N.ltb_ge in E7. lia.
    - replace (0 <? len_of b0) with true by (symmetry; apply N.ltb_lt; eauto).
      destruct (len_of old =? 0) eqn:E7; [discriminate|].
      destruct (load_cred nvm (ae_rd e) (N.of_nat (S i)) D) as [rl dl] eqn:EL.
      destruct (is_ok rl) eqn:Erl; [|discriminate]. cbn [negb orb].
      destruct (rep_load nvm (ae_rd e) i D X C R Hi) as (m1 & b1 & EC1 & EL1).
      { intros _. unfold user_at. rewrite slot_of_id. rewrite EC; exact HA2. }
      { rewrite EL. now apply is_ok_iff. }
      rewrite EC in EC1. injection EC1 as <- <-. rewrite EL1 in EL. injection EL as <- <-.
      destruct (negb (len_of b0 =? len_of b0)); [discriminate|].
      assert (Hold : old <> []) by (intros ->; discriminate E7).
      intros HK. right. exists m0, b0. split; [auto|]. split; [auto|]. split; [auto|]. revert HK.
      rewrite HA1. unfold AuthOps.blob_of. destruct ((m0 =? METHOD_PIN) && crypto) eqn:E8.
      + destruct (hash_pin crypto sha e old) as [rh h] eqn:EH. destruct (is_ok rh) eqn:Erh; [|cbn [negb]; intros X0; congruence].
        cbn [negb]. destruct (negb (len_of b0 =? len_of h)); [discriminate|]. cbn [orb].
        destruct (name_eqb b0 h) eqn:EN; [|discriminate]. intros _. apply name_eqb_eq in EN. subst h.
        apply Bool.andb_true_iff in E8 as [_ Ec]. unfold hash_pin in EH. rewrite Ec in EH.
        destruct (ae_hash e); [|injection EH as <- _; discriminate]. injection EH as _ <-. auto.
      + destruct (negb (len_of b0 =? len_of old)); [discriminate|]. cbn [orb].
        destruct (name_eqb b0 old) eqn:EN; [|discriminate]. intros _. apply name_eqb_eq in EN. auto. }
  destruct (is_ok verified) eqn:EV; cbn [negb].
  2:{ intros H. left. apply (refuse verified); [now apply is_ok_false|exact H]. }
  specialize (HV eq_refl). clearbody verified.
  assert (HB : forall rb blob, (if len_of new =? 0 then (OK, [])
    else if (m =? METHOD_PIN) && crypto then hash_pin crypto sha e new else (OK, new)) = (rb, blob) -> is_ok rb = true ->
    len_of new =? 0 = false -> blob = blob_of m new /\ cred_ok (Some (m, blob))).
  { intros rb blob H HO HN. rewrite HN in H. unfold AuthOps.blob_of. apply N.eqb_neq in HN.
    assert (Hnew : new <> []) by (intros ->; apply HN; reflexivity).
    destruct ((m =? METHOD_PIN) && crypto) eqn:E8.
    - apply Bool.andb_true_iff in E8 as [Em Ec]. apply N.eqb_eq in Em. subst m.
      destruct (hash_pin_ok crypto sha sha_len e new rb blob H HO Hnew) as [-> HH]. split; [|exact HH].
      unfold AuthOps.blob_of. now rewrite Ec.
    - injection H as _ <-. split; [auto|]. split; [destruct HM as [?|[? _]]; auto|]. unfold len_of in *. lia. }
  destruct (if len_of new =? 0 then _ else _) as [rb blob] eqn:EB.
  destruct (is_ok rb) eqn:Erb; cbn [negb].
  2:{ intros H. left. apply (refuse rb); [now apply is_ok_false|exact H]. }
  specialize (HB rb blob eq_refl Erb).
  destruct (len_of new =? 0) eqn:E9.
  - injection EB as <- <-. change (0 <? len_of []) with false. cbv iota zeta.
    destruct (0 <? b_clen u) eqn:E10.
    + destruct (destroy_cred nvm (ae_w1 e) _ D) as [r2 D2] eqn:ED.
      destruct (rep_destroy nvm _ _ _ _ _ _ _ R Hi ED) as (_ & HU2 & [(-> & R2)|(Hn & ->)]).
      * change (is_ok OK) with true. cbv iota. intros H; injection H as <- <-. right. split; [auto|]. split; [auto|]. split; [auto|].
        exists i. split; [auto|]. split; [auto|]. split; [auto|]. split; [exact HV|]. split.
        -- unfold set_user. rewrite slot_of_id. cbn [a_users]. now rewrite HU2.
        -- exists (cset C i None). split; [exact (rep_set_user _ _ _ _ _ _ R2)|]. unfold cset. rewrite Nat.eqb_refl.
           split; [|auto]. intros j Hj. destruct (Nat.eqb_spec j i); [contradiction|auto].
      * assert (is_ok r2 = false) as -> by now apply is_ok_false. intros H; injection H as <- <-. left. auto.
    + intros H; injection H as <- <-. right. split; [auto|]. split; [auto|]. split; [auto|].
      exists i. split; [auto|]. split; [auto|]. split; [auto|]. split; [exact HV|].
      apply N.ltb_ge in E10. destruct HAi as [[HA1 HA2]|(m0 & b0 & EC & HA1 & HA2)].
      2:{ exfalso. pose proof (Hpos _ _ EC). lia. }
      split.
      * fold u. assert (EW : with_cred u METHOD_NONE 0 = u) by (rewrite <- HA1, <- HA2; destruct u; reflexivity).
        rewrite EW. symmetry. apply set_nth_id.
      * exists C. auto 7.
  - destruct (HB eq_refl) as [-> HO]. cbv zeta.
    replace (0 <? len_of (blob_of m new)) with true by (symmetry; apply N.ltb_lt; apply HO).
    destruct (persist_cred nvm (ae_w1 e) _ m (blob_of m new) D) as [r2 D2] eqn:EP.
    destruct (rep_cred nvm _ _ _ _ _ _ _ _ _ R Hi HO EP) as (_ & HU2 & [(-> & R2)|(Hn & ->)]).
    + change (is_ok OK) with true. cbv iota. intros H; injection H as <- <-. right. split; [auto|]. split; [auto|]. split; [auto|].
      exists i. split; [auto|]. split; [auto|]. split; [auto|]. split; [exact HV|]. split.
      * unfold set_user. rewrite slot_of_id. cbn [a_users]. now rewrite HU2.
      * eexists. split; [exact (rep_set_user _ _ _ _ _ _ R2)|]. unfold cset. rewrite Nat.eqb_refl.
        split; [|auto]. intros j Hj. destruct (Nat.eqb_spec j i); [contradiction|auto].
    + assert (is_ok r2 = false) as -> by now apply is_ok_false. intros H; injection H as <- <-. left. auto.
Qed.

(** ** Logging in *)
Variable verify : list N -> list N -> bool.
Definition accepts (m : N) (blob data : list N) : Prop :=
  if m =? METHOD_PIN then (if crypto then sha data else data) = blob else verify blob data = true.

Lemma eff_login e m name data D X C rc D1 who : Rep D X C -> users_wf (a_users D) -> agree (a_users D) C ->
  base_login nvm crypto certs sha verify e m name data D = (rc, D1, who) ->
  D1 = D /\ who = None \/
  rc = OK /\ method_ok crypto certs m /\
    exists i, (i < MAX_USERS)%nat /\ let u := nth i (a_users D) urec_zero in
      b_id u = N.of_nat (S i) /\ b_name u = name /\ b_active u = false /\ who = Some (b_id u, b_perm u) /\
      (exists b, C i = Some (m, b) /\ accepts m b data) /\
      D1 = mkDb (set_nth i (with_active u true) (a_users D)) (a_ram D) (a_st D).
Proof.
  intros R HW HA. unfold base_login. destruct (negb _) eqn:E1.
  { intros H; injection H as <- <- <-. auto. }
  apply Bool.negb_false_iff in E1. pose proof (proj1 (method_ok_iff crypto certs m) E1) as HM. clear E1.
  assert (HCHK : forall r i, (if m =? METHOD_PIN then check_pin nvm crypto sha e name data D else check_cert nvm verify e name data D) = (r, Some i) ->
    (i < MAX_USERS)%nat /\ b_id (nth i (a_users D) urec_zero) <> 0 /\ b_name (nth i (a_users D) urec_zero) = name /\
    exists b, C i = Some (m, b) /\ accepts m b data).
  { intros r i. unfold accepts. destruct (N.eqb_spec m METHOD_PIN) as [-> |Nm].
    - unfold check_pin. destruct (hash_pin crypto sha e data) as [rh h] eqn:EH. destruct (is_ok rh) eqn:Erh; [|discriminate].
      cbn [negb]. destruct (find_user D name) as [i0|] eqn:EF; [|discriminate].
      destruct (find_user_some D name i0 EF) as [Hi HN].
      destruct ((_ =? METHOD_PIN) && _) eqn:E2; [|discriminate]. apply Bool.andb_true_iff in E2 as [E2 E3].
      apply N.eqb_eq in E2. assert (Hid : b_id (nth i0 (a_users D) urec_zero) <> 0).
      { intros Z. destruct HW as [_ HW]. destruct (HW i0 Hi) as (_ & _ & _ & [Y|Y]); [rewrite Y in E2; discriminate|]. rewrite Y in Z. discriminate Z. }
      rewrite (wf_id _ _ HW Hi Hid).
      destruct (load_cred nvm (ae_rd e) _ D) as [rl d] eqn:EL. destruct (is_ok rl) eqn:Erl.
      2:{ destruct (Z.eqb rl NOTFOUND); discriminate. }
      destruct (HA i0 Hi Hid) as [[HA1 _]|(m0 & b0 & EC & HA1 & HA2)]; [rewrite E2 in HA1; discriminate HA1|].
      destruct (rep_load nvm (ae_rd e) i0 D X C R Hi) as (m1 & b1 & EC1 & EL1).
      { intros _. unfold user_at. rewrite slot_of_id. rewrite EC. exact HA2. }
      { rewrite EL. now apply is_ok_iff. }
      rewrite EL in EL1. injection EL1 as _ ->. rewrite EC in EC1. injection EC1 as <- <-. rewrite E2 in HA1. subst m0.
      destruct (name_eqb b0 h) eqn:EN; [|discriminate]. apply name_eqb_eq in EN. subst h.
      intros H; injection H as <- <-. split; [auto|]. split; [auto|]. split; [auto|]. exists b0. split; [auto|].
      unfold hash_pin in EH. destruct crypto.
      + destruct (ae_hash e); injection EH as <- <-; [auto|discriminate].
      + destruct (_ <? _); injection EH as <- <-; [discriminate|auto].
    - unfold check_cert. destruct (find_user D name) as [i0|] eqn:EF; [|discriminate].
      destruct (find_user_some D name i0 EF) as [Hi HN].
      destruct ((_ =? METHOD_CERT) && _) eqn:E2; [|discriminate]. apply Bool.andb_true_iff in E2 as [E2 E3].
      apply N.eqb_eq in E2. assert (Hid : b_id (nth i0 (a_users D) urec_zero) <> 0).
      { intros Z. destruct HW as [_ HW]. destruct (HW i0 Hi) as (_ & _ & _ & [Y|Y]); [rewrite Y in E2; discriminate|]. rewrite Y in Z. discriminate Z. }
      rewrite (wf_id _ _ HW Hi Hid).
      destruct (load_cred nvm (ae_rd e) _ D) as [rl d] eqn:EL. destruct (is_ok rl) eqn:Erl.
      2:{ destruct (Z.eqb rl NOTFOUND); discriminate. }
      destruct (HA i0 Hi Hid) as [[HA1 _]|(m0 & b0 & EC & HA1 & HA2)]; [rewrite E2 in HA1; discriminate HA1|].
      destruct (rep_load nvm (ae_rd e) i0 D X C R Hi) as (m1 & b1 & EC1 & EL1).
      { intros _. unfold user_at. rewrite slot_of_id. rewrite EC. exact HA2. }
      { rewrite EL. now apply is_ok_iff. }
      rewrite EL in EL1. injection EL1 as _ ->. rewrite EC in EC1. injection EC1 as <- <-. rewrite E2 in HA1. subst m0.
      destruct ((_ =? _) && _) eqn:EN; [|discriminate]. apply Bool.andb_true_iff in EN as [_ EN].
      intros H; injection H as <- <-. split; [auto|]. split; [auto|]. split; [auto|]. exists b0.
      destruct HM as [?|[-> _]]; [contradiction|]. auto. }
  destruct (if m =? METHOD_PIN then _ else _) as [r who0]. destruct (is_ok r) eqn:Er; cbn [negb].
  2:{ intros H; injection H as <- <- <-. auto. }
  destruct who0 as [i|]; [|intros H; injection H as <- <- <-; auto].
  destruct (HCHK r i eq_refl) as (Hi & Hid & HN & b & EC & HX).
  destruct (b_active (nth i (a_users D) urec_zero)) eqn:EA; [intros H; injection H as <- <- <-; auto|].
  intros H; injection H as <- <- <-. right. split; [auto|]. split; [auto|]. exists i. split; [auto|]. cbv zeta.
  split; [now apply wf_id|]. split; [auto|]. split; [auto|]. split; [auto|]. split; [exists b; auto|]. reflexivity.
Qed.
End Creds.
