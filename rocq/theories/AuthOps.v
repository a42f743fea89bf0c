(** Effects of the database operations, of a restart and of NVM requests. *)
From Verif Require Import Base BaseLemmas NvmSpec Flags Store NvmReqModel NvmReqProof ServerModel AuthModel AuthCodec AuthRep.
Local Open Scope N_scope.

Lemma uid_slot uid : (uid =? 0) || (N.of_nat MAX_USERS <? uid) = false ->
  exists i, (i < MAX_USERS)%nat /\ uid = N.of_nat (S i) /\ slot_of uid = i.
Proof.
  intros H. apply Bool.orb_false_elim in H as [H1 H2]. apply N.eqb_neq in H1. apply N.ltb_ge in H2.
  exists (N.to_nat (uid - 1)). unfold slot_of. split; [lia|]. split; lia.
Qed.
Lemma name_eqb_eq a : forall b, name_eqb a b = true <-> a = b.
Proof.
  induction a as [|x a IH]; intros [|y b]; cbn [name_eqb]; try (split; [discriminate|discriminate]); [tauto|].
  rewrite Bool.andb_true_iff, IH, N.eqb_eq. split; [intros [-> ->]; auto|intros E; injection E; auto].
Qed.

Lemma nth_map_seq {A} (f : nat -> A) n d i : (i < n)%nat -> nth i (map f (seq 0 n)) d = f i.
Proof.
  intros H. rewrite nth_indep with (d' := f 0%nat) by (rewrite map_length, seq_length; auto).
  rewrite map_nth, seq_nth by auto. reflexivity.
Qed.

Local Arguments N.of_nat : simpl never.
Section Ops.
Variable nvm : bool.
Notation Rep := (Rep nvm).

(** ** Restart *)
Definition reloaded (C : cslots) (i : nat) (u : urec) : urec :=
  if b_id u =? 0 then core u else
  match C i with None => core u | Some (m, b) => with_cred (core u) m (len_of b) end.

Lemma load_slot_rep st C i u : (i < MAX_USERS)%nat -> user_wf i u -> cred_ok (C i) ->
  sp_find st (cred_id (N.of_nat (S i))) = cred_obj i (C i) ->
  load_slot st i (core u) = (OK, reloaded C i u).
Proof.
  intros Hi (HN & HP & HC & HI) HO HF. unfold load_slot, reloaded. cbn [core b_id b_name b_perm].
  destruct HI as [-> |HI]; [reflexivity|]. rewrite HI.
  destruct (N.eqb_spec (N.of_nat (S i)) 0); [lia|].
  rewrite N.eqb_refl. cbn [negb orb]. replace (N.of_nat MAXKEYS <? p_count (b_perm u)) with false
    by (symmetry; now apply N.ltb_ge). rewrite HF.
  destruct (C i) as [[m b]|]; cbn [cred_obj option_map fst snd]; [|reflexivity].
  destruct HO as [HM [H1 H2]]. unfold cred_meta; cbn [m_len m_label]. unfold len_of in *.
  destruct (N.eqb_spec (N.of_nat (length b)) 0); [lia|]. cbn [orb].
  replace (MAX_CRED <? N.of_nat (length b)) with false by (symmetry; now apply N.ltb_ge). cbn [orb].
  destruct HM as [-> | ->]; reflexivity.
Qed.

Lemma load_slots_rep st C : forall X i, (i + length X <= MAX_USERS)%nat ->
  (forall k, (k < length X)%nat -> user_wf (i + k) (nth k X urec_zero)) ->
  (forall k, (k < length X)%nat -> cred_ok (C (i + k)%nat) /\ sp_find st (cred_id (N.of_nat (S (i + k)))) = cred_obj (i + k) (C (i + k)%nat)) ->
  load_slots st i (length X) (flat_map ser_user X) =
  (OK, map (fun k => reloaded C (i + k) (nth k X urec_zero)) (seq 0 (length X))).
Proof.
  induction X as [|u X IH]; intros i HL HW HC; cbn [length load_slots flat_map]; [reflexivity|].
  cbn [length] in *. pose proof (HW 0%nat ltac:(lia)) as W0. rewrite Nat.add_0_r in W0. cbn [nth] in W0.
  rewrite first_exact by (apply ser_length; apply W0). rewrite (des_ser i) by (auto; lia).
  destruct (HC 0%nat ltac:(lia)) as [C0 F0]. rewrite Nat.add_0_r in C0, F0.
  rewrite (load_slot_rep st C i u) by (auto; lia). change (negb (is_ok OK)) with false. cbv iota.
  rewrite skip_exact by (apply ser_length; apply W0).
  rewrite (IH (S i)); [|lia| |].
  - cbn [seq map nth]. rewrite Nat.add_0_r. do 2 f_equal. rewrite <- seq_shift, map_map.
    apply map_ext. intros k. cbn [nth]. f_equal. lia.
  - intros k Hk. specialize (HW (S k) ltac:(lia)). cbn [nth] in HW. rewrite <- plus_n_Sm in HW. exact HW.
  - intros k Hk. specialize (HC (S k) ltac:(lia)). rewrite <- plus_n_Sm in HC. exact HC.
Qed.

Definition boot_users (X : list urec) (C : cslots) : list urec :=
  if nvm then map (fun k => reloaded C k (nth k X urec_zero)) (seq 0 MAX_USERS) else users_zero.

Lemma load_rep D X C : nvm = true -> Rep D X C -> load_users (a_st D) = (OK, boot_users X C).
Proof.
  intros HN (HC & HX & HR & R). unfold boot_users. rewrite HN in *. destruct R as [RX RC].
  unfold load_users. destruct RX as [[HF ->]|HF].
  - rewrite HF. reflexivity.
  - rewrite HF. cbn [with_len index_meta m_len]. rewrite ser_index_length by auto. rewrite N.eqb_refl. cbn [negb].
    unfold sp_read. rewrite HF. rewrite ser_index_length by auto.
    replace ((0 <? INDEX_SIZE)%nat && (INDEX_SIZE <=? INDEX_SIZE - 0)%nat) with true by reflexivity.
    change (negb (is_ok OK)) with false. cbv iota.
    change (skipn 0 (ser_index X)) with (ser_index X).
    rewrite (firstn_all2 (ser_index X)) by (rewrite ser_index_length by auto; lia).
    unfold ser_index. rewrite first_exact by apply le_enc_length. rewrite skip_exact by apply le_enc_length.
    replace (le_dec (le_enc 4 AUTH_MAGIC) =? AUTH_MAGIC) with true by reflexivity. cbn [negb].
    destruct HX as [HL HW]. rewrite <- HL.
    rewrite (load_slots_rep (a_st D) C X 0).
    + reflexivity.
    + rewrite HL. reflexivity.
    + intros k Hk. apply HW. now rewrite <- HL.
    + intros k Hk. rewrite HL in Hk. cbn [Nat.add]. auto.
Qed.

Lemma boot_rep D X C rc D1 : Rep D X C -> base_init nvm (a_st D) = (rc, D1) ->
  rc = OK /\ a_users D1 = boot_users X C /\ a_st D1 = a_st D /\ Rep D1 X (if nvm then C else fun _ => None).
Proof.
  intros R H. unfold base_init in H. pose proof (load_rep D X C) as L. unfold boot_users in *. unfold AuthRep.Rep in *.
  destruct nvm.
  - rewrite L in H by auto. injection H as <- <-. cbn [a_users a_st a_ram]. destruct R as (R1 & R2 & R3 & R4).
    split; [auto|]. split; [auto|]. split; [auto|]. split; [auto|]. split; [auto|]. split; [reflexivity|exact R4].
  - injection H as <- <-. split; [auto|]. split; [auto|]. split; [auto|].
    split; [intros i Hi; exact I|]. split; [apply R|]. split; [reflexivity|].
    intros i Hi. cbn [a_ram]. unfold ram_zero. apply nth_repeat.
Qed.

Lemma core_wf i u : user_wf i u -> user_wf i (core u).
Proof. intros (A & B & C & [-> |E]); (split; [exact A|]; split; [exact B|]; split; [exact C|]); [left; reflexivity|right; exact E]. Qed.
Lemma cred_wf i u m n : user_wf i u -> b_id u = N.of_nat (S i) -> user_wf i (with_cred u m n).
Proof. intros (A & B & C & _) E. split; [exact A|]. split; [exact B|]. split; [exact C|]. right; exact E. Qed.
Lemma boot_wf X C : users_wf X -> users_wf (boot_users X C).
Proof.
  intros [HL HW]. unfold boot_users. destruct nvm.
  - split; [now rewrite map_length, seq_length|]. intros i Hi.
    rewrite nth_map_seq by auto. unfold reloaded. pose proof (core_wf i _ (HW i Hi)) as W.
    destruct (b_id (nth i X urec_zero) =? 0) eqn:E; auto. destruct (C i) as [[m b]|]; auto.
    apply cred_wf; auto. destruct (HW i Hi) as (_ & _ & _ & [Z|Z]); [rewrite Z in E; discriminate E|exact Z].
  - split; [apply repeat_length|]. intros i Hi. unfold users_zero. rewrite nth_repeat.
    split; [split; [cbn; lia|constructor]|]. split; [apply perms_zero_wf|]. split; [cbn; lia|]. left; reflexivity.
Qed.
Lemma boot_nth X C i : nvm = true -> (i < MAX_USERS)%nat -> nth i (boot_users X C) urec_zero = reloaded C i (nth i X urec_zero).
Proof.
  intros HN Hi. unfold boot_users. rewrite HN.
  now rewrite nth_map_seq.
Qed.

(** ** NVM requests that leave the reserved ids alone *)
Definition reserved (id : N) : Prop := INDEX_ID <= id <= INDEX_ID + N.of_nat MAX_USERS.
Definition polite (q : nvm_request) : Prop :=
  match q with
  | QAdd m _ => ~ reserved (m_id m)
  | QAddDma m1 m2 _ _ => m_id m1 = m_id m2 /\ ~ reserved (m_id m2)
  | _ => True
  end.
Lemma polite_find mx hs e q s a s' id : polite q -> reserved id ->
  (forall m d, sp_find s id = Some (m, d) -> has (m_flags m) F_NONMODIFIABLE = true) ->
  nvm_handle mx hs e q s = (a, s') -> sp_find s' id = sp_find s id.
Proof.
  intros HP HR HF H.
  assert (RF : race_free q) by (destruct q; cbn in *; tauto).
  destruct (handle_change _ _ _ _ _ _ _ id RF H) as [E|m d E1 E2 E3|E1 E2]; [exact E| |].
  - destruct (sp_find s id) as [[m0 d0]|] eqn:E0.
    { destruct (E3 _ _ eq_refl) as [_ X]. rewrite (HF _ _ eq_refl) in X. discriminate. }
    exfalso. destruct q; cbn [nvm_handle] in H.
    1,2,11: injection H as _ <-; congruence.
    + destruct (is_ok (e_lock e)); injection H as _ <-; congruence.
    + destruct (is_ok (e_lock e)); [destruct (nv_list s start)|]; injection H as _ <-; congruence.
    + destruct (is_ok (e_lock e)); [destruct (nv_meta s id0)|]; injection H as _ <-; congruence.
    + destruct (N.eqb _ _); [destruct (hs && stateful_blob data); [|destruct (is_ok (e_lock e));
        [destruct (add_checked (e_nvm e) m0 m0 data s) as [rc s1] eqn:E|]]|]; injection H as _ <-; try congruence.
      unfold add_checked in E. destruct (fatal _); [injection E as _ <-; congruence|].
      rewrite (nv_add_find _ _ _ _ _ _ id E) in E1. cbn [m_id with_flags] in E1.
      destruct (N.eqb_spec id (m_id m0)) as [-> |]; [apply HP; exact HR|]. rewrite Bool.andb_false_r in E1. congruence.
    + destruct (count <=? 19)%nat; [destruct (is_ok (e_lock e));
        [destruct (destroy_checked (e_nvm e) (firstn count ids) s) as [rc s1] eqn:E|]|]; injection H as _ <-; try congruence.
      unfold destroy_checked in E. destruct (is_ok (destroy_policy s (firstn count ids))); [|injection E as _ <-; congruence].
      rewrite (nv_destroy_find _ _ _ _ _ id E) in E1. destruct (is_ok rc && _); congruence.
    + destruct (is_ok (e_lock e)); [destruct (handle_read mx s id0 off len)|]; injection H as _ <-; congruence.
    + destruct (negb _); [injection H as _ <-; congruence|destruct (negb _); [injection H as _ <-; congruence|destruct (hs && stateful_blob d1);
        [injection H as _ <-; congruence|destruct (is_ok (e_lock e)); [destruct (add_checked (e_nvm e) m1 m2 d2 s) as [rc s1] eqn:E|
         injection H as _ <-; congruence]]]].
      injection H as _ <-. unfold add_checked in E. destruct (fatal _); [injection E as _ <-; congruence|].
      rewrite (nv_add_find _ _ _ _ _ _ id E) in E1. cbn [m_id with_flags] in E1.
      destruct (N.eqb_spec id (m_id m2)) as [-> |]; [apply HP; exact HR|]. rewrite Bool.andb_false_r in E1. congruence.
    + destruct (is_ok (e_lock e)); [|injection H as _ <-; congruence].
      destruct (nv_meta s id0) as [rc m0]. destruct (negb (is_ok rc));
        [|destruct (_ <=? off)%nat; [|destruct (negb _); [|destruct (read_checked _ _ _ _)]]];
        injection H as _ <-; congruence.
  - destruct (sp_find s id) as [[m0 d0]|] eqn:E0; [|exact E1].
    destruct (E2 _ _ eq_refl) as (_ & X & _). rewrite (HF _ _ eq_refl) in X. discriminate.
Qed.

Lemma rep_nvm mx hs e q D X C a st1 : Rep D X C -> polite q -> nvm_handle mx hs e q (a_st D) = (a, st1) ->
  Rep (mkDb (a_users D) (a_ram D) st1) X C.
Proof.
  intros (HC & HX & HR & R) HP H. unfold AuthRep.Rep in *. cbn [a_ram a_st].
  split; [auto|]. split; [auto|]. split; [auto|]. destruct nvm; [|auto]. destruct R as [RX RC].
  assert (HI : sp_find st1 INDEX_ID = sp_find (a_st D) INDEX_ID).
  { apply (polite_find mx hs e q _ a _ INDEX_ID HP); auto.
    - unfold reserved, INDEX_ID. split; [reflexivity|]. unfold MAX_USERS. lia.
    - intros m d HF. destruct RX as [[Z _]|Z]; rewrite Z in HF; [discriminate|]. injection HF as <- _. reflexivity. }
  split; [unfold holds in *; rewrite HI; exact RX|].
  intros i Hi. rewrite <- (RC i Hi). apply (polite_find mx hs e q _ a _ _ HP); auto.
  - unfold reserved, cred_id, CRED_BASE, INDEX_ID. lia.
  - intros m d HF. rewrite (RC i Hi) in HF. destruct (C i) as [[m1 b1]|]; [|discriminate]. cbn in HF. injection HF as <- _. reflexivity.
Qed.

Lemma find_user_none D name : find_user D name = None ->
  forall i, (i < MAX_USERS)%nat -> b_name (nth i (a_users D) urec_zero) <> name.
Proof.
  intros H i Hi E. unfold find_user in H.
  assert (X := find_none _ _ H i). cbv beta in X.
  assert (Y : name_eqb (b_name (nth i (a_users D) urec_zero)) name = false) by (apply X; apply in_seq; lia).
  rewrite E in Y. assert (Z : name_eqb name name = true) by now apply name_eqb_eq. congruence.
Qed.
Lemma find_user_some D name i : find_user D name = Some i ->
  (i < MAX_USERS)%nat /\ b_name (nth i (a_users D) urec_zero) = name.
Proof.
  intros H. unfold find_user in H. apply find_some in H as [H1 H2]. apply in_seq in H1. apply name_eqb_eq in H2.
  split; [lia|auto].
Qed.
Lemma free_slot_some D i : users_wf (a_users D) -> free_slot D = Some i ->
  (i < MAX_USERS)%nat /\ nth i (a_users D) urec_zero = urec_zero.
Proof.
  intros [HL HW] H. unfold free_slot in H. apply find_some in H as [H1 H2]. apply in_seq in H1. apply N.eqb_eq in H2.
  split; [lia|]. destruct (HW i ltac:(lia)) as (_ & _ & _ & [Z|Z]); [exact Z|]. rewrite Z in H2. discriminate H2.
Qed.
Lemma users_set us i u : users_wf us -> user_wf i u -> (i < MAX_USERS)%nat -> users_wf (set_nth i u us).
Proof.
  intros [HL HW] W Hi. split; [now rewrite set_nth_length|]. intros j Hj.
  destruct (Nat.eq_dec i j) as [<-|Ne]; [rewrite set_nth_same by lia; auto|rewrite set_nth_other by auto; auto].
Qed.
Lemma zero_wf i : user_wf i urec_zero.
Proof. split; [split; [cbn; lia|constructor]|]. split; [apply perms_zero_wf|]. split; [cbn; lia|]. left; reflexivity. Qed.

End Ops.

Section Users.
Variables (nvm crypto certs : bool) (sha : list N -> list N).
Hypothesis sha_len : forall l, length (sha l) = 32%nat.
Notation Rep := (Rep nvm).

(** What is stored for a credential. *)
Definition blob_of (m : N) (cred : list N) : list N := if (m =? METHOD_PIN) && crypto then sha cred else cred.
Definition method_ok (m : N) : Prop := m = METHOD_PIN \/ m = METHOD_CERT /\ certs = true /\ crypto = true.
Lemma method_ok_iff m : (m =? METHOD_PIN) || ((m =? METHOD_CERT) && cert_method crypto certs) = true <-> method_ok m.
Proof.
  unfold method_ok, cert_method. rewrite Bool.orb_true_iff, !Bool.andb_true_iff, !N.eqb_eq. tauto.
Qed.

(** ** Adding a user *)
Lemma hash_pin_ok e cred rc b : hash_pin crypto sha e cred = (rc, b) -> is_ok rc = true ->
  cred <> [] -> b = blob_of METHOD_PIN cred /\ cred_ok (Some (METHOD_PIN, b)).
Proof.
  unfold hash_pin, blob_of. intros H HO HN. destruct crypto.
  - destruct (ae_hash e); [|injection H as <- <-; discriminate]. injection H as <- <-. split; [reflexivity|].
    split; [left; reflexivity|]. unfold len_of. rewrite sha_len. split; [reflexivity|discriminate].
  - destruct (MAX_CRED <? N.of_nat (length cred)) eqn:E; injection H as <- <-; [discriminate|].
    split; [reflexivity|]. apply N.ltb_ge in E. split; [left; reflexivity|]. unfold len_of. split; [|exact E].
    destruct cred; [congruence|cbn [length]; lia].
Qed.

Definition new_user (i : nat) (name : list N) (p : perms) (m : N) (n : N) : urec :=
  mkU (N.of_nat (S i)) name (clamp p) false m n.
Lemma new_wf i raw p m n : bytes_ok raw -> perms_wf p -> user_wf i (new_user i (uname raw) p m n).
Proof.
  intros HB HP. split; [now apply uname_ok|]. split; [now apply clamp_wf|]. split; [|right; reflexivity].
  cbn [new_user b_perm clamp p_count]. apply N.le_min_r.
Qed.

Lemma eff_add e raw p m cred D X C rc D1 id :
  Rep D X C -> users_wf (a_users D) -> bytes_ok raw -> perms_wf p ->
  base_add nvm crypto certs sha e raw p m cred D = (rc, D1, id) ->
  rc <> OK /\ id = 0 /\ a_users D1 = a_users D /\
    (exists C', Rep D1 X C' /\ forall j, (j < MAX_USERS)%nat -> b_id (nth j (a_users D) urec_zero) <> 0 -> C' j = C j) \/
  rc = OK /\ exists i, (i < MAX_USERS)%nat /\ nth i (a_users D) urec_zero = urec_zero /\ id = N.of_nat (S i) /\
    find_user D (uname raw) = None /\
    (cred = [] /\ a_users D1 = set_nth i (new_user i (uname raw) p METHOD_NONE 0) (a_users D) /\ Rep D1 (a_users D1) C \/
     cred <> [] /\ method_ok m /\
       a_users D1 = set_nth i (new_user i (uname raw) p m (len_of (blob_of m cred))) (a_users D) /\
       Rep D1 (a_users D1) (cset C i (Some (m, blob_of m cred)))).
Proof.
  intros R HW HB HP. unfold base_add.
  destruct ((0 <? len_of cred) && negb _) eqn:E1.
  { intros H; injection H as <- <- <-. left. split; [discriminate|]. split; [auto|]. split; [auto|]. exists C. auto. }
  destruct (find_user D (uname raw)) as [i0|] eqn:E2.
  { intros H; injection H as <- <- <-. left. split; [discriminate|]. split; [auto|]. split; [auto|]. exists C. auto. }
  destruct (free_slot D) as [i|] eqn:E3.
  2:{ intros H; injection H as <- <- <-. left. split; [discriminate|]. split; [auto|]. split; [auto|]. exists C. auto. }
  destruct (free_slot_some D i HW E3) as [Hi Hz].
  assert (HL : length (a_users D) = MAX_USERS) by apply HW.
  assert (undo : forall D2 u, a_users D2 = set_nth i u (a_users D) -> a_users (set_user (N.of_nat (S i)) urec_zero D2) = a_users D).
  { intros D2 u E. unfold set_user. rewrite slot_of_id. cbn [a_users]. rewrite E, set_nth_twice, <- Hz. apply set_nth_id. }
  assert (undo0 : a_users (set_user (N.of_nat (S i)) urec_zero D) = a_users D).
  { unfold set_user. rewrite slot_of_id. cbn [a_users]. rewrite <- Hz. apply set_nth_id. }
  fold (new_user i (uname raw) p METHOD_NONE 0).
  set (u0 := new_user i (uname raw) p METHOD_NONE 0).
  assert (idx : forall clen D2 u Ci rc D1 id,
    a_users D2 = set_nth i u (a_users D) -> user_wf i u -> Rep D2 X Ci ->
    (forall j, (j < MAX_USERS)%nat -> b_id (nth j (a_users D) urec_zero) <> 0 -> Ci j = C j) ->
    (let '(rc, D1) := persist_index nvm (ae_w2 e) D2 in
     if is_ok rc then (rc, D1, N.of_nat (S i))
     else (rc, set_user (N.of_nat (S i)) urec_zero (if 0 <? clen then snd (destroy_cred nvm (ae_w3 e) (N.of_nat (S i)) D1) else D1), 0)) = (rc, D1, id) ->
    rc = OK /\ id = N.of_nat (S i) /\ a_users D1 = set_nth i u (a_users D) /\ Rep D1 (a_users D1) Ci \/
    rc <> OK /\ id = 0 /\ a_users D1 = a_users D /\
    (exists C', Rep D1 X C' /\ forall j, (j < MAX_USERS)%nat -> b_id (nth j (a_users D) urec_zero) <> 0 -> C' j = C j)).
  { intros clen D2 u Ci rc0 D0 id0 HU HWu R2 HCi.
    destruct (persist_index nvm (ae_w2 e) D2) as [r D3] eqn:EI.
    assert (HW2 : users_wf (a_users D2)) by (rewrite HU; now apply users_set).
    destruct (rep_index nvm _ _ _ _ _ _ R2 HW2 EI) as [_ [(-> & R3 & HU3)|(Hn & ->)]].
    - change (is_ok OK) with true. cbv iota. intros H; injection H as <- <- <-. left. split; [auto|]. split; [auto|].
      split; [congruence|]. rewrite HU3. exact R3.
    - assert (is_ok r = false) as -> by now apply is_ok_false. intros H; injection H as <- <- <-. right.
      split; [auto|]. split; [auto|]. destruct (0 <? clen).
      + destruct (destroy_cred nvm (ae_w3 e) (N.of_nat (S i)) D2) as [r4 D4] eqn:ED. cbn [snd].
        destruct (rep_destroy nvm _ _ _ _ _ _ _ R2 Hi ED) as (_ & HU4 & [(-> & R4)|(_ & ->)]).
        * split; [apply (undo D4 u); congruence|]. exists (cset Ci i None). split; [exact (rep_set_user _ _ _ _ _ _ R4)|].
          intros j Hj HN. unfold cset. destruct (Nat.eqb_spec j i) as [-> |]; [rewrite Hz in HN; contradiction HN; reflexivity|auto].
        * split; [apply (undo D2 u); auto|]. exists Ci. split; [exact (rep_set_user _ _ _ _ _ _ R2)|auto].
      + split; [apply (undo D2 u); auto|]. exists Ci. split; [exact (rep_set_user _ _ _ _ _ _ R2)|auto]. }
  destruct (0 <? len_of cred) eqn:E4.
  - assert (Hc : cred <> []) by (intros ->; discriminate E4). cbn [andb] in E1.
    apply Bool.negb_false_iff in E1. pose proof (proj1 (method_ok_iff m) E1) as HM.
    assert (HBL : forall rcb b, (if m =? METHOD_PIN then hash_pin crypto sha e cred
       else if MAX_CRED <? len_of cred then (BUFFER_SIZE, []) else (OK, cred)) = (rcb, b) -> is_ok rcb = true ->
       b = blob_of m cred /\ cred_ok (Some (m, b))).
    { intros rcb b. destruct (N.eqb_spec m METHOD_PIN) as [-> |Nm]; [intros HH HO; now apply (hash_pin_ok e cred rcb b)|].
      destruct (MAX_CRED <? len_of cred) eqn:EL; intros HH HO; injection HH as <- <-; [discriminate|].
      apply N.ltb_ge in EL. unfold blob_of. destruct (N.eqb_spec m METHOD_PIN); [contradiction|]. cbn [andb].
      split; [auto|]. split; [destruct HM as [?|[? _]]; auto|]. split; [|exact EL]. now apply N.ltb_lt. }
    destruct (if m =? METHOD_PIN then _ else _) as [rcb b]. destruct (is_ok rcb) eqn:Eb; cbn [negb].
    2:{ intros H; injection H as <- <- <-. left. split; [now apply is_ok_false|]. split; [auto|]. split; [exact undo0|].
        exists C. split; [exact (rep_set_user _ _ _ _ _ _ R)|auto]. }
    destruct (HBL rcb b eq_refl Eb) as [-> HO].
    set (u1 := with_cred u0 m (len_of (blob_of m cred))).
    destruct (persist_cred nvm (ae_w1 e) (N.of_nat (S i)) m (blob_of m cred) _) as [r2 D2] eqn:EP.
    destruct (rep_cred nvm _ _ _ _ _ _ _ _ _ (rep_set_user _ _ _ _ (N.of_nat (S i)) u1 R) Hi HO EP) as (_ & HU2 & HR2).
    assert (HU2' : a_users D2 = set_nth i u1 (a_users D)).
    { rewrite HU2. unfold set_user. rewrite slot_of_id. reflexivity. }
    destruct HR2 as [(-> & R2)|(Hn & ->)].
    + change (negb (is_ok OK)) with false. cbv iota. intros H.
      assert (HWu : user_wf i u1) by (unfold u1, u0; apply (new_wf i raw p); auto).
      destruct (idx (len_of (blob_of m cred)) D2 u1 _ rc D1 id HU2' HWu R2) as [(A & B & A3 & A4)|A].
      * intros j Hj HN. unfold cset. destruct (Nat.eqb_spec j i) as [-> |]; [rewrite Hz in HN; contradiction HN; reflexivity|auto].
      * exact H.
      * right. split; [auto|]. exists i. split; [auto|]. split; [auto|]. split; [auto|]. split; [auto|]. right.
        split; [auto|]. split; [auto|]. split; [exact A3|exact A4].
      * left. exact A.
    + assert (is_ok r2 = false) as -> by now apply is_ok_false. cbn [negb]. intros H; injection H as <- <- <-.
      left. split; [auto|]. split; [auto|]. split; [apply (undo _ u1); exact HU2'|].
      exists C. split; [exact (rep_set_user _ _ _ _ _ _ R)|auto].
  - intros H. assert (Hc : cred = []).
    { destruct cred; [auto|]. unfold len_of in E4. cbn [length] in E4. apply N.ltb_ge in E4. lia. }
    assert (HWu : user_wf i u0) by (unfold u0; apply (new_wf i raw p); auto).
    destruct (idx 0 (set_user (N.of_nat (S i)) u0 D) u0 C rc D1 id) as [(A & B & A3 & A4)|A]; auto.
    + unfold set_user. rewrite slot_of_id. reflexivity.
    + right. split; [auto|]. exists i. split; [auto|]. split; [auto|]. split; [auto|]. split; [auto|]. left. auto.
Qed.
End Users.
