(** What the user database of the authentication model holds: the records in RAM,
    the records the stored index names, and the credential of each slot.  Every
    database operation as an effect on these three. *)
From Verif Require Import Base BaseLemmas NvmSpec Flags Store NvmReqModel NvmReqProof ServerModel AuthModel AuthCodec.
Local Open Scope N_scope.

Lemma set_nth_length {A} n (x : A) l : length (set_nth n x l) = length l.
Proof. revert n; induction l as [|y l IH]; intros [|n]; cbn [set_nth length]; auto. Qed.
Lemma set_nth_same {A} n (x d : A) l : (n < length l)%nat -> nth n (set_nth n x l) d = x.
Proof. revert n; induction l as [|y l IH]; intros [|n] H; cbn [set_nth nth length] in *; auto; try lia. apply IH. lia. Qed.
Lemma set_nth_other {A} n m (x d : A) l : n <> m -> nth m (set_nth n x l) d = nth m l d.
Proof. revert n m; induction l as [|y l IH]; intros [|n] [|m] H; cbn [set_nth nth]; auto; try congruence. Qed.
Lemma set_nth_id {A} n (d : A) l : set_nth n (nth n l d) l = l.
Proof. revert n; induction l as [|y l IH]; intros [|n]; cbn [set_nth nth]; auto. now rewrite IH. Qed.
Lemma set_nth_twice {A} n (x y : A) l : set_nth n x (set_nth n y l) = set_nth n x l.
Proof. revert n; induction l as [|z l IH]; intros [|n]; cbn [set_nth]; auto. now rewrite IH. Qed.

Lemma slot_of_id i : slot_of (N.of_nat (S i)) = i.
Proof. unfold slot_of. lia. Qed.

(** The index in NVM holds the records [X]. *)
Definition holds (st : store) (X : list urec) : Prop :=
  sp_find st INDEX_ID = None /\ X = users_zero \/
  sp_find st INDEX_ID = Some (with_len index_meta (N.of_nat (length (ser_index X))), ser_index X).
Definition cslots := nat -> option (N * list N).
Definition cset (C : cslots) (i : nat) (v : option (N * list N)) : cslots := fun j => if Nat.eqb j i then v else C j.
Definition cred_obj (i : nat) (v : option (N * list N)) : option (meta * list N) :=
  option_map (fun v => (cred_meta (N.of_nat (S i)) (fst v) (N.of_nat (length (snd v))), snd v)) v.
Definition cred_ok (v : option (N * list N)) : Prop :=
  match v with None => True | Some (m, b) => (m = METHOD_PIN \/ m = METHOD_CERT) /\ 0 < len_of b <= MAX_CRED end.

Section Rep.
Variable nvm : bool.

Definition Rep (D : adb) (X : list urec) (C : cslots) : Prop :=
  (forall i, (i < MAX_USERS)%nat -> cred_ok (C i)) /\ users_wf X /\ length (a_ram D) = MAX_USERS /\
  if nvm then holds (a_st D) X /\ forall i, (i < MAX_USERS)%nat -> sp_find (a_st D) (cred_id (N.of_nat (S i))) = cred_obj i (C i)
  else forall i, (i < MAX_USERS)%nat -> nth i (a_ram D) [] = match C i with None => [] | Some (_, b) => b end.

Lemma ser_index_length X : users_wf X -> length (ser_index X) = INDEX_SIZE.
Proof.
  intros [HL HW]. unfold ser_index. rewrite app_length, le_enc_length.
  assert (E : length (flat_map ser_user X) = (USER_SIZE * length X)%nat).
  { assert (F : Forall (fun u => perms_wf (b_perm u)) X).
    { apply Forall_forall. intros u Hu. apply (In_nth _ _ urec_zero) in Hu as (i & Hi & <-).
      rewrite HL in Hi. destruct (HW i Hi) as (_ & W & _). exact W. }
    clear -F. induction F as [|u X Hu F IH]; cbn [flat_map length]; [now rewrite Nat.mul_0_r|].
    rewrite app_length, IH, ser_length by auto. lia. }
  rewrite E, HL. reflexivity.
Qed.

Lemma index_id_cred i : (i < MAX_USERS)%nat -> cred_id (N.of_nat (S i)) <> INDEX_ID.
Proof. unfold cred_id, CRED_BASE, INDEX_ID. lia. Qed.
Lemma cred_id_inj i j : cred_id (N.of_nat (S i)) = cred_id (N.of_nat (S j)) -> i = j.
Proof. unfold cred_id. lia. Qed.

Lemma rep_index w D X C rc D1 : Rep D X C -> users_wf (a_users D) -> persist_index nvm w D = (rc, D1) ->
  rc = (if nvm then w else OK) /\ (rc = OK /\ Rep D1 (a_users D) C /\ a_users D1 = a_users D \/ rc <> OK /\ D1 = D).
Proof.
  intros (HC & HX & HR & R) HW. unfold persist_index. unfold Rep. destruct nvm.
  - destruct (nv_add w index_meta _ _) as [r st] eqn:E. intros H; injection H as <- <-.
    pose proof (nv_add_rc w index_meta (ser_index (a_users D)) (a_st D)) as E2. rewrite E in E2. cbn [fst] in E2. subst r.
    split; auto. destruct (is_ok w) eqn:Ew.
    + left. apply is_ok_iff in Ew. subst w. split; auto. split; [|reflexivity].
      cbn [a_ram a_st a_users]. split; [auto|]. split; [auto|]. split; [auto|].
      destruct R as [RX RC]. split.
      * right. rewrite (nv_add_find _ _ _ _ _ _ INDEX_ID E). reflexivity.
      * intros i Hi. rewrite (nv_add_find _ _ _ _ _ _ _ E). cbn [index_meta m_id].
        replace (cred_id (N.of_nat (S i)) =? INDEX_ID) with false; [rewrite Bool.andb_false_r; auto|].
        symmetry. apply N.eqb_neq. now apply index_id_cred.
    + right. unfold nv_add in E. rewrite Ew in E. injection E as <-. split; [now apply is_ok_false|]. destruct D; reflexivity.
  - intros H; injection H as <- <-. split; auto. left. split; auto 8.
Qed.

Lemma rep_cred w i m blob D X C rc D1 : Rep D X C -> (i < MAX_USERS)%nat -> cred_ok (Some (m, blob)) ->
  persist_cred nvm w (N.of_nat (S i)) m blob D = (rc, D1) ->
  rc = (if nvm then w else OK) /\ a_users D1 = a_users D /\
  (rc = OK /\ Rep D1 X (cset C i (Some (m, blob))) \/ rc <> OK /\ D1 = D).
Proof.
  intros (HC & HX & HR & R) Hi HO. unfold persist_cred, Rep.
  assert (HC' : forall j, (j < MAX_USERS)%nat -> cred_ok (cset C i (Some (m, blob)) j)).
  { intros j Hj. unfold cset. destruct (Nat.eqb j i); auto. }
  destruct nvm.
  - destruct (nv_add w _ blob _) as [r st] eqn:E. intros H; injection H as <- <-.
    pose proof (nv_add_rc w (cred_meta (N.of_nat (S i)) m (N.of_nat (length blob))) blob (a_st D)) as E2.
    rewrite E in E2. cbn [fst] in E2. subst r. split; auto. split; [reflexivity|].
    destruct (is_ok w) eqn:Ew.
    + left. apply is_ok_iff in Ew. subst w. split; auto. cbn [a_ram a_st a_users].
      split; [auto|]. split; [auto|]. split; [auto|]. destruct R as [RX RC]. split.
      * unfold holds in *. rewrite (nv_add_find _ _ _ _ _ _ INDEX_ID E). cbn [cred_meta m_id].
        replace (INDEX_ID =? cred_id (N.of_nat (S i))) with false; [rewrite ?Bool.andb_false_r; exact RX|].
        symmetry. apply N.eqb_neq. apply not_eq_sym. now apply index_id_cred.
      * intros j Hj. rewrite (nv_add_find _ _ _ _ _ _ _ E). cbn [cred_meta m_id]. unfold cset.
        destruct (Nat.eqb_spec j i) as [-> |Ne].
        -- rewrite N.eqb_refl. reflexivity.
        -- replace (cred_id (N.of_nat (S j)) =? cred_id (N.of_nat (S i))) with false; [rewrite Bool.andb_false_r; auto|].
           symmetry. apply N.eqb_neq. intros X1. now apply cred_id_inj in X1.
    + right. unfold nv_add in E. rewrite Ew in E. injection E as <-. split; [now apply is_ok_false|]. destruct D; reflexivity.
  - rewrite slot_of_id. intros H; injection H as <- <-. split; auto. split; [reflexivity|]. left. split; auto. cbn [a_ram a_st a_users].
    split; [auto|]. split; [auto|]. split; [now rewrite set_nth_length|]. intros j Hj. unfold cset.
    destruct (Nat.eqb_spec j i) as [-> |Ne]; [apply set_nth_same; lia|rewrite set_nth_other by auto; auto].
Qed.

Lemma rep_destroy w i D X C rc D1 : Rep D X C -> (i < MAX_USERS)%nat ->
  destroy_cred nvm w (N.of_nat (S i)) D = (rc, D1) ->
  rc = (if nvm then w else OK) /\ a_users D1 = a_users D /\
  (rc = OK /\ Rep D1 X (cset C i None) \/ rc <> OK /\ D1 = D).
Proof.
  intros (HC & HX & HR & R) Hi. unfold destroy_cred, Rep.
  assert (HC' : forall j, (j < MAX_USERS)%nat -> cred_ok (cset C i None j)).
  { intros j Hj. unfold cset. destruct (Nat.eqb j i); [exact I|auto]. }
  destruct nvm.
  - destruct (nv_destroy w _ _) as [r st] eqn:E. intros H; injection H as <- <-.
    assert (E2 : r = w). { unfold nv_destroy in E. destruct (is_ok w) eqn:Ew; injection E as <- _; auto. apply is_ok_iff in Ew. auto. }
    subst r. split; auto. split; [reflexivity|]. destruct (is_ok w) eqn:Ew.
    + left. apply is_ok_iff in Ew. subst w. split; auto. cbn [a_ram a_st a_users].
      split; [auto|]. split; [auto|]. split; [auto|]. destruct R as [RX RC]. split.
      * unfold holds in *. rewrite (nv_destroy_find _ _ _ _ _ INDEX_ID E). cbn [existsb].
        replace (INDEX_ID =? cred_id (N.of_nat (S i))) with false; [rewrite ?Bool.andb_false_r; exact RX|].
        symmetry. apply N.eqb_neq. apply not_eq_sym. now apply index_id_cred.
      * intros j Hj. rewrite (nv_destroy_find _ _ _ _ _ _ E). cbn [existsb]. unfold cset.
        destruct (Nat.eqb_spec j i) as [-> |Ne].
        -- rewrite N.eqb_refl. reflexivity.
        -- replace (cred_id (N.of_nat (S j)) =? cred_id (N.of_nat (S i))) with false; [rewrite Bool.andb_false_r; auto|].
           symmetry. apply N.eqb_neq. intros X1. now apply cred_id_inj in X1.
    + right. unfold nv_destroy in E. rewrite Ew in E. injection E as <-. split; [now apply is_ok_false|]. destruct D; reflexivity.
  - rewrite slot_of_id. intros H; injection H as <- <-. split; auto. split; [reflexivity|]. left. split; auto. cbn [a_ram a_st a_users].
    split; [auto|]. split; [auto|]. split; [now rewrite set_nth_length|]. intros j Hj. unfold cset.
    destruct (Nat.eqb_spec j i) as [-> |Ne]; [apply set_nth_same; lia|rewrite set_nth_other by auto; auto].
Qed.

(** RAM records do not matter to the representation. *)
Lemma rep_users D X C us : Rep D X C -> Rep (mkDb us (a_ram D) (a_st D)) X C.
Proof. intros R. exact R. Qed.
Lemma rep_set_user D X C uid u : Rep D X C -> Rep (set_user uid u D) X C.
Proof. apply rep_users. Qed.
Lemma rep_ext D X C C' : (forall i, (i < MAX_USERS)%nat -> C i = C' i) -> Rep D X C -> Rep D X C'.
Proof.
  intros E (HC & HX & HR & R). unfold Rep. split; [intros i Hi; rewrite <- E; auto|]. split; [auto|]. split; [auto|].
  destruct nvm.
  - destruct R as [RX RC]. split; auto. intros i Hi. rewrite <- E by auto. auto.
  - intros i Hi. rewrite <- E by auto. auto.
Qed.

(** Reading a credential. *)
Lemma rep_load rd i D X C : Rep D X C -> (i < MAX_USERS)%nat ->
  (nvm = false -> b_clen (user_at D (N.of_nat (S i))) = match C i with None => 0 | Some (_, b) => len_of b end) ->
  fst (load_cred nvm rd (N.of_nat (S i)) D) = OK ->
  exists m b, C i = Some (m, b) /\ load_cred nvm rd (N.of_nat (S i)) D = (OK, b).
Proof.
  intros (HC & HX & HR & R) Hi HB. unfold load_cred. specialize (HC i Hi). destruct nvm.
  - destruct (is_ok rd) eqn:Er; cbn [negb]; [|cbn [fst]; intros ->; discriminate Er].
    destruct R as [RX RC]. rewrite (RC i Hi). destruct (C i) as [[m b]|] eqn:EC; cbn [cred_obj option_map fst snd cred_meta m_len].
    2:{ intros H. discriminate H. }
    intros H. exists m, b. split; auto. destruct HC as [_ [H1 H2]]. unfold len_of in *.
    replace ((0 <? N.of_nat (length b)) && (N.of_nat (length b) <=? MAX_CRED)) with true
      by (symmetry; apply andb_true_intro; split; [now apply N.ltb_lt|now apply N.leb_le]).
    unfold sp_read. rewrite (RC i Hi). rewrite EC. cbn [cred_obj option_map fst snd].
    replace ((0 <? length b)%nat && (N.to_nat (N.of_nat (length b)) <=? length b - 0)%nat) with true.
    2:{ symmetry. apply andb_true_intro; split; [apply Nat.ltb_lt|apply Nat.leb_le]; lia. }
    cbn [skipn]. rewrite Nat2N.id, firstn_all. reflexivity.
  - rewrite (HB eq_refl). rewrite slot_of_id, (R i Hi). destruct (C i) as [[m b]|] eqn:EC.
    + destruct (N.eqb_spec (len_of b) 0); [intros H; discriminate H|]. intros _. exists m, b. split; auto.
      unfold len_of. rewrite Nat2N.id, firstn_all. reflexivity.
    + cbn. intros H. discriminate H.
Qed.
End Rep.
