(** Proofs about the client NVM requests. *)
From Verif Require Import Base NvmSpec Flags Store NvmReqModel.

(** Flags that make an object's bytes unreadable to clients. *)
Definition secret (m : meta) : bool := has (m_flags m) F_NONEXPORTABLE || has (m_flags m) F_TRUSTED.

(** The object id in the client memory a DMA add reads is not changed while the
    request runs. *)
Definition race_free (q : nvm_request) : Prop :=
  match q with QAddDma m1 m2 _ _ => m_id m1 = m_id m2 | _ => True end.

Lemma nv_meta_find s id : nv_meta s id =
  match sp_find s id with Some o => (OK, fst o) | None => (NOTFOUND, meta_zero) end.
Proof. unfold nv_meta. destruct (sp_find s id) as [[m d]|]; reflexivity. Qed.

Lemma policy_cases op s id :
  check_policy op s id =
  match sp_find s id with
  | None => NOTFOUND
  | Some (m, _) =>
      if has (m_flags m) F_TRUSTED || has (m_flags m)
           match op with NvAdd => F_NONMODIFIABLE | NvRead => F_NONEXPORTABLE
                       | NvDestroy => N.lor F_NONMODIFIABLE F_NONDESTROYABLE end
      then ACCESS else OK
  end.
Proof.
  unfold check_policy. rewrite nv_meta_find. destruct (sp_find s id) as [[m d]|]; [|reflexivity].
  cbn [fst]. change (negb (is_ok OK)) with false. cbv iota zeta.
  destruct (has (m_flags m) F_TRUSTED); [reflexivity|]. destruct op; reflexivity.
Qed.

(** An object no add and no destroy of a client passes. *)
Lemma destroy_policy_ok s ids m d id : In id ids -> sp_find s id = Some (m, d) ->
  has (m_flags m) F_TRUSTED || has (m_flags m) F_NONMODIFIABLE || has (m_flags m) F_NONDESTROYABLE = true ->
  destroy_policy s ids <> OK.
Proof.
  intros HI HF HP. induction ids as [|i r IH]; [destruct HI|]. cbn [destroy_policy].
  destruct HI as [->|HI].
  - rewrite policy_cases, HF, has_lor, Bool.orb_assoc, HP. cbn. discriminate.
  - destruct (fatal (check_policy NvDestroy s i)) eqn:E; [|auto].
    unfold fatal in E. apply andb_prop in E as [E _]. apply Bool.negb_true_iff, is_ok_false in E. exact E.
Qed.

(** What one request can do to the object under [id]. *)
Inductive change (s s' : store) (id : N) : Prop :=
| ch_same : sp_find s' id = sp_find s id -> change s s' id
| ch_add m d : sp_find s' id = Some (m, d) -> has (m_flags m) F_TRUSTED = false ->
    (forall m0 d0, sp_find s id = Some (m0, d0) ->
       has (m_flags m0) F_TRUSTED = false /\ has (m_flags m0) F_NONMODIFIABLE = false) -> change s s' id
| ch_del : sp_find s' id = None ->
    (forall m0 d0, sp_find s id = Some (m0, d0) ->
       has (m_flags m0) F_TRUSTED = false /\ has (m_flags m0) F_NONMODIFIABLE = false /\
       has (m_flags m0) F_NONDESTROYABLE = false) -> change s s' id.

Lemma add_change r m1 m d s rc s' id : m_id m1 = m_id m -> add_checked r m1 m d s = (rc, s') -> change s s' id.
Proof.
  intros EI. unfold add_checked. rewrite EI. destruct (fatal (check_policy NvAdd s (m_id m))) eqn:F; intros H.
  { injection H as <- <-. apply ch_same; reflexivity. }
  apply nv_add_find with (id := id) in H. cbn [m_id with_flags] in H.
  destruct (is_ok rc && N.eqb id (m_id m)) eqn:E; [|apply ch_same; exact H].
  apply andb_prop in E as [_ E]. apply N.eqb_eq in E; subst id.
  eapply ch_add; [exact H| |].
  - cbn [m_flags with_len with_flags]. apply has_clear_self.
  - intros m0 d0 HF. rewrite policy_cases, HF in F.
    destruct (has (m_flags m0) F_TRUSTED), (has (m_flags m0) F_NONMODIFIABLE); cbn in F; try discriminate; auto.
Qed.

Lemma destroy_change r ids s rc s' id : destroy_checked r ids s = (rc, s') -> change s s' id.
Proof.
  unfold destroy_checked. destruct (is_ok (destroy_policy s ids)) eqn:P; intros H.
  2:{ injection H as <- <-. apply ch_same; reflexivity. }
  apply nv_destroy_find with (id := id) in H.
  destruct (is_ok rc && existsb (N.eqb id) ids) eqn:E; [|apply ch_same; exact H].
  apply andb_prop in E as [_ E]. apply existsb_exists in E as (i & HI & E). apply N.eqb_eq in E; subst i.
  apply ch_del; [exact H|]. intros m0 d0 HF. apply is_ok_iff in P.
  destruct (has (m_flags m0) F_TRUSTED || has (m_flags m0) F_NONMODIFIABLE || has (m_flags m0) F_NONDESTROYABLE) eqn:G.
  - destruct (destroy_policy_ok s ids m0 d0 id HI HF G P).
  - apply Bool.orb_false_elim in G as [G1 G2]. apply Bool.orb_false_elim in G1 as [G0 G1]. auto.
Qed.

Lemma handle_change mx st e q s a s' id : race_free q -> nvm_handle mx st e q s = (a, s') -> change s s' id.
Proof.
  intros RF H. destruct q; cbn [nvm_handle] in H.
  1,2,11: injection H as <- <-; apply ch_same; reflexivity.
  - destruct (is_ok (e_lock e)); injection H as <- <-; apply ch_same; reflexivity.
  - destruct (is_ok (e_lock e)); [destruct (nv_list s start)|]; injection H as <- <-; apply ch_same; reflexivity.
  - destruct (is_ok (e_lock e)); [destruct (nv_meta s id0)|]; injection H as <- <-; apply ch_same; reflexivity.
  - destruct (N.eqb _ _); [destruct (st && stateful_blob data); [|destruct (is_ok (e_lock e));
      [destruct (add_checked (e_nvm e) m m data s) as [rc s1] eqn:E|]]|]; injection H as <- <-;
      try (apply ch_same; reflexivity). eapply add_change; eauto.
  - destruct (count <=? 19); [destruct (is_ok (e_lock e));
      [destruct (destroy_checked (e_nvm e) (firstn count ids) s) as [rc s1] eqn:E|]|]; injection H as <- <-;
      try (apply ch_same; reflexivity). eapply destroy_change; eauto.
  - destruct (is_ok (e_lock e)); [destruct (handle_read mx s id0 off len)|]; injection H as <- <-;
      apply ch_same; reflexivity.
  - destruct (negb _); [|destruct (negb _); [|destruct (st && stateful_blob d1);
      [|destruct (is_ok (e_lock e)); [destruct (add_checked (e_nvm e) m1 m2 d2 s) as [rc s1] eqn:E|]]]];
      injection H as <- <-; try (apply ch_same; reflexivity). eapply add_change; eauto.
  - destruct (is_ok (e_lock e)); [|injection H as <- <-; apply ch_same; reflexivity].
    destruct (nv_meta s id0) as [rc m]. destruct (negb (is_ok rc));
      [|destruct (_ <=? off); [|destruct (negb _); [|destruct (read_checked _ _ _ _)]]];
      injection H as <- <-; apply ch_same; reflexivity.
Qed.

Lemma session_ind mx st (P : store -> Prop) :
  (forall e q s a s', race_free q -> P s -> nvm_handle mx st e q s = (a, s') -> P s') ->
  forall qs s rs s', Forall (fun eq => race_free (snd eq)) qs -> P s -> nvm_session mx st qs s = (rs, s') -> P s'.
Proof.
  intros HP. induction qs as [|[e q] qs IH]; intros s rs s' RF H0 H; cbn [nvm_session] in H.
  { injection H as <- <-. exact H0. }
  inversion RF as [|? ? R1 R2]; subst. cbn [snd] in R1.
  destruct (nvm_handle mx st e q s) as [a s1] eqn:E1. destruct (nvm_session mx st qs s1) as [rs2 s2] eqn:E2.
  injection H as <- <-. apply (IH s1 rs2 s2); auto. eapply HP; eauto.
Qed.

Lemma session_nonmodifiable mx st qs s rs s' id m d :
  Forall (fun eq => race_free (snd eq)) qs -> sp_find s id = Some (m, d) -> has (m_flags m) F_NONMODIFIABLE = true ->
  nvm_session mx st qs s = (rs, s') -> sp_find s' id = Some (m, d).
Proof.
  intros RF HF HM. apply (session_ind mx st (fun s => sp_find s id = Some (m, d))); auto.
  intros e q s0 a s1 R H H1. destruct (handle_change _ _ _ _ _ _ _ id R H1) as [E|m1 d1 E1 E2 E3|E1 E2].
  - congruence.
  - destruct (E3 _ _ H); congruence.
  - destruct (E2 _ _ H) as (? & ? & ?); congruence.
Qed.

Lemma session_trusted mx st qs s rs s' id :
  Forall (fun eq => race_free (snd eq)) qs -> nvm_session mx st qs s = (rs, s') ->
  forall m d, has (m_flags m) F_TRUSTED = true -> (sp_find s' id = Some (m, d) <-> sp_find s id = Some (m, d)).
Proof.
  intros RF HS m d HM.
  apply (session_ind mx st (fun s1 => sp_find s1 id = Some (m, d) <-> sp_find s id = Some (m, d))) with (qs := qs) (s := s) (rs := rs); auto; [|tauto].
  intros e q s0 a s1 R H H1. rewrite <- H. destruct (handle_change _ _ _ _ _ _ _ id R H1) as [E|m1 d1 E1 E2 E3|E1 E2].
  - rewrite E. tauto.
  - rewrite E1. split; intros X; [congruence|]. destruct (E3 _ _ X); congruence.
  - rewrite E1. split; intros X; [congruence|]. destruct (E2 _ _ X) as (? & ? & ?); congruence.
Qed.

(** No request makes a trusted object appear, even with client memory changing. *)
Lemma add_no_trusted r m1 m2 d s rc s' id m d' : add_checked r m1 m2 d s = (rc, s') ->
  sp_find s' id = Some (m, d') -> has (m_flags m) F_TRUSTED = true -> sp_find s id = Some (m, d').
Proof.
  unfold add_checked. destruct (fatal _); intros H HF HT; [congruence|].
  apply nv_add_find with (id := id) in H. destruct (is_ok rc && _); [|congruence].
  rewrite HF in H. injection H as -> ->. cbn [m_flags with_len with_flags] in HT.
  rewrite has_clear_self in HT. discriminate.
Qed.
Lemma destroy_no_new r ids s rc s' id o : destroy_checked r ids s = (rc, s') ->
  sp_find s' id = Some o -> sp_find s id = Some o.
Proof.
  unfold destroy_checked. destruct (is_ok _); intros H HF; [|congruence].
  apply nv_destroy_find with (id := id) in H. destruct (is_ok rc && _); congruence.
Qed.
Lemma handle_no_trusted mx st e q s a s' id m d : nvm_handle mx st e q s = (a, s') ->
  sp_find s' id = Some (m, d) -> has (m_flags m) F_TRUSTED = true -> sp_find s id = Some (m, d).
Proof.
  intros H HF HT. destruct q; cbn [nvm_handle] in H;
    repeat match type of H with
    | (if ?b then _ else _) = _ => destruct b
    | (let '(_, _) := ?p in _) = _ => let E := fresh "E" in destruct p eqn:E
    end; injection H as <- <-; auto; eauto using add_no_trusted, destroy_no_new.
Qed.
Lemma session_no_trusted mx st : forall qs s rs s' id m d, nvm_session mx st qs s = (rs, s') ->
  sp_find s' id = Some (m, d) -> has (m_flags m) F_TRUSTED = true -> sp_find s id = Some (m, d).
Proof.
  induction qs as [|[e q] qs IH]; intros s rs s' id m d H HF HT; cbn [nvm_session] in H; [congruence|].
  destruct (nvm_handle mx st e q s) as [a s1] eqn:E1. destruct (nvm_session mx st qs s1) as [rs2 s2] eqn:E2.
  injection H as <- <-. eapply handle_no_trusted; eauto.
Qed.

(** ** Non-interference *)
Definition same_obj (o1 o2 : object) : Prop :=
  fst o1 = fst o2 /\ length (snd o1) = length (snd o2) /\ (secret (fst o1) = false -> snd o1 = snd o2).
Definition same_public (s1 s2 : store) : Prop := Forall2 same_obj s1 s2.

Lemma same_len s1 s2 : Forall2 same_obj s1 s2 -> length s1 = length s2.
Proof. induction 1; cbn [length]; congruence. Qed.
Lemma same_find s1 s2 id : same_public s1 s2 ->
  match sp_find s1 id, sp_find s2 id with
  | Some o1, Some o2 => same_obj o1 o2 | None, None => True | _, _ => False end.
Proof.
  induction 1 as [|o1 o2 s1 s2 HO HS IH]; cbn [sp_find]; auto.
  unfold oid. rewrite <- (proj1 HO). destruct (N.eqb _ _); auto.
Qed.
Lemma same_destroy s1 s2 ids : same_public s1 s2 -> same_public (sp_destroy ids s1) (sp_destroy ids s2).
Proof.
  induction 1 as [|o1 o2 s1 s2 HO HS IH]; cbn [sp_destroy filter]; [constructor|].
  unfold oid. rewrite <- (proj1 HO). destruct (negb _); [constructor; auto|auto].
Qed.
Lemma same_add s1 s2 m d : same_public s1 s2 -> same_public (sp_add m d s1) (sp_add m d s2).
Proof.
  intros H. unfold sp_add. apply Forall2_app; [apply same_destroy; auto|].
  repeat constructor; auto.
Qed.
Lemma same_policy s1 s2 op id : same_public s1 s2 -> check_policy op s1 id = check_policy op s2 id.
Proof.
  intros H. rewrite !policy_cases. pose proof (same_find _ _ id H) as X.
  destruct (sp_find s1 id) as [[m1 d1]|], (sp_find s2 id) as [[m2 d2]|]; try tauto.
  destruct X as [X _]. cbn [fst] in X. subst. reflexivity.
Qed.
Lemma same_meta s1 s2 id : same_public s1 s2 -> nv_meta s1 id = nv_meta s2 id.
Proof.
  intros H. rewrite !nv_meta_find. pose proof (same_find _ _ id H) as X.
  destruct (sp_find s1 id) as [[m1 d1]|], (sp_find s2 id) as [[m2 d2]|]; try tauto.
  destruct X as [X _]. cbn [fst] in X. subst. reflexivity.
Qed.
Lemma same_list s1 s2 start : same_public s1 s2 -> nv_list s1 start = nv_list s2 start.
Proof.
  intros H. unfold nv_list, sp_list. destruct (N.eqb start 0).
  - destruct H as [|o1 o2 s1 s2 HO HS]; auto. unfold oid. rewrite (proj1 HO), (same_len _ _ HS). reflexivity.
  - assert (X : same_public (sp_after s1 start) (sp_after s2 start)).
    { induction H as [|o1 o2 s1 s2 HO HS IH]; cbn [sp_after]; [constructor|].
      unfold oid. rewrite <- (proj1 HO). destruct (N.eqb _ _); auto. }
    destruct X as [|o1 o2 r1 r2 HO HS]; auto. unfold oid. cbn [length]. rewrite (proj1 HO), (same_len _ _ HS). reflexivity.
Qed.
Lemma same_read s1 s2 id off len : same_public s1 s2 -> read_checked s1 id off len = read_checked s2 id off len.
Proof.
  intros H. unfold read_checked. rewrite (same_policy s1 s2 NvRead id H).
  destruct (is_ok (check_policy NvRead s2 id)) eqn:P; auto.
  rewrite policy_cases in P. unfold sp_read. pose proof (same_find _ _ id H) as X.
  destruct (sp_find s1 id) as [[m1 d1]|], (sp_find s2 id) as [[m2 d2]|]; try tauto.
  destruct X as (X & _ & Y). cbn [fst snd] in *. subst m2.
  rewrite Y; auto. unfold secret. destruct (has (m_flags m1) F_TRUSTED), (has (m_flags m1) F_NONEXPORTABLE); cbn in P |- *; congruence.
Qed.
Lemma same_destroy_policy s1 s2 ids : same_public s1 s2 -> destroy_policy s1 ids = destroy_policy s2 ids.
Proof.
  intros H. induction ids as [|i r IH]; cbn [destroy_policy]; auto.
  rewrite (same_policy s1 s2 NvDestroy i H), IH. reflexivity.
Qed.

Lemma same_handle mx st e q s1 s2 : same_public s1 s2 ->
  fst (nvm_handle mx st e q s1) = fst (nvm_handle mx st e q s2) /\
  same_public (snd (nvm_handle mx st e q s1)) (snd (nvm_handle mx st e q s2)).
Proof.
  intros H. destruct q; cbn [nvm_handle]; unfold add_checked, destroy_checked, handle_read, nv_add, nv_destroy;
    rewrite ?(same_list s1 s2 _ H), ?(same_meta s1 s2 _ H), ?(same_policy s1 s2 _ _ H), ?(same_destroy_policy s1 s2 _ H);
    repeat match goal with
    | |- context [nv_meta s2 ?i] => destruct (nv_meta s2 i) as [? ?]
    | |- context [nv_list s2 ?i] => destruct (nv_list s2 i) as [? ?]
    | |- context [read_checked s1 ?i ?o ?l] => rewrite (same_read s1 s2 i o l H); destruct (read_checked s2 i o l) as [? ?]
    | |- context [if ?b then _ else _] => destruct b
    end; cbn [fst snd]; split; auto using same_add, same_destroy.
Qed.

Lemma same_session mx st : forall qs s1 s2, same_public s1 s2 ->
  fst (nvm_session mx st qs s1) = fst (nvm_session mx st qs s2) /\
  same_public (snd (nvm_session mx st qs s1)) (snd (nvm_session mx st qs s2)).
Proof.
  induction qs as [|[e q] qs IH]; intros s1 s2 H; cbn [nvm_session]; [auto|].
  destruct (same_handle mx st e q s1 s2 H) as [E1 E2].
  destruct (nvm_handle mx st e q s1) as [a1 t1], (nvm_handle mx st e q s2) as [a2 t2]. cbn [fst snd] in *.
  destruct (IH _ _ E2) as [F1 F2].
  destruct (nvm_session mx st qs t1) as [b1 u1], (nvm_session mx st qs t2) as [b2 u2]. cbn [fst snd] in *.
  subst; auto.
Qed.

(** Reads return windows of readable objects only. *)
Lemma read_checked_data s id off len rc bs : read_checked s id off len = (rc, bs) -> bs <> [] ->
  rc = OK /\ exists m d, sp_find s id = Some (m, d) /\ secret m = false /\
    bs = firstn len (skipn off d) /\ off + len <= length d.
Proof.
  unfold read_checked. rewrite policy_cases. unfold sp_read.
  destruct (sp_find s id) as [[m d]|]; [|cbn; intros H; injection H as <- <-; congruence].
  unfold secret. destruct (has (m_flags m) F_TRUSTED) eqn:FT, (has (m_flags m) F_NONEXPORTABLE) eqn:FN; cbn [orb];
    try (change (is_ok ACCESS) with false; cbv iota; intros H; injection H as <- <-; congruence).
  change (is_ok OK) with true. cbv iota.
  destruct ((off <? length d) && (len <=? length d - off)) eqn:E; intros H; injection H as <- <-; [|congruence].
  intros _. apply andb_prop in E as [E1 E2]. apply Nat.ltb_lt in E1. apply Nat.leb_le in E2.
  split; auto. exists m, d. rewrite FT, FN. repeat split; auto. lia.
Qed.

(** An object the policy lets a client destroy or overwrite, and its presence. *)
Lemma session_nondestroyable_present mx st qs s rs s' id m d :
  Forall (fun eq => race_free (snd eq)) qs ->
  Forall (fun eq => match snd eq with
                    | QAdd m1 _ | QAddDma m1 _ _ _ => m_id m1 <> id | _ => True end) qs ->
  sp_find s id = Some (m, d) -> has (m_flags m) F_NONDESTROYABLE = true ->
  nvm_session mx st qs s = (rs, s') -> sp_find s' id = Some (m, d).
Proof.
  intros RF NA HF HM. revert s rs HF. induction qs as [|[e q] qs IH]; intros s rs HF H; cbn [nvm_session] in H.
  { congruence. }
  inversion RF as [|? ? R1 R2]; subst. inversion NA as [|? ? N1 N2]; subst. cbn [snd] in *.
  destruct (nvm_handle mx st e q s) as [a s1] eqn:E1. destruct (nvm_session mx st qs s1) as [rs2 s2] eqn:E2.
  injection H as <- <-. refine (IH R2 N2 s1 rs2 _ E2). clear E2 IH.
  assert (A : forall m9 m0 dd rc s9, m_id m0 <> id -> add_checked (e_nvm e) m9 m0 dd s = (rc, s9) -> sp_find s9 id = Some (m, d)).
  { intros m9 m0 dd rc s9 NE. unfold add_checked. destruct (fatal _); intros X; [congruence|].
    apply nv_add_find with (id := id) in X. cbn [m_id with_flags] in X.
    replace (N.eqb id (m_id m0)) with false in X by (symmetry; apply N.eqb_neq; congruence).
    rewrite Bool.andb_false_r in X. congruence. }
  destruct (handle_change _ _ _ _ _ _ _ id R1 E1) as [E|m1 d1 E3 E4 E5|E3 E4]; [congruence| |].
  2:{ destruct (E4 _ _ HF) as (_ & _ & ?); congruence. }
  clear E3 E4 E5. destruct q; cbn [nvm_handle race_free] in *;
    repeat match type of E1 with
    | (if ?b then _ else _) = _ => destruct b
    | (let '(_, _) := ?p in _) = _ => let E := fresh "E" in destruct p eqn:E
    end; injection E1 as <- <-; auto; try (eapply A; eauto; fail).
  - unfold destroy_checked in E. destruct (is_ok (destroy_policy s (firstn count ids))) eqn:P; [|congruence].
    pose proof (nv_destroy_find _ _ _ _ _ id E) as X.
    destruct (is_ok z && existsb (N.eqb id) (firstn count ids)) eqn:Y; [|congruence].
    apply andb_prop in Y as [_ Y]. apply existsb_exists in Y as (i & HI & Y). apply N.eqb_eq in Y; subst i.
    apply is_ok_iff in P. exfalso. apply (destroy_policy_ok s _ m d id HI HF); auto.
    rewrite HM. apply Bool.orb_true_r.
  - eapply A; [|eassumption]. congruence.
Qed.

Lemma handle_read_exportable : forall mx st e s q a s' id off len,
  q = QRead id off len \/ q = QReadDma id off len ->
  nvm_handle mx st e q s = (a, s') -> rs_data a <> [] ->
  exists m d n, sp_find s id = Some (m, d) /\
    has (m_flags m) F_NONEXPORTABLE = false /\ has (m_flags m) F_TRUSTED = false /\
    rs_data a = firstn n (skipn off d) /\ n <= len /\ off + n <= length d.
Proof.
  intros mx st e s q a s' id off len HQ H HD.
  assert (G : forall n rc bs, read_checked s id off n = (rc, bs) -> bs = rs_data a -> n <= len ->
     exists m d n, sp_find s id = Some (m, d) /\
     has (m_flags m) F_NONEXPORTABLE = false /\ has (m_flags m) F_TRUSTED = false /\
     rs_data a = firstn n (skipn off d) /\ n <= len /\ off + n <= length d).
  { intros n rc bs E -> L. destruct (read_checked_data _ _ _ _ _ _ E HD) as (_ & m & d & F & S & W & B).
    exists m, d, n. unfold secret in S. apply Bool.orb_false_elim in S as [S1 S2]. repeat split; auto. }
  destruct HQ as [-> | ->]; cbn [nvm_handle] in H; destruct (is_ok (e_lock e));
    try (injection H as <- <-; cbn [rs_data resp_rc] in HD; congruence).
  - destruct (handle_read mx s id off len) as [rc bs] eqn:E. injection H as <- <-. cbn [rs_data] in *.
    unfold handle_read in E. destruct (mx <? len); [injection E as <- <-; congruence|].
    destruct (nv_meta s id) as [r m]. destruct (negb (is_ok r)); [injection E as <- <-; congruence|].
    destruct (_ <=? off); [injection E as <- <-; congruence|]. eapply G; eauto. lia.
  - destruct (nv_meta s id) as [r m].
    destruct (negb (is_ok r)); [injection H as <- <-; cbn [rs_data resp_rc] in HD; congruence|].
    destruct (_ <=? off); [injection H as <- <-; cbn [rs_data resp_rc] in HD; congruence|].
    destruct (negb _); [injection H as <- <-; cbn [rs_data resp_rc] in HD; congruence|].
    destruct (read_checked s id off (Nat.min len (N.to_nat (m_len m) - off))) as [rc bs] eqn:E.
    injection H as <- <-. eapply G; eauto. lia.
Qed.
