From Verif Require Import Base BaseLemmas NvmSpec Flags Store KeyId CounterModel.
Local Open Scope N_scope.

(** The value of counter [id] of [client] in the store. *)
Definition counter_value (s : store) (client id : N) : option N :=
  match sp_find s (counter_id client id) with
  | Some (m, _) => Some (le_dec (firstn 4 (m_label m))) | None => None end.

(** Stored metadata is of the C type. *)
Definition store_ok (s : store) : Prop := forall id m d, sp_find s id = Some (m, d) -> meta_ok m.

Lemma get_set m v : v < 4294967296 -> get_counter (set_counter m v) = v.
Proof.
  intros H. unfold get_counter, set_counter. cbn [m_label].
  rewrite firstn_app. rewrite le_enc_length. rewrite firstn_all2 by (rewrite le_enc_length; auto).
  rewrite Nat.sub_diag, firstn_O, app_nil_r. apply le_dec_enc. exact H.
Qed.
Lemma get_bound m : meta_ok m -> get_counter m < 4294967296.
Proof.
  intros (_ & L & B). unfold get_counter.
  assert (X : bytes_ok (firstn 4 (m_label m))) by (apply bytes_ok_firstn; auto).
  apply le_dec_bound in X. rewrite firstn_length, L in X. exact X.
Qed.
Lemma set_ok m v : meta_ok m -> meta_ok (set_counter m v).
Proof.
  intros (A & L & E). split; [exact A|split]; unfold set_counter; cbn [m_label].
  - rewrite app_length, le_enc_length, skipn_length, L. reflexivity.
  - apply Forall_app. split; [apply le_enc_ok|]. apply bytes_ok_skipn; auto.
Qed.

(** One request by [client] touches only the counter it names. *)
Definition named (q : counter_req) : option N :=
  match q with CInit id _ | CInc id | CRead id | CDestroy id => Some id | CShort => None end.

Lemma handle_other e client q s a s' k :
  counter_handle e client q s = (a, s') ->
  (forall id, named q = Some id -> k <> counter_id client id) -> sp_find s' k = sp_find s k.
Proof.
  intros H HN.
  assert (ADD : forall r m s1 rc, nv_add r m [] s = (rc, s1) -> (exists id, m_id m = counter_id client id /\ named q = Some id) ->
            sp_find s1 k = sp_find s k).
  { intros r m s1 rc E (id & EM & EN). rewrite (nv_add_find _ _ _ _ _ _ k E).
    replace (k =? m_id m) with false; [rewrite Bool.andb_false_r; reflexivity|].
    symmetry. apply N.eqb_neq. rewrite EM. apply HN; auto. }
  destruct q; cbn [counter_handle named] in *.
  - destruct (negb _); [congruence|]. destruct (nv_add _ _ _ _) as [rc s1] eqn:E. injection H as <- <-.
    eapply ADD; eauto. exists id. split; auto.
  - destruct (negb _); [congruence|]. unfold nv_meta in H.
    destruct (sp_find s (counter_id client id)) as [[m1 d1]|] eqn:F; [|injection H as <- <-; reflexivity].
    destruct (negb _); [congruence|]. destruct (_ =? 0); [congruence|].
    destruct (nv_add _ _ _ _) as [rc2 s1] eqn:E. injection H as <- <-.
    eapply ADD; eauto. exists id. split; auto. exact (find_id _ _ _ F).
  - destruct (negb _); [congruence|]. destruct (nv_meta _ _). congruence.
  - destruct (negb _); [congruence|]. destruct (nv_destroy _ _ _) as [rc s1] eqn:E. injection H as <- <-.
    rewrite (nv_destroy_find _ _ _ _ _ k E). cbn [existsb].
    replace (k =? counter_id client id) with false; [rewrite Bool.andb_false_r; reflexivity|].
    symmetry. apply N.eqb_neq. apply HN; auto.
  - congruence.
Qed.

(** Effect of each request on the counter it names. *)
Lemma inc_spec e client id s v m d a s' :
  sp_find s (counter_id client id) = Some (m, d) -> meta_ok m -> v = get_counter m ->
  counter_handle e client (CInc id) s = (a, s') ->
  (fst a = OK /\ snd a = N.min U32MAX (v + 1) /\ counter_value s' client id = Some (N.min U32MAX (v + 1)))
  \/ (fst a <> OK /\ s' = s).
Proof.
  intros F HM -> H. pose proof (get_bound m HM) as B. unfold U32MAX.
  cbn [counter_handle] in H. destruct (is_ok (ce_lock e)) eqn:L; cbn [negb] in H.
  2:{ injection H as <- <-. right. split; auto. apply is_ok_false; auto. }
  unfold nv_meta in H. rewrite F in H. change (negb (is_ok OK)) with false in H. cbv iota zeta in H.
  destruct (N.eqb_spec ((get_counter m + 1) mod 4294967296) 0) as [Z|NZ].
  - injection H as <- <-. left. assert (E : get_counter m = 4294967295).
    { destruct (N.eq_dec (get_counter m) 4294967295); auto. rewrite N.mod_small in Z by lia. lia. }
    cbn [fst snd]. rewrite E. repeat split; auto. unfold counter_value. rewrite F. fold (get_counter m). rewrite E. reflexivity.
  - assert (LT : get_counter m + 1 < 4294967296).
    { destruct (N.eq_dec (get_counter m) 4294967295) as [E|]; [rewrite E in NZ; exfalso; apply NZ; reflexivity|lia]. }
    rewrite (N.mod_small _ _ LT) in H.
    destruct (nv_add (ce_nvm e) (set_counter m (get_counter m + 1)) [] s) as [rc s1] eqn:E.
    pose proof (nv_add_find _ _ _ _ _ _ (counter_id client id) E) as FF.
    change (m_id (set_counter m (get_counter m + 1))) with (m_id m) in FF.
    pose proof (find_id _ _ _ F) as EI. cbn [fst] in EI. rewrite EI, N.eqb_refl, Bool.andb_true_r in FF.
    injection H as <- <-. cbn [fst snd]. destruct (is_ok rc) eqn:R.
    + left. apply is_ok_iff in R. repeat split; auto; [lia|].
      unfold counter_value. rewrite FF. f_equal. change (get_counter (set_counter m (get_counter m + 1)) = N.min 4294967295 (get_counter m + 1)).
      rewrite get_set by auto. lia.
    + right. apply is_ok_false in R. split; auto. unfold nv_add in E. destruct (is_ok (ce_nvm e)) eqn:R2; [|congruence].
      injection E as <- <-. congruence.
Qed.

Lemma init_spec e client id v s a s' : v <= U32MAX ->
  counter_handle e client (CInit id v) s = (a, s') ->
  (fst a = OK /\ snd a = v /\ counter_value s' client id = Some v) \/ (fst a <> OK /\ s' = s).
Proof.
  unfold U32MAX. intros B H. cbn [counter_handle] in H. destruct (is_ok (ce_lock e)) eqn:L; cbn [negb] in H.
  2:{ injection H as <- <-. right. split; auto. apply is_ok_false; auto. }
  destruct (nv_add _ _ _ _) as [rc s1] eqn:E. pose proof (nv_add_find _ _ _ _ _ _ (counter_id client id) E) as FF.
  change (m_id (set_counter (with_id meta_zero (counter_id client id)) v)) with (counter_id client id) in FF.
  rewrite N.eqb_refl, Bool.andb_true_r in FF. injection H as <- <-. cbn [fst snd]. destruct (is_ok rc) eqn:R.
  - left. apply is_ok_iff in R. rewrite get_set by lia. repeat split; auto.
    unfold counter_value. rewrite FF. f_equal.
    change (get_counter (set_counter (with_id meta_zero (counter_id client id)) v) = v). apply get_set; lia.
  - right. apply is_ok_false in R. split; auto. unfold nv_add in E. destruct (is_ok (ce_nvm e)) eqn:R2; [|congruence].
    injection E as <- <-. congruence.
Qed.

Lemma read_spec e client id s a s' :
  counter_handle e client (CRead id) s = (a, s') ->
  s' = s /\ (fst a = OK -> counter_value s client id = Some (snd a)).
Proof.
  intros H. cbn [counter_handle] in H. destruct (is_ok (ce_lock e)) eqn:L; cbn [negb] in H.
  2:{ injection H as <- <-. split; auto. intros X. cbn [fst] in X. apply is_ok_false in L. congruence. }
  unfold nv_meta in H. unfold counter_value. destruct (sp_find s (counter_id client id)) as [[m d]|]; injection H as <- <-; split; auto.
  discriminate.
Qed.

Lemma handle_ok e client q s a s' : store_ok s -> counter_handle e client q s = (a, s') -> store_ok s'.
Proof.
  intros HS H.
  assert (ADD : forall r m s1 rc, nv_add r m [] s = (rc, s1) -> meta_ok m -> store_ok s1).
  { intros r m s1 rc E M k m1 d1 F. rewrite (nv_add_find _ _ _ _ _ _ k E) in F. destruct (is_ok rc && _); [|eauto].
    injection F as <- <-. destruct M as ((A & B & C & D) & L & X). repeat split; auto. }
  destruct q; cbn [counter_handle] in H; cbv zeta in H.
  - destruct (negb _); [injection H as <- <-; exact HS|]. destruct (nv_add _ _ _ _) as [rc s1] eqn:E. injection H as <- <-.
    eapply ADD; eauto. apply set_ok. repeat split; try reflexivity; try apply mk_lt. cbn. repeat constructor.
  - destruct (negb _); [injection H as <- <-; exact HS|]. unfold nv_meta in H.
    destruct (sp_find s (counter_id client id)) as [[m1 d1]|] eqn:F; [|injection H as <- <-; exact HS].
    destruct (negb _); [injection H as <- <-; exact HS|]. destruct (_ =? 0); [injection H as <- <-; exact HS|].
    destruct (nv_add _ _ _ _) as [rc2 s1] eqn:E. injection H as <- <-.
    eapply ADD; eauto. apply set_ok. eauto.
  - destruct (negb _); [injection H as <- <-; exact HS|]. destruct (nv_meta _ _). injection H as <- <-; exact HS.
  - destruct (negb _); [injection H as <- <-; exact HS|]. destruct (nv_destroy _ _ _) as [rc s1] eqn:E. injection H as <- <-.
    intros k m d F. rewrite (nv_destroy_find _ _ _ _ _ k E) in F. destruct (_ && _); [discriminate|eauto].
  - injection H as <- <-; exact HS.
Qed.

(** Histories.  [target] says that the event names counter [id] of [client]. *)
Definition ev_names (ev : cevent) (client id : N) : bool :=
  match ev with
  | CServe _ c q | CCut c q _ =>
      match named q with Some i => (counter_id c i =? counter_id client id) | None => false end
  end.
Definition ev_inc (ev : cevent) : bool :=
  match ev with CServe _ _ (CInc _) | CCut _ (CInc _) _ => true | _ => false end.
Definition ev_ends (ev : cevent) : bool :=
  match ev with CServe _ _ (CInit _ _) | CServe _ _ (CDestroy _)
  | CCut _ (CInit _ _) _ | CCut _ (CDestroy _) _ => true | _ => false end.

(** Increments of the counter answered OK, and those cut by a power loss. *)
Fixpoint incs_ok (client id : N) (evs : list cevent) (rs : list (option (Z * N))) : N :=
  match evs, rs with
  | ev :: r, a :: ra =>
      (match a with
       | Some (rc, _) => if is_ok rc && ev_inc ev && ev_names ev client id then 1 else 0
       | None => 0 end) + incs_ok client id r ra
  | _, _ => 0
  end.
Fixpoint incs_cut (client id : N) (evs : list cevent) : N :=
  match evs with
  | [] => 0
  | ev :: r => (match ev with CCut _ _ _ => if ev_inc ev && ev_names ev client id then 1 else 0 | _ => 0 end)
               + incs_cut client id r
  end.

Lemma cstep_ok ev s a s' : store_ok s -> cstep ev s = (a, s') -> store_ok s'.
Proof.
  intros HS H. destruct ev as [e c q|c q [|]]; cbn [cstep] in H.
  - destruct (counter_handle e c q s) as [b s1] eqn:E. injection H as <- <-. eapply handle_ok; eauto.
  - injection H as <- <-. destruct (counter_handle (mkCenv OK OK) c q s) as [b s1] eqn:E. eapply handle_ok; eauto.
  - injection H as <- <-. exact HS.
Qed.

Lemma cstep_other ev s a s' client id :
  ev_names ev client id = false -> cstep ev s = (a, s') -> counter_value s' client id = counter_value s client id.
Proof.
  intros HN H. unfold counter_value.
  assert (G : forall e c q b s1, counter_handle e c q s = (b, s1) ->
    (match named q with Some i => counter_id c i =? counter_id client id | None => false end) = false ->
    sp_find s1 (counter_id client id) = sp_find s (counter_id client id)).
  { intros e c q b s1 E X. eapply handle_other; eauto. intros i EI. rewrite EI in X. apply N.eqb_neq in X. auto. }
  destruct ev as [e c q|c q [|]]; cbn [cstep ev_names] in *.
  - destruct (counter_handle e c q s) as [b s1] eqn:E. injection H as <- <-. erewrite G; eauto.
  - destruct (counter_handle (mkCenv OK OK) c q s) as [b s1] eqn:E. injection H as <- <-. cbn [snd]. erewrite G; eauto.
  - injection H as <- <-; reflexivity.
Qed.

Lemma handle_id_eq e c i client id s : counter_id c i = counter_id client id ->
  counter_handle e c (CInc i) s = counter_handle e client (CInc id) s /\
  counter_handle e c (CRead i) s = counter_handle e client (CRead id) s.
Proof. intros E. cbn [counter_handle]. rewrite E. auto. Qed.

Lemma value_find s client id v : counter_value s client id = Some v ->
  exists m d, sp_find s (counter_id client id) = Some (m, d) /\ v = get_counter m.
Proof.
  unfold counter_value. destruct (sp_find s (counter_id client id)) as [[m d]|]; [|discriminate].
  intros H; injection H as <-. eauto.
Qed.

Lemma session_count client id : forall evs s rs s' v,
  store_ok s -> counter_value s client id = Some v ->
  Forall (fun ev => ev_names ev client id && ev_ends ev = false) evs ->
  csession evs s = (rs, s') ->
  exists n, counter_value s' client id = Some (N.min U32MAX (v + n)) /\
    incs_ok client id evs rs <= n <= incs_ok client id evs rs + incs_cut client id evs.
Proof.
  induction evs as [|ev evs IH]; intros s rs s' v HS HV HE H; cbn [csession] in H.
  { injection H as <- <-. exists 0. destruct (value_find _ _ _ _ HV) as (m & d & F & ->).
    pose proof (get_bound m (HS _ _ _ F)). unfold U32MAX. rewrite HV. split; [f_equal; lia|cbn; lia]. }
  inversion HE as [|? ? E1 E2]; subst.
  destruct (cstep ev s) as [a s1] eqn:C. destruct (csession evs s1) as [ra s2] eqn:S. injection H as <- <-.
  cbn [incs_ok incs_cut]. pose proof (cstep_ok _ _ _ _ HS C) as HS1.
  destruct (value_find _ _ _ _ HV) as (m & d & F & EV). pose proof (get_bound m (HS _ _ _ F)) as B.
  assert (ST : exists k, counter_value s1 client id = Some (N.min U32MAX (v + k)) /\
     match a with Some (rc, _) => if is_ok rc && ev_inc ev && ev_names ev client id then 1 else 0 | None => 0 end <= k
     <= match a with Some (rc, _) => if is_ok rc && ev_inc ev && ev_names ev client id then 1 else 0 | None => 0 end
       + match ev with CCut _ _ _ => if ev_inc ev && ev_names ev client id then 1 else 0 | _ => 0 end).
  { destruct (ev_names ev client id) eqn:EN.
    2:{ exists 0. rewrite (cstep_other _ _ _ _ _ _ EN C), HV. unfold U32MAX. split; [f_equal; lia|].
        destruct a as [[rc x]|]; rewrite ?Bool.andb_false_r; destruct ev; rewrite ?Bool.andb_false_r; lia. }
    cbn [andb] in E1.
    assert (KEEP : s1 = s -> ev_inc ev = false \/ match a with Some (rc, _) => is_ok rc = false | None => True end ->
       exists k, counter_value s1 client id = Some (N.min U32MAX (v + k)) /\
     match a with Some (rc, _) => if is_ok rc && ev_inc ev && true then 1 else 0 | None => 0 end <= k
     <= match a with Some (rc, _) => if is_ok rc && ev_inc ev && true then 1 else 0 | None => 0 end
       + match ev with CCut _ _ _ => if ev_inc ev && true then 1 else 0 | _ => 0 end).
    { intros -> X. exists 0. rewrite HV. unfold U32MAX. split; [f_equal; lia|].
      destruct X as [X|X]; [rewrite X; destruct a as [[rc x]|]; rewrite ?Bool.andb_false_r; destruct ev; cbn; lia|].
      destruct a as [[rc x]|]; [rewrite X|]; cbn [andb]; destruct ev; try destruct (_ && true); lia. }
    destruct ev as [e c q|c q [|]]; cbn [cstep ev_names ev_inc ev_ends] in *.
    - destruct (counter_handle e c q s) as [b s9] eqn:EH. injection C as <- <-.
      destruct q as [i w|i|i|i|]; cbn [named] in EN; try discriminate.
      + apply N.eqb_eq in EN. rewrite (proj1 (handle_id_eq e c i client id s EN)) in EH.
        destruct (inc_spec _ _ _ _ _ _ _ _ _ F (HS _ _ _ F) EV EH) as [(R1 & R2 & R3)|[R1 R2]].
        * exists 1. rewrite R3. destruct b as [rc x]. cbn [fst] in R1. subst rc. split; auto. cbn. lia.
        * apply KEEP; auto. right. destruct b as [rc x]. apply is_ok_false. exact R1.
      + apply N.eqb_eq in EN. rewrite (proj2 (handle_id_eq e c i client id s EN)) in EH.
        destruct (read_spec _ _ _ _ _ _ EH) as [-> _]. apply KEEP; auto.
    - injection C as <- <-. destruct (counter_handle (mkCenv OK OK) c q s) as [b s9] eqn:EH. cbn [snd] in *.
      destruct q as [i w|i|i|i|]; cbn [named] in EN; try discriminate.
      + apply N.eqb_eq in EN. rewrite (proj1 (handle_id_eq _ c i client id s EN)) in EH.
        destruct (inc_spec _ _ _ _ _ _ _ _ _ F (HS _ _ _ F) EV EH) as [(R1 & R2 & R3)|[R1 R2]].
        * exists 1. rewrite R3. split; auto. cbn. lia.
        * apply KEEP; auto.
      + apply N.eqb_eq in EN. rewrite (proj2 (handle_id_eq _ c i client id s EN)) in EH.
        destruct (read_spec _ _ _ _ _ _ EH) as [-> _]. apply KEEP; auto.
    - injection C as <- <-. apply KEEP; auto. }
  destruct ST as (k & K1 & K2).
  destruct (IH _ _ _ _ HS1 K1 E2 S) as (n & N1 & N2).
  exists (k + n). split; [rewrite N1; unfold U32MAX; f_equal; lia|lia].
Qed.
