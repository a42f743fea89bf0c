(** Codes and values in the answers of the authentication manager fit the fields
    of the response structures. *)
From Verif Require Import Base BaseLemmas NvmSpec Flags Store NvmReqModel NvcSpec ServerModel AuthModel AuthCodec AucModel AucSpec.
Local Open Scope N_scope.
Local Opaque flatten unflatten ser_index INDEX_SIZE clamp.

Ltac code := solve [cbn [fst snd arc ar_rc]; unfold i32, OK, ABORTED, ACCESS, BADARGS, NOTFOUND, NOSPACE, BUFFER_SIZE, LOCKED, LOGIN_FAILED, PERMISSION_ERROR; lia].
Section Code.
Variables (nvm crypto certs : bool) (sha : list N -> list N) (verify : list N -> list N -> bool).
Lemma ok32 : i32 OK. Proof. code. Qed.
Lemma add32 r m d s : i32 r -> i32 (fst (nv_add r m d s)).
Proof. intros H. unfold nv_add. destruct (is_ok r); cbn [fst]; auto. apply ok32. Qed.
Lemma read32 s id o n : i32 (fst (sp_read s id o n)).
Proof. unfold sp_read. destruct (sp_find s id) as [[m d]|]; [|code]. repeat match goal with |- context [if ?b then _ else _] => destruct b end; code. Qed.
Lemma destroy32 r ids s : i32 r -> i32 (fst (nv_destroy r ids s)).
Proof. intros H. unfold nv_destroy. destruct (is_ok r); cbn [fst]; auto. apply ok32. Qed.
Lemma pindex32 w D : i32 w -> i32 (fst (persist_index nvm w D)).
Proof. intros H. unfold persist_index. destruct nvm; [|apply ok32]. pose proof (add32 w index_meta (ser_index (a_users D)) (a_st D) H) as X. destruct (nv_add _ _ _ _). exact X. Qed.
Lemma pcred32 w u m b D : i32 w -> i32 (fst (persist_cred nvm w u m b D)).
Proof. intros H. unfold persist_cred. destruct nvm; [|apply ok32]. pose proof (add32 w (cred_meta u m (N.of_nat (length b))) b (a_st D) H) as X. destruct (nv_add _ _ _ _). exact X. Qed.
Lemma dcred32 w u D : i32 w -> i32 (fst (destroy_cred nvm w u D)).
Proof. intros H. unfold destroy_cred. destruct nvm; [|apply ok32]. pose proof (destroy32 w [cred_id u] (a_st D) H) as X. destruct (nv_destroy _ _ _). exact X. Qed.
Lemma lcred32 r u D : i32 r -> i32 (fst (load_cred nvm r u D)).
Proof.
  intros H. unfold load_cred. destruct nvm.
  - destruct (is_ok r); cbn [negb fst]; auto. destruct (sp_find (a_st D) (cred_id u)) as [[m d]|]; [|code].
    destruct (_ && _); [apply read32|code].
  - cbv zeta. repeat match goal with |- context [if ?b then _ else _] => destruct b end; code.
Qed.
Lemma hash32 e p : i32 (fst (hash_pin crypto sha e p)).
Proof. unfold hash_pin. repeat match goal with |- context [if ?b then _ else _] => destruct b end; code. Qed.

(** Every code is one of these or a constant. *)
Ltac go :=
  match goal with
  | H : aenv_ok ?e |- context [persist_index nvm ?w ?D] =>
      let X := fresh in assert (X : i32 (fst (persist_index nvm w D))) by (apply pindex32; apply H); destruct (persist_index nvm w D); cbn [fst snd] in *
  | H : aenv_ok ?e |- context [persist_cred nvm ?w ?u ?m ?b ?D] =>
      let X := fresh in assert (X : i32 (fst (persist_cred nvm w u m b D))) by (apply pcred32; apply H); destruct (persist_cred nvm w u m b D); cbn [fst snd] in *
  | H : aenv_ok ?e |- context [destroy_cred nvm ?w ?u ?D] =>
      let X := fresh in assert (X : i32 (fst (destroy_cred nvm w u D))) by (apply dcred32; apply H); destruct (destroy_cred nvm w u D); cbn [fst snd] in *
  | H : aenv_ok ?e |- context [load_cred nvm ?w ?u ?D] =>
      let X := fresh in assert (X : i32 (fst (load_cred nvm w u D))) by (apply lcred32; apply H); destruct (load_cred nvm w u D); cbn [fst snd] in *
  | |- context [hash_pin crypto sha ?e ?p] => pose proof (hash32 e p); destruct (hash_pin crypto sha e p); cbn [fst snd] in *
  | |- context [if ?b then _ else _] => destruct b; cbn [fst snd negb] in *
  | |- context [match ?x with Some _ => _ | None => _ end] => destruct x; cbn [fst snd] in *
  end.
Ltac done_ := cbn [fst snd]; auto; try code.
Ltac all := repeat (go; try done_); done_.
Lemma login32 e m n d D : aenv_ok e -> i32 (fst (fst (base_login nvm crypto certs sha verify e m n d D))).
Proof. intros H. unfold base_login, check_pin, check_cert. destruct (find_user D n); cbv zeta; all. Qed.
Lemma logout32 c u D : i32 (fst (base_logout c u D)).
Proof. unfold base_logout. all. Qed.
Lemma uadd32 e r p m c D : aenv_ok e -> i32 (fst (fst (base_add nvm crypto certs sha e r p m c D))).
Proof. intros H. unfold base_add. cbv zeta. destruct (find_user D (uname r)); [all|]. destruct (free_slot D); all. Qed.
Lemma udel32 e c u D : aenv_ok e -> i32 (fst (base_delete nvm e c u D)).
Proof. intros H. unfold base_delete. cbv zeta. all. Qed.
Lemma uperm32 e c u p D : aenv_ok e -> i32 (fst (base_set_perm nvm e c u p D)).
Proof. intros H. unfold base_set_perm. cbv zeta. all. Qed.
Lemma uget32 c n D : i32 (fst (fst (base_get c n D))).
Proof. unfold base_get. cbv zeta. destruct (find_user D n); all. Qed.
Lemma ucred32 e c u m o n D : aenv_ok e -> i32 (fst (base_set_cred nvm crypto certs sha e c u m o n D)).
Proof. intros H. unfold base_set_cred. cbv zeta. all. Qed.

Lemma handle32 e q s D : aenv_ok e -> i32 (ar_rc (fst (fst (auth_handle nvm crypto certs sha verify e q s D)))).
Proof.
  intros H. assert (HL : i32 (ae_lock e)) by apply H. unfold auth_handle, auth_logout.
  destruct q; destruct (is_ok (ae_lock e)); cbn [negb fst snd arc ar_rc]; auto.
  - destruct (u_id s =? 0); cbn [negb fst snd arc ar_rc]; [|code].
    pose proof (login32 e method (uname raw) data D H) as X. destruct (base_login _ _ _ _ _ _ _ _ _ _) as [[rc D1] who]. cbn [fst] in X.
    destruct (is_ok rc); cbn [negb fst snd arc ar_rc]; auto. destruct who as [[id p]|]; code.
  - pose proof (logout32 (u_id s) uid D) as X. destruct (base_logout _ _ _). exact X.
  - destruct (_ && _); [code|]. destruct (_ && _); [code|].
    pose proof (uadd32 e raw p method cred D H) as X. destruct (base_add _ _ _ _ _ _ _ _ _ _) as [[rc D1] id]. exact X.
  - pose proof (udel32 e (u_id s) uid D H) as X. destruct (base_delete _ _ _ _ _). exact X.
  - pose proof (uget32 (u_id s) (uname raw) D) as X. destruct (base_get _ _ _) as [[rc id] p]. cbn [fst] in X. destruct (is_ok rc); exact X.
  - pose proof (uperm32 e (u_id s) uid p D H) as X. destruct (base_set_perm _ _ _ _ _ _). exact X.
  - pose proof (ucred32 e (u_id s) uid method old new D H) as X. destruct (base_set_cred _ _ _ _ _ _ _ _ _ _ _). exact X.
Qed.

(** ** User ids and permissions *)
Lemma find_slot D n i : find_user D n = Some i -> (i < MAX_USERS)%nat.
Proof. unfold find_user. intros H. apply find_some in H. destruct H as [H _]. apply in_seq in H. lia. Qed.
Lemma free_lt D i : free_slot D = Some i -> (i < MAX_USERS)%nat.
Proof. unfold free_slot. intros H. apply find_some in H. destruct H as [H _]. apply in_seq in H. lia. Qed.
Lemma slot_id us i : users_wf us -> (i < MAX_USERS)%nat -> b_id (nth i us urec_zero) <= 5 /\ perms_wf (b_perm (nth i us urec_zero)).
Proof.
  intros [_ W] Hi. destruct (W i Hi) as (_ & P & _ & Q). split; auto. destruct Q as [-> | ->]; [cbn; lia|]. unfold MAX_USERS in Hi. lia.
Qed.
Lemma login_id e m n d D rc D1 id p : users_wf (a_users D) -> base_login nvm crypto certs sha verify e m n d D = (rc, D1, Some (id, p)) -> id <= 5.
Proof.
  intros W. unfold base_login. destruct (negb _); [discriminate|].
  destruct (if m =? METHOD_PIN then _ else _) as [r who] eqn:E. destruct (is_ok r); cbn [negb]; [|discriminate].
  destruct who as [i|]; [|discriminate]. cbv zeta. destruct (b_active _); [discriminate|]. intros H. injection H as <- <- <- <-.
  apply slot_id; auto. clear -E. revert E. unfold check_pin, check_cert.
  destruct (m =? METHOD_PIN).
  - destruct (hash_pin _ _ _ _) as [r0 h]. destruct (is_ok r0); cbn [negb]; [|discriminate]. destruct (find_user D n) as [j|] eqn:F; [|discriminate].
    cbv zeta. destruct (_ && _); [|discriminate]. destruct (load_cred _ _ _ _) as [r1 d1]. destruct (is_ok r1).
    + destruct (name_eqb _ _); [|discriminate]. intros X. injection X as _ <-. eapply find_slot; eauto.
    + destruct (Z.eqb _ _); discriminate.
  - destruct (find_user D n) as [j|] eqn:F; [|discriminate].
    cbv zeta. destruct (_ && _); [|discriminate]. destruct (load_cred _ _ _ _) as [r1 d1]. destruct (is_ok r1).
    + destruct (_ && _); [|discriminate]. intros X. injection X as _ <-. eapply find_slot; eauto.
    + destruct (Z.eqb _ _); discriminate.
Qed.
Lemma add_id e r p m c D rc D1 id : base_add nvm crypto certs sha e r p m c D = (rc, D1, id) -> id <= 5.
Proof.
  unfold base_add. cbv zeta. destruct (_ && _); [intros H; injection H as _ _ <-; lia|].
  destruct (find_user _ _); [intros H; injection H as _ _ <-; lia|]. destruct (free_slot D) as [i|] eqn:F; [|intros H; injection H as _ _ <-; lia].
  pose proof (free_lt D i F) as L. unfold MAX_USERS in L.
  repeat match goal with
  | |- context [let '(_, _) := ?x in _] => destruct x
  | |- context [if ?b then _ else _] => destruct b; cbn [negb]
  end; intros H; injection H as _ _ <-; lia.
Qed.
Lemma get_fits c n D rc id p : users_wf (a_users D) -> base_get c n D = (rc, id, p) -> id <= 5 /\ perms_wf p.
Proof.
  intros W. unfold base_get. cbv zeta. pose proof perms_zero_wf as Z0.
  destruct (_ || _); [intros H; injection H as _ <- <-; split; [lia|auto]|].
  destruct (find_user D n) as [i|] eqn:F; [|intros H; injection H as _ <- <-; split; [lia|auto]].
  pose proof (slot_id (a_users D) i W (find_slot _ _ _ F)) as [A B].
  repeat match goal with |- context [if ?b then _ else _] => destruct b; cbn [negb] end;
    intros H; injection H as _ <- <-; auto; split; try lia; auto.
Qed.
Lemma handle_fits e q s D : users_wf (a_users D) ->
  let r := fst (fst (auth_handle nvm crypto certs sha verify e q s D)) in ar_id r < 65536 /\ perms_wf (ar_perm r).
Proof.
  intros W. cbv zeta. pose proof perms_zero_wf as Z0. unfold auth_handle, auth_logout.
  assert (K : forall rc, ar_id (arc rc) < 65536 /\ perms_wf (ar_perm (arc rc))) by (intros; split; [cbn; lia|exact Z0]).
  destruct q; destruct (is_ok (ae_lock e)); cbn [negb fst snd]; try apply K.
  - destruct (u_id s =? 0); cbn [negb fst snd]; [|apply K].
    destruct (base_login _ _ _ _ _ _ _ _ _ _) as [[rc D1] who] eqn:E.
    destruct (is_ok rc); cbn [negb fst snd]; [|apply K]. destruct who as [[id p]|]; [|apply K].
    cbn [fst ar_id ar_perm]. split; auto. apply login_id in E; auto. lia.
  - destruct (base_logout _ _ _). apply K.
  - destruct (_ && _); [apply K|]. destruct (_ && _); [apply K|].
    destruct (base_add _ _ _ _ _ _ _ _ _ _) as [[rc D1] id] eqn:E. cbn [fst ar_id ar_perm]. split; auto. apply add_id in E. lia.
  - destruct (base_delete _ _ _ _ _). apply K.
  - destruct (base_get _ _ _) as [[rc id] p] eqn:E. apply get_fits in E; auto. destruct E as [E1 E2].
    cbn [fst]. destruct (is_ok rc); [|apply K]. cbn [ar_id ar_perm]. split; auto. lia.
  - destruct (base_set_perm _ _ _ _ _ _). apply K.
  - destruct (base_set_cred _ _ _ _ _ _ _ _ _ _ _). apply K.
Qed.
End Code.
