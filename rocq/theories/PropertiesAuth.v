(** C33-C36, C54, C55: authentication and authorization. *)
From Verif Require Import Base BaseLemmas EndianModel CommModel CommSpec CommProof NvmSpec Flags Store NvmReqModel NvmReqProof ServerModel ServerProof AuthModel AuthCodec AuthRep AuthOps AuthEff AuthSys AuthSpec AuthInv.
Local Open Scope N_scope.
Local Arguments N.of_nat : simpl never.
Local Arguments N.eqb : simpl never.

(** ** C33: requests are authorised before they are handled *)
Lemma testbit_mask w n : negb (N.land w (N.shiftl 1 n) =? 0) = N.testbit w n.
Proof.
  destruct (N.testbit w n) eqn:E.
  - apply Bool.negb_true_iff, N.eqb_neq. intros Z. apply (f_equal (fun x => N.testbit x n)) in Z.
    rewrite N.land_spec, E, N.shiftl_spec_high', N.sub_diag, N.bits_0 in Z by lia. discriminate.
  - apply Bool.negb_false_iff, N.eqb_eq. apply N.bits_inj. intros k. rewrite N.land_spec, N.bits_0.
    destruct (N.eq_dec k n) as [-> |Ne]; [now rewrite E|].
    destruct (N.lt_ge_cases k n) as [L|L]; [rewrite N.shiftl_spec_low by auto; apply Bool.andb_false_r|].
    rewrite N.shiftl_spec_high' by auto. rewrite (N.bits_above_log2 1); [apply Bool.andb_false_r|]. cbn. lia.
Qed.

Lemma check_request_spec lock s g a : check_request lock s g a = OK <-> lock = OK /\ may_use s g a.
Proof.
  unfold check_request, may_use. destruct (is_ok lock) eqn:EL; cbn [negb].
  2:{ apply is_ok_false in EL. split; [intros ->; contradiction|intros [E _]; contradiction]. }
  apply is_ok_iff in EL. destruct (u_id s =? 0).
  - destruct (N.eqb_spec g GROUP_COMM); cbn [orb]; [tauto|].
    destruct (N.eqb_spec g GROUP_AUTH), (N.eqb_spec a ACT_LOGIN); cbn [andb]; split; intros H; try discriminate H; tauto.
  - destruct ((g =? GROUP_AUTH) && (a =? ACT_LOGOUT)) eqn:E1.
    { apply Bool.andb_true_iff in E1 as [A B]. apply N.eqb_eq in A, B. tauto. }
    assert (N1 : ~ (g = GROUP_AUTH /\ a = ACT_LOGOUT)).
    { intros [-> ->]. discriminate E1. }
    set (gi := N.land (N.shiftr g 8) 255).
    assert (GI : N.of_nat (N.to_nat gi) = gi) by apply N2Nat.id.
    destruct (Nat.leb_spec NGROUPS (N.to_nat gi)) as [L|L].
    { split; [discriminate|]. intros [_ [H|(k & Hk & E & _)]]; [contradiction|]. exfalso. rewrite E, Nat2N.id in L. unfold NGROUPS in L. lia. }
    destruct (N.eqb_spec (grp (u_perm s) (N.to_nat gi)) 0) as [Z|Z]; cbn [negb].
    { split; [discriminate|]. intros [_ [H|(k & Hk & E & Zk & _)]]; [contradiction|]. rewrite E, Nat2N.id in Z. contradiction. }
    destruct (N.ltb_spec a 256) as [La|La].
    2:{ split; [discriminate|]. intros [_ [H|(k & Hk & E & Zk & Lk & _)]]; [contradiction|lia]. }
    assert (LW : (N.to_nat (a / 32) <? AWORDS)%nat = true).
    { apply Nat.ltb_lt. unfold AWORDS. assert (a / 32 < 8) by (apply N.div_lt_upper_bound; lia). lia. }
    rewrite LW, testbit_mask. cbn [andb]. destruct (N.testbit _ _) eqn:EB.
    + split; [|auto]. intros _. split; [auto|]. right. exists (N.to_nat gi). auto.
    + split; [discriminate|]. intros [_ [H|(k & Hk & E & Zk & Lk & Bk)]]; [contradiction|].
      rewrite E, Nat2N.id in EB. congruence.
Qed.

(** With authentication on, a handler runs only for what the session may ask
    for; a request refused by the check leaves the server's state alone and is
    answered once, with the request's header and the permission error. *)
Theorem C33_authorised : forall DL St global logout info flat c size buf k rest s lock (session : sctx St -> sess),
  s_connected St s = true -> packet_ok DL size buf ->
  authz St c = Some (fun g a s => check_request (lock s) (session s) g a) ->
  (auth_err_size flat (msg_group (pk_kind buf)) (msg_action (pk_kind buf)) <= DL)%nat ->
  let g := msg_group (pk_kind buf) in let a := msg_action (pk_kind buf) in
  let r := handle_message DL St global logout info flat c OK size buf (repeat NOTREADY k ++ OK :: rest) s in
  (hr_ran St r <> [] -> may_use (session s) g a) /\
  (lock s = OK -> may_use (session s) g a -> dispatch St global logout info c g <> None -> hr_ran St r = [g]) /\
  (~ may_use (session s) g a ->
     hr_ran St r = [] /\ hr_state St r = s /\
     exists p, hr_sent St r = [p] /\ firstn 12 p = firstn 8 buf ++ put32 (pk_magic buf) (u32 PERMISSION_ERROR)).
Proof.
  intros DL St global logout info flat c size buf k rest s lock session HC HP HA HS g a r.
  pose proof (one_handler DL St global logout info flat c size buf (repeat NOTREADY k ++ OK :: rest) s HC HP) as H.
  cbv zeta in H. rewrite HA in H. fold g a r in H.
  pose proof (check_request_spec (lock s) (session s) g a) as CS.
  destruct (is_ok (check_request (lock s) (session s) g a)) eqn:EA.
  - apply is_ok_iff in EA. apply CS in EA as [EL EM]. split; [auto|]. split; [|intros N; contradiction].
    intros _ _ HD. destruct (dispatch St global logout info c g) as [h|]; [apply H|contradiction HD; reflexivity].
  - apply is_ok_false in EA. destruct H as [H1 H2]. split; [intros N; contradiction|].
    split; [intros EL EM; exfalso; apply EA, CS; auto|]. intros NM. split; [auto|]. split; [auto|].
    unfold r. rewrite handle_eq by auto. cbv zeta. rewrite HA. fold g a.
    replace (is_ok (check_request (lock s) (session s) g a)) with false by (symmetry; now apply is_ok_false).
    cbn [negb]. unfold auth_err. destruct HP as (P1 & P2 & P3).
    pose proof (MTU_PKT DL) as MP. assert (HM : (8 + DL = MTU DL)%nat) by reflexivity.
    assert (H8 : length (firstn 8 buf) = 8%nat) by (rewrite firstn_length; lia).
    rewrite answer_ok; auto; try lia.
    2:{ rewrite firstn_app, H8, Nat.sub_diag, firstn_firstn, Nat.min_id. cbn [firstn]. now rewrite app_nil_r. }
    eexists. split; [reflexivity|].
    assert (SZ : (4 <= auth_err_size flat g a)%nat).
    { unfold auth_err_size. repeat (destruct (_ =? _); cbn [orb]; try lia). }
    rewrite firstn_firstn, Nat.min_l by lia. rewrite firstn_app, H8.
    rewrite (firstn_all2 (firstn 8 buf)) by lia. f_equal.
Qed.
Print Assumptions C33_authorised.

(** ** Runs of the authentication system *)
Section Auth.
Variables (nvm crypto certs : bool) (sha : list N -> list N) (verify : list N -> list N -> bool).
Variables (max_read : nat) (have_st : bool).
Hypothesis sha_len : forall l, length (sha l) = 32%nat.
Notation auth_step := (auth_step nvm crypto certs sha verify max_read have_st).
Notation auth_run := (auth_run nvm crypto certs sha verify max_read have_st).
Notation auth_boot := (auth_boot nvm crypto certs sha verify max_read have_st).
Notation describes := (describes nvm crypto certs sha verify max_read have_st).
Notation grants := (grants nvm crypto certs sha verify max_read have_st).
Notation orderly := (orderly nvm crypto certs sha verify max_read have_st).
Notation undisturbed := (undisturbed nvm crypto certs sha verify max_read have_st).
Notation no_admin := (no_admin nvm crypto certs sha verify max_read have_st).
Notation run_keeps := (run_keeps nvm crypto certs sha verify max_read have_st sha_len).
Notation start := (start nvm crypto certs sha verify max_read have_st).

Lemma uid_is uid : 1 <= uid <= N.of_nat MAX_USERS -> exists i, (i < MAX_USERS)%nat /\ uid = N.of_nat (S i).
Proof. intros H. exists (N.to_nat (uid - 1)). lia. Qed.
Lemma zero_dead i : b_id (user users_zero i) = 0.
Proof. unfold user, users_zero. now rewrite nth_repeat. Qed.

Lemma no_more (P : aev -> asys -> Prop) : (forall ev Y, P ev Y) -> forall evs Y,
  (fix all (es : list aev) (Y : asys) : Prop :=
      match es with [] => True | ev :: r => P ev Y /\ all r (snd (auth_step ev Y)) end) evs Y.
Proof. intros HP evs. induction evs as [|ev evs IH]; intros Y; [exact I|split; [auto|apply IH]]. Qed.
Lemma all_of (Q : aev -> Prop) evs : Forall Q evs -> forall Y,
  (fix all (es : list aev) (Y : asys) : Prop :=
      match es with [] => True | ev :: r => Q ev /\ all r (snd (auth_step ev Y)) end) evs Y.
Proof. intros HP. induction HP as [|ev evs H HP IH]; intros Y; [exact I|split; [auto|apply IH]]. Qed.

(** The permissions a session is checked against are those its user has in the
    database, as long as no session's user is deleted or given other permissions
    by somebody else. *)
Theorem C33_current_permissions : forall st evs c, factory st -> Forall ev_wf evs ->
  undisturbed evs (auth_boot st) ->
  let Y := snd (auth_run evs (auth_boot st)) in let s := as_sess Y c in let u := user_at (as_db Y) (u_id s) in
  u_id s <> 0 -> b_id u = u_id s /\ forall g a, may_use s g a <-> may_use (mkSess (b_id u) (b_perm u)) g a.
Proof using sha_len.
  intros st evs c HF HW HU Y s u Hs. destruct (start st HF) as (U0 & G0 & E0 & S0).
  destruct (run_keeps (fun ev Y => undisturbing ev (fst (auth_step ev Y)) Y) (fun Y _ _ _ _ => current Y)) with
    (evs := evs) (Y := auth_boot st) (X := users_zero) (C := fun _ : nat => @None (N * list N)) (S := no_users) (G := @nil perms) as (_ & X & C & GD & K); auto.
  - intros ev a Y1 X C Y2 X1 C1 S G HE HP ES HG HD J. rewrite ES in HP. cbn [fst] in HP.
    apply (step_current nvm crypto certs sha verify ev a Y1 X C Y2 X1 C1); auto.
  - intros x. rewrite S0. intros Z; contradiction Z; reflexivity.
  - fold Y in K. destruct (K c Hs) as (i & Hi & E1 & E2 & E3 & E4 & E5).
    assert (EU : u = user (a_users (as_db Y)) i) by (unfold u, s, user_at; rewrite E1, slot_of_id; reflexivity).
    rewrite EU, E2. fold s in E1. split; [auto|]. intros g a. unfold may_use. cbn [u_id u_perm]. fold s in E3, E4.
    rewrite E1. unfold grp, act. rewrite E3, E4. reflexivity.
Qed.

(** ** C34: no escalation *)
(** Nobody ever has more than what the server's own program or a session acting
    as an administrator granted. *)
Theorem C34_within_grants : forall st evs, factory st -> Forall ev_wf evs ->
  let Y := snd (auth_run evs (auth_boot st)) in let G := grants evs (auth_boot st) in
  (forall uid, 1 <= uid <= N.of_nat MAX_USERS -> b_id (user_at (as_db Y) uid) <> 0 ->
     exists g, In g G /\ within (b_perm (user_at (as_db Y) uid)) g) /\
  (forall c, u_id (as_sess Y c) <> 0 -> exists g, In g G /\ within (u_perm (as_sess Y c)) g).
Proof using sha_len.
  intros st evs HF HW Y G. destruct (start st HF) as (U0 & G0 & E0 & S0).
  destruct (run_keeps (fun _ _ => True) (fun Y _ _ _ G => all_covered (fun p => In p G) Y)) with
    (evs := evs) (Y := auth_boot st) (X := users_zero) (C := fun _ : nat => @None (N * list N)) (S := no_users) (G := @nil perms) as (_ & X & C & GD & K1 & K2); auto.
  - intros ev a Y1 X C Y2 X1 C1 S G1 HE _ ES HG HD J.
    pose proof (step_cover nvm crypto certs sha verify ev a Y1 X C Y2 X1 C1 _ HD HG HE J) as [A B].
    assert (M : forall p, covered (more (fun p => In p G1) (grant ev a Y1)) p -> covered (fun p => In p (G1 ++ grant ev a Y1)) p).
    { intros p (g & [Hg|Hg] & Wg); exists g; (split; [apply in_or_app; auto|exact Wg]). }
    split; auto.
  - now apply no_more.
  - split; [intros i _; rewrite E0, zero_dead; intros Z; contradiction Z; reflexivity|].
    intros x. rewrite S0. intros Z; contradiction Z; reflexivity.
  - fold Y in K1, K2. cbn [app] in K1, K2. fold G in K1, K2. split; [|exact K2].
    intros uid Hu Hn. destruct (uid_is uid Hu) as (i & Hi & ->).
    unfold user_at in *. rewrite slot_of_id in *. apply K1; auto.
Qed.

Lemma no_grants evs : forall Y, no_admin evs Y -> grants evs Y = [].
Proof.
  induction evs as [|ev evs IH]; intros Y HN; [reflexivity|]. destruct HN as [H HN].
  rewrite grants_step. rewrite (IH _ HN), app_nil_r. destruct ev as [c e q|e raw p m cr|c l1 l2|c l1 l2|e q|]; try reflexivity; [|contradiction].
  cbn [grant]. rewrite H. destruct q; try reflexivity; now rewrite Bool.andb_false_r.
Qed.

(** From any reachable state on, while nobody acts as an administrator: everybody's
    permissions are within those of a user or session of that state, and whoever
    is an administrator at the end was that administrator before. *)
Theorem C34_no_escalation : forall st evs evs2, factory st -> Forall ev_wf evs -> Forall ev_wf evs2 ->
  let Y := snd (auth_run evs (auth_boot st)) in no_admin evs2 Y ->
  let Y2 := snd (auth_run evs2 Y) in
  let had p := (exists uid, 1 <= uid <= N.of_nat MAX_USERS /\ b_id (user_at (as_db Y) uid) <> 0 /\ b_perm (user_at (as_db Y) uid) = p) \/
               (exists c, u_id (as_sess Y c) <> 0 /\ u_perm (as_sess Y c) = p) in
  (forall uid, 1 <= uid <= N.of_nat MAX_USERS ->
     let u2 := user_at (as_db Y2) uid in let u := user_at (as_db Y) uid in
     (b_id u2 <> 0 -> exists p, had p /\ within (b_perm u2) p) /\
     (is_admin (b_perm u2) = true -> b_id u2 = b_id u /\ b_name u2 = b_name u /\ b_perm u2 = b_perm u)) /\
  (forall c, u_id (as_sess Y2 c) <> 0 -> exists p, had p /\ within (u_perm (as_sess Y2 c)) p).
Proof using sha_len.
  intros st evs evs2 HF HW HW2 Y HN Y2 had. destruct (start st HF) as (U0 & G0 & E0 & S0).
  destruct (run_keeps (fun _ _ => True) (fun Y _ _ _ G => True)) with
    (evs := evs) (Y := auth_boot st) (X := users_zero) (C := fun _ : nat => @None (N * list N)) (S := no_users) (G := @nil perms) as (UY & XY & CY & GY & _); auto.
  { now apply no_more. }
  fold Y in UY, GY.
  destruct (run_keeps (fun ev Y => match ev with EReq c _ _ => acts_as_admin Y c = false | EAdd _ _ _ _ _ => False | _ => True end)
    (fun Y2 _ _ _ G => all_covered (more had G) Y2 /\
      forall i, (i < MAX_USERS)%nat -> is_admin (b_perm (user (a_users (as_db Y2)) i)) = true ->
        b_id (user (a_users (as_db Y2)) i) = b_id (user (a_users (as_db Y)) i) /\
        b_name (user (a_users (as_db Y2)) i) = b_name (user (a_users (as_db Y)) i) /\
        b_perm (user (a_users (as_db Y2)) i) = b_perm (user (a_users (as_db Y)) i))) with
    (evs := evs2) (Y := Y) (X := XY) (C := CY) (S := no_users) (G := @nil perms) as (_ & X & C & GD & (K1 & K2) & K3); auto.
  - intros ev a Y1 X C Y3 X1 C1 S G1 HE HP ES HG HD [J1 J2]. split.
    + pose proof (step_cover nvm crypto certs sha verify ev a Y1 X C Y3 X1 C1 _ HD HG HE J1) as [A B].
      assert (M : forall p, covered (more (more had G1) (grant ev a Y1)) p -> covered (more had (G1 ++ grant ev a Y1)) p).
      { intros p (g & [[Hg|Hg]|Hg] & Wg); exists g; (split; [|exact Wg]); [now left|right; apply in_or_app; auto|right; apply in_or_app; auto]. }
      split; auto.
    + intros i Hi HA. pose proof (step_keeps nvm crypto certs sha verify ev a Y1 X C Y3 X1 C1 HD HG HP i Hi) as SK.
      cbv zeta in SK. destruct SK as [(B1 & B2 & B3)|[(_ & B)|(B1 & B2)]].
      * rewrite B1, B2, B3. apply J2; [auto|]. now rewrite <- B2.
      * rewrite B in HA. discriminate HA.
      * rewrite B2 in HA. discriminate HA.
  - split; [split|].
    + intros i Hi Hn. exists (b_perm (user (a_users (as_db Y)) i)). split; [|apply within_refl]. left. left.
      exists (N.of_nat (S i)). unfold user_at. rewrite slot_of_id. split; [lia|]. auto.
    + intros c Hn. exists (u_perm (as_sess Y c)). split; [|apply within_refl]. left. right. exists c. auto.
    + intros i _ _. auto.
  - fold Y2 in K1, K2, K3. rewrite (no_grants evs2 Y HN) in K1, K2. cbn [app] in K1, K2.
    assert (M : forall p, covered (more had []) p -> exists q, had q /\ within p q).
    { intros p (g & [Hg|Hg] & Wg); [exists g; auto|contradiction]. }
    split; [|intros c Hc; apply M, K2; auto].
    intros uid Hu. destruct (uid_is uid Hu) as (i & Hi & ->).
    cbv zeta. unfold user_at. rewrite !slot_of_id.
    split; [intros Hn; apply M, K1; auto|]. apply K3; auto.
Qed.

(** ** C35: login *)
Lemma described_inv st evs : factory st -> Forall ev_wf evs -> Forall with_credential evs ->
  let Y := snd (auth_run evs (auth_boot st)) in
  as_up Y = true /\ exists X C, Good nvm (as_db Y) X C /\ knows crypto sha (a_users (as_db Y)) C (describes evs (auth_boot st) no_users).
Proof using sha_len.
  intros HF HW HC Y. destruct (start st HF) as (U0 & G0 & E0 & S0).
  destruct (run_keeps (fun ev _ => with_credential ev) (fun Y X C S G => knows crypto sha (a_users (as_db Y)) C S)) with
    (evs := evs) (Y := auth_boot st) (X := users_zero) (C := fun _ : nat => @None (N * list N)) (S := no_users) (G := @nil perms) as (UY & X & C & GD & K); auto.
  - intros ev a Y1 X C Y2 X1 C1 S G1 HE HP ES HG HD J.
    apply (step_knows nvm crypto certs sha verify ev a Y1 X C Y2 X1 C1); auto.
  - now apply all_of.
  - intros i Hi. rewrite E0, zero_dead. intros Z; contradiction Z; reflexivity.
  - split; [auto|]. exists X, C. auto.
Qed.

(** A login that succeeds names an existing user and presents what matches the
    credential last set for it. *)
Theorem C35_login : forall st evs c e m raw data a, factory st -> Forall ev_wf evs -> Forall with_credential evs ->
  let Y := snd (auth_run evs (auth_boot st)) in
  fst (auth_step (EReq c e (ALogin m raw data)) Y) = Some a -> ar_rc a = OK ->
  exists p cred, describes evs (auth_boot st) no_users (ar_id a) = Some (uname raw, p, Some (m, cred)) /\
                 matches crypto sha verify m cred data /\
                 as_sess (snd (auth_step (EReq c e (ALogin m raw data)) Y)) c = mkSess (ar_id a) p.
Proof using sha_len.
  intros st evs c e m raw data a HF HW HC Y HS HO.
  destruct (described_inv st evs HF HW HC) as (UY & X & C & GD & K). fold Y in UY, GD, K.
  set (ev := EReq c e (ALogin m raw data)) in *. destruct (auth_step ev Y) as [a1 Y1] eqn:ES. cbn [fst snd] in *. subst a1.
  destruct (step_did nvm crypto certs sha verify max_read have_st sha_len ev Y X C (Some a) Y1 UY GD I ES) as (_ & X1 & C1 & _ & HD).
  destruct HD as [ND HS HU HC1 HX|c0 e0 m0 raw0 data0 i b HE HZ HA Hi u A1 A2 A3 A4 A5 HU HS -> ->|c0 i Hi u HU -> -> H
    |c0 ND HS HU -> ->|c0 e0 raw0 p m0 cred i HQ HA Hi Hz HN HK HS ->|c0 e0 i HE HG HZ HA Hi HAD HN HU HC1 HC2 HS ->
    |c0 e0 p i HE HG HZ HA Hi HAD HN HU -> HS ->|c0 e0 m0 old new i HE HG HZ HA Hi HM HAD u HN HOO v HU HC1 HC2 HS ->
    | HE HU HS -> ->]; try discriminate HE.
  - contradiction.
  - injection HE as <- <- <- <- <-. injection HA as ->. cbn [ar_id].
    assert (A1' : b_id (user (a_users (as_db Y)) i) <> 0) by (unfold u in A1; lia).
    destruct (K i Hi A1') as (v & B1 & B2 & B3). rewrite A4 in B2. destruct v as [[m1 cred]|]; [|discriminate B2].
    cbn [stored_form option_map] in B2. injection B2 as <- ->. exists (b_perm (user (a_users (as_db Y)) i)), cred.
    rewrite B1. unfold u in A2. rewrite A2. split; [reflexivity|]. split.
    + unfold matches. unfold accepts in A5. destruct (m =? METHOD_PIN); cbn [andb] in A5; [destruct crypto; exact A5|exact A5].
    + rewrite HS, Nat.eqb_refl. fold u; now rewrite A1.
  - destruct H as [(_ & ND & _)|((e0 & HE) & _)]; [contradiction|discriminate HE].
  - contradiction.
  - destruct HQ as [(HE & _)|HE]; discriminate HE.
Qed.

(** At most one session holds a user. *)
Theorem C35_one_session : forall st evs c c', factory st -> Forall ev_wf evs -> orderly evs (auth_boot st) ->
  let Y := snd (auth_run evs (auth_boot st)) in
  u_id (as_sess Y c) <> 0 -> u_id (as_sess Y c) = u_id (as_sess Y c') -> c = c'.
Proof using sha_len.
  intros st evs c c' HF HW HO Y. destruct (start st HF) as (U0 & G0 & E0 & S0).
  destruct (run_keeps (fun ev Y => match ev with
      | EReq c _ (ALogout uid) => uid = u_id (as_sess Y c)
      | EReq _ _ (ADelete uid) => answered_ok (fst (auth_step ev Y)) = true -> forall x, u_id (as_sess Y x) <> uid
      | _ => True
      end) (fun Y _ _ _ _ => one_holder Y)) with
    (evs := evs) (Y := auth_boot st) (X := users_zero) (C := fun _ : nat => @None (N * list N)) (S := no_users) (G := @nil perms) as (_ & X & C & GD & _ & K); auto.
  - intros ev a Y1 X C Y2 X1 C1 S G HE HP ES HG HD J. rewrite ES in HP. cbn [fst] in HP.
    apply (step_one nvm crypto certs sha verify ev a Y1 X C Y2 X1 C1); auto.
  - split; [intros x i Hi; rewrite S0; cbn [u_id no_sess]; lia|]. intros x x'. rewrite S0. intros Z; contradiction Z; reflexivity.
Qed.

(** ** C55: credentials *)
(** A credential is changed by its user or an administrator only, and only by
    presenting the current one. *)
Theorem C55_set_credential : forall st evs c e uid m old new a, factory st -> Forall ev_wf evs -> Forall with_credential evs ->
  let Y := snd (auth_run evs (auth_boot st)) in
  fst (auth_step (EReq c e (ASetCred uid m old new)) Y) = Some a -> ar_rc a = OK ->
  (u_id (as_sess Y c) = uid \/ acts_as_admin Y c = true) /\ u_id (as_sess Y c) <> 0 /\
  exists name p v, describes evs (auth_boot st) no_users uid = Some (name, p, v) /\
    match v with
    | None => old = []
    | Some (m0, cred0) => if (m0 =? METHOD_PIN) && crypto then sha old = sha cred0 else old = cred0
    end.
Proof using sha_len.
  intros st evs c e uid m old new a HF HW HC Y HS HO.
  destruct (described_inv st evs HF HW HC) as (UY & X & C & GD & K). fold Y in UY, GD, K.
  set (ev := EReq c e (ASetCred uid m old new)) in *. destruct (auth_step ev Y) as [a1 Y1] eqn:ES. cbn [fst snd] in *. subst a1.
  destruct (step_did nvm crypto certs sha verify max_read have_st sha_len ev Y X C (Some a) Y1 UY GD I ES) as (_ & X1 & C1 & _ & HD).
  destruct HD as [ND HS HU HC1 HX|c0 e0 m0 raw0 data0 i b HE HZ HA Hi u A1 A2 A3 A4 A5 HU HS -> ->|c0 i Hi u HU -> -> H
    |c0 ND HS HU -> ->|c0 e0 raw0 p m0 cred i HQ HA Hi Hz HN HK HS ->|c0 e0 i HE HG HZ HA Hi HAD HN HU HC1 HC2 HS ->
    |c0 e0 p i HE HG HZ HA Hi HAD HN HU -> HS ->|c0 e0 m0 old0 new0 i HE HG HZ HA Hi HM HAD u HN HOO v HU HC1 HC2 HS ->
    | HE HU HS -> ->]; try discriminate HE.
  - contradiction.
  - destruct H as [(_ & ND & _)|((e0 & HE) & _)]; [contradiction|discriminate HE].
  - contradiction.
  - destruct HQ as [(HE & _)|HE]; discriminate HE.
  - injection HE as <- <- -> <- <- <-.
    split; [destruct HAD as [E|E]; [now left|right; now apply admin_record]|]. split; [auto|].
    destruct (K i Hi HN) as (w & B1 & B2 & B3). exists (b_name (user (a_users (as_db Y)) i)), (b_perm (user (a_users (as_db Y)) i)), w.
    split; [exact B1|]. unfold u in HOO. destruct HOO as [(Z & ->)|(m1 & b1 & D1 & D2 & D3 & D4 & D5)].
    + destruct w as [[m1 c1]|]; [|reflexivity]. exfalso. rewrite B2 in B3. cbn [stored_form option_map clen_of] in B3.
      assert (CO : cred_ok (C i)) by (destruct GD as [_ (R & _) _ _]; now apply R).
      rewrite B2 in CO. cbn [stored_form option_map cred_ok] in CO. destruct CO as [_ CO]. lia.
    + rewrite D1 in B2. destruct w as [[m2 c2]|]; [|discriminate B2]. cbn [stored_form option_map] in B2. injection B2 as -> ->.
      unfold blob_of in D4. destruct ((m2 =? METHOD_PIN) && crypto); exact D4.
Qed.

(** ** C56: managing users *)
Definition admin_now (Y : asys) (c : nat) : Prop :=
  u_id (as_sess Y c) <> 0 /\ is_admin (b_perm (user_at (as_db Y) (u_id (as_sess Y c)))) = true.
(** Whatever state the device is in: deleting users and setting permissions take
    an administrator; logging out, reading and giving credentials to another
    user too; others may add users only with a credential and with permissions
    of their own. *)
Theorem C56_management_needs_admin : forall Y c e q a Y1,
  auth_step (EReq c e q) Y = (Some a, Y1) -> ar_rc a = OK ->
  (forall x, x <> c -> as_sess Y1 x = as_sess Y x) /\
  match q with
  | ALogin _ _ _ => u_id (as_sess Y c) = 0
  | ALogout uid | ASetCred uid _ _ _ => u_id (as_sess Y c) = uid \/ admin_now Y c
  | AGet _ => u_id (as_sess Y c) = ar_id a \/ admin_now Y c
  | ADelete _ | ASetPerm _ _ => admin_now Y c
  | AAdd _ p _ cred => is_admin (u_perm (as_sess Y c)) = true \/ is_admin p = false /\ within p (u_perm (as_sess Y c)) /\ cred <> []
  end.
Proof.
  intros Y c e q a Y1 HS HO. unfold AuthModel.auth_step in HS. set (s := as_sess Y c) in *.
  destruct (as_up Y); cbn [negb] in HS; [|injection HS as <- <-; discriminate HO].
  destruct (is_ok (check_request (ae_lock e) s GROUP_AUTH (areq_action q))) eqn:EC; cbn [negb] in HS; [|injection HS as <- <-; discriminate HO].
  destruct (auth_handle _ _ _ _ _ e q s (as_db Y)) as [[r s1] D1] eqn:EH. injection HS as <- <-. cbn [as_sess]. split.
  { intros x Hx. unfold set_sess. destruct (Nat.eqb_spec x c); [contradiction|auto]. }
  apply is_ok_iff in EC. apply check_request_spec in EC as [EL EM]. unfold may_use in EM.
  unfold auth_handle in EH. unfold auth_logout in EH. rewrite EL in EH. change (negb (is_ok OK)) with false in EH. cbv iota in EH.
  unfold admin_now. fold s. destruct q as [m raw data|uid|raw p m cred|uid|raw|uid p|uid m old new].
  - destruct (N.eqb_spec (u_id s) 0) as [Z|Z]; [auto|]. injection EH as <- <- <-. discriminate HO.
  - unfold base_logout in EH. destruct (N.eqb_spec (u_id s) 0) as [Z|Z]; cbn [orb] in EH; [injection EH as <- <- <-; discriminate HO|].
    destruct (uid =? 0); [injection EH as <- <- <-; discriminate HO|].
    destruct ((N.of_nat MAX_USERS <? u_id s) || (N.of_nat MAX_USERS <? uid)); [injection EH as <- <- <-; discriminate HO|].
    destruct (N.eqb_spec (u_id s) uid) as [E|E]; [auto|]. cbn [negb andb] in EH.
    destruct (is_admin (b_perm (user_at (as_db Y) (u_id s)))) eqn:EA; cbn [negb] in EH; [auto|injection EH as <- <- <-; discriminate HO].
  - destruct (is_admin (u_perm s)) eqn:EA; [auto|]. right. cbn [negb andb] in EH.
    destruct (subset_ok (u_perm s) p) eqn:ES; cbn [negb] in EH; [|injection EH as <- <- <-; discriminate HO].
    destruct (N.eqb_spec (len_of cred) 0) as [Z|Z]; [injection EH as <- <- <-; discriminate HO|].
    destruct (subset_within _ _ ES) as [A B]. split; [auto|]. split; [auto|]. intros ->. apply Z. reflexivity.
  - unfold base_delete in EH. destruct ((uid =? 0) || (N.of_nat MAX_USERS <? uid)); [injection EH as <- <- <-; discriminate HO|].
    destruct (N.eqb_spec (u_id s) 0) as [Z|Z]; cbn [orb] in EH; [injection EH as <- <- <-; discriminate HO|].
    destruct (N.of_nat MAX_USERS <? u_id s); [injection EH as <- <- <-; discriminate HO|].
    destruct (is_admin (b_perm (user_at (as_db Y) (u_id s)))) eqn:EA; cbn [negb] in EH; [auto|injection EH as <- <- <-; discriminate HO].
  - unfold base_get in EH. destruct (N.eqb_spec (u_id s) 0) as [Z|Z]; cbn [orb] in EH; [injection EH as <- <- <-; discriminate HO|].
    destruct (N.of_nat MAX_USERS <? u_id s); [injection EH as <- <- <-; discriminate HO|].
    destruct (is_admin (b_perm (user_at (as_db Y) (u_id s)))) eqn:EA; cbn [negb andb] in EH; [auto|].
    destruct (find_user (as_db Y) (uname raw)) as [i|]; [|injection EH as <- <- <-; discriminate HO].
    destruct (b_id (nth i (a_users (as_db Y)) urec_zero) =? 0); [injection EH as <- <- <-; discriminate HO|].
    destruct (N.eqb_spec (b_id (nth i (a_users (as_db Y)) urec_zero)) (u_id s)) as [E|E]; cbn [negb] in EH; [|injection EH as <- <- <-; discriminate HO].
    injection EH as <- <- <-. left. symmetry. exact E.
  - unfold base_set_perm in EH. destruct ((uid =? 0) || (N.of_nat MAX_USERS <? uid)); [injection EH as <- <- <-; discriminate HO|].
    destruct (N.eqb_spec (u_id s) 0) as [Z|Z]; cbn [orb] in EH; [injection EH as <- <- <-; discriminate HO|].
    destruct (N.of_nat MAX_USERS <? u_id s); [injection EH as <- <- <-; discriminate HO|].
    destruct (is_admin (b_perm (user_at (as_db Y) (u_id s)))) eqn:EA; cbn [negb] in EH; [auto|injection EH as <- <- <-; discriminate HO].
  - unfold base_set_cred in EH. destruct ((uid =? 0) || (N.of_nat MAX_USERS <? uid)); [injection EH as <- <- <-; discriminate HO|].
    destruct (N.eqb_spec (u_id s) 0) as [Z|Z]; cbn [orb] in EH; [injection EH as <- <- <-; discriminate HO|].
    destruct (N.of_nat MAX_USERS <? u_id s); [injection EH as <- <- <-; discriminate HO|].
    destruct (N.eqb_spec (u_id s) uid) as [E|E]; [auto|]. cbn [negb andb] in EH.
    destruct (is_admin (b_perm (user_at (as_db Y) (u_id s)))) eqn:EA; cbn [negb] in EH; [auto|injection EH as <- <- <-; discriminate HO].
Qed.

(** ** C36: power loss *)
Lemma exact_inv st evs : factory st -> Forall ev_wf evs -> Forall with_credential evs -> Forall no_double_fault evs ->
  let Y := snd (auth_run evs (auth_boot st)) in let S := describes evs (auth_boot st) no_users in
  as_up Y = true /\ exists X C, Good nvm (as_db Y) X C /\ knows crypto sha (a_users (as_db Y)) C S /\
    synced X (a_users (as_db Y)) /\ exact_db (a_users (as_db Y)) S.
Proof using sha_len.
  intros HF HW HC HN Y. destruct (start st HF) as (U0 & G0 & E0 & S0).
  destruct (run_keeps (fun ev _ => with_credential ev /\ no_double_fault ev)
     (fun Y X C S G => knows crypto sha (a_users (as_db Y)) C S /\ synced X (a_users (as_db Y)) /\ exact_db (a_users (as_db Y)) S)) with
    (evs := evs) (Y := auth_boot st) (X := users_zero) (C := fun _ : nat => @None (N * list N)) (S := no_users) (G := @nil perms) as (UY & X & C & GD & K); auto.
  - intros ev a Y1 X C Y2 X1 C1 S G1 HE [HP1 HP2] ES HG HD (J1 & J2 & J3).
    split; [apply (step_knows nvm crypto certs sha verify ev a Y1 X C Y2 X1 C1); auto|].
    destruct (step_exact nvm crypto certs sha verify ev a Y1 X C Y2 X1 C1 S HD HG J2 J3) as [H|(c & e & i & -> & _ & W2 & W3 & _)]; [exact H|].
    destruct HP2; contradiction.
  - apply (all_of (fun ev => with_credential ev /\ no_double_fault ev)). rewrite Forall_forall in *. auto.
  - rewrite E0. split; [intros i Hi; rewrite zero_dead; intros Z; contradiction Z; reflexivity|].
    split; [apply synced_refl|]. intros i Hi _. reflexivity.
  - split; [auto|]. exists X, C. auto.
Qed.

Lemma boot_shows Y X C S : nvm = true -> as_up Y = true -> Good nvm (as_db Y) X C ->
  (forall i, (i < MAX_USERS)%nat -> match S (N.of_nat (Datatypes.S i)) with
     | None => b_id (user X i) = 0
     | Some (n, p, v) => b_id (user X i) <> 0 /\ b_name (user X i) = n /\ b_perm (user X i) = p /\ C i = stored_form crypto sha v
     end) ->
  shows crypto sha (snd (auth_step EBoot Y)) S.
Proof using sha_len.
  intros HN HU GD HS. destruct (auth_step EBoot Y) as [a Y2] eqn:ES. cbn [snd].
  destruct (step_did nvm crypto certs sha verify max_read have_st sha_len EBoot Y X C a Y2 HU GD I ES) as (U2 & X2 & C2 & G2 & HD).
  split; [exact U2|].
  destruct HD as [ND HS2 HU2 HC1 HX|c0 e0 m0 raw0 data0 i b HE HZ HA Hi u A1 A2 A3 A4 A5 HU2 HS2 -> ->|c0 i Hi u HU2 -> -> H
    |c0 ND HS2 HU2 -> ->|c0 e0 raw0 p m0 cred i HQ HA Hi Hz HNN HK HS2 ->|c0 e0 i HE HG HZ HA Hi HAD HNN HU2 HC1 HC2 HS2 ->
    |c0 e0 p i HE HG HZ HA Hi HAD HNN HU2 -> HS2 ->|c0 e0 m0 old0 new0 i HE HG HZ HA Hi HM HAD u HNN HOO v HU2 HC1 HC2 HS2 ->
    | HE HU2 HS2 -> ->]; try discriminate HE; try contradiction.
  { destruct H as [(_ & ND & _)|((e0 & HE) & _)]; [contradiction|discriminate HE]. }
  { destruct HQ as [(HE & _)|HE]; discriminate HE. }
  intros uid L1 L2. destruct (uid_is uid (conj L1 L2)) as (i & Hi & ->). unfold user_at. rewrite slot_of_id, HU2, boot_nth by auto.
  specialize (HS i Hi). unfold reloaded. fold (user X i).
  destruct (S (N.of_nat (Datatypes.S i))) as [[[n p] v]|]; [|rewrite HS, N.eqb_refl; exact HS].
  destruct HS as (B0 & B1 & B2 & B3). destruct (N.eqb_spec (b_id (user X i)) 0) as [Z|NZ]; [contradiction|].
  assert (B4 : b_id (user X i) = N.of_nat (Datatypes.S i)).
  { destruct GD as [_ (_ & HX & _) _ _]. exact (wf_id X i HX Hi NZ). }
  assert (SC : stored_cred (as_db Y2) (N.of_nat (Datatypes.S i)) = stored_form crypto sha v).
  { unfold stored_cred. destruct G2 as [_ (_ & _ & _ & R) _ _]. rewrite HN in R. destruct R as [_ R]. specialize (R i Hi).
    replace (INDEX_ID + N.of_nat (Datatypes.S i)) with (cred_id (N.of_nat (Datatypes.S i))) by (unfold cred_id, CRED_BASE, INDEX_ID; lia).
    assert (CO : cred_ok (C i)) by (destruct GD as [_ (RC & _) _ _]; now apply RC).
    rewrite R, B3. rewrite B3 in CO. destruct (stored_form crypto sha v) as [[m b]|]; [|reflexivity].
    destruct CO as [[-> | ->] _]; reflexivity. }
  rewrite SC. destruct (C i) as [[m b]|]; cbn [with_cred core b_id b_name b_perm]; auto.
Qed.

Lemma shown Y X C S : Good nvm (as_db Y) X C -> knows crypto sha (a_users (as_db Y)) C S -> synced X (a_users (as_db Y)) ->
  exact_db (a_users (as_db Y)) S ->
  forall i, (i < MAX_USERS)%nat -> match S (N.of_nat (Datatypes.S i)) with
     | None => b_id (user X i) = 0
     | Some (n, p, v) => b_id (user X i) <> 0 /\ b_name (user X i) = n /\ b_perm (user X i) = p /\ C i = stored_form crypto sha v
     end.
Proof.
  intros GD K HS HE i Hi. pose proof (HS i Hi) as E. pose proof (core_id _ _ E) as E1.
  assert (E2 : b_name (user X i) = b_name (user (a_users (as_db Y)) i)) by (apply (f_equal b_name) in E; exact E).
  assert (E3 : b_perm (user X i) = b_perm (user (a_users (as_db Y)) i)) by (apply (f_equal b_perm) in E; exact E).
  destruct (N.eq_dec (b_id (user (a_users (as_db Y)) i)) 0) as [Z|NZ].
  - rewrite (HE i Hi Z). congruence.
  - destruct (K i Hi NZ) as (v & B1 & B2 & _). rewrite B1. rewrite E1. auto.
Qed.

Lemma described_or ev a S : nvm = true -> described nvm ev a S = S \/ exists r, a = Some r /\ ar_rc r = OK.
Proof.
  intros HN. destruct (answered_ok a) eqn:E.
  - right. destruct a as [r|]; [|discriminate]. exists r. split; [auto|]. now apply is_ok_iff.
  - left. unfold described. rewrite E, HN. destruct ev as [c e q|e raw p m cr|c l1 l2|c l1 l2|e q|]; try reflexivity. destruct q; reflexivity.
Qed.

(** With NVM: whatever the writes of the last request did, power loss then leaves
    the database as it was before the request or as the request asked. *)
Theorem C36_old_or_new : forall st evs ev, nvm = true -> factory st ->
  Forall ev_wf evs -> Forall with_credential evs -> Forall no_double_fault evs -> ev_wf ev -> with_credential ev ->
  let Y := snd (auth_run evs (auth_boot st)) in let S := describes evs (auth_boot st) no_users in
  let after := snd (auth_step EBoot (snd (auth_step ev Y))) in
  shows crypto sha after S \/ exists r, ar_rc r = OK /\ shows crypto sha after (described nvm ev (Some r) S).
Proof using sha_len.
  intros st evs ev HN HF HW HC HD0 HE HCE Y S after.
  destruct (exact_inv st evs HF HW HC HD0) as (UY & X & C & GD & K & HS & HX). fold Y in UY, GD, K, HS, HX. fold S in K, HX.
  unfold after. destruct (auth_step ev Y) as [a Y1] eqn:ES. cbn [snd].
  destruct (step_did nvm crypto certs sha verify max_read have_st sha_len ev Y X C a Y1 UY GD HE ES) as (U1 & X1 & C1 & G1 & HD).
  pose proof (step_knows nvm crypto certs sha verify ev a Y X C Y1 X1 C1 S HD GD HCE K) as K1.
  destruct (step_exact nvm crypto certs sha verify ev a Y X C Y1 X1 C1 S HD GD HS HX) as [[HS1 HX1]|(c & e & i & -> & Hi & _ & _ & ND & HU & -> & HC1)].
  - assert (SH : shows crypto sha (snd (auth_step EBoot Y1)) (described nvm ev a S)).
    { apply (boot_shows Y1 X1 C1); auto. now apply (shown Y1). }
    destruct (described_or ev a S HN) as [E|(r & -> & E)]; [left; now rewrite E in SH|right; exists r; auto].
  - right. exists (arc OK). split; [reflexivity|]. apply (boot_shows Y1 (set_nth i urec_zero (a_users (as_db Y))) C1); auto.
    cbn [described answered_ok arc ar_rc]. change (is_ok OK) with true. cbv iota. intros j Hj. rewrite put_S.
    assert (HL : length (a_users (as_db Y)) = MAX_USERS) by (destruct GD as [[HL _] _ _ _]; exact HL).
    rewrite user_set by auto. destruct (Nat.eqb_spec j i) as [-> |Ne]; [reflexivity|].
    destruct (N.eq_dec (b_id (user (a_users (as_db Y)) j)) 0) as [Z|NZ].
    + rewrite (HX j Hj Z). exact Z.
    + destruct (K j Hj NZ) as (v & B1 & B2 & _). rewrite B1, HC1 by auto. auto.
Qed.

(** What was answered OK, and nothing else, is there after power loss. *)
Theorem C36_durable : forall st evs, nvm = true -> factory st ->
  Forall ev_wf evs -> Forall with_credential evs -> Forall no_double_fault evs ->
  shows crypto sha (snd (auth_step EBoot (snd (auth_run evs (auth_boot st))))) (describes evs (auth_boot st) no_users).
Proof using sha_len.
  intros st evs HN HF HW HC HD0.
  destruct (exact_inv st evs HF HW HC HD0) as (UY & X & C & GD & K & HS & HX).
  apply (boot_shows _ X C); auto. now apply (shown _ X C _ GD).
Qed.
End Auth.
Print Assumptions C33_current_permissions.
Print Assumptions C34_within_grants.
Print Assumptions C34_no_escalation.
Print Assumptions C35_login.
Print Assumptions C35_one_session.
Print Assumptions C55_set_credential.
Print Assumptions C56_management_needs_admin.
Print Assumptions C36_old_or_new.
Print Assumptions C36_durable.

(** ** C54: the permission words *)
(** Flattened and read back, permissions are the same, with at most two key ids. *)
Theorem C54_permissions_roundtrip : forall p rest, perms_wf p ->
  length (flatten p) = FLAT_LEN /\
  let q := unflatten (flatten p ++ rest) in
  p_group q = p_group p /\ p_act q = p_act p /\ key_ids q = key_ids p.
Proof.
  intros p rest W. split; [now apply flatten_length|]. cbv zeta. rewrite unflatten_flatten by auto.
  split; [reflexivity|]. split; [reflexivity|]. now apply keys_clamp.
Qed.
Print Assumptions C54_permissions_roundtrip.

(** ** Concrete runs *)
Module Demo.
Definition sha (l : list N) : list N := pad_to 32 l.
Definition verify (a b : list N) : bool := name_eqb a b.
Lemma sha_len l : length (sha l) = 32%nat.
Proof. unfold sha, pad_to. rewrite firstn_length, app_length, repeat_length. lia. Qed.
Notation step := (auth_step true true true sha verify 1024 true).
Notation run := (auth_run true true true sha verify 1024 true).
Notation boot := (auth_boot true true true sha verify 1024 true []).
Notation describes := (describes true true true sha verify 1024 true).
Definition e : aenv := mkAe OK OK true OK OK OK.
Definition bad (w1 w2 w3 : Z) : aenv := mkAe OK OK true w1 w2 w3.
Definition padm : perms := mkP (repeat 1 15) (repeat (repeat 0xFFFFFFFF 8) 14) 0 [0; 0].
(** NVM actions and every auth action, not an administrator, one key id. *)
Definition pusr : perms :=
  mkP ([0; 0; 1] ++ repeat 0 10 ++ [1; 0])
      (repeat (repeat 0 8) 2 ++ [repeat 0xFFFFFFFF 8] ++ repeat (repeat 0 8) 10 ++ [repeat 0xFFFFFFFF 8]) 1 [7; 0].
Definition adm : list N := [97]. Definition bob : list N := [98]. Definition eve : list N := [101].
Definition setup : list aev :=
  [EAdd e adm padm METHOD_PIN [1; 2; 3; 4]; EReq 0 e (ALogin METHOD_PIN adm [1; 2; 3; 4]);
   EReq 0 e (AAdd bob pusr METHOD_PIN [5; 6]); EReq 1 e (ALogin METHOD_PIN bob [5; 6])].
Lemma factory_nil : factory [].
Proof. intros id _. reflexivity. Qed.
Lemma pusr_wf : perms_wf pusr /\ perms_wf padm.
Proof. split; (split; [reflexivity|]); repeat split; repeat (constructor; try reflexivity). Qed.
Lemma setup_wf : Forall ev_wf setup /\ Forall with_credential setup /\ Forall no_double_fault setup.
Proof.
  destruct pusr_wf as [A B]. split; [|split]; repeat constructor; auto; try discriminate.
Qed.
(** The run does what it should: two users, two sessions. *)
Example setup_runs :
  map answered_ok (fst (run setup boot)) = [true; true; true; true] /\
  map (fun c => u_id (as_sess (snd (run setup boot)) c)) [0; 1; 2]%nat = [1; 2; 0] /\
  describes setup boot no_users 2 = Some (bob, clamp pusr, Some (METHOD_PIN, [5; 6])).
Proof. vm_compute. repeat split. Qed.

(** C33: the session of bob may use the NVM group and not the key group. *)
Example C33_ex : may_use (as_sess (snd (run setup boot)) 1%nat) GROUP_NVM 6 /\ ~ may_use (as_sess (snd (run setup boot)) 1%nat) GROUP_KEY 1.
Proof.
  split.
  - apply (check_request_spec OK). vm_compute. reflexivity.
  - intros H. pose proof (proj2 (check_request_spec OK _ _ _) (conj eq_refl H)) as Z.
    vm_compute in Z. discriminate Z.
Qed.
Example C33_current_ex : undisturbed true true true sha verify 1024 true setup boot.
Proof. vm_compute. tauto. Qed.
(** Refuted without that hypothesis: bob's permissions are taken away, and bob's
    session is still checked against the old ones. *)
Theorem C33_stale_permissions_refuted : exists evs c g a, Forall ev_wf evs /\
  let Y := snd (run evs boot) in let s := as_sess Y c in let u := user_at (as_db Y) (u_id s) in
  b_id u = u_id s /\ u_id s <> 0 /\ may_use s g a /\ ~ may_use (mkSess (b_id u) (b_perm u)) g a.
Proof.
  exists (setup ++ [EReq 0 e (ASetPerm 2 perms_zero)]), 1%nat, GROUP_NVM, 6. split.
  { apply Forall_app. split; [apply setup_wf|]. repeat constructor; apply perms_zero_wf. }
  cbv zeta. split; [vm_compute; reflexivity|]. split; [vm_compute; discriminate|]. split.
  - apply (check_request_spec OK). vm_compute. reflexivity.
  - intros H. pose proof (proj2 (check_request_spec OK _ _ _) (conj eq_refl H)) as Z.
    vm_compute in Z. discriminate Z.
Qed.

(** C34: bob adds a user with no more than their own permissions. *)
Definition bobs : list aev := [EReq 1 e (AAdd eve pusr METHOD_PIN [9]); EReq 2 e (ALogin METHOD_PIN eve [9]); EReq 1 e (AAdd [102] padm METHOD_PIN [9])].
Example C34_ex : no_admin true true true sha verify 1024 true bobs (snd (run setup boot)) /\
  map answered_ok (fst (run bobs (snd (run setup boot)))) = [true; true; false] /\
  grants true true true sha verify 1024 true setup boot = [padm; pusr].
Proof. vm_compute. tauto. Qed.
(** Refuted for who is an administrator by their record only: a demoted
    administrator's session adds an administrator. *)
Theorem C34_demoted_refuted : exists evs c ev, Forall ev_wf evs /\ ev_wf ev /\
  let Y := snd (run evs boot) in
  is_admin (b_perm (user_at (as_db Y) (u_id (as_sess Y c)))) = false /\
  (exists en raw cred, ev = EReq c en (AAdd raw padm METHOD_PIN cred)) /\ answered_ok (fst (step ev Y)) = true /\ is_admin padm = true.
Proof.
  exists [EAdd e adm padm METHOD_PIN [1]; EAdd e bob padm METHOD_PIN [2]; EReq 0 e (ALogin METHOD_PIN adm [1]);
          EReq 1 e (ALogin METHOD_PIN bob [2]); EReq 0 e (ASetPerm 2 pusr)], 1%nat, (EReq 1 e (AAdd eve padm METHOD_PIN [3])).
  destruct pusr_wf as [A B].
  split; [repeat constructor; auto; try discriminate|]. split; [split; [repeat constructor|auto]|].
  cbv zeta. split; [vm_compute; reflexivity|]. split; [eauto|]. split; vm_compute; reflexivity.
Qed.
(** Refuted for who is an administrator by their login only: bob is deleted while
    logged in and the number is given to an administrator; bob's session now
    changes permissions. *)
Theorem C34_reused_id_refuted : exists evs c ev, Forall ev_wf evs /\ ev_wf ev /\
  let Y := snd (run evs boot) in
  is_admin (u_perm (as_sess Y c)) = false /\
  (exists en, ev = EReq c en (ASetPerm 2 padm)) /\ answered_ok (fst (step ev Y)) = true.
Proof.
  exists (setup ++ [EReq 0 e (ADelete 2); EReq 0 e (AAdd eve padm METHOD_PIN [3])]), 1%nat, (EReq 1 e (ASetPerm 2 padm)).
  destruct pusr_wf as [A B].
  split; [apply Forall_app; split; [apply setup_wf|repeat constructor; auto]|]. split; [exact B|].
  cbv zeta. split; [vm_compute; reflexivity|]. split; [eauto|]. vm_compute; reflexivity.
Qed.

(** Refuted for NVM requests to the reserved ids: on a device without users a
    client writes the index object; after a restart there is an administrator
    nobody granted. *)
Theorem C34_planted_index_refuted : exists ev, (exists en m d, ev = ENvm en (QAddDma m m d d)) /\
  let Y := snd (run [ev; EBoot] boot) in
  is_admin (b_perm (user_at (as_db Y) 1)) = true /\ b_id (user_at (as_db Y) 1) = 1 /\
  grants true true true sha verify 1024 true [ev; EBoot] boot = [].
Proof.
  exists (ENvm (mkEnv OK OK OK OK []) (QAddDma (mkMeta INDEX_ID 0 0 (N.of_nat INDEX_SIZE) []) (mkMeta INDEX_ID 0 0 (N.of_nat INDEX_SIZE) [])
    (ser_index (mkU 1 eve padm false METHOD_NONE 0 :: repeat urec_zero 4)) (ser_index (mkU 1 eve padm false METHOD_NONE 0 :: repeat urec_zero 4)))).
  split; [eauto|]. vm_compute. tauto.
Qed.

(** C35 and C55: the credential changes with the old one, and logins follow. *)
Definition changes : list aev := [EReq 1 e (ALogout 2); EReq 0 e (ASetCred 2 METHOD_PIN [5; 6] [7])].
Example C35_ex : orderly true true true sha verify 1024 true (setup ++ [EReq 1 e (ALogout 2)]) boot /\
  map answered_ok (fst (run (changes ++ [EReq 1 e (ALogin METHOD_PIN bob [5; 6]); EReq 1 e (ALogin METHOD_PIN bob [7])]) (snd (run setup boot))))
    = [true; true; false; true] /\
  describes (setup ++ changes) boot no_users 2 = Some (bob, clamp pusr, Some (METHOD_PIN, [7])).
Proof. vm_compute. tauto. Qed.
(** Refuted without orderly: an administrator logs bob out, and bob logs in again
    elsewhere while the first session lives on. *)
Theorem C35_two_sessions_refuted : exists evs, Forall ev_wf evs /\
  let Y := snd (run evs boot) in u_id (as_sess Y 1%nat) = 2 /\ u_id (as_sess Y 2%nat) = 2.
Proof.
  exists (setup ++ [EReq 0 e (ALogout 2); EReq 2 e (ALogin METHOD_PIN bob [5; 6])]).
  split; [apply Forall_app; split; [apply setup_wf|repeat constructor]|]. vm_compute. tauto.
Qed.
(** Refuted without [with_credential]: power loss while bob is added leaves bob's
    credential; a user then added without one can log in with it after a restart. *)
Theorem C35_left_over_credential_refuted : exists evs c m raw data a, Forall ev_wf evs /\
  let Y := snd (run evs boot) in
  fst (step (EReq c e (ALogin m raw data)) Y) = Some a /\ ar_rc a = OK /\
  option_map snd (describes evs boot no_users (ar_id a)) = Some None.
Proof.
  exists [EAdd e adm padm METHOD_PIN [1; 2; 3; 4]; EReq 0 e (ALogin METHOD_PIN adm [1; 2; 3; 4]);
          EReq 0 (bad OK ABORTED ABORTED) (AAdd bob pusr METHOD_PIN [5; 6]); EBoot;
          EReq 0 e (ALogin METHOD_PIN adm [1; 2; 3; 4]); EReq 0 e (AAdd eve pusr METHOD_PIN []); EBoot],
         1%nat, METHOD_PIN, eve, [5; 6], (mkAr OK 2 perms_zero).
  destruct pusr_wf as [A B].
  split; [repeat constructor; auto|]. vm_compute. tauto.
Qed.

(** C36: power loss at each of the writes of an add and of a delete. *)
Example C36_ex :
  map (fun w => match w with (w1, w2, w3) =>
         let Y := snd (step EBoot (snd (step (EReq 0 (bad w1 w2 w3) (AAdd eve pusr METHOD_PIN [9])) (snd (run setup boot))))) in
         map b_id (a_users (as_db Y)) end) [(ABORTED, ABORTED, ABORTED); (OK, ABORTED, ABORTED); (OK, OK, ABORTED)]
  = [[1; 2; 0; 0; 0]; [1; 2; 0; 0; 0]; [1; 2; 3; 0; 0]] /\
  map (fun w => match w with (w1, w2, w3) =>
         let Y := snd (step EBoot (snd (step (EReq 0 (bad w1 w2 w3) (ADelete 2)) (snd (run setup boot))))) in
         map b_id (a_users (as_db Y)) end) [(ABORTED, ABORTED, ABORTED); (OK, ABORTED, ABORTED); (OK, OK, ABORTED)]
  = [[1; 2; 0; 0; 0]; [1; 0; 0; 0; 0]; [1; 0; 0; 0; 0]].
Proof. vm_compute. tauto. Qed.
(** Refuted without [no_double_fault]: a delete that fails leaves a user that works
    and is gone after a restart. *)
Theorem C36_failed_delete_refuted : exists evs, Forall ev_wf evs /\ Forall with_credential evs /\
  let Y := snd (run evs boot) in
  last (map answered_ok (fst (run evs boot))) true = true /\
  ~ shows true sha (snd (step EBoot Y)) (describes evs boot no_users).
Proof.
  exists (setup ++ [EReq 0 (bad OK ABORTED ABORTED) (ADelete 2); EReq 1 e (ALogout 2); EReq 1 e (ALogin METHOD_PIN bob [5; 6])]).
  destruct setup_wf as (A & B & _).
  split; [apply Forall_app; split; [exact A|repeat constructor]|]. split; [apply Forall_app; split; [exact B|repeat constructor]|].
  cbv zeta. split; [vm_compute; reflexivity|]. intros [_ H]. specialize (H 2 ltac:(lia) ltac:(vm_compute; discriminate)).
  match type of H with context [describes ?a ?b ?c ?d] => assert (E : describes a b c d = Some (bob, clamp pusr, Some (METHOD_PIN, [5; 6]))) by (vm_compute; reflexivity) end.
  rewrite E in H. destruct H as [H _]. vm_compute in H. discriminate H.
Qed.
(** C56: bob may not delete, the administrator may. *)
Example C56_ex : map answered_ok (fst (run [EReq 1 e (ADelete 1); EReq 1 e (AGet bob); EReq 1 e (AGet adm); EReq 0 e (ADelete 2)] (snd (run setup boot)))) =
  [false; true; false; true].
Proof. vm_compute. reflexivity. Qed.

Example C54_ex : unflatten (flatten pusr) = pusr.
Proof. vm_compute. reflexivity. Qed.
End Demo.
Print Assumptions Demo.C33_stale_permissions_refuted.
Print Assumptions Demo.C34_demoted_refuted.
Print Assumptions Demo.C34_reused_id_refuted.
Print Assumptions Demo.C34_planted_index_refuted.
Print Assumptions Demo.C35_two_sessions_refuted.
Print Assumptions Demo.C35_left_over_credential_refuted.
Print Assumptions Demo.C36_failed_delete_refuted.
