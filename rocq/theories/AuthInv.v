(** Invariants of the authentication model over whole runs. *)
From Verif Require Import Base BaseLemmas NvmSpec Flags Store NvmReqModel NvmReqProof ServerModel AuthModel AuthCodec AuthRep AuthOps AuthEff AuthSys AuthSpec.
Local Open Scope N_scope.
Local Arguments N.of_nat : simpl never.
Local Arguments N.eqb : simpl never.

Lemma user_set (U : list urec) i u j : length U = MAX_USERS -> (i < MAX_USERS)%nat ->
  user (set_nth i u U) j = if Nat.eqb j i then u else user U j.
Proof.
  intros HL Hi. unfold user. destruct (Nat.eqb_spec j i) as [-> |Ne]; [apply set_nth_same; lia|apply set_nth_other; auto].
Qed.
Lemma of_S_inj i j : N.of_nat (S i) = N.of_nat (S j) -> i = j.
Proof. lia. Qed.
Lemma put_S S0 i v j : put S0 (N.of_nat (S i)) v (N.of_nat (S j)) = if Nat.eqb j i then v else S0 (N.of_nat (S j)).
Proof. unfold put. destruct (Nat.eqb_spec j i) as [-> |Ne]; [now rewrite N.eqb_refl|]. destruct (N.eqb_spec (N.of_nat (S j)) (N.of_nat (S i))); [lia|auto]. Qed.

Definition clen_of (v : option (N * list N)) : N := match v with None => 0 | Some (_, b) => len_of b end.
Definition synced (X U : list urec) : Prop := forall i, (i < MAX_USERS)%nat -> core (user X i) = core (user U i).

Section Inv.
Variables (nvm crypto certs : bool) (sha : list N -> list N) (verify : list N -> list N -> bool).
Notation did := (did nvm crypto certs sha verify).
Notation Good := (Good nvm).
Notation stored_form := (stored_form crypto sha).
Notation blob_of := (blob_of crypto sha).

Lemma stored_credential m c : c <> [] -> stored_form (credential m c) = Some (m, blob_of m c).
Proof. intros H. destruct c; [contradiction|]. reflexivity. Qed.

Definition knows (U : list urec) (C : cslots) (S : users_db) : Prop :=
  forall i, (i < MAX_USERS)%nat -> b_id (user U i) <> 0 ->
  exists v, S (N.of_nat (Datatypes.S i)) = Some (b_name (user U i), b_perm (user U i), v) /\
            C i = stored_form v /\ b_clen (user U i) = clen_of (C i).
Definition exact_db (U : list urec) (S : users_db) : Prop :=
  forall i, (i < MAX_USERS)%nat -> b_id (user U i) = 0 -> S (N.of_nat (Datatypes.S i)) = None.

Lemma described_same ev a S : not_done ev a -> described nvm ev a S = S.
Proof.
  intros H. destruct ev as [c e q| e raw p m cr|c l1 l2|c l1 l2|e q|]; cbn [not_done described] in *; try reflexivity; try contradiction.
  - destruct q; try reflexivity; destruct a as [r|]; try contradiction; cbn [answered_ok];
      apply is_ok_false in H; rewrite H; reflexivity.
  - destruct a as [r|]; [|contradiction]. cbn [answered_ok]. apply is_ok_false in H. rewrite H. reflexivity.
Qed.

Lemma len_pos b : len_of b <> 0 -> b <> [].
Proof. intros H ->. contradiction H; reflexivity. Qed.

Lemma step_knows ev a Y X C Y1 X1 C1 S : did ev a Y X C Y1 X1 C1 -> Good (as_db Y) X C -> with_credential ev ->
  knows (a_users (as_db Y)) C S -> knows (a_users (as_db Y1)) C1 (described nvm ev a S).
Proof.
  intros HD [[HL HWU] HR HI HA] HC K.
  assert (HCO : forall i, (i < MAX_USERS)%nat -> cred_ok (C i)) by apply HR.
  destruct HD as [ND HS HU HC1 HX|c e m raw data i b -> HZ -> Hi u A1 A2 A3 A4 A5 HU HS -> ->|c i Hi u HU -> -> H
    |c ND HS HU -> ->|c e raw p m cred i HE -> Hi Hz HN HK HS ->|c e i -> HG HZ -> Hi HAD HN HU HC1 HC2 HS ->
    |c e p i -> HG HZ -> Hi HAD HN HU -> HS ->|c e m old new i -> HG HZ -> Hi HM HAD u HN HO v HU HC1 HC2 HS ->
    | -> HU HS -> ->].
  - rewrite HU, (described_same _ _ S) by auto. intros i Hi Hn. destruct (K i Hi Hn) as (v & B1 & B2 & B3). exists v.
    rewrite HC1 by auto. auto.
  - cbn [described]. rewrite HU. intros j Hj. rewrite user_set by auto. specialize (K j Hj).
    destruct (Nat.eqb_spec j i) as [-> |]; exact K.
  - assert (E : described nvm ev a S = S).
    { destruct H as [(_ & ND & _)|((e & ->) & _)]; [now apply described_same|reflexivity]. }
    rewrite E, HU. intros j Hj. rewrite user_set by auto. specialize (K j Hj).
    destruct (Nat.eqb_spec j i) as [-> |]; exact K.
  - rewrite HU, (described_same _ _ S) by auto. exact K.
  - assert (HCR : cred <> []) by (destruct HE as [(-> & _)| ->]; exact HC).
    assert (E : described nvm ev (Some (mkAr OK (N.of_nat (Datatypes.S i)) perms_zero)) S =
                put S (N.of_nat (Datatypes.S i)) (Some (uname raw, clamp p, credential m cred)))
      by (destruct HE as [(-> & _)| ->]; reflexivity).
    rewrite E. destruct HK as [(Z & _)|(_ & HM & HU & ->)]; [contradiction|].
    rewrite HU. intros j Hj. rewrite user_set, put_S by auto. unfold cset. destruct (Nat.eqb_spec j i) as [-> |]; [|apply K; auto].
    intros _. exists (credential m cred). rewrite stored_credential by auto. auto.
  - cbn [described answered_ok arc ar_rc]. change (is_ok OK) with true. cbv iota.
    rewrite HU. intros j Hj. rewrite user_set, put_S by auto. destruct (Nat.eqb_spec j i) as [-> |Ne].
    + intros Z. contradiction Z; reflexivity.
    + rewrite HC1 by auto. apply K; auto.
  - cbn [described answered_ok arc ar_rc]. change (is_ok OK) with true. cbv iota.
    rewrite HU. intros j Hj. rewrite user_set, put_S by auto. destruct (Nat.eqb_spec j i) as [-> |Ne]; [|apply K; auto].
    intros Z. destruct (K i Hj Z) as (v & B1 & B2 & B3). exists v. rewrite B1. cbn [with_perm b_name b_perm b_clen option_map fst snd]. auto.
  - cbn [described answered_ok arc ar_rc]. change (is_ok OK) with true. cbv iota.
    rewrite HU. intros j Hj. rewrite user_set, put_S by auto. destruct (Nat.eqb_spec j i) as [-> |Ne]; [|rewrite HC1 by auto; apply K; auto].
    intros Z. destruct (K i Hj Z) as (w & B1 & B2 & B3). exists (credential m new). rewrite B1. cbn [with_cred b_name b_perm b_clen option_map fst snd].
    split; [auto|]. assert (EV : v = stored_form (credential m new)).
    { unfold v. destruct new as [|x new]; [reflexivity|]. rewrite stored_credential by discriminate. reflexivity. }
    assert (EC : C1 i = v).
    { destruct HC2 as [E|(E1 & E2 & E3)]; [exact E|]. rewrite E1, E3. unfold u in E2. rewrite E2 in B3.
      specialize (HCO i Hi). destruct (C i) as [[m1 b1]|]; [|reflexivity]. destruct HCO as [_ HCO]. cbn [clen_of] in B3. lia. }
    rewrite EC. split; [exact EV|]. unfold v. destruct (len_of new =? 0); reflexivity.
  - cbn [described]. rewrite HU. assert (EN : nvm = true \/ nvm = false) by (destruct nvm; auto). destruct EN as [EN|EN].
    + rewrite EN. intros i Hi. unfold user. rewrite boot_nth by auto. unfold reloaded. fold (user X i).
      destruct (N.eqb_spec (b_id (user X i)) 0) as [Z|NZ]; [intros Z1; contradiction|].
      destruct (HI i Hi) as [E|E]; [|rewrite E in NZ; contradiction NZ; reflexivity].
      assert (E1 : b_id (user (a_users (as_db Y)) i) = b_id (user X i)) by (apply (f_equal b_id) in E; cbn in E; auto).
      assert (E2 : b_name (user (a_users (as_db Y)) i) = b_name (user X i)) by (apply (f_equal b_name) in E; cbn in E; auto).
      assert (E3 : b_perm (user (a_users (as_db Y)) i) = b_perm (user X i)) by (apply (f_equal b_perm) in E; cbn in E; auto).
      destruct (K i Hi) as (v & B1 & B2 & B3); [now rewrite E1|].
      intros _. exists v. rewrite B1, B2, E2, E3. destruct (stored_form v) as [[m b]|]; auto.
    + rewrite EN. unfold boot_users. intros i Hi Z. unfold user, users_zero in Z. rewrite nth_repeat in Z. contradiction Z; reflexivity.
Qed.

Lemma core_id u v : core u = core v -> b_id u = b_id v.
Proof. intros E. apply (f_equal b_id) in E. exact E. Qed.
Lemma synced_refl U : synced U U.
Proof. intros i Hi. reflexivity. Qed.
Lemma synced_set X U i u : length U = MAX_USERS -> synced X U -> (i < MAX_USERS)%nat -> core u = core (user U i) -> synced X (set_nth i u U).
Proof.
  intros HL H Hi E j Hj. rewrite user_set by auto. destruct (Nat.eqb_spec j i) as [-> |]; [rewrite E|]; auto.
Qed.

Lemma step_exact ev a Y X C Y1 X1 C1 S : did ev a Y X C Y1 X1 C1 -> Good (as_db Y) X C ->
  synced X (a_users (as_db Y)) -> exact_db (a_users (as_db Y)) S ->
  (synced X1 (a_users (as_db Y1)) /\ exact_db (a_users (as_db Y1)) (described nvm ev a S)) \/
  exists c e i, ev = EReq c e (ADelete (N.of_nat (Datatypes.S i))) /\ (i < MAX_USERS)%nat /\ ae_w2 e <> OK /\ ae_w3 e <> OK /\
    not_done ev a /\ a_users (as_db Y1) = a_users (as_db Y) /\ X1 = set_nth i urec_zero (a_users (as_db Y)) /\
    (forall j, (j < MAX_USERS)%nat -> b_id (user (a_users (as_db Y)) j) <> 0 -> C1 j = C j).
Proof.
  intros HD [[HL HWU] HR HI HA] HSY K.
  destruct HD as [ND HS HU HC1 HX|c e m raw data i b -> HZ -> Hi u A1 A2 A3 A4 A5 HU HS -> ->|c i Hi u HU -> -> H
    |c ND HS HU -> ->|c e raw p m cred i HE -> Hi Hz HN HK HS ->|c e i -> HG HZ -> Hi HAD HN HU HC1 HC2 HS ->
    |c e p i -> HG HZ -> Hi HAD HN HU -> HS ->|c e m old new i -> HG HZ -> Hi HM HAD u HN HO v HU HC1 HC2 HS ->
    | -> HU HS -> ->].
  - rewrite HU, (described_same _ _ S) by auto.
    destruct HX as [-> |(c & e & uid & -> & [-> |(i & Hi & -> & -> & W2 & W3)])]; [auto|left; split; [apply synced_refl|auto]|].
    right. exists c, e, i. repeat (split; [auto|]). auto.
  - left. cbn [described]. rewrite HU. split; [apply synced_set; auto|]. intros j Hj. rewrite user_set by auto. specialize (K j Hj).
    destruct (Nat.eqb_spec j i) as [-> |]; exact K.
  - left. assert (E : described nvm ev a S = S).
    { destruct H as [(_ & ND & _)|((e & ->) & _)]; [now apply described_same|reflexivity]. }
    rewrite E, HU. split; [apply synced_set; auto|]. intros j Hj. rewrite user_set by auto. specialize (K j Hj).
    destruct (Nat.eqb_spec j i) as [-> |]; exact K.
  - left. rewrite HU, (described_same _ _ S) by auto. auto.
  - left. split; [apply synced_refl|].
    assert (E : described nvm ev (Some (mkAr OK (N.of_nat (Datatypes.S i)) perms_zero)) S =
                put S (N.of_nat (Datatypes.S i)) (Some (uname raw, clamp p, credential m cred)))
      by (destruct HE as [(-> & _)| ->]; reflexivity).
    rewrite E. destruct HK as [(_ & HU & _)|(_ & HM & HU & _)]; rewrite HU; intros j Hj; rewrite user_set, put_S by auto;
      (destruct (Nat.eqb_spec j i) as [-> |]; [|apply K; auto]); cbn [new_user b_id]; lia.
  - left. split; [apply synced_refl|]. cbn [described answered_ok arc ar_rc]. change (is_ok OK) with true. cbv iota.
    rewrite HU. intros j Hj. rewrite user_set, put_S by auto. destruct (Nat.eqb_spec j i) as [-> |Ne]; [auto|apply K; auto].
  - left. split; [apply synced_refl|]. cbn [described answered_ok arc ar_rc]. change (is_ok OK) with true. cbv iota.
    rewrite HU. intros j Hj. rewrite user_set, put_S by auto. destruct (Nat.eqb_spec j i) as [-> |Ne]; [|apply K; auto].
    intros Z. contradiction.
  - left. cbn [described answered_ok arc ar_rc]. change (is_ok OK) with true. cbv iota. rewrite HU. split; [apply synced_set; auto|].
    intros j Hj. rewrite user_set, put_S by auto. destruct (Nat.eqb_spec j i) as [-> |Ne]; [|apply K; auto].
    intros Z. contradiction.
  - left. cbn [described]. rewrite HU. assert (EN : nvm = true \/ nvm = false) by (destruct nvm; auto). destruct EN as [EN|EN].
    + rewrite EN. split; intros i Hi; unfold user; rewrite boot_nth by auto; unfold reloaded; fold (user X i).
      * destruct (b_id (user X i) =? 0); [reflexivity|]. destruct (C i) as [[? ?]|]; reflexivity.
      * destruct (N.eqb_spec (b_id (user X i)) 0) as [Z|NZ].
        -- intros _. apply K; auto. rewrite <- (core_id _ _ (HSY i Hi)). exact Z.
        -- intros Z1. exfalso. apply NZ. destruct (C i) as [[? ?]|]; exact Z1.
    + rewrite EN. unfold boot_users. split; [apply synced_refl|]. intros i Hi _. reflexivity.
Qed.

(** ** Sessions *)
Definition one_holder (Y : asys) : Prop :=
  (forall c i, (i < MAX_USERS)%nat -> u_id (as_sess Y c) = N.of_nat (S i) -> b_active (user (a_users (as_db Y)) i) = true) /\
  (forall c c', u_id (as_sess Y c) <> 0 -> u_id (as_sess Y c) = u_id (as_sess Y c') -> c = c').

Lemma step_one ev a Y X C Y1 X1 C1 : did ev a Y X C Y1 X1 C1 -> Good (as_db Y) X C ->
  match ev with
  | EReq c _ (ALogout uid) => uid = u_id (as_sess Y c)
  | EReq _ _ (ADelete uid) => answered_ok a = true -> forall x, u_id (as_sess Y x) <> uid
  | _ => True
  end -> one_holder Y -> one_holder Y1.
Proof.
  intros HD [[HL HWU] HR HI HA] HO [K1 K2].
  destruct HD as [ND HS HU HC1 HX|c e m raw data i b -> HZ -> Hi u A1 A2 A3 A4 A5 HU HS -> ->|c i Hi u HU -> -> H
    |c ND HS HU -> ->|c e raw p m cred i HE -> Hi Hz HN HK HS ->|c e i -> HG HZ -> Hi HAD HN HU HC1 HC2 HS ->
    |c e p i -> HG HZ -> Hi HAD HN HU -> HS ->|c e m old new i -> HG HZ -> Hi HM HAD u HN HOO v HU HC1 HC2 HS ->
    | -> HU HS -> ->].
  - split; [intros c i Hi; rewrite HS, HU; now apply K1|intros c c'; rewrite !HS; apply K2].
  - split.
    + intros x j Hj. rewrite HS, HU, user_set by auto. destruct (Nat.eqb_spec x c) as [-> |Nx]; cbn [u_id].
      * rewrite A1. intros E. apply of_S_inj in E as <-. rewrite Nat.eqb_refl. reflexivity.
      * destruct (Nat.eqb_spec j i) as [-> |Ne]; [reflexivity|now apply K1].
    + intros x x'. rewrite !HS. destruct (Nat.eqb_spec x c) as [-> |Nx]; destruct (Nat.eqb_spec x' c) as [-> |Nx']; cbn [u_id]; auto.
      * rewrite A1. intros _ E. symmetry in E. unfold u in A3. rewrite (K1 x' i Hi E) in A3. discriminate.
      * rewrite A1. intros _ E. unfold u in A3. rewrite (K1 x i Hi E) in A3. discriminate.
  - destruct H as [(E & ND & HS)|((e & ->) & NE & _)]; [|symmetry in HO; contradiction].
    split.
    + intros x j Hj. rewrite HS, HU, user_set by auto. destruct (Nat.eqb_spec x c) as [-> |Nx]; [cbn [u_id no_sess]; intros; lia|].
      destruct (Nat.eqb_spec j i) as [-> |Ne]; [|now apply K1].
      intros E2. exfalso. apply Nx. apply K2; [lia|congruence].
    + intros x x'. rewrite !HS. destruct (Nat.eqb_spec x c) as [-> |Nx]; destruct (Nat.eqb_spec x' c) as [-> |Nx']; cbn [u_id no_sess]; auto.
      all: intros Z1 Z2; congruence.
  - split.
    + intros x j Hj. rewrite HS, HU. destruct (Nat.eqb_spec x c) as [-> |Nx]; [cbn [u_id no_sess]; intros; lia|now apply K1].
    + intros x x'. rewrite !HS. destruct (Nat.eqb_spec x c) as [-> |Nx]; destruct (Nat.eqb_spec x' c) as [-> |Nx']; cbn [u_id no_sess]; auto.
      all: intros Z1 Z2; congruence.
  - split; [|intros x x'; rewrite !HS; apply K2].
    intros x j Hj. rewrite HS. intros E. pose proof (K1 x j Hj E) as B.
    destruct HK as [(_ & HU & _)|(_ & _ & HU & _)]; rewrite HU, user_set by auto;
      (destruct (Nat.eqb_spec j i) as [-> |Ne]; [rewrite Hz in B; discriminate|exact B]).
  - split; [|intros x x'; rewrite !HS; apply K2].
    intros x j Hj. rewrite HS, HU, user_set by auto. intros E. destruct (Nat.eqb_spec j i) as [-> |Ne]; [|now apply (K1 x)].
    exfalso. apply (HO eq_refl x E).
  - assert (HSI : forall x, u_id (as_sess Y1 x) = u_id (as_sess Y x)).
    { intros x. rewrite HS. destruct (Nat.eqb_spec x c) as [-> |]; cbn [andb]; [|reflexivity]. destruct (_ =? _); reflexivity. }
    split; [|intros x x'; rewrite !HSI; apply K2].
    intros x j Hj. rewrite HSI, HU, user_set by auto. intros E. pose proof (K1 x j Hj E) as B.
    destruct (Nat.eqb_spec j i) as [-> |Ne]; exact B.
  - split; [|intros x x'; rewrite !HS; apply K2].
    intros x j Hj. rewrite HS, HU, user_set by auto. intros E. pose proof (K1 x j Hj E) as B.
    destruct (Nat.eqb_spec j i) as [-> |Ne]; exact B.
  - split; [intros x j Hj; rewrite HS; cbn [u_id no_sess]; intros; lia|].
    intros x x'. rewrite HS. cbn [u_id no_sess]. intros Z. contradiction Z; reflexivity.
Qed.

(** The permissions a session checks are those its user has now. *)
Definition same_rights (p q : perms) : Prop := p_group p = p_group q /\ p_act p = p_act q /\ key_ids p = key_ids q.
Definition current (Y : asys) : Prop :=
  forall c, u_id (as_sess Y c) <> 0 -> exists i, (i < MAX_USERS)%nat /\ u_id (as_sess Y c) = N.of_nat (S i) /\
    b_id (user (a_users (as_db Y)) i) = N.of_nat (S i) /\ same_rights (u_perm (as_sess Y c)) (b_perm (user (a_users (as_db Y)) i)).
Lemma same_clamp p : perms_wf p -> same_rights p (clamp p).
Proof. intros W. split; [reflexivity|]. split; [reflexivity|]. symmetry. now apply keys_clamp. Qed.

Lemma step_current ev a Y X C Y1 X1 C1 : did ev a Y X C Y1 X1 C1 -> Good (as_db Y) X C -> ev_wf ev ->
  undisturbing ev a Y -> current Y -> current Y1.
Proof.
  intros HD [[HL HWU] HR HI HA] HE HO K.
  destruct HD as [ND HS HU HC1 HX|c e m raw data i b -> HZ -> Hi u A1 A2 A3 A4 A5 HU HS -> ->|c i Hi u HU -> -> H
    |c ND HS HU -> ->|c e raw p m cred i HQ -> Hi Hz HN HK HS ->|c e i -> HG HZ -> Hi HAD HN HU HC1 HC2 HS ->
    |c e p i -> HG HZ -> Hi HAD HN HU -> HS ->|c e m old new i -> HG HZ -> Hi HM HAD u HN HOO v HU HC1 HC2 HS ->
    | -> HU HS -> ->]; intros x.
  - rewrite HS, HU. apply K.
  - rewrite HS. destruct (Nat.eqb x c).
    + intros _. exists i. cbn [u_id u_perm]. rewrite HU, user_set, Nat.eqb_refl by auto. split; [auto|]. split; [auto|]. split; [exact A1|].
      split; [|split]; reflexivity.
    + intros Z. destruct (K x Z) as (j & B1 & B2 & B3 & B4). exists j. rewrite HU, user_set by auto. split; [auto|]. split; [auto|].
      destruct (Nat.eqb_spec j i) as [-> |]; auto.
  - assert (HS : as_sess Y1 x = no_sess \/ as_sess Y1 x = as_sess Y x).
    { destruct H as [(_ & _ & HS)|(_ & _ & _ & HS)]; rewrite HS; auto. destruct (Nat.eqb x c); auto. }
    destruct HS as [-> | ->]; [intros Z; contradiction Z; reflexivity|].
    intros Z. destruct (K x Z) as (j & B1 & B2 & B3 & B4). exists j. rewrite HU, user_set by auto. split; [auto|]. split; [auto|].
    destruct (Nat.eqb_spec j i) as [-> |]; auto.
  - rewrite HS, HU. destruct (Nat.eqb x c); [intros Z; contradiction Z; reflexivity|]. apply K.
  - rewrite HS. intros Z. destruct (K x Z) as (j & B1 & B2 & B3 & B4). exists j. split; [auto|]. split; [auto|].
    destruct HK as [(_ & HU & _)|(_ & _ & HU & _)]; rewrite HU, user_set by auto;
      (destruct (Nat.eqb_spec j i) as [-> |]; [rewrite Hz in B3; cbn [b_id urec_zero] in B3; lia|auto]).
  - rewrite HS. intros Z. destruct (K x Z) as (j & B1 & B2 & B3 & B4). exists j. split; [auto|]. split; [auto|].
    rewrite HU, user_set by auto. destruct (Nat.eqb_spec j i) as [-> |]; [|auto].
    exfalso. cbn [undisturbing] in HO. exact (HO eq_refl x B2).
  - cbn [undisturbing] in HO. specialize (HO eq_refl x). rewrite HS. destruct (Nat.eqb_spec x c) as [-> |Nx]; cbn [andb].
    + destruct (N.eqb_spec (u_id (as_sess Y c)) (N.of_nat (S i))) as [E|NE].
      * intros _. exists i. cbn [u_id u_perm]. rewrite HU, user_set, Nat.eqb_refl by auto. split; [auto|]. split; [auto|].
        destruct (K c HZ) as (j & B1 & B2 & B3 & B4). rewrite E in B2. apply of_S_inj in B2 as <-.
        split; [exact B3|]. cbn [with_perm b_perm]. now apply same_clamp.
      * intros Z. destruct (K c Z) as (j & B1 & B2 & B3 & B4). exists j. split; [auto|]. split; [auto|].
        rewrite HU, user_set by auto. destruct (Nat.eqb_spec j i) as [-> |]; [contradiction|auto].
    + intros Z. destruct (K x Z) as (j & B1 & B2 & B3 & B4). exists j. split; [auto|]. split; [auto|].
      rewrite HU, user_set by auto. destruct (Nat.eqb_spec j i) as [-> |]; [|auto].
      exfalso. exact (HO Nx B2).
  - rewrite HS. intros Z. destruct (K x Z) as (j & B1 & B2 & B3 & B4). exists j. rewrite HU, user_set by auto. split; [auto|]. split; [auto|].
    destruct (Nat.eqb_spec j i) as [-> |]; auto.
  - rewrite HS. intros Z; contradiction Z; reflexivity.
Qed.

(** ** Permissions *)
Lemma within_refl p : within p p.
Proof. split; [auto|]. split; auto. Qed.
Lemma within_trans p q r : within p q -> within q r -> within p r.
Proof. intros (A1 & A2 & A3) (B1 & B2 & B3). split; [auto|]. split; auto. Qed.
Lemma within_clamp p : perms_wf p -> within (clamp p) p.
Proof.
  intros W. split; [intros g _; auto|]. split; [intros; auto|]. rewrite keys_clamp by auto. auto.
Qed.
Lemma subset_within s p : subset_ok s p = true -> within p s /\ is_admin p = false.
Proof.
  unfold subset_ok. rewrite !Bool.andb_true_iff, Bool.negb_true_iff, !forallb_forall. intros [[H1 H2] H3]. split; [|exact H1].
  split; [|split].
  - intros g Hg. destruct (Nat.eq_dec g NGROUPS) as [-> |Ne].
    + unfold is_admin in H1. apply Bool.negb_false_iff, N.eqb_eq in H1. intros Z; contradiction.
    + specialize (H2 g ltac:(apply in_seq; lia)). apply Bool.andb_true_iff in H2 as [H2 _].
      apply Bool.orb_true_iff in H2 as [H2|H2]; [apply N.eqb_eq in H2; intros Z; contradiction|].
      apply Bool.negb_true_iff, N.eqb_neq in H2. auto.
  - intros g w n Hg Hw Hb. specialize (H2 g ltac:(apply in_seq; lia)). apply Bool.andb_true_iff in H2 as [_ H2].
    rewrite forallb_forall in H2. specialize (H2 w ltac:(apply in_seq; lia)). apply N.eqb_eq in H2.
    apply (f_equal (fun x => N.testbit x n)) in H2. rewrite N.ldiff_spec, N.bits_0, Hb in H2. cbn [andb] in H2.
    now apply Bool.negb_false_iff in H2.
  - intros k Hk. specialize (H3 k Hk). apply existsb_exists in H3 as (x & Hx & E). apply N.eqb_eq in E as ->. exact Hx.
Qed.
Lemma within_admin p q : within p q -> is_admin p = true -> is_admin q = true.
Proof.
  intros (A & _) H. unfold is_admin in *. apply Bool.negb_true_iff, N.eqb_neq in H. apply Bool.negb_true_iff, N.eqb_neq. now apply A.
Qed.

(** Everybody's permissions are within one of [G]. *)
Definition covered (G : perms -> Prop) (p : perms) : Prop := exists g, G g /\ within p g.
Definition all_covered (G : perms -> Prop) (Y : asys) : Prop :=
  (forall i, (i < MAX_USERS)%nat -> b_id (user (a_users (as_db Y)) i) <> 0 -> covered G (b_perm (user (a_users (as_db Y)) i))) /\
  (forall c, u_id (as_sess Y c) <> 0 -> covered G (u_perm (as_sess Y c))).
Definition more (G : perms -> Prop) (l : list perms) : perms -> Prop := fun p => G p \/ In p l.
Lemma covered_app G l p : covered G p -> covered (more G l) p.
Proof. intros (g & A & B). exists g. split; [now left|exact B]. Qed.
Lemma covered_in (G : perms -> Prop) p q : G q -> within p q -> covered G p.
Proof. intros A B. now exists q. Qed.

Lemma admin_login Y c : u_id (as_sess Y c) <> 0 -> is_admin (u_perm (as_sess Y c)) = true -> acts_as_admin Y c = true.
Proof. intros H E. unfold acts_as_admin. rewrite E. apply N.eqb_neq in H. now rewrite H. Qed.
Lemma admin_record Y c : u_id (as_sess Y c) <> 0 -> is_admin (b_perm (user_at (as_db Y) (u_id (as_sess Y c)))) = true -> acts_as_admin Y c = true.
Proof. intros H E. unfold acts_as_admin. rewrite E, Bool.orb_true_r. apply N.eqb_neq in H. now rewrite H. Qed.

Lemma step_cover ev a Y X C Y1 X1 C1 G : did ev a Y X C Y1 X1 C1 -> Good (as_db Y) X C -> ev_wf ev ->
  all_covered G Y -> all_covered (more G (grant ev a Y)) Y1.
Proof.
  intros HD [[HL HWU] HR HI HA] HE [K1 K2].
  assert (AP : forall p, covered G p -> covered (more G (grant ev a Y)) p) by (intros; now apply covered_app).
  destruct HD as [ND HS HU HC1 HX|c e m raw data i b -> HZ -> Hi u A1 A2 A3 A4 A5 HU HS -> ->|c i Hi u HU -> -> H
    |c ND HS HU -> ->|c e raw p m cred i HQ -> Hi Hz HN HK HS ->|c e i -> HG HZ -> Hi HAD HN HU HC1 HC2 HS ->
    |c e p i -> HG HZ -> Hi HAD HN HU -> HS ->|c e m old new i -> HG HZ -> Hi HM HAD u HN HOO v HU HC1 HC2 HS ->
    | -> HU HS -> ->].
  - split; [intros i Hi; rewrite HU; auto|intros c; rewrite HS; auto].
  - split.
    + intros j Hj. rewrite HU, user_set by auto. destruct (Nat.eqb_spec j i) as [-> |Ne]; [|auto].
      cbn [with_active b_id b_perm]. intros Z. apply AP, K1; auto.
    + intros x. rewrite HS. destruct (Nat.eqb x c); [|auto]. cbn [u_id u_perm]. intros Z. apply AP. apply K1; auto.
  - split.
    + intros j Hj. rewrite HU, user_set by auto. destruct (Nat.eqb_spec j i) as [-> |Ne]; [|auto].
      cbn [with_active b_id b_perm]. intros Z. apply AP, K1; auto.
    + intros x. destruct H as [(_ & _ & HS)|(_ & _ & _ & HS)]; rewrite HS; [|auto].
      destruct (Nat.eqb x c); [intros Z; contradiction Z; reflexivity|auto].
  - split; [intros i Hi; rewrite HU; auto|]. intros x. rewrite HS.
    destruct (Nat.eqb x c); [intros Z; contradiction Z; reflexivity|auto].
  - assert (WP : perms_wf p) by (destruct HQ as [(-> & _)| ->]; apply HE).
    assert (CP : covered (more G (grant ev (Some (mkAr OK (N.of_nat (S i)) perms_zero)) Y)) (clamp p)).
    { destruct HQ as [(-> & HG & HZ & HAD)| ->]; cbn [grant answered_ok ar_rc].
      - change (is_ok OK) with true. cbn [andb]. destruct HAD as [HAD|[HSUB _]].
        + rewrite (admin_login Y c HZ HAD). apply (covered_in _ _ p); [right; left; reflexivity|now apply within_clamp].
        + destruct (subset_within _ _ HSUB) as [HW _]. destruct (K2 c HZ) as (g & B1 & B2).
          exists g. split; [now left|]. apply (within_trans _ p); [now apply within_clamp|].
          now apply (within_trans _ (u_perm (as_sess Y c))).
      - change (is_ok OK) with true. cbv iota. apply (covered_in _ _ p); [right; left; reflexivity|now apply within_clamp]. }
    split; [|intros x; rewrite HS; auto].
    intros j Hj. destruct HK as [(_ & HU & _)|(_ & _ & HU & _)]; rewrite HU, user_set by auto;
      (destruct (Nat.eqb_spec j i) as [-> |Ne]; [intros _; exact CP|auto]).
  - split; [|intros x; rewrite HS; auto].
    intros j Hj. rewrite HU, user_set by auto. destruct (Nat.eqb_spec j i) as [-> |Ne]; [intros Z; contradiction Z; reflexivity|auto].
  - assert (IN : more G (grant (EReq c e (ASetPerm (N.of_nat (S i)) p)) (Some (arc OK)) Y) p).
    { right. cbn [grant answered_ok arc ar_rc]. change (is_ok OK) with true. cbn [andb].
      rewrite (admin_record Y c HZ HAD). left. reflexivity. }
    split.
    + intros j Hj. rewrite HU, user_set by auto. destruct (Nat.eqb_spec j i) as [-> |Ne]; [|auto].
      intros _. apply (covered_in _ _ p IN). now apply within_clamp.
    + intros x. rewrite HS. destruct (Nat.eqb x c && (u_id (as_sess Y c) =? N.of_nat (S i))); [|auto].
      intros _. apply (covered_in _ _ p IN). apply within_refl.
  - split; [|intros x; rewrite HS; auto].
    intros j Hj. rewrite HU, user_set by auto. destruct (Nat.eqb_spec j i) as [-> |Ne]; [|auto]. cbn [with_cred b_id b_perm]. intros Z. apply AP, K1; auto.
  - split; [|intros x; rewrite HS; intros Z; contradiction Z; reflexivity].
    rewrite HU. assert (EN : nvm = true \/ nvm = false) by (destruct nvm; auto). destruct EN as [EN|EN].
    + intros i Hi. unfold user. rewrite boot_nth by auto. unfold reloaded. fold (user X i).
      destruct (N.eqb_spec (b_id (user X i)) 0) as [Z|NZ]; [intros Z1; contradiction|].
      destruct (HI i Hi) as [E|E]; [|rewrite E in NZ; contradiction NZ; reflexivity].
      pose proof (core_id _ _ E) as E1.
      assert (E3 : b_perm (user (a_users (as_db Y)) i) = b_perm (user X i)) by (apply (f_equal b_perm) in E; cbn in E; auto).
      intros _. specialize (K1 i Hi). rewrite E3, <- E1 in K1. specialize (K1 NZ).
      destruct (C i) as [[m b]|]; cbn [with_cred core b_perm]; auto.
    + rewrite EN. unfold boot_users. intros i Hi Z. unfold user, users_zero in Z. rewrite nth_repeat in Z. contradiction Z; reflexivity.
Qed.

(** A step by somebody who does not act as an administrator leaves every user as
    it was, or removes it in a restart, or adds one that is no administrator. *)
Lemma step_keeps ev a Y X C Y1 X1 C1 : did ev a Y X C Y1 X1 C1 -> Good (as_db Y) X C ->
  match ev with EReq c _ _ => acts_as_admin Y c = false | EAdd _ _ _ _ _ => False | _ => True end ->
  forall i, (i < MAX_USERS)%nat ->
  let u := user (a_users (as_db Y)) i in let u1 := user (a_users (as_db Y1)) i in
  b_name u1 = b_name u /\ b_perm u1 = b_perm u /\ b_id u1 = b_id u \/ ev = EBoot /\ u1 = urec_zero \/ b_id u = 0 /\ is_admin (b_perm u1) = false.
Proof.
  intros HD [[HL HWU] HR HI HA] HO j Hj. cbv zeta.
  destruct HD as [ND HS HU HC1 HX|c e m raw data i b -> HZ -> Hi u A1 A2 A3 A4 A5 HU HS -> ->|c i Hi u HU -> -> H
    |c ND HS HU -> ->|c e raw p m cred i HQ -> Hi Hz HN HK HS ->|c e i -> HG HZ -> Hi HAD HN HU HC1 HC2 HS ->
    |c e p i -> HG HZ -> Hi HAD HN HU -> HS ->|c e m old new i -> HG HZ -> Hi HM HAD u HN HOO v HU HC1 HC2 HS ->
    | -> HU HS -> ->].
  - left. now rewrite HU.
  - left. rewrite HU, user_set by auto. destruct (Nat.eqb_spec j i) as [-> |Ne]; auto.
  - left. rewrite HU, user_set by auto. destruct (Nat.eqb_spec j i) as [-> |Ne]; auto.
  - left. now rewrite HU.
  - destruct HQ as [(-> & HG & HZ & HAD)| ->]; [|contradiction].
    destruct HAD as [HAD|[HSUB _]]; [rewrite (admin_login Y c HZ HAD) in HO; discriminate|].
    destruct (subset_within _ _ HSUB) as [_ HW].
    destruct HK as [(_ & HU & _)|(_ & _ & HU & _)]; rewrite HU, user_set by auto;
      (destruct (Nat.eqb_spec j i) as [-> |Ne]; [right; right; rewrite Hz; split; [reflexivity|exact HW]|auto]).
  - rewrite (admin_record Y c HZ HAD) in HO. discriminate.
  - rewrite (admin_record Y c HZ HAD) in HO. discriminate.
  - left. rewrite HU, user_set by auto. destruct (Nat.eqb_spec j i) as [-> |Ne]; auto.
  - rewrite HU. assert (EN : nvm = true \/ nvm = false) by (destruct nvm; auto). destruct EN as [EN|EN].
    + unfold user. rewrite boot_nth by auto. unfold reloaded. fold (user X j). fold (user (a_users (as_db Y)) j).
      destruct (HI j Hj) as [E|E].
      * left. pose proof (core_id _ _ E) as E1. rewrite <- E1.
        assert (E2 : b_name (user (a_users (as_db Y)) j) = b_name (user X j)) by (apply (f_equal b_name) in E; cbn in E; auto).
        assert (E3 : b_perm (user (a_users (as_db Y)) j) = b_perm (user X j)) by (apply (f_equal b_perm) in E; cbn in E; auto).
        rewrite E2, E3. destruct (b_id (user X j) =? 0); [auto|]. destruct (C j) as [[m b]|]; auto.
      * right. left. rewrite E. split; reflexivity.
    + right. left. rewrite EN. unfold boot_users, user, users_zero. rewrite nth_repeat. auto.
Qed.
End Inv.

(** ** Runs *)
Section Runs.
Variables (nvm crypto certs : bool) (sha : list N -> list N) (verify : list N -> list N -> bool).
Variables (max_read : nat) (have_st : bool).
Hypothesis sha_len : forall l, length (sha l) = 32%nat.
Notation auth_step := (auth_step nvm crypto certs sha verify max_read have_st).
Notation auth_run := (auth_run nvm crypto certs sha verify max_read have_st).
Notation auth_boot := (auth_boot nvm crypto certs sha verify max_read have_st).
Notation describes := (describes nvm crypto certs sha verify max_read have_st).
Notation grants := (grants nvm crypto certs sha verify max_read have_st).
Notation orderly := (orderly nvm crypto certs sha verify max_read have_st).
Notation no_admin := (no_admin nvm crypto certs sha verify max_read have_st).
Notation knows := (knows crypto sha).
Definition good (Y : asys) : Prop := as_up Y = true /\ exists X C, Good nvm (as_db Y) X C.

Lemma start st : factory st -> let Y := auth_boot st in
  as_up Y = true /\ Good nvm (as_db Y) users_zero (fun _ => None) /\ a_users (as_db Y) = users_zero /\ forall c, as_sess Y c = no_sess.
Proof.
  intros HF. unfold AuthModel.auth_boot. set (Y0 := mkAs true _ _).
  destruct (auth_step EBoot Y0) as [a Y] eqn:E. cbn [snd].
  assert (WZ : users_wf users_zero).
  { split; [apply repeat_length|]. intros i Hi. unfold users_zero. rewrite nth_repeat. apply zero_wf. }
  assert (G : Good nvm (as_db Y0) users_zero (fun _ => None)).
  { split; cbn [as_db Y0 a_users].
    - exact WZ.
    - unfold Rep. split; [intros; exact I|]. split; [exact WZ|]. split; [apply repeat_length|]. cbn [a_st a_ram].
      destruct nvm.
      + split; [left; split; [apply HF; unfold reserved; lia|reflexivity]|].
        intros i Hi. apply HF. unfold reserved, cred_id, CRED_BASE, INDEX_ID. lia.
      + intros i Hi. apply nth_repeat.
    - apply indexed_refl.
    - intros i Hi Z. unfold users_zero in Z. rewrite nth_repeat in Z. contradiction Z; reflexivity. }
  destruct (good_boot nvm (as_db Y0) users_zero (fun _ => None) (fst (base_init nvm (a_st (as_db Y0)))) (snd (base_init nvm (a_st (as_db Y0)))) G)
    as (E1 & E2 & G1); [now destruct (base_init _ _)|].
  cbn [AuthModel.auth_step] in E. destruct (base_init nvm (a_st (as_db Y0))) as [rc D1]. cbn [fst snd] in *. injection E as <- <-.
  rewrite E1. split; [reflexivity|]. cbn [as_db as_sess]. split; [destruct nvm; exact G1|]. split; [|reflexivity].
  rewrite E2. unfold boot_users. destruct nvm; [|reflexivity]. 
  unfold users_zero. assert (forall n k, (k + n <= MAX_USERS)%nat -> map (fun k => reloaded (fun _ => None) k (nth k (repeat urec_zero MAX_USERS) urec_zero)) (seq k n) = repeat urec_zero n) as R.
  { induction n as [|n IH]; intros k Hk; [reflexivity|]. cbn [seq map repeat]. rewrite nth_repeat. f_equal. apply IH. lia. }
  apply R. lia.
Qed.

Lemma run_step ev r Y : auth_run (ev :: r) Y = (fst (auth_step ev Y) :: fst (auth_run r (snd (auth_step ev Y))), snd (auth_run r (snd (auth_step ev Y)))).
Proof. cbn [AuthModel.auth_run]. destruct (auth_step ev Y) as [a Y1]. cbn [fst snd]. destruct (auth_run r Y1). reflexivity. Qed.
Lemma describes_step ev r Y S : describes (ev :: r) Y S = describes r (snd (auth_step ev Y)) (described nvm ev (fst (auth_step ev Y)) S).
Proof. cbn [AuthSpec.describes]. destruct (auth_step ev Y) as [a Y1]. reflexivity. Qed.
Lemma grants_step ev r Y : grants (ev :: r) Y = grant ev (fst (auth_step ev Y)) Y ++ grants r (snd (auth_step ev Y)).
Proof. cbn [AuthSpec.grants]. destruct (auth_step ev Y) as [a Y1]. reflexivity. Qed.

(** The general induction: an invariant of states, the stored index and
    credentials, kept by every step. *)
Lemma run_keeps (P : aev -> asys -> Prop) (J : asys -> list urec -> cslots -> users_db -> list perms -> Prop) :
  (forall ev a Y X C Y1 X1 C1 S G, ev_wf ev -> P ev Y -> auth_step ev Y = (a, Y1) -> Good nvm (as_db Y) X C ->
     did nvm crypto certs sha verify ev a Y X C Y1 X1 C1 -> J Y X C S G -> J Y1 X1 C1 (described nvm ev a S) (G ++ grant ev a Y)) ->
  forall evs, Forall ev_wf evs ->
  forall Y X C S G, (fix all (es : list aev) (Y : asys) : Prop :=
      match es with [] => True | ev :: r => P ev Y /\ all r (snd (auth_step ev Y)) end) evs Y ->
  as_up Y = true -> Good nvm (as_db Y) X C -> J Y X C S G ->
  let Y1 := snd (auth_run evs Y) in
  as_up Y1 = true /\ exists X1 C1, Good nvm (as_db Y1) X1 C1 /\ J Y1 X1 C1 (describes evs Y S) (G ++ grants evs Y).
Proof.
  intros HJ evs HW. induction HW as [|ev evs HE HW IH]; intros Y X C S G HP HU HG J0 Y1.
  - split; [exact HU|]. exists X, C. split; [exact HG|]. cbn [AuthSpec.describes AuthSpec.grants]. now rewrite app_nil_r.
  - destruct HP as [HP HPS]. unfold Y1. rewrite run_step, describes_step, grants_step. cbn [snd].
    destruct (auth_step ev Y) as [a Y2] eqn:ES. cbn [fst snd] in *.
    destruct (step_did nvm crypto certs sha verify max_read have_st sha_len ev Y X C a Y2 HU HG HE ES) as (HU2 & X2 & C2 & G2 & HD).
    rewrite app_assoc. apply (IH Y2 X2 C2); auto. apply (HJ ev a Y X C); auto.
Qed.
End Runs.
