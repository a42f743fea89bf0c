(** Keys that policy protects from change, over histories. *)
From Verif Require Import Base BaseLemmas NvmSpec Flags KeyId Store NvmReqModel NvmReqProof CounterModel KsModel KsCache KsReq KsEff KsStep KsSys KsSysProof KsSpec KsKeep.
Local Open Scope N_scope.

Section Guard.
Variable C : kscfg.
Variable crypt : cop -> list N -> list N -> Z * list N.
Variable pub : N -> list N -> Z * list N.
Variable ots : list N -> list N -> option (list N * list N).
Variable gcm_enc : list N -> list N -> N -> list N -> option (list N).
Variable gcm_dec : list N -> list N -> N -> list N -> option (list N).
Variable she_count : list N -> N.
Variable mx : nat.
Notation step := (sys_step C crypt pub ots gcm_enc gcm_dec she_count mx).
Notation run := (sys_run C crypt pub ots gcm_enc gcm_dec she_count mx).
Notation after := (sys_after C crypt pub ots gcm_enc gcm_dec she_count mx).
Notation kcell := (cell C ots).
Notation fc := (from_client (kc C) KT_CRYPTO).
Notation copy := (copy C).

(** What holds of every copy, and is kept by revocation. *)
Variable P : meta -> list N -> Prop.
Hypothesis P_nonmod : forall m d, P m d -> has (m_flags m) F_NONMODIFIABLE = true.
Hypothesis P_revoke : forall m d, P m d -> P (revoked_meta m) d.
(** Whether signing keeps it. *)
Variable signs : Prop.
Hypothesis P_sign : forall m d n nb, signs -> P m d -> P (with_len m n) nb.

Definition Pn (n : option object) : Prop := forall m d, n = Some (m, d) -> P m d.
Definition Po (o : option slot) : Prop := forall s, o = Some s -> P (sl_meta s) (sl_buf s).

Definition sign_free (client : N) (q : kreq) (k : N) : Prop :=
  signs \/ match q with KSign id _ _ => fc client id <> k | _ => True end.

Lemma P_curs n o s : Pn n -> Po o -> curs n o = Some s -> P (sl_meta s) (sl_buf s).
Proof.
  intros A B. unfold curs. destruct o as [s0|]; [intros E; injection E as <-; auto|].
  destruct n as [[m d]|]; [|discriminate]. intros E; injection E as <-. cbn [sl_meta sl_buf]. auto.
Qed.
Lemma P_writable n o : Pn n -> Po o -> n <> None \/ o <> None -> ~ writable (cur n o).
Proof.
  intros A B Q W. unfold cur in W. destruct o as [s|].
  - destruct (W _ eq_refl) as [_ X]. rewrite (P_nonmod _ _ (B _ eq_refl)) in X. discriminate.
  - destruct n as [[m d]|]; [|destruct Q; auto]. destruct (W m eq_refl) as [_ X]. rewrite (P_nonmod _ _ (A _ _ eq_refl)) in X. discriminate.
Qed.

(** A key in NVM. *)
Lemma cell_stored client k n o q n' o' : kcell client k n o q n' o' -> kid_type k = KT_CRYPTO -> sign_free client q k ->
  n <> None -> Pn n -> Po o -> n' <> None /\ Pn n' /\ Po o'.
Proof.
  intros H T SF NN A B.
  assert (NW : ~ writable (cur n o)) by (apply P_writable; auto).
  assert (PS : forall m d, P m d -> Pn (Some (m, d))) by (intros m d X m0 d0 E; injection E as <- <-; auto).
  assert (PO : forall m d b, P m d -> Po (Some (mkSlot m d b))) by (intros m d b X s E; injection E as <-; auto).
  assert (PN : Po None) by (intros s E; discriminate).
  destruct H; subst; try contradiction; auto.
  - exfalso. destruct n as [[m d]|]; [|auto]. match goal with D : destroyable _ |- _ => destruct (D m d eq_refl) as (_ & X & _) end. rewrite (P_nonmod _ _ (A _ _ eq_refl)) in X. discriminate.
  - split; [discriminate|]. pose proof (B _ eq_refl). auto.
  - match goal with D : curs _ _ = Some _ |- _ => pose proof (P_revoke _ _ (P_curs _ _ _ A B D)) end. auto.
  - match goal with D : curs _ _ = Some _ |- _ => pose proof (P_revoke _ _ (P_curs _ _ _ A B D)) end. split; [discriminate|auto].
  - destruct SF as [SF|SF]; [|congruence].
    match goal with D : curs _ _ = Some _ |- _ => pose proof (P_sign _ _ (N.of_nat (length nb)) nb SF (P_curs _ _ _ A B D)) as X end.
    repeat match goal with D : n' = _ \/ _ |- _ => destruct D as [->| ->] | D : _ \/ o' = _ |- _ => destruct D as [[-> _]| ->] end;
      (split; [auto; discriminate|split; auto]).
  - exfalso. match goal with D : kid_wrapped _ = true \/ _ |- _ => destruct D as [X|[_ X]] end; [unfold kid_wrapped in X; rewrite T in X|rewrite T in X]; discriminate.
Qed.

Definition stored_guard (Y : sys) (k : N) : Prop := stored Y k <> None /\ Pn (stored Y k) /\ forall i, Po (copy Y i k).
Definition guard_event (k : N) (ev : sev) : Prop :=
  match ev with
  | SKey _ client _ q => sign_free client q k
  | SNvm _ q => race_free q
  | _ => True
  end.
Lemma stored_step ev Y r Y' k : sys_ok C Y -> step ev Y = (r, Y') -> kid_type k = KT_CRYPTO -> guard_event k ev ->
  stored_guard Y k -> stored_guard Y' k.
Proof.
  intros O H T GE (NN & A & B). pose proof (k_nz _ T) as NZ.
  destruct (step_effect C crypt pub ots gcm_enc gcm_dec she_count mx _ _ _ _ O H) as [_ K]. specialize (K k NZ).
  destruct ev as [i client e q|e q|client e q|x|]; cbn [guard_event] in GE.
  - destruct K as [CE OT]. destruct (cell_stored _ _ _ _ _ _ _ CE T GE NN A (B i)) as (X1 & X2 & X3). split; [auto|]. split; [auto|].
    intros i'. destruct (is_global C k) eqn:GL; [rewrite (copy_global C Y' i' i k GL); auto|].
    destruct (Nat.eq_dec i' i) as [->|NE]; auto. rewrite (OT eq_refl i' NE). apply B.
  - destruct K as [_ CP]. assert (E : stored Y' k = stored Y k).
    { cbn [sys_step] in H. injection H as _ <-. unfold stored. cbn [y_st]. destruct (nvm_handle mx (have_st C) e q (y_st Y)) as [a s'] eqn:HD. cbn [snd].
      unfold stored in *. destruct (sp_find (y_st Y) k) as [[m d]|] eqn:F; [|contradiction].
      pose proof (P_nonmod _ _ (A _ _ eq_refl)) as NM.
      destruct (handle_change _ _ _ _ _ _ _ k GE HD) as [CH|m1 d1 E1 E2 E3|E1 E2]; [rewrite CH; exact F| |].
      - destruct (E3 _ _ F); congruence.
      - destruct (E2 _ _ F) as (? & ? & ?); congruence. }
    unfold stored_guard. rewrite E. split; [auto|]. split; [auto|]. intros i. rewrite CP. auto.
  - destruct K as [ST CP]. assert (E : stored Y' k = stored Y k).
    { unfold stored. apply (st_find _ _ _ _ ST). rewrite T. discriminate. }
    unfold stored_guard. rewrite E. split; [auto|]. split; [auto|]. intros i. rewrite CP. auto.
  - destruct K as [E CP]. unfold stored_guard. rewrite E. split; [auto|]. split; [auto|]. intros i. rewrite CP. destruct (_ && _); auto. intros s X. discriminate.
  - destruct K as [E CP]. unfold stored_guard. rewrite E. split; [auto|]. split; [auto|]. intros i. rewrite CP. intros s X. discriminate.
Qed.

(** A key only in the cache of server context [i]. *)
Definition same_cache (i' i : nat) (k : N) : Prop := i' = i \/ is_global C k = true.
Definition cached_guard (Y : sys) (i : nat) (k : N) : Prop :=
  stored Y k = None /\ (exists s, copy Y i k = Some s /\ sl_comm s = false /\ P (sl_meta s) (sl_buf s)) /\
  forall i', ~ same_cache i' i k -> copy Y i' k = None.
Definition gentle (i : nat) (k : N) (ev : sev) : Prop :=
  match ev with
  | SKey i' client e q =>
      sign_free client q k /\
      (same_cache i' i k -> match q with KCryptoEvict id => fc client id <> k | KSign id _ true => fc client id <> k | _ => True end) /\
      (~ same_cache i' i k -> match put_id q with
                              | Some id => forall n, fc client id <> k /\ mk_keyid (kid_type (fc client id)) (kid_user (fc client id)) n <> k
                              | None => True
                              end)
  | SNvm _ q => race_free q /\ ~ nvm_writes q k
  | SServer i' => ~ (i' = i /\ is_global C k = false)
  | SReset => False
  | SCounter _ _ _ => True
  end.
Definition guard (Y : sys) (i : nat) (k : N) : Prop := stored_guard Y k \/ cached_guard Y i k.

Lemma gentle_event i k ev : gentle i k ev -> guard_event k ev.
Proof. destruct ev; cbn [gentle guard_event]; tauto. Qed.

Lemma guard_step ev Y r Y' i k : sys_ok C Y -> step ev Y = (r, Y') -> kid_type k = KT_CRYPTO -> gentle i k ev ->
  guard Y i k -> guard Y' i k.
Proof.
  intros O H T GE [G|G]; [left; eapply stored_step; eauto; eapply gentle_event; eauto|].
  pose proof (k_nz _ T) as NZ. destruct G as (SN & (s & V & U & PS) & OTH).
  destruct (step_effect C crypt pub ots gcm_enc gcm_dec she_count mx _ _ _ _ O H) as [_ K]. specialize (K k NZ).
  assert (GLB : forall Z i', same_cache i' i k -> copy Z i' k = copy Z i k).
  { intros Z i' [->|GL]; auto. apply copy_global; auto. }
  destruct ev as [x client e q|e q|client e q|x|]; cbn [gentle] in GE.
  - destruct GE as (SF & G1 & G2). destruct K as [CE OT].
    assert (D : same_cache x i k \/ ~ same_cache x i k).
    { unfold same_cache. destruct (Nat.eq_dec x i); [auto|]. destruct (is_global C k); [auto|]. right. intros [X|X]; [auto|discriminate]. }
    destruct D as [D|D].
    + (* through the same cache *)
      specialize (G1 D). rewrite (GLB Y x D), (GLB Y' x D), SN, V in CE.
      assert (OTH' : forall i', ~ same_cache i' i k -> copy Y' i' k = None).
      { intros i' NS. assert (GL : is_global C k = false) by (destruct (is_global C k) eqn:GL; auto; destruct NS; right; auto).
        rewrite (OT GL); [apply OTH; auto|]. intros ->. apply NS. left. destruct D as [<-|D]; congruence. }
      assert (KEEP : forall b, stored Y' k = None -> b = false -> copy Y' i k = Some (mkSlot (sl_meta s) (sl_buf s) b) -> guard Y' i k).
      { intros b E1 -> E2. right. split; [auto|]. split; [|auto]. eexists. split; [exact E2|]. split; auto. }
      assert (NW : ~ writable (cur None (Some s))).
      { apply P_writable; [intros m d E; discriminate|intros s0 E; injection E as <-; auto|right; discriminate]. }
      assert (FULL : copy Y' i k = Some s -> stored Y' k = None -> guard Y' i k).
      { intros E1 E2. right. split; [auto|]. split; [|auto]. exists s. auto. }
      remember (stored Y' k) as n' eqn:EN. remember (copy Y' i k) as o' eqn:EO. remember (Some s) as o eqn:ES. remember (@None object) as n eqn:E0.
      destruct CE; subst n o; try (apply FULL; congruence); try (exfalso; auto; fail); try congruence.
      * exfalso. specialize (H0 s ltac:(congruence)). congruence.
      * exfalso. specialize (H2 s eq_refl) as [_ [X|X]]; [congruence|]. apply P_nonmod in PS.
        rewrite has_lor, PS in X. discriminate.
      * exfalso. destruct q; cbn [drop_id] in H0; try discriminate; [|destruct ev; [|discriminate]]; injection H0 as ->; auto.
      * exfalso. specialize (H2 s eq_refl) as [_ [X|X]]; [congruence|]. apply P_nonmod in PS. rewrite has_lor, PS in X. discriminate.
      * (* commit *) injection H2 as <-. left. unfold stored_guard. rewrite <- EN. split; [discriminate|]. split.
        { intros m d E. injection E as <- <-. auto. }
        intros i'. destruct (Nat.eq_dec i' i) as [->|NE].
        { rewrite <- EO. intros s0 E. injection E as <-. auto. }
        destruct (is_global C k) eqn:GL; [rewrite (copy_global C Y' i' i k GL), <- EO; intros s0 E; injection E as <-; auto|].
        rewrite OTH'; [intros s0 E; discriminate|]. intros [X|X]; congruence.
      * (* revoke *) cbn [curs] in H2. injection H2 as <-. right. split; [congruence|]. split; [|auto]. eexists. split; [symmetry; exact EO|]. cbn [sl_comm sl_meta sl_buf]. split; auto.
      * (* sign *) subst q. cbn [curs] in H2. injection H2 as <-. destruct SF as [SF|SF]; [|congruence].
        pose proof (P_sign _ _ (N.of_nat (length nb)) nb SF PS) as X.
        destruct H5 as [[-> ->]|E6]; [exfalso; apply G1; congruence|].
        destruct H4 as [->| ->].
        -- right. split; [congruence|]. split; [|auto]. rewrite <- EO. eexists. split; [exact E6|]. cbn [sl_comm sl_meta sl_buf]. split; auto.
        -- left. unfold stored_guard. rewrite <- EN. split; [discriminate|]. split; [intros m d E; injection E as <- <-; auto|].
           intros i'. destruct (Nat.eq_dec i' i) as [->|NE].
           { rewrite <- EO, E6. intros s0 E. injection E as <-. auto. }
           destruct (is_global C k) eqn:GL; [rewrite (copy_global C Y' i' i k GL), <- EO, E6; intros s0 E; injection E as <-; auto|].
           rewrite OTH'; [intros s0 E; discriminate|]. intros [X0|X0]; congruence.
      * exfalso. specialize (H1 s eq_refl). congruence.
    + (* through another cache, where the key is not *)
      specialize (G2 D). rewrite (OTH x D), SN in CE.
      assert (GL : is_global C k = false) by (destruct (is_global C k) eqn:GL; auto; destruct D; right; auto).
      assert (KI : copy Y' i k = copy Y i k) by (apply OT; auto; intros ->; apply D; left; auto).
      assert (NP : forall id, put_id q = Some id -> ~ addr C client id k None None).
      { intros id E AD. rewrite E in G2. destruct AD as [[_ ->]|(_ & _ & _ & _ & _ & n & _ & ->)]; [destruct (G2 0); auto|destruct (G2 n); auto]. }
      assert (Q : stored Y' k = None /\ copy Y' x k = None).
      { remember (stored Y' k) as n' eqn:EN. remember (copy Y' x k) as o' eqn:EO.
        inversion CE; subst; auto; try discriminate; try (exfalso; eapply NP; eauto; fail).
        - exfalso. eapply NP; eauto. reflexivity.
        - exfalso. match goal with X : kid_wrapped _ = true \/ _ |- _ => destruct X as [X|[_ X]]; [unfold kid_wrapped in X|]; rewrite T in X; discriminate end. }
      destruct Q as [Q1 Q2]. right. split; [auto|]. split; [exists s; rewrite KI; auto|]. intros i' NS.
      destruct (Nat.eq_dec i' x) as [->|NE]; auto. rewrite (OT GL i' NE). auto.
  - destruct K as [ST CP]. right. destruct GE as [_ NW]. split; [|split].
    + unfold stored in *. rewrite (st_find _ _ _ _ ST); [exact SN|]. intros X. apply NW. apply nvm_named. exact X.
    + exists s. rewrite CP. auto.
    + intros i' NS. rewrite CP. auto.
  - destruct K as [ST CP]. right. split; [|split].
    + unfold stored in *. rewrite (st_find _ _ _ _ ST); [exact SN|]. rewrite T. discriminate.
    + exists s. rewrite CP. auto.
    + intros i' NS. rewrite CP. auto.
  - destruct K as [E CP]. right. split; [rewrite E; auto|]. split.
    + exists s. rewrite CP. destruct (Nat.eqb_spec i x) as [->|NE]; cbn [andb]; auto. destruct (is_global C k); cbn [negb]; auto. destruct GE; auto.
    + intros i' NS. rewrite CP. destruct (_ && _); auto.
  - contradiction.
Qed.

Lemma run_cons ev evs Y r Y1 : step ev Y = (r, Y1) -> after (ev :: evs) Y = after evs Y1.
Proof. intros H. unfold sys_after. cbn [sys_run]. rewrite H. destruct (run evs Y1). reflexivity. Qed.
Theorem stored_run evs : forall Y k, sys_ok C Y -> kid_type k = KT_CRYPTO -> Forall (guard_event k) evs -> stored_guard Y k ->
  stored_guard (after evs Y) k.
Proof.
  induction evs as [|ev evs IH]; intros Y k O T F G; [exact G|]. inversion F as [|x y F1 F2]; subst. destruct (step ev Y) as [r Y1] eqn:E.
  rewrite (run_cons _ _ _ _ _ E). apply IH; auto; [|eapply stored_step; eauto].
  apply (step_effect C crypt pub ots gcm_enc gcm_dec she_count mx _ _ _ _ O E).
Qed.
Theorem guard_run evs : forall Y i k, sys_ok C Y -> kid_type k = KT_CRYPTO -> Forall (gentle i k) evs -> guard Y i k ->
  guard (after evs Y) i k.
Proof.
  induction evs as [|ev evs IH]; intros Y i k O T F G; [exact G|]. inversion F as [|x y F1 F2]; subst. destruct (step ev Y) as [r Y1] eqn:E.
  rewrite (run_cons _ _ _ _ _ E). apply IH; auto; [|eapply guard_step; eauto].
  apply (step_effect C crypt pub ots gcm_enc gcm_dec she_count mx _ _ _ _ O E).
Qed.
End Guard.
