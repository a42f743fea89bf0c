(** Keys kept by the key system. *)
From Verif Require Import Base BaseLemmas NvmSpec Flags KeyId Store NvmReqModel NvmReqProof CounterModel KsModel KsCache KsReq KsEff KsStep KsSys KsSysProof KsSpec.
Local Open Scope N_scope.

Section Keep.
Variable C : kscfg.
Variable crypt : cop -> list N -> list N -> Z * list N.
Variable pub : N -> list N -> Z * list N.
Variable ots : list N -> list N -> option (list N * list N).
Variable gcm_enc : list N -> list N -> N -> list N -> option (list N).
Variable gcm_dec : list N -> list N -> N -> list N -> option (list N).
Variable she_count : list N -> N.
Variable mx : nat.
Notation step := (sys_step C crypt pub ots gcm_enc gcm_dec she_count mx).
Notation run := (sys_run C crypt pub ots gcm_enc gcm_dec she_count mx).
Notation after := (sys_after C crypt pub ots gcm_enc gcm_dec she_count mx).
Notation kcell := (cell C ots).
Notation fc := (from_client (kc C) KT_CRYPTO).
Notation copy := (copy C).

Lemma cached_copy Y i k : cached C Y i k = copy Y i k.
Proof. unfold cached, KsSysProof.copy, find_cache, get_ctx, is_global. destruct (_ && _); reflexivity. Qed.
Lemma reachable_ok Y : reachable C crypt pub ots gcm_enc gcm_dec she_count mx Y -> sys_ok C Y.
Proof.
  intros (st & r & b & evs & NS & ->). unfold sys_after. destruct (run evs (fresh_sys st r b)) as [rs Y'] eqn:E. cbn [snd].
  eapply run_ok; eauto. apply fresh_ok. exact NS.
Qed.
Lemma reachable_step ev Y r Y' : reachable C crypt pub ots gcm_enc gcm_dec she_count mx Y -> step ev Y = (r, Y') ->
  reachable C crypt pub ots gcm_enc gcm_dec she_count mx Y'.
Proof.
  intros (st & rr & b & evs & NS & ->) H. exists st, rr, b, (evs ++ [ev]). split; auto.
  revert H. unfold sys_after. generalize (fresh_sys st rr b) as Y0. clear. induction evs as [|x evs IH]; intros Y0; cbn [app sys_run].
  - cbn [snd]. intros H. rewrite H. reflexivity.
  - destruct (step x Y0) as [a Y1]. specialize (IH Y1). destruct (run evs Y1) as [rs Y2]. cbn [snd] in IH |- *.
    destruct (run (evs ++ [ev]) Y1) as [rs' Y3]. cbn [snd] in IH |- *. exact IH.
Qed.

(** A request that is not for key [j] only loads or drops a copy that is in NVM. *)
Definition quiet_cell (n : option object) (o : option slot) (n' : option object) (o' : option slot) : Prop :=
  n' = n /\ (o' = o \/ (not_unc o /\ (o' = None \/ exists m d, n = Some (m, d) /\ o' = Some (mkSlot m d true)))).
Lemma cell_quiet client j n o q n' o' : kcell client j n o q n' o' ->
  ~ replaces C client q j -> ~ evicts C client q j -> ~ commits C client q j ->
  quiet_cell n o n' o' \/
  (n = None /\ o = None) \/
  (n' = n /\ not_unc o /\ (kid_type j = KT_WRAPPED \/ kid_type j = KT_SHE)).
Proof.
  intros H R E K. unfold quiet_cell.
  assert (PUT : forall id, put_id q = Some id -> addr C client id j n o -> n = None /\ o = None).
  { intros id P [[_ ->]|(_ & _ & _ & A & B & _)]; auto. destruct R.
    destruct q; cbn [put_id replaces] in *; try discriminate; injection P as <-; reflexivity. }
  destruct H; subst; try (left; auto; fail).
  - left. split; auto. right. split; auto. right. eauto.
  - right. left. eauto.
  - right. left. eauto.
  - right. left. eapply PUT; eauto. reflexivity.
  - exfalso. destruct H as [-> | ->]; [apply E|apply R]; reflexivity.
  - exfalso. destruct q; cbn [drop_id] in H; try discriminate; [|destruct ev; try discriminate]; injection H as <-; [apply E|apply R]; reflexivity.
  - destruct R. reflexivity.
  - destruct K. reflexivity.
  - destruct R. reflexivity.
  - destruct R. reflexivity.
  - destruct R. reflexivity.
  - right. right. split; [auto|]. split; [auto|]. destruct H4 as [H4|[_ H4]]; auto. left. apply N.eqb_eq. exact H4.
Qed.
Lemma quiet_here client j n o q n' o' : kcell client j n o q n' o' ->
  ~ replaces C client q j -> ~ evicts C client q j -> ~ commits C client q j ->
  kid_type j = KT_CRYPTO -> n <> None \/ o <> None -> quiet_cell n o n' o'.
Proof.
  intros H R E K T P. destruct (cell_quiet _ _ _ _ _ _ _ H R E K) as [Q|[[-> ->]|(_ & _ & [X|X])]]; auto.
  - destruct P; congruence.
  - rewrite T in X. discriminate.
  - rewrite T in X. discriminate.
Qed.

(** ** An uncommitted key of another id is never discarded *)
Lemma uncommitted_kept client j n s q n' o' : kcell client j n (Some s) q n' o' -> sl_comm s = false ->
  ~ replaces C client q j -> ~ evicts C client q j -> ~ commits C client q j -> n' = n /\ o' = Some s.
Proof.
  intros H U R E K. destruct (cell_quiet _ _ _ _ _ _ _ H R E K) as [[Q1 [Q2|[NU _]]]|[[_ X]|(_ & NU & _)]]; auto; try discriminate;
    specialize (NU s eq_refl); congruence.
Qed.

(** ** The key [k] with metadata [m] and bytes [d], as server context [i] sees it *)
Definition holds (Y : sys) (i : nat) (k : N) (m : meta) (d : list N) : Prop :=
  copy Y i k = Some (mkSlot m d false) \/
  (stored Y k = Some (m, d) /\ (copy Y i k = None \/ copy Y i k = Some (mkSlot m d true))).
Definition durable (Y : sys) (i : nat) (k : N) (m : meta) (d : list N) : Prop :=
  stored Y k = Some (m, d) /\ (copy Y i k = None \/ copy Y i k = Some (mkSlot m d true)).

(** Events that leave key [k] alone, commits through context [i] allowed. *)
Definition leaves (i : nat) (k : N) (ev : sev) : Prop :=
  match ev with
  | SKey i' client e q => ~ replaces C client q k /\
      (commits C client q k -> i' = i \/ is_global C k = true)
  | SNvm _ q => ~ nvm_writes q k
  | _ => True
  end.
(** … and that do not empty the cache either. *)
Definition leaves_cached (i : nat) (k : N) (ev : sev) : Prop :=
  leaves i k ev /\
  match ev with
  | SKey i' client e q => evicts C client q k -> i' <> i /\ is_global C k = false
  | SServer i' => i' <> i \/ is_global C k = true
  | SReset => False
  | _ => True
  end.

Lemma nvm_named q k : nvm_names q k -> nvm_writes q k.
Proof. destruct q; cbn [nvm_names nvm_writes]; auto. Qed.

Lemma k_nz k : kid_type k = KT_CRYPTO -> k <> 0.
Proof. intros H ->. discriminate. Qed.

Lemma cell_durable client j n o q n' o' m d : kcell client j n o q n' o' -> ~ replaces C client q j ->
  kid_type j = KT_CRYPTO -> n = Some (m, d) -> o = None \/ o = Some (mkSlot m d true) ->
  n' = Some (m, d) /\ (o' = None \/ o' = Some (mkSlot m d true)).
Proof.
  intros H R T -> O.
  assert (D : (evicts C client q j \/ commits C client q j) \/ (~ evicts C client q j /\ ~ commits C client q j)).
  { destruct q; cbn [evicts commits]; try (right; split; intros []; fail);
      match goal with |- context [key_of C client ?i = j] => destruct (N.eq_dec (key_of C client i) j); [left; auto|right; auto] end. }
  destruct D as [D|[NE NK]].
  - destruct H; subst; auto; try (destruct R; reflexivity).
    + injection H0 as -> ->. auto.
    + exfalso. destruct q; cbn [put_id evicts commits] in *; try discriminate; tauto.
    + exfalso. cbn [evicts commits] in D. tauto.
    + destruct O as [O|O]; [discriminate|]. injection O as ->. cbn [sl_meta sl_buf]. auto.
    + exfalso. cbn [evicts commits] in D. tauto.
  - assert (P : Some (m, d) <> None \/ o <> None) by (left; discriminate).
    destruct (quiet_here _ _ _ _ _ _ _ H R NE NK T P) as [-> [->|[_ [->|(m1 & d1 & E & ->)]]]]; auto.
    injection E as <- <-. auto.
Qed.

Lemma durable_step i k m d ev Y r Y' : kid_type k = KT_CRYPTO -> leaves i k ev -> sys_ok C Y -> durable Y i k m d ->
  step ev Y = (r, Y') -> durable Y' i k m d.
Proof.
  intros T L O [S V] H. pose proof (k_nz _ T) as NZ. destruct (step_effect _ _ _ _ _ _ _ _ _ _ _ _ O H) as [_ K]. specialize (K k NZ).
  destruct ev as [i' client e q|e q|client e q|x|]; cbn [leaves] in L; unfold durable.
  - destruct K as [K OT]. destruct L as [L1 L2].
    destruct (Nat.eq_dec i' i) as [->|NE].
    { apply (cell_durable _ _ _ _ _ _ _ m d K); auto. }
    destruct (is_global C k) eqn:GL.
    { rewrite (copy_global C Y i i' k GL) in V. rewrite (copy_global C Y' i i' k GL).
      apply (cell_durable _ _ _ _ _ _ _ m d K); auto. }
    rewrite (OT eq_refl i) by auto. split; [|exact V].
    assert (NK : ~ commits C client q k) by (intros X; destruct (L2 X); [congruence|discriminate]).
    assert (D : evicts C client q k \/ ~ evicts C client q k).
    { destruct q; cbn [evicts]; auto; apply (N.eq_dec) || (match goal with |- (?a = ?b) \/ _ => destruct (N.eq_dec a b); auto end). }
    destruct D as [D|D].
    + destruct q; cbn [evicts] in D; try contradiction; cbv beta in K; inversion K; subst; try congruence; try discriminate;
        repeat match goal with X : _ \/ _ |- _ => destruct X end; discriminate.
    + assert (P : stored Y k <> None \/ copy Y i' k <> None) by (left; congruence).
      destruct (quiet_here _ _ _ _ _ _ _ K L1 D NK T P) as [-> _]. exact S.
  - destruct K as [K CP]. rewrite CP. split; auto. unfold stored. rewrite (st_find _ _ _ k K); [exact S|]. intros X. apply L, nvm_named, X.
  - destruct K as [K CP]. rewrite CP. split; auto. unfold stored. rewrite (st_find _ _ _ k K); [exact S|]. rewrite T. discriminate.
  - destruct K as [-> CP]. rewrite CP. split; auto. destruct (Nat.eqb i x && negb (is_global C k)); auto.
  - destruct K as [-> CP]. rewrite CP. auto.
Qed.
Theorem durable_run i k m d evs Y : kid_type k = KT_CRYPTO -> Forall (leaves i k) evs -> sys_ok C Y -> durable Y i k m d ->
  sys_ok C (after evs Y) /\ durable (after evs Y) i k m d.
Proof.
  intros T F O H. unfold sys_after. destruct (run evs Y) as [rs Y'] eqn:E. cbn [snd].
  apply (run_inv C crypt pub ots gcm_enc gcm_dec she_count mx (fun Y => durable Y i k m d) (leaves i k)) with (evs := evs) (Y := Y) (rs := rs); auto.
  intros. eapply durable_step; eauto.
Qed.

Lemma holds_step i k m d ev Y r Y' : kid_type k = KT_CRYPTO -> leaves_cached i k ev -> sys_ok C Y -> holds Y i k m d ->
  step ev Y = (r, Y') -> holds Y' i k m d.
Proof.
  intros T [L1 L2] O [V|H] E; [|right; eapply (durable_step i k m d); eauto].
  pose proof (k_nz _ T) as NZ. destruct (step_effect _ _ _ _ _ _ _ _ _ _ _ _ O E) as [_ K]. specialize (K k NZ). unfold holds.
  destruct ev as [i' client e q|e q|client e q|x|]; cbn [leaves] in L1.
  - destruct K as [K OT]. destruct L1 as [L1 L3].
    assert (X : (i' = i \/ is_global C k = true) \/ (i' <> i /\ is_global C k = false)).
    { destruct (Nat.eq_dec i' i); auto. destruct (is_global C k); auto. }
    destruct X as [X|[NE GL]]; [|left; rewrite (OT GL i) by auto; exact V].
    assert (CE : forall Y, copy Y i' k = copy Y i k).
    { intros Z. destruct X as [->|GL]; auto. apply copy_global; auto. }
    rewrite !CE in K. rewrite V in K.
    assert (NE : ~ evicts C client q k).
    { intros Q. destruct (L2 Q) as [Q1 Q2]. destruct X; congruence. }
    assert (D : commits C client q k \/ ~ commits C client q k).
    { destruct q; cbn [commits]; auto. destruct (N.eq_dec (key_of C client id) k); auto. }
    destruct D as [D|D].
    + destruct q; cbn [commits] in D; try contradiction. cbv beta in K. clear X.
      inversion K; subst; try congruence; try discriminate;
        repeat match goal with Q : _ \/ _ |- _ => destruct Q end; try discriminate; auto;
        try (match goal with NU : not_unc (Some _) |- _ => specialize (NU _ eq_refl); discriminate end).
      match goal with Q : Some _ = Some ?s |- _ => injection Q as <- end. cbn [sl_meta sl_buf]. right. auto.
    + destruct (uncommitted_kept _ _ _ _ _ _ _ K eq_refl L1 NE D) as [_ ->]. auto.
  - destruct K as [_ CP]. rewrite CP. auto.
  - destruct K as [_ CP]. rewrite CP. auto.
  - destruct K as [_ CP]. rewrite CP. left. destruct L2 as [L2|L2].
    + destruct (Nat.eqb_spec i x); [congruence|exact V].
    + rewrite L2, Bool.andb_false_r. exact V.
  - contradiction.
Qed.
Theorem holds_run i k m d evs Y : kid_type k = KT_CRYPTO -> Forall (leaves_cached i k) evs -> sys_ok C Y -> holds Y i k m d ->
  sys_ok C (after evs Y) /\ holds (after evs Y) i k m d.
Proof.
  intros T F O H. unfold sys_after. destruct (run evs Y) as [rs Y'] eqn:E. cbn [snd].
  apply (run_inv C crypt pub ots gcm_enc gcm_dec she_count mx (fun Y => holds Y i k m d) (leaves_cached i k)) with (evs := evs) (Y := Y) (rs := rs); auto.
  intros. eapply holds_step; eauto.
Qed.
End Keep.
