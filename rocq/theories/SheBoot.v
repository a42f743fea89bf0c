(** Secure boot of the SHE extension: the SHE context agrees with what the
    answers said, over every history. *)
From Verif Require Import Base NvmSpec Flags KeyId Store NvmReqModel CounterModel KsModel KsReq KsEff KsOnly KsSys KsSpec KsSysProof SheModel SheSys SheSpec SheEff.
Local Open Scope N_scope.

Section Boot.
Variable C : kscfg.
Variable crypt : cop -> list N -> list N -> Z * list N.
Variable pub : N -> list N -> Z * list N.
Variable ots : list N -> list N -> option (list N * list N).
Variable gcm_enc : list N -> list N -> N -> list N -> option (list N).
Variable gcm_dec : list N -> list N -> N -> list N -> option (list N).
Variable max_read : nat.
Variable aes : list N -> list N -> list N.
Variable cbc_enc cbc_dec : list N -> list N -> list N.
Variable cmac : list N -> list N -> list N.
Variable use_op : sop -> list N -> list N -> option (list N).
Notation step := (hstep C crypt pub ots gcm_enc gcm_dec max_read aes cbc_enc cbc_dec cmac use_op).
Notation after := (hafter C crypt pub ots gcm_enc gcm_dec max_read aes cbc_enc cbc_dec cmac use_op).
Notation handle := (she_handle C aes cbc_enc cbc_dec cmac use_op).
Notation sstep := (she_step C aes cbc_enc cbc_dec cmac use_op).
Notation booted := (booted C crypt pub ots gcm_enc gcm_dec max_read aes cbc_enc cbc_dec cmac use_op).
Notation uid_given := (uid_given C crypt pub ots gcm_enc gcm_dec max_read aes cbc_enc cbc_dec cmac use_op).
Notation image_sent := (image_sent C crypt pub ots gcm_enc gcm_dec max_read aes cbc_enc cbc_dec cmac use_op).

(** ** Soundness of the key system along a history *)
Lemma sstep_eff e client q h S r h' S' : wf S -> good C S -> sstep e client q h S = (r, h', S') ->
  scells C aes cbc_dec cmac e client q h S S'.
Proof.
  intros W G H. unfold she_step in H. destruct (refused q h).
  { injection H as <- <- <-. apply scells_refl; auto. }
  destruct (handle e client q h S) as [[[[rc w] out] h1] S1] eqn:E. injection H as <- <- <-. eapply she_eff; eauto.
Qed.
Lemma hstep_ok ev Y : sys_ok C (hy_ks Y) -> sys_ok C (hy_ks (snd (step ev Y))).
Proof.
  intros O. destruct ev as [i client e q|ev]; cbn [hstep].
  - destruct (sstep e client q (hy_she Y i) (ks_of (hy_ks Y) i)) as [[r h] S1] eqn:E. cbn [snd hy_ks].
    destruct (O i) as [W G]. destruct (sstep_eff _ _ _ _ _ _ _ _ W G E) as (W1 & G1 & _). apply good_glob; auto.
  - cbn [snd hy_ks]. destruct (sys_step C crypt pub ots gcm_enc gcm_dec she_count max_read ev (hy_ks Y)) as [a K] eqn:E.
    cbn [snd]. eapply step_effect; eauto.
Qed.
Lemma hafter_ok evs : forall Y, sys_ok C (hy_ks Y) -> sys_ok C (hy_ks (after evs Y)).
Proof. induction evs as [|ev evs IH]; intros Y O; cbn [hafter]; auto. apply IH, hstep_ok, O. Qed.
Lemma fresh_hok st r b : nvm_sane st -> sys_ok C (hy_ks (fresh_hsys st r b)).
Proof. intros H. apply fresh_ok. exact H. Qed.
Lemma hafter_app evs1 : forall evs2 Y, after (evs1 ++ evs2) Y = after evs2 (after evs1 Y).
Proof. induction evs1 as [|ev evs IH]; intros evs2 Y; cbn [hafter app]; auto. Qed.

(** ** What each request does to the SHE context *)
Lemma slot_vis Y i client s : slot_key C Y i client s = vis C (ks_of (hy_ks Y) i) (she_id C client s).
Proof. reflexivity. Qed.

Definition keeps (h h' : she) : Prop :=
  h_sb h' = h_sb h /\ h_uidset h' = h_uidset h /\ h_size h' = h_size h /\ h_recv h' = h_recv h /\ h_uid h' = h_uid h.
Lemma keeps_refl h : keeps h h. Proof. repeat split. Qed.
Lemma keeps_cmac h k d : keeps h (set_cmac h k d). Proof. repeat split. Qed.
Lemma keeps_prng h b k d : keeps h (set_prng h b k d). Proof. repeat split. Qed.

Lemma handle_keeps e client q h S : is_boot (action_of q) = false -> (forall u, q <> SSetUid u) ->
  keeps h (snd (fst (handle e client q h S))).
Proof.
  intros NB NU. unfold she_handle. destruct (_ && _); [apply keeps_refl|].
  destruct q; try discriminate NB; try apply keeps_refl.
  - destruct (NU _ eq_refl).
  - unfold do_load_key. cbv zeta. destruct (she_read _ _ _ _) as [[[rc S1] m] ak]. destruct (_ || _); [apply keeps_refl|].
    destruct (negb (is_ok rc)); [apply keeps_refl|]. destruct (negb (se_c1 e)); [apply keeps_refl|].
    destruct (negb (if list_eq_dec _ _ _ then true else false)); [apply keeps_cmac|].
    destruct (she_read C (se_rd e 1) _ _) as [[[rt S2] mo] old]. destruct (Z.eqb rt NOSPACE || _); [apply keeps_cmac|].
    destruct (negb (Z.eqb rt NOTFOUND) && N.testbit _ _); [apply keeps_cmac|].
    match goal with |- context[if (if list_eq_dec N.eq_dec ?a ?b then ?c else ?d) then _ else _] => destruct (if list_eq_dec N.eq_dec a b then c else d); [apply keeps_cmac|] end.
    destruct (negb (Z.eqb rt NOTFOUND) && (_ <=? _)); [apply keeps_cmac|].
    match goal with |- context[if negb (is_ok (fst (fst (fst ?t)))) then _ else _] => idtac | |- _ => idtac end.
    destruct (if N.eqb _ _ then _ else _) as [[[rw S3] fm] fk]. destruct (negb (is_ok rw)); [apply keeps_cmac|].
    destruct (negb (se_c2 e)); [apply keeps_cmac|]. destruct (N.eqb _ _); repeat split.
  - unfold do_load_plain. destruct (cache_key _ _ _ _ _) as [rc S1]. destruct (is_ok rc); repeat split.
  - unfold do_export_ram. destruct (negb (h_plain h)); [apply keeps_refl|]. destruct (she_read _ _ _ _) as [[[rc S1] m] ak].
    destruct (negb (is_ok rc) || _); [apply keeps_refl|]. destruct (negb (se_c1 e)); [apply keeps_refl|].
    destruct (she_read C (se_rd e 1) _ _) as [[[rt S2] mo] old]. destruct (negb (is_ok rt) || _); [apply keeps_refl|].
    destruct (negb (se_c2 e)); [apply keeps_refl|]. apply keeps_cmac.
  - unfold do_init_rnd. cbv zeta. destruct (h_rnd h); [apply keeps_refl|]. destruct (she_read _ _ _ _) as [[[rc S1] m] ak].
    destruct (negb (is_ok rc)); [apply keeps_refl|]. destruct (negb (se_c1 e)); [apply keeps_refl|].
    destruct (she_read C (se_rd e 1) _ _) as [[[rt S2] mo] old]. destruct (negb (is_ok rt)); [apply keeps_refl|].
    destruct (write_seed _ _ _ _ _ _) as [rw S3]. destruct (negb (is_ok rw)); [apply keeps_refl|]. destruct (negb (se_c2 e)); apply keeps_prng.
  - unfold do_rnd. cbv zeta. destruct (negb _); [apply keeps_refl|]. destruct (negb _); [apply keeps_refl|]. apply keeps_prng.
  - unfold do_extend_seed. cbv zeta. destruct (negb _); [apply keeps_refl|]. destruct (negb _); [apply keeps_refl|].
    destruct (she_read _ _ _ _) as [[[rc S1] m] ak]. destruct (negb (is_ok rc)); [apply keeps_prng|]. destruct (negb (se_c2 e)); [apply keeps_prng|].
    destruct (write_seed _ _ _ _ _ _) as [rw S3]. destruct (negb (is_ok rw)); apply keeps_prng.
  - unfold do_use. cbv zeta. destruct (she_read _ _ _ _) as [[[rc S1] m] ak].
    destruct (negb (is_ok rc) || _); [apply keeps_refl|]. destruct op; try destruct (if se_c1 e then _ else None); try apply keeps_refl; apply keeps_cmac.
Qed.

(** The state of the boot sequence. *)
Definition mach (h : she) : Prop :=
  h_sb h <> SbFailure /\ (h_sb h <> SbInit -> h_uidset h = true) /\ (h_sb h = SbInit -> h_recv h = 0).
Definition is_some {A} (x : option A) : bool := match x with Some _ => true | None => false end.
Lemma sb_eqb_iff a b : sb_eqb a b = true <-> a = b.
Proof. destruct a, b; cbn; split; congruence. Qed.
Lemma sb_neqb_iff a b : negb (sb_eqb a b) = true <-> a <> b.
Proof. rewrite Bool.negb_true_iff. destruct a, b; cbn; split; congruence. Qed.

(** The next state of the boot sequence, and the code answered. *)
Definition next_boot (q : sreq) (rc : Z) (h h' : she) : Prop :=
  match q with
  | SBootInit _ => h_sb h' = (if Z.eqb rc OK then SbUpdate else if Z.eqb rc NO_SECURE_BOOT then SbSuccess else SbInit)
  | SBootUpdate _ => h_sb h' = (if Z.eqb rc OK then (if N.eqb (h_recv h') (h_size h') then SbFinish else SbUpdate) else SbInit)
  | SBootFinish => h_sb h' = (if Z.eqb rc OK then SbSuccess else SbInit)
  | SBad ABootInit | SBad ABootUpdate | SBad ABootFinish => h_sb h' = SbInit
  | _ => h_sb h' = h_sb h
  end.
Lemma tr_ok rc : Z.eqb (translate rc) OK = Z.eqb rc OK.
Proof.
  unfold translate. destruct (existsb _ _) eqn:E; [reflexivity|]. cbn [existsb] in E. apply Bool.orb_false_iff in E as [E _]. rewrite E. reflexivity.
Qed.
Lemma tr_nsb rc : Z.eqb (translate rc) NO_SECURE_BOOT = Z.eqb rc NO_SECURE_BOOT.
Proof.
  unfold translate. destruct (existsb _ _) eqn:E; [reflexivity|]. cbn [existsb] in E. repeat (apply Bool.orb_false_iff in E as [? E]).
  symmetry. assumption.
Qed.

Lemma sstep_boot e client q h S r h' S' : mach h -> sstep e client q h S = (r, h', S') -> is_boot (action_of q) = true -> h_uidset h = true ->
  next_boot q (sr_rc r) h h' /\ h_uidset h' = true /\ h_uid h' = h_uid h /\ mach h'.
Proof.
  intros (NF & U & R0) H B US. unfold she_step in H.
  assert (RF : refused q h = false). { unfold refused. rewrite US. destruct (action_of q) as [[]|]; try discriminate B; reflexivity. }
  rewrite RF, B in H. destruct (handle e client q h S) as [[[[rc w] out] h1] S1] eqn:E. injection H as <- <- <-. cbn [sr_rc andb].
  (* every failure but NO_SECURE_BOOT starts over *)
  assert (Z0 : forall x, is_ok x = false -> Z.eqb x NO_SECURE_BOOT = false -> rc = x -> h_uidset h1 = true -> h_uid h1 = h_uid h ->
     let h2 := (if negb (is_ok rc) && negb (Z.eqb rc NO_SECURE_BOOT) then set_boot h1 SbInit false 0 0 else h1) in
     next_boot q (if locks (action_of q) && negb (se_lock e) then rc else translate rc) h h2 /\ h_uidset h2 = true /\ h_uid h2 = h_uid h /\ mach h2).
  { intros x A1 A2 -> A4 A5. rewrite A1, A2. cbn [negb andb]. cbv zeta.
    assert (T : Z.eqb (if locks (action_of q) && negb (se_lock e) then x else translate x) OK = false).
    { destruct (_ && _); [|rewrite tr_ok]; exact A1. }
    assert (T2 : Z.eqb (if locks (action_of q) && negb (se_lock e) then x else translate x) NO_SECURE_BOOT = false).
    { destruct (_ && _); [|rewrite tr_nsb]; exact A2. }
    split; [|split; [exact A4|split; [exact A5|]]].
    - destruct q; try discriminate B; cbn [next_boot]; rewrite ?T, ?T2; try reflexivity. destruct a; try discriminate B; reflexivity.
    - repeat split; cbn; auto; congruence. }
  unfold she_handle in E. destruct (locks (action_of q) && negb (se_lock e)) eqn:LK.
  { unfold err in E. injection E as <- <- <- <- <-. apply (Z0 LOCKED); auto. }
  destruct q; try discriminate B.
  - (* init *)
    unfold do_boot_init in E. destruct (negb (sb_eqb (h_sb h) SbInit)) eqn:SB.
    { unfold err in E. injection E as <- <- <- <- <-. apply (Z0 SEQUENCE_ERROR); auto. }
    apply Bool.negb_false_iff, sb_eqb_iff in SB.
    destruct (she_read _ _ _ _) as [[[rr S2] m] k]. destruct (negb (is_ok rr) || _).
    { unfold err in E. injection E as <- <- <- <- <-. cbn. repeat split; cbn; auto; congruence. }
    destruct (negb (se_c1 e)); unfold err in E; injection E as <- <- <- <- <-; [apply (Z0 GENERAL_ERROR); auto|].
    cbn. repeat split; cbn; auto; congruence.
  - unfold do_boot_update in E. destruct (negb (sb_eqb (h_sb h) SbUpdate)) eqn:SB.
    { unfold err in E. injection E as <- <- <- <- <-. apply (Z0 SEQUENCE_ERROR); auto. }
    cbv zeta in E. destruct (_ <? _). { unfold err in E. injection E as <- <- <- <- <-. apply (Z0 SEQUENCE_ERROR); auto. }
    apply Bool.negb_false_iff, sb_eqb_iff in SB.
    destruct (negb (se_c1 e)); unfold err in E; injection E as <- <- <- <- <-; [apply (Z0 GENERAL_ERROR); auto|].
    change (is_ok OK) with true. cbn [negb andb next_boot sr_rc]. change (Z.eqb (translate OK) OK) with true. cbv iota.
    match goal with |- context[N.eqb ?a (h_size h)] => destruct (N.eqb a (h_size h)) eqn:EQ end;
      (split; [cbn [set_sb set_cmac set_boot h_sb h_recv h_size]; rewrite EQ; auto|]); repeat split; cbn; auto; congruence.
  - unfold do_boot_finish in E. destruct (negb (sb_eqb (h_sb h) SbFinish)) eqn:SB.
    { unfold err in E. injection E as <- <- <- <- <-. apply (Z0 SEQUENCE_ERROR); auto. }
    destruct (negb (se_c1 e)); [unfold err in E; injection E as <- <- <- <- <-; apply (Z0 GENERAL_ERROR); auto|].
    destruct (she_read _ _ _ _) as [[[rr S2] m] k]. destruct (negb (is_ok rr)); [unfold err in E; injection E as <- <- <- <- <-; apply (Z0 KEY_NOT_AVAILABLE); auto|].
    destruct (list_eq_dec _ _ _); unfold err in E; injection E as <- <- <- <- <-; [|apply (Z0 GENERAL_ERROR); auto].
    cbn. repeat split; cbn; auto; congruence.
  - unfold err in E. injection E as <- <- <- <- <-. apply (Z0 BUFFER_SIZE); auto.
Qed.

Lemma sstep_other e client q h S r h' S' : mach h -> sstep e client q h S = (r, h', S') -> is_boot (action_of q) = false ->
  h_sb h' = h_sb h /\ mach h' /\ h_size h' = h_size h /\ h_recv h' = h_recv h /\
  match q with
  | SSetUid u => if h_uidset h then sr_rc r = SEQUENCE_ERROR /\ h' = h
                 else sr_rc r = OK /\ h_uidset h' = true /\ h_uid h' = exactly UID_SZ u /\ h_ck h' = h_ck h /\ h_cd h' = h_cd h
  | _ => h_uidset h' = h_uidset h /\ h_uid h' = h_uid h /\
         (h_sb h <> SbSuccess -> open_command q = false -> h' = h /\ S' = S /\ r = mkSr SEQUENCE_ERROR 0 [])
  end.
Proof.
  intros M H B. unfold she_step in H. destruct (refused q h) eqn:RF.
  - injection H as <- <- <-. repeat split; auto; try apply M.
    destruct q; auto. unfold refused in RF. cbn [action_of] in RF. rewrite RF. auto.
  - destruct (handle e client q h S) as [[[[rc w] out] h1] S1] eqn:E. injection H as <- <- <-. rewrite B. cbn [andb].
    destruct (match q with SSetUid _ => true | _ => false end) eqn:Q.
    + destruct q; try discriminate Q. unfold refused in RF. cbn [action_of] in RF. rewrite RF.
      cbn [she_handle locks action_of andb] in E. unfold do_set_uid in E. rewrite RF in E. injection E as <- <- <- <- <-.
      cbn. destruct M as (M1 & M2 & M3). repeat split; cbn; auto.
    + assert (K : keeps h (snd (fst (handle e client q h S)))) by (apply handle_keeps; auto; intros u ->; discriminate).
      rewrite E in K. cbn [fst snd] in K. destruct K as (K1 & K2 & K3 & K4 & K5).
      assert (M1 : mach h1) by (unfold mach in *; rewrite K1, K2, K4; auto).
      repeat (split; [auto|]). destruct q; try discriminate Q; split; auto; split; auto; intros NS OP; exfalso;
        unfold refused in RF; cbn [action_of] in RF, OP; try discriminate OP;
        try (destruct (h_uidset h); [|discriminate RF]); cbn [negb is_boot andb] in RF;
        try (apply Bool.negb_false_iff, sb_eqb_iff in RF; congruence).
      destruct a; try discriminate B; try discriminate OP; cbn in RF; destruct (h_uidset h); try discriminate RF;
        apply Bool.negb_false_iff, sb_eqb_iff in RF; congruence.
Qed.

(** ** The SHE context and the answers *)
Definition agrees (h : she) (b : bool) (u : option (list N)) : Prop :=
  mach h /\ b = sb_eqb (h_sb h) SbSuccess /\ h_uidset h = is_some u /\
  h_uid h = match u with Some v => v | None => repeat 0 UID_SZ end.
Lemma agrees_zero : agrees she_zero_ctx false None.
Proof. repeat split; cbn; congruence. Qed.

Lemma agrees_step i ev Y a Y' b u : agrees (hy_she Y i) b u -> step ev Y = (a, Y') ->
  agrees (hy_she Y' i) (booted_by i ev a b) (uid_by i ev a u).
Proof.
  intros A H. destruct ev as [j client e q|ev].
  2:{ cbn [hstep] in H. injection H as <- <-. cbn [hy_she]. destruct ev; cbn [booted_by uid_by]; try exact A.
      - unfold upd_she. rewrite (Nat.eqb_sym i0 i). destruct (Nat.eqb i i0); [apply agrees_zero|exact A].
      - apply agrees_zero. }
  cbn [hstep] in H. destruct (sstep e client q (hy_she Y j) (ks_of (hy_ks Y) j)) as [[r h'] S1] eqn:E. injection H as <- <-.
  cbn [hy_she]. unfold upd_she. destruct (Nat.eqb_spec i j) as [<-|NE].
  2:{ assert (NE' : Nat.eqb j i = false) by (apply Nat.eqb_neq; auto). cbn [booted_by uid_by]. rewrite NE'. destruct q; exact A. }
  destruct A as (M & EB & EU & EI). cbn [booted_by uid_by]. rewrite Nat.eqb_refl. cbn [andb rc_is].
  destruct (is_boot (action_of q)) eqn:B.
  - destruct (h_uidset (hy_she Y i)) eqn:US.
    + destruct (sstep_boot _ _ _ _ _ _ _ _ M E B US) as (NB & U1 & I1 & M1).
      assert (UB : uid_by i (HShe i client e q) (Some r) u = u) by (destruct q; try discriminate B; reflexivity).
      cbn [uid_by] in UB. rewrite Nat.eqb_refl in UB. cbn [andb rc_is] in UB. rewrite UB. clear UB.
      split; [exact M1|]. split; [|split; [congruence|congruence]].
      destruct q; try discriminate B; cbn [next_boot] in NB; try rewrite NB.
      * destruct (Z.eqb (sr_rc r) OK) eqn:O; [apply Z.eqb_eq in O; rewrite O; reflexivity|]. destruct (Z.eqb (sr_rc r) NO_SECURE_BOOT); reflexivity.
      * destruct (Z.eqb (sr_rc r) OK); [destruct (_ =? _)|]; reflexivity.
      * destruct (Z.eqb (sr_rc r) OK); reflexivity.
      * destruct a; try discriminate B; rewrite NB; reflexivity.
    + (* refused: the unique id is not set *)
      assert (SI : h_sb (hy_she Y i) = SbInit).
      { destruct (h_sb (hy_she Y i)) eqn:Q; auto; destruct M as (_ & M2 & _); rewrite Q in M2; rewrite M2 in US by discriminate; discriminate. }
      unfold she_step in E. assert (RF : refused q (hy_she Y i) = true).
      { unfold refused. rewrite US. destruct (action_of q) as [[]|]; try discriminate B; reflexivity. }
      rewrite RF in E. injection E as <- <- <-.
      assert (UB : forall r, uid_by i (HShe i client e q) (Some r) u = u) by (intros; destruct q; try discriminate B; reflexivity).
      specialize (UB (mkSr SEQUENCE_ERROR 0 [])). cbn [uid_by] in UB. rewrite Nat.eqb_refl in UB. cbn [andb rc_is] in UB. rewrite UB.
      split; [exact M|]. split; [|split; [congruence|exact EI]]. rewrite SI.
      destruct q; try discriminate B; try reflexivity. destruct a; try discriminate B; reflexivity.
  - destruct (sstep_other _ _ _ _ _ _ _ _ M E B) as (SB & M1 & _ & _ & Q).
    split; [exact M1|]. rewrite SB. split.
    { destruct q; try discriminate B; auto. destruct a; try discriminate B; auto. }
    destruct q; try discriminate B; try (destruct Q as (Q1 & Q2 & _); rewrite Q1, Q2; split; assumption).
    destruct (h_uidset (hy_she Y i)) eqn:US.
    + destruct Q as [-> ->]. change (Z.eqb SEQUENCE_ERROR OK) with false. cbv iota. rewrite US. split; assumption.
    + destruct Q as (-> & -> & -> & _). cbn. split; reflexivity.
Qed.
Lemma agrees_run i evs : forall Y b u, agrees (hy_she Y i) b u ->
  agrees (hy_she (after evs Y) i) (booted i evs Y b) (uid_given i evs Y u).
Proof.
  induction evs as [|ev evs IH]; intros Y b u A; cbn [hafter SheSpec.booted SheSpec.uid_given]; auto.
  destruct (step ev Y) as [a Y1] eqn:E. cbn [snd]. apply IH. eapply agrees_step; eauto.
Qed.
Lemma agrees_fresh i evs st r b : let Y0 := fresh_hsys st r b in
  agrees (hy_she (after evs Y0) i) (booted i evs Y0 false) (uid_given i evs Y0 None).
Proof. apply agrees_run, agrees_zero. Qed.

(** ** The boot image *)
(** A slot that holds 16 bytes is read. *)
Lemma she_read_hit rd S id m d rc S' m' d' : wf S -> good C S -> kid_type id = KT_SHE -> rd = OK -> vis C S id = Some (m, d) -> length d = 16%nat ->
  she_read C rd S id = (rc, S', m', d') -> rc = OK /\ m' = m /\ d' = d.
Proof.
  intros W G T RD V L H. destruct (she_assigned C id T) as (UA & HW & WR & NZ).
  unfold she_read in H. unfold vis in V. unfold read_key, meta_read in H. rewrite UA, HW in H.
  destruct (find_cache C S id) as [s|] eqn:F.
  - injection V as <- <-. pose proof (proj2 G id s NZ F) as GL. unfold good_slot in GL.
    rewrite GL, L in H. change (16 <? N.of_nat 16) with false in H. cbv iota in H.
    injection H as <- <- <- <-. auto.
  - subst rd. change (is_ok OK) with true in H. cbv iota in H. rewrite WR, V in H.
    pose proof (proj1 G id m d NZ V) as GL. assert (LE : 16 <? m_len m = false) by (rewrite GL, L; reflexivity).
    rewrite LE, (read_whole _ _ _ _ (proj1 G) NZ V), L in H. change (0 <? 16)%nat with true in H. cbv iota in H.
    change (is_ok OK) with true in H. cbn [negb] in H.
    pose proof (find_id _ _ _ V) as FI. cbn [fst] in FI.
    destruct (N.eqb (kid_type (m_id m)) KT_SHE && kid_erased (m_id m)) eqn:X; [|destruct (cache_key C false S m d)]; injection H as <- <- <- <-; auto.
Qed.

Lemma refused_not q h S e client r h' S' : sstep e client q h S = (r, h', S') -> sr_rc r <> SEQUENCE_ERROR -> refused q h = false.
Proof. unfold she_step. destruct (refused q h); [|auto]. intros H; injection H as <- <- <-. intros []. reflexivity. Qed.
Lemma slot_small client s : s < 256 -> kid_id (she_id C client s) = s.
Proof. apply sid_id. Qed.

Lemma init_ok e client sz h S r h' S' : mach h -> wf S -> good C S -> sstep e client (SBootInit sz) h S = (r, h', S') -> sr_rc r = OK ->
  exists m k, vis C S (she_id C client SLOT_BOOT_MAC_KEY) = Some (m, k) /\ length k = 16%nat /\
    h_ck h' = k /\ h_cd h' = boot_prefix sz /\ h_size h' = sz /\ h_recv h' = 0.
Proof.
  intros M W G H O. assert (RF := refused_not _ _ _ _ _ _ _ _ H ltac:(rewrite O; discriminate)).
  unfold she_step in H. rewrite RF in H. unfold she_handle in H. cbn [action_of is_boot locks] in H.
  destruct (se_lock e); cbn [negb andb] in H.
  2:{ unfold err in H. injection H as <- <- <-. discriminate O. }
  unfold do_boot_init in H. destruct (negb (sb_eqb (h_sb h) SbInit)) eqn:SB.
  { unfold err in H. injection H as <- <- <-. discriminate O. }
  apply Bool.negb_false_iff, sb_eqb_iff in SB.
  destruct (she_read C (se_rd e 0) S _) as [[[rr S2] m] k] eqn:R. destruct (negb (is_ok rr) || _) eqn:B.
  { unfold err in H. injection H as <- <- <-. discriminate O. }
  apply Bool.orb_false_iff in B as [B1 B2]. apply Bool.negb_false_iff in B1, B2. apply Nat.eqb_eq in B2. apply is_ok_iff in B1.
  destruct (negb (se_c1 e)). { unfold err in H. injection H as <- <- <-. discriminate O. }
  injection H as <- <- <-. exists m, k. destruct M as (_ & _ & M3).
  destruct (she_read_eff _ _ _ _ _ _ _ _ W G (sid_type _ _ _) R) as (_ & _ & _ & _ & _ & V & _).
  destruct (V B1) as [V1|[_ (_ & _ & Z & _)]]; [cbn; auto 8|]. rewrite slot_small in Z by reflexivity. discriminate.
Qed.
Lemma init_none e client sz h S r h' S' : wf S -> good C S -> sstep e client (SBootInit sz) h S = (r, h', S') -> sr_rc r = NO_SECURE_BOOT ->
  se_rd e 0 = OK -> forall m k, vis C S (she_id C client SLOT_BOOT_MAC_KEY) = Some (m, k) -> length k <> 16%nat.
Proof.
  intros W G H O RD m k V L. assert (RF := refused_not _ _ _ _ _ _ _ _ H ltac:(rewrite O; discriminate)).
  unfold she_step in H. rewrite RF in H. unfold she_handle in H. cbn [action_of is_boot locks] in H.
  destruct (se_lock e); cbn [negb andb] in H.
  2:{ unfold err in H. injection H as <- <- <-. discriminate O. }
  unfold do_boot_init in H. destruct (negb (sb_eqb (h_sb h) SbInit)) eqn:SB.
  { unfold err in H. injection H as <- <- <-. discriminate O. }
  destruct (she_read C (se_rd e 0) S _) as [[[rr S2] m2] k2] eqn:R.
  destruct (she_read_hit _ _ _ _ _ _ _ _ _ W G (sid_type _ _ _) RD V L R) as (-> & -> & ->).
  rewrite L in H. cbn [is_ok negb orb] in H. change (negb (Nat.eqb 16 16)) with false in H. change (is_ok OK) with true in H. cbn [negb orb] in H.
  destruct (negb (se_c1 e)); unfold err in H; injection H as <- <- <-; discriminate O.
Qed.
Lemma update_ok e client d h S r h' S' : sstep e client (SBootUpdate d) h S = (r, h', S') -> sr_rc r = OK ->
  h_sb h = SbUpdate /\ h_ck h' = h_ck h /\ h_cd h' = h_cd h ++ d /\ h_size h' = h_size h /\
  h_recv h' = (h_recv h + N.of_nat (length d)) mod 2 ^ 32 /\ (h_sb h' = SbFinish -> h_recv h' = h_size h').
Proof.
  intros H O. assert (RF := refused_not _ _ _ _ _ _ _ _ H ltac:(rewrite O; discriminate)).
  unfold she_step in H. rewrite RF in H. unfold she_handle in H. cbn [action_of is_boot locks negb andb] in H.
  unfold do_boot_update in H. destruct (negb (sb_eqb (h_sb h) SbUpdate)) eqn:SB.
  { unfold err in H. injection H as <- <- <-. discriminate O. }
  apply Bool.negb_false_iff, sb_eqb_iff in SB. cbv zeta in H.
  destruct (_ <? _). { unfold err in H. injection H as <- <- <-. discriminate O. }
  destruct (negb (se_c1 e)). { unfold err in H. injection H as <- <- <-. discriminate O. }
  change (is_ok OK) with true in H. cbn [negb andb] in H. injection H as <- <- <-. split; [auto|].
  match goal with |- context[N.eqb ?a (h_size h)] => destruct (N.eqb_spec a (h_size h)) as [EQ|NEQ] end; cbn; repeat (split; [auto|]); auto; congruence.
Qed.
Lemma finish_ok e client h S r h' S' : wf S -> good C S -> sstep e client SBootFinish h S = (r, h', S') -> sr_rc r = OK ->
  h_sb h = SbFinish /\ exists m mac, vis C S (she_id C client SLOT_BOOT_MAC) = Some (m, mac) /\
    exactly 16 (cmac (h_ck h) (h_cd h)) = exactly 16 (mac ++ skipn (length mac) (se_stack e)).
Proof.
  intros W G H O. assert (RF := refused_not _ _ _ _ _ _ _ _ H ltac:(rewrite O; discriminate)).
  unfold she_step in H. rewrite RF in H. unfold she_handle in H. cbn [action_of is_boot locks] in H.
  destruct (se_lock e); cbn [negb andb] in H.
  2:{ unfold err in H. injection H as <- <- <-. discriminate O. }
  unfold do_boot_finish in H. destruct (negb (sb_eqb (h_sb h) SbFinish)) eqn:SB.
  { unfold err in H. injection H as <- <- <-. discriminate O. }
  apply Bool.negb_false_iff, sb_eqb_iff in SB.
  destruct (negb (se_c1 e)). { unfold err in H. injection H as <- <- <-. discriminate O. }
  destruct (she_read C (se_rd e 0) S _) as [[[rr S2] m] k] eqn:R. destruct (is_ok rr) eqn:B; cbn [negb] in H.
  2:{ unfold err in H. injection H as <- <- <-. discriminate O. }
  apply is_ok_iff in B. destruct (list_eq_dec _ _ _) as [EQ|]. 2:{ unfold err in H. injection H as <- <- <-. discriminate O. }
  injection H as <- <- <-. split; [auto|]. exists m, k.
  destruct (she_read_eff _ _ _ _ _ _ _ _ W G (sid_type _ _ _) R) as (_ & _ & _ & _ & _ & V & _).
  destruct (V B) as [V1|[_ (_ & _ & Z & _)]]; [auto|]. rewrite slot_small in Z by reflexivity. discriminate.
Qed.

(** The CMAC object is over the image announced and sent. *)
Definition pending (h : she) (x : option image) : Prop :=
  h_sb h = SbUpdate \/ h_sb h = SbFinish ->
  exists k img, x = Some (h_size h, k, img) /\ h_ck h = k /\ length k = 16%nat /\ h_cd h = boot_prefix (h_size h) ++ img /\
    h_recv h = N.of_nat (length img) mod 2 ^ 32 /\ (h_sb h = SbFinish -> h_recv h = h_size h).
Lemma pending_zero x : pending she_zero_ctx x.
Proof. intros [H|H]; discriminate. Qed.
Lemma pending_step i ev Y a Y' x : sys_ok C (hy_ks Y) -> mach (hy_she Y i) -> pending (hy_she Y i) x -> step ev Y = (a, Y') ->
  pending (hy_she Y' i) (image_by C i ev a Y x).
Proof.
  intros OK_ M P H. destruct ev as [j client e q|ev].
  2:{ cbn [hstep] in H. injection H as <- <-. cbn [hy_she]. destruct ev; cbn [image_by]; try exact P.
      - unfold upd_she. rewrite (Nat.eqb_sym i0 i). destruct (Nat.eqb i i0); [apply pending_zero|exact P].
      - apply pending_zero. }
  cbn [hstep] in H. destruct (sstep e client q (hy_she Y j) (ks_of (hy_ks Y) j)) as [[r h'] S1] eqn:E. injection H as <- <-.
  cbn [hy_she]. unfold upd_she. destruct (Nat.eqb_spec i j) as [<-|NE].
  2:{ assert (NE' : Nat.eqb j i = false) by (apply Nat.eqb_neq; auto). cbn [image_by]. rewrite NE'. exact P. }
  cbn [image_by]. rewrite Nat.eqb_refl. cbn [rc_is]. destruct (OK_ i) as [W G].
  destruct (is_boot (action_of q)) eqn:B.
  - destruct (h_uidset (hy_she Y i)) eqn:US.
    + destruct (sstep_boot _ _ _ _ _ _ _ _ M E B US) as (NB & U1 & I1 & M1).
      destruct q; try discriminate B; cbn [next_boot] in NB.
      * destruct (Z.eqb (sr_rc r) OK) eqn:O.
        -- apply Z.eqb_eq in O. destruct (init_ok _ _ _ _ _ _ _ _ M W G E O) as (m & k & V & L & CK & CD & SZ & RC).
           intros _. exists k, []. rewrite slot_vis, V, SZ, CK, CD, RC, NB, app_nil_r. cbn. repeat (split; [auto|]). discriminate.
        -- intros Q. exfalso. destruct (Z.eqb (sr_rc r) NO_SECURE_BOOT); destruct Q; congruence.
      * destruct (Z.eqb (sr_rc r) OK) eqn:O; [|intros [Q|Q]; congruence].
        apply Z.eqb_eq in O. destruct (update_ok _ _ _ _ _ _ _ _ E O) as (SB & CK & CD & SZ & RC & FI).
        destruct (P (or_introl SB)) as (k & img & -> & K1 & K2 & K3 & K4 & _). intros _. exists k, (img ++ data).
        cbn [option_map]. rewrite SZ, CK, CD, K3, <- app_assoc. repeat (split; [solve [auto]|]). split.
        -- rewrite RC, K4, app_length, Nat2N.inj_add, N.add_mod_idemp_l by discriminate. reflexivity.
        -- rewrite <- SZ. exact FI.
      * destruct (Z.eqb (sr_rc r) OK); intros [Q|Q]; congruence.
      * destruct a; try discriminate B; intros [Q|Q]; congruence.
    + assert (SI : h_sb (hy_she Y i) = SbInit).
      { destruct (h_sb (hy_she Y i)) eqn:Q; auto; destruct M as (_ & M2 & _); rewrite Q in M2; rewrite M2 in US by discriminate; discriminate. }
      unfold she_step in E. assert (RF : refused q (hy_she Y i) = true).
      { unfold refused. rewrite US. destruct (action_of q) as [[]|]; try discriminate B; reflexivity. }
      rewrite RF in E. injection E as <- <- <-. intros [Q|Q]; congruence.
  - destruct (sstep_other _ _ _ _ _ _ _ _ M E B) as (SB & M1 & SZ & RC & Q).
    assert (X : image_by C i (HShe i client e q) (Some r) Y x = x).
    { cbn [image_by]. rewrite Nat.eqb_refl. destruct q; try discriminate B; try reflexivity. destruct a; try discriminate B; reflexivity. }
    cbn [image_by] in X. rewrite Nat.eqb_refl in X. cbn [rc_is] in X. rewrite X. clear X.
    intros HS. assert (NS : h_sb (hy_she Y i) <> SbSuccess) by (rewrite <- SB; destruct HS as [-> | ->]; discriminate).
    assert (CD : h_ck h' = h_ck (hy_she Y i) /\ h_cd h' = h_cd (hy_she Y i)).
    { destruct (match q with SSetUid _ => true | _ => false end) eqn:IS.
      - destruct q; try discriminate IS. destruct (h_uidset (hy_she Y i)); [destruct Q as [_ ->]; auto|tauto].
      - destruct (open_command q) eqn:OP.
        + unfold she_step in E. destruct (refused q (hy_she Y i)); [injection E as <- <- <-; auto|].
          destruct q; try discriminate B; try discriminate OP; try discriminate IS.
          * cbn [she_handle action_of locks andb do_status] in E. unfold do_status in E. injection E as <- <- <-. auto.
          * unfold she_handle in E. cbn [action_of] in *. rewrite B in E. cbn [andb] in E. destruct (_ && _); unfold err in E; injection E as <- <- <-; auto.
        + destruct q; try discriminate IS; try discriminate B; try discriminate OP; destruct Q as (_ & _ & Q); destruct (Q NS eq_refl) as [-> _]; auto. }
    destruct CD as [-> ->]. rewrite SZ, RC, SB. apply P. rewrite SB in HS. exact HS.
Qed.
Lemma pending_run i evs : forall Y b u x, sys_ok C (hy_ks Y) -> agrees (hy_she Y i) b u -> pending (hy_she Y i) x ->
  pending (hy_she (after evs Y) i) (image_sent i evs Y x).
Proof.
  induction evs as [|ev evs IH]; intros Y b u x O A P; cbn [hafter SheSpec.image_sent]; auto.
  pose proof (hstep_ok ev Y O) as O1. destruct (step ev Y) as [a Y1] eqn:E. cbn [snd] in *.
  apply (IH _ (booted_by i ev a b) (uid_by i ev a u)); auto; [eapply agrees_step; eauto|eapply pending_step; eauto; apply A].
Qed.
End Boot.
