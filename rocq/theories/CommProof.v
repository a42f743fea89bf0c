(** Proofs about the client side of the packet layer. *)
From Verif Require Import Base BaseLemmas EndianModel TimeoutModel CommModel CommSpec.
Local Open Scope N_scope.

Section P.
Variable DL : nat.

Fixpoint cstate (es : list ccall) (c : cctx) : cctx :=
  match es with [] => c | e :: es' => cstate es' (snd (ccall_step DL e c)) end.

Lemma crun_app a b c : crun DL (a ++ b) c = crun DL a c ++ crun DL b (cstate a c).
Proof.
  revert c; induction a as [|e a IH]; intros c; [reflexivity|].
  cbn [app crun cstate]. destruct (ccall_step DL e c) as [o c'] eqn:E. cbn [snd].
  rewrite IH. reflexivity.
Qed.
Lemma cstate_app a b c : cstate (a ++ b) c = cstate b (cstate a c).
Proof. revert c; induction a as [|e a IH]; intros c; [reflexivity|]. cbn [app cstate]. apply IH. Qed.
Lemma crun_length es c : length (crun DL es c) = length es.
Proof.
  revert c; induction es as [|e es IH]; intros c; [reflexivity|].
  cbn [crun]. destruct (ccall_step DL e c). cbn [length]. now rewrite IH.
Qed.

(** One step. *)
Lemma step_open e c o c' :
  ccall_step DL e c = (o, c') -> env_ok e -> c_pending c' = true ->
  accepted o (c_seq c') \/
  (c_pending c = true /\ c_seq c' = c_seq c /\ ~ over_with o /\ forall q, ~ accepted o q).
Proof.
  unfold ccall_step. destruct e as [tc|trc now m k sz s|trc sz buf app now cap d| |trc].
  - intros [= <- <-] _ H. discriminate.
  - unfold cl_send.
    assert (X : forall rc p, ~ over_with (OSend rc None p) /\ forall q, ~ accepted (OSend rc None p) q).
    { intros rc p. split.
      - intros [(q & r & E & _)|[(r & E & _)|[E|[(r & E)|E]]]]; discriminate.
      - intros q (rc' & p' & E). discriminate. }
    destruct (c_init c); cbn [negb]; [|intros [= <- <-] _ H; right; repeat split; auto; apply X].
    destruct (c_pending c) eqn:Ep; [intros [= <- <-] _ H; right; repeat split; auto; apply X|].
    destruct (DL <? sz)%nat; [intros [= <- <-] _ H; congruence|].
    destruct (is_ok trc).
    + destruct (timeout_start now (c_timer c)) as [rc t]. intros [= <- <-] _ H.
      left. exists rc. eexists. reflexivity.
    + intros [= <- <-] _ H. discriminate.
  - intros E (T1 & T2).
    assert (X : forall rc, rc <> TIMEOUT -> ~ over_with (ORecv (rfail rc)) /\ forall q, ~ accepted (ORecv (rfail rc)) q).
    { intros rc T. split.
      - intros [(q & r & E0 & _ & E1 & _)|[(r & E0 & E1)|[E0|[(r & E0)|E0]]]]; try discriminate.
        + injection E0 as <-. discriminate.
        + injection E0 as <-. now cbn in E1.
      - intros q (rc' & p' & E0). discriminate. }
    revert E. unfold cl_recv.
    destruct (c_init c); cbn [negb];
      [|intros [= <- <-] H; right; repeat split; auto; apply X; discriminate].
    destruct (c_pending c) eqn:Ep; cbn [negb]; [|intros [= <- <-] H; congruence].
    destruct (is_ok trc).
    + destruct ((sz <? 8) || (MTU DL <? sz))%nat; [intros [= <- <-] H; discriminate|].
      destruct (pk_magic buf =? MAGIC_NATIVE); cbn [negb].
      * destruct (pk_seq buf =? c_seq c); cbn [negb].
        -- destruct (match d with DBuf => _ | _ => _ end) as [rc cp]. intros [= <- <-] H. discriminate.
        -- intros [= <- <-] H. right; repeat split; auto; apply X; discriminate.
      * intros [= <- <-] H. right; repeat split; auto.
        -- intros [(q & r & E0 & E1 & _)|[(r & E0 & E1)|[E0|[(r & E0)|E0]]]]; try discriminate;
             injection E0 as <-; cbn in E1; try discriminate; destruct E1; discriminate.
        -- intros q (rc' & p' & E0). discriminate.
    + destruct (Z.eqb trc ABORTED); [intros [= <- <-] H; discriminate|].
      destruct (Z.eqb trc NOTREADY).
      * destruct (timeout_expired app now (c_timer c)) as [ex t] eqn:Ex.
        assert (Hex : ex <> TIMEOUT).
        { revert Ex. unfold timeout_expired, posix_expired.
          intros Ex Ht. subst ex.
          repeat match type of Ex with
          | context [if ?b then _ else _] => destruct b eqn:?
          | context [match ?x with _ => _ end] => destruct x eqn:?
          end; try discriminate; try congruence;
          repeat match goal with H : (_, _) = (_, _) |- _ => injection H; clear H; intros; subst end;
          try discriminate; destruct T2; congruence. }
        destruct (Z.ltb 0 ex) eqn:E1; [intros [= <- <-] H; discriminate|].
        destruct (Z.ltb ex 0) eqn:E2; intros [= <- <-] H; right; repeat split; auto; apply X;
          try exact Hex; discriminate.
      * intros [= <- <-] H. right; repeat split; auto; now apply X.
  - unfold cl_abort. destruct (c_init c); cbn [negb]; intros [= <- <-] _ H; [discriminate|].
    right; repeat split; auto.
    + intros [(q & r & E0 & _)|[(r & E0 & _)|[E0|[(r & E0)|E0]]]]; discriminate.
    + intros q (rc' & p' & E0). discriminate.
  - unfold cl_cleanup. intros [= <- <-] _ H. discriminate.
Qed.

(** A pending request was sent, and nothing ended it since. *)
Lemma pending_sent es tcfg :
  Forall env_ok es ->
  c_pending (cstate es (cl_init DL tcfg)) = true ->
  let tr := crun DL es (cl_init DL tcfg) in
  exists i, (i < length es)%nat /\ at_ tr i (fun o => accepted o (c_seq (cstate es (cl_init DL tcfg)))) /\
    forall k o, (i < k)%nat -> nth_error tr k = Some o -> ~ over_with o /\ forall q, ~ accepted o q.
Proof.
  induction es as [|e es IH] using rev_ind; [discriminate|].
  intros F H tr. apply Forall_app in F as [F1 F2]. inversion F2 as [|? ? Fe _]; subst.
  rewrite cstate_app in *. cbn [cstate] in *.
  unfold tr. rewrite crun_app. cbn [crun].
  destruct (ccall_step DL e (cstate es (cl_init DL tcfg))) as [o c'] eqn:E. cbn [snd] in *.
  assert (L : length (crun DL es (cl_init DL tcfg)) = length es) by apply crun_length.
  assert (N1 : nth_error (crun DL es (cl_init DL tcfg) ++ [o]) (length es) = Some o).
  { rewrite nth_error_app2 by lia. rewrite L, Nat.sub_diag. reflexivity. }
  rewrite app_length; cbn [length].
  destruct (step_open _ _ _ _ E Fe H) as [A|(P & Q & N & NA)].
  - exists (length es). split; [lia|]. split; [exists o; auto|].
    intros k o' Hk Hn. exfalso.
    assert (k < length (crun DL es (cl_init DL tcfg) ++ [o]))%nat
      by (apply nth_error_Some; congruence).
    rewrite app_length in *; cbn [length] in *; lia.
  - destruct (IH F1 P) as (i & Hi & (o' & Ho' & A) & Hk).
    exists i. split; [lia|]. split.
    + exists o'. split; [|rewrite Q; auto]. rewrite nth_error_app1; auto. rewrite L. lia.
    + intros k o2 H1 H2.
      destruct (Nat.lt_ge_cases k (length es)) as [Hl|Hl].
      * rewrite nth_error_app1 in H2 by lia. eapply Hk; eauto.
      * assert (k < length (crun DL es (cl_init DL tcfg) ++ [o]))%nat
          by (apply nth_error_Some; congruence).
        rewrite app_length in *; cbn [length] in *.
        assert (k = length es) by lia. subst k. rewrite N1 in H2. injection H2 as <-. auto.
Qed.

(** A delivery happens only with a request pending, and carries its number. *)
Lemma delivered_pending e c o c' q :
  ccall_step DL e c = (o, c') -> delivered o q -> c_pending c = true /\ c_seq c = q.
Proof.
  intros E (r & -> & Hr & Hq & Hs). destruct e; cbn [ccall_step] in E.
  - discriminate.
  - destruct (cl_send DL trc now magic kind size s c) as [[[rc sq] p] c0]. discriminate.
  - destruct (cl_recv DL trc size buf app now cap d c) as [r0 c0] eqn:E0.
    injection E as -> ->. revert E0. unfold cl_recv.
    destruct (negb (c_init c)); [intros [= <- _]; discriminate|].
    destruct (c_pending c); cbn [negb]; [|intros [= <- _]; discriminate].
    destruct (is_ok trc).
    + destruct ((size <? 8) || (MTU DL <? size))%nat; [intros [= <- _]; discriminate|].
      destruct (pk_magic buf =? MAGIC_NATIVE); cbn [negb].
      * destruct (pk_seq buf =? c_seq c) eqn:Es; cbn [negb]; [|intros [= <- _]; discriminate].
        destruct (match d with DBuf => _ | _ => _ end) as [rc cp]. intros [= <- _].
        cbn in Hq. injection Hq as <-. split; [reflexivity|]. apply N.eqb_eq in Es. auto.
      * intros [= <- _]. now cbn in Hs.
    + destruct (Z.eqb trc ABORTED); [intros [= <- _]; discriminate|].
      destruct (Z.eqb trc NOTREADY); [|intros [= <- _]; discriminate].
      destruct (timeout_expired app now (c_timer c)) as [ex t].
      destruct (Z.ltb 0 ex); [intros [= <- _]; discriminate|].
      destruct (Z.ltb ex 0); intros [= <- _]; discriminate.
  - destruct (cl_abort c); discriminate.
  - destruct (cl_cleanup trc c); discriminate.
Qed.

Lemma nth_split_run es c j o :
  nth_error (crun DL es c) j = Some o ->
  exists a e b, es = a ++ e :: b /\ length a = j /\ fst (ccall_step DL e (cstate a c)) = o.
Proof.
  intros H.
  assert (j < length es)%nat by (rewrite <- (crun_length es c); apply nth_error_Some; congruence).
  destruct (nth_error es j) as [e|] eqn:E; [|apply nth_error_None in E; lia].
  apply nth_error_split in E as (a & b & -> & La). exists a, e, b. split; [auto|]. split; [auto|].
  rewrite crun_app, nth_error_app2, crun_length, La, Nat.sub_diag in H by (rewrite crun_length; lia).
  cbn [crun] in H. destruct (ccall_step DL e (cstate a c)). now injection H.
Qed.

Theorem delivery_matches es tcfg j q :
  Forall env_ok es ->
  let tr := crun DL es (cl_init DL tcfg) in
  at_ tr j (fun o => delivered o q) ->
  exists i, (i < j)%nat /\ at_ tr i (fun o => accepted o q) /\
    forall k o, (i < k < j)%nat -> nth_error tr k = Some o ->
      ~ over_with o /\ forall q', ~ accepted o q'.
Proof.
  intros F tr (o & Hn & D).
  destruct (nth_split_run _ _ _ _ Hn) as (a & e & b & -> & La & Eo).
  apply Forall_app in F as [Fa _].
  destruct (ccall_step DL e (cstate a (cl_init DL tcfg))) as [o' c'] eqn:E. cbn [fst] in Eo. subst o'.
  destruct (delivered_pending _ _ _ _ _ E D) as [Hp Hq].
  destruct (pending_sent a tcfg Fa Hp) as (i & Hi & (oi & Hoi & A) & Hk).
  rewrite Hq in A. subst tr. rewrite crun_app.
  exists i. split; [lia|]. split.
  - exists oi. split; [|auto]. rewrite nth_error_app1 by (rewrite crun_length; lia). auto.
  - intros k o2 H1 H2. rewrite nth_error_app1 in H2 by (rewrite crun_length; lia).
    apply (Hk k o2); [lia|auto].
Qed.

(** A send needs that nothing is pending; and a pending request stays pending
    until it is over. *)
Lemma accepted_idle e c o c' q :
  ccall_step DL e c = (o, c') -> accepted o q -> c_pending c = false /\ c_pending c' = true /\
    q = (c_seq c + 1) mod 65536.
Proof.
  intros E (rc & p & ->). destruct e; cbn [ccall_step] in E.
  - discriminate.
  - destruct (cl_send DL trc now magic kind size s c) as [[[rc0 sq] p0] c0] eqn:E0.
    injection E as -> -> -> ->. revert E0. unfold cl_send.
    destruct (negb (c_init c)); [discriminate|].
    destruct (c_pending c); [discriminate|].
    destruct (DL <? size)%nat; [discriminate|].
    destruct (is_ok trc); [|discriminate].
    destruct (timeout_start now (c_timer c)) as [rc1 t]. intros [= <- <- <- <-]. auto.
  - destruct (cl_recv DL trc size buf app now cap d c); discriminate.
  - destruct (cl_abort c); discriminate.
  - destruct (cl_cleanup trc c); discriminate.
Qed.
Lemma stays_pending e c o c' :
  ccall_step DL e c = (o, c') -> c_pending c = true -> c_pending c' = true \/ over_or_fatal o.
Proof.
  intros E P. destruct e; cbn [ccall_step] in E.
  - injection E as <- <-. right. left. right; right; right; right; reflexivity.
  - destruct (cl_send DL trc now magic kind size s c) as [[[rc0 sq] p0] c0] eqn:E0.
    injection E as <- <-. revert E0. unfold cl_send. rewrite P.
    destruct (negb (c_init c)); intros [= <- <- <- <-]; auto.
  - destruct (cl_recv DL trc size buf app now cap d c) as [r0 c0] eqn:E0.
    injection E as <- <-. revert E0. unfold cl_recv. rewrite P; cbn [negb].
    destruct (negb (c_init c)); [intros [= <- <-]; auto|].
    destruct (is_ok trc).
    + destruct ((size <? 8) || (MTU DL <? size))%nat;
        [intros [= <- <-]; right; right; eexists; split; reflexivity|].
      destruct (pk_magic buf =? MAGIC_NATIVE); cbn [negb]; [|intros [= <- <-]; auto].
      destruct (pk_seq buf =? c_seq c) eqn:Es; cbn [negb]; [|intros [= <- <-]; auto].
      destruct (match d with DBuf => _ | _ => _ end) as [rc cp] eqn:Ed. intros [= <- <-].
      right. left. left. exists (pk_seq buf). eexists. split; [reflexivity|]. cbn.
      split; [|split; [reflexivity|discriminate]].
      destruct d; try (injection Ed as <- _; auto; fail).
      destruct (size - 8 =? 0)%nat; [injection Ed as <- _; auto|].
      destruct (cap <? size - 8)%nat; injection Ed as <- _; auto.
    + destruct (Z.eqb trc ABORTED); [intros [= <- <-]; right; right; eexists; split; reflexivity|].
      destruct (Z.eqb trc NOTREADY); [|intros [= <- <-]; auto].
      destruct (timeout_expired app now (c_timer c)) as [ex t].
      destruct (Z.ltb 0 ex).
      * intros [= <- <-]. right; left; right; left. eexists; split; reflexivity.
      * destruct (Z.ltb ex 0); intros [= <- <-]; auto.
  - destruct (cl_abort c) as [rc c0] eqn:E0. injection E as <- <-. revert E0. unfold cl_abort.
    destruct (c_init c); cbn [negb]; intros [= <- <-]; [|auto].
    right; left; right; right; left. reflexivity.
  - destruct (cl_cleanup trc c) as [rc c0]. injection E as <- <-.
    right; left; right; right; right; left. eexists; reflexivity.
Qed.

Lemma until_over es c :
  c_pending c = true ->
  c_pending (cstate es c) = true \/ exists k o, nth_error (crun DL es c) k = Some o /\ over_or_fatal o.
Proof.
  revert c; induction es as [|e es IH]; intros c P; [auto|].
  cbn [cstate crun]. destruct (ccall_step DL e c) as [o c'] eqn:E. cbn [snd].
  destruct (stays_pending _ _ _ _ E P) as [P'|O].
  - destruct (IH c' P') as [X|(k & o' & H1 & H2)]; [auto|right]. exists (S k), o'. auto.
  - right. exists 0%nat, o. auto.
Qed.

Theorem one_outstanding es tcfg i j q q' :
  let tr := crun DL es (cl_init DL tcfg) in
  (i < j)%nat -> at_ tr i (fun o => accepted o q) -> at_ tr j (fun o => accepted o q') ->
  exists k, (i < k < j)%nat /\ at_ tr k over_or_fatal.
Proof.
  intros tr Hij (oi & Hi & Ai) (oj & Hj & Aj).
  destruct (nth_split_run _ _ _ _ Hi) as (a & e & b & -> & La & Eo).
  destruct (ccall_step DL e (cstate a (cl_init DL tcfg))) as [o' c'] eqn:E. cbn [fst] in Eo. subst o'.
  destruct (accepted_idle _ _ _ _ _ E Ai) as (_ & P & _).
  subst tr. rewrite crun_app in *. cbn [crun] in *. rewrite E in *.
  rewrite nth_error_app2, crun_length in Hj by (rewrite crun_length; lia).
  replace (j - length a)%nat with (S (j - length a - 1)) in Hj by lia. cbn [nth_error] in Hj.
  destruct (nth_split_run _ _ _ _ Hj) as (a2 & e2 & b2 & -> & La2 & Eo2).
  destruct (ccall_step DL e2 (cstate a2 c')) as [o2 c2] eqn:E2. cbn [fst] in Eo2. subst o2.
  destruct (accepted_idle _ _ _ _ _ E2 Aj) as (P2 & _).
  destruct (until_over a2 c' P) as [X|(k & o & H1 & H2)]; [congruence|].
  assert (k < length a2)%nat by (rewrite <- (crun_length a2 c'); apply nth_error_Some; congruence).
  exists (length a + S k)%nat. split; [lia|].
  exists o. split; [|auto]. rewrite nth_error_app2, crun_length by (rewrite crun_length; lia).
  replace (length a + S k - length a)%nat with (S k) by lia. cbn [nth_error].
  rewrite crun_app, nth_error_app1 by (rewrite crun_length; lia). auto.
Qed.

(** Sequence numbers of successive requests of one connection. *)
Lemma seq_step e c o c' :
  ccall_step DL e c = (o, c') -> o <> OInit ->
  c_seq c' = c_seq c \/ exists q, accepted o q /\ c_seq c' = q /\ q = (c_seq c + 1) mod 65536.
Proof.
  intros E P. destruct e; cbn [ccall_step] in E.
  - now injection E as <- <-.
  - destruct (cl_send DL trc now magic kind size s c) as [[[rc0 sq] p0] c0] eqn:E0.
    injection E as <- <-. revert E0. unfold cl_send.
    destruct (negb (c_init c)); [intros [= <- <- <- <-]; auto|].
    destruct (c_pending c); [intros [= <- <- <- <-]; auto|].
    destruct (DL <? size)%nat; [intros [= <- <- <- <-]; auto|].
    destruct (is_ok trc); [|intros [= <- <- <- <-]; auto].
    destruct (timeout_start now (c_timer c)) as [rc1 t]. intros [= <- <- <- <-].
    right. eexists. split; [|split; reflexivity]. do 2 eexists; reflexivity.
  - destruct (cl_recv DL trc size buf app now cap d c) as [r0 c0] eqn:E0.
    injection E as <- <-. left. revert E0. unfold cl_recv.
    destruct (negb (c_init c)); [intros [= <- <-]; auto|].
    destruct (negb (c_pending c)); [intros [= <- <-]; auto|].
    destruct (is_ok trc).
    + destruct ((size <? 8) || (MTU DL <? size))%nat; [intros [= <- <-]; auto|].
      destruct (negb (pk_magic buf =? MAGIC_NATIVE)); [intros [= <- <-]; auto|].
      destruct (negb (pk_seq buf =? c_seq c)); [intros [= <- <-]; auto|].
      destruct (match d with DBuf => _ | _ => _ end). intros [= <- <-]; auto.
    + destruct (Z.eqb trc ABORTED); [intros [= <- <-]; auto|].
      destruct (Z.eqb trc NOTREADY); [|intros [= <- <-]; auto].
      destruct (timeout_expired app now (c_timer c)) as [ex t].
      destruct (Z.ltb 0 ex); [intros [= <- <-]; auto|].
      destruct (Z.ltb ex 0); intros [= <- <-]; auto.
  - destruct (cl_abort c) as [rc c0] eqn:E0. injection E as <- <-. revert E0. unfold cl_abort.
    destruct (c_init c); cbn [negb]; intros [= <- <-]; auto.
  - injection E as <- <-. auto.
Qed.

(** ** C17 *)
Lemma MTU_PKT : (MTU DL <= PKT DL)%nat.
Proof.
  unfold PKT. pose proof (Nat.div_mod (MTU DL + 7) 8 ltac:(lia)) as H.
  pose proof (Nat.mod_upper_bound (MTU DL + 7) 8 ltac:(lia)). lia.
Qed.

Lemma pk_data_length n p : (8 + n <= length p)%nat -> length (pk_data n p) = n.
Proof. intros. unfold pk_data. rewrite firstn_length, skipn_length. lia. Qed.

Lemma recv_sound trc size buf app now cap d c r c' :
  length buf = PKT DL ->
  cl_recv DL trc size buf app now cap d c = (r, c') ->
  (length (r_copied r) <= cap)%nat /\
  (r_rc r = OK ->
    trc = OK /\ (8 <= size <= MTU DL)%nat /\ (size <= PKT DL)%nat /\ pk_magic buf = MAGIC_NATIVE /\
    r_size r = Some (size - 8)%nat /\
    (d = DBuf -> r_copied r = firstn (size - 8) (skipn 8 buf) /\ (size - 8 <= cap)%nat)).
Proof.
  intros L. unfold cl_recv. pose proof MTU_PKT as MP.
  assert (T : forall rc, (length (r_copied (rfail rc)) <= cap)%nat) by (intros; cbn; lia).
  destruct (negb (c_init c)); [intros [= <- _]; split; [apply T|discriminate]|].
  destruct (negb (c_pending c)); [intros [= <- _]; split; [apply T|discriminate]|].
  destruct (is_ok trc) eqn:Et.
  - apply Z.eqb_eq in Et.
    destruct ((size <? 8) || (MTU DL <? size))%nat eqn:Es; [intros [= <- _]; split; [apply T|discriminate]|].
    apply orb_false_iff in Es as [E1 E2]. apply Nat.ltb_ge in E1, E2.
    destruct (pk_magic buf =? MAGIC_NATIVE) eqn:Em; cbn [negb].
    2: intros [= <- _]; split; [cbn; lia|discriminate].
    apply N.eqb_eq in Em.
    destruct (negb (pk_seq buf =? c_seq c)); [intros [= <- _]; split; [apply T|discriminate]|].
    destruct (match d with DBuf => _ | _ => _ end) as [rc cp] eqn:Ed. intros [= <- _]. cbn [r_rc r_copied r_size].
    assert (Hd : (length cp <= cap)%nat /\ (rc = OK -> d = DBuf -> cp = firstn (size - 8) (skipn 8 buf) /\ (size - 8 <= cap)%nat)).
    { destruct d; try (injection Ed as <- <-; cbn; split; [lia|intros; discriminate]).
      destruct (size - 8 =? 0)%nat eqn:Z0.
      - apply Nat.eqb_eq in Z0. injection Ed as <- <-. rewrite Z0. cbn. split; [lia|]. intros _ _. split; [auto|lia].
      - destruct (cap <? size - 8)%nat eqn:C0; injection Ed as <- <-.
        + split; [cbn; lia|discriminate].
        + apply Nat.ltb_ge in C0. rewrite pk_data_length by lia. split; [lia|]. intros _ _. split; [auto|lia]. }
    split; [tauto|]. intros ->. split; [auto|]. split; [lia|]. split; [lia|]. split; [auto|]. split; [auto|].
    intros ->. now apply Hd.
  - destruct (Z.eqb trc ABORTED); [intros [= <- _]; split; [apply T|discriminate]|].
    destruct (Z.eqb trc NOTREADY).
    + destruct (timeout_expired app now (c_timer c)) as [ex t].
      destruct (Z.ltb 0 ex); [intros [= <- _]; split; [apply T|discriminate]|].
      destruct (Z.ltb ex 0) eqn:E3; intros [= <- _]; split; try apply T; [|discriminate].
      cbn. intros ->. discriminate.
    + intros [= <- _]; split; [apply T|]. cbn. intros ->. discriminate.
Qed.

Lemma sv_recv_sound trc size buf cap d :
  length buf = PKT DL ->
  let r := sv_recv DL trc size buf cap d in
  (length (r_copied r) <= cap)%nat /\
  (r_rc r = OK ->
    trc = OK /\ (8 <= size <= MTU DL)%nat /\ (size <= PKT DL)%nat /\ r_size r = Some (size - 8)%nat /\
    (d <> DNull -> (size - 8 <= cap)%nat) /\
    (d = DBuf -> r_copied r = firstn (size - 8) (skipn 8 buf))).
Proof.
  intros L. unfold sv_recv. pose proof MTU_PKT as MP.
  destruct (is_ok trc) eqn:Et.
  - apply Z.eqb_eq in Et.
    destruct ((size <? 8) || (MTU DL <? size))%nat eqn:Es; [cbn; split; [lia|discriminate]|].
    apply orb_false_iff in Es as [E1 E2]. apply Nat.ltb_ge in E1, E2.
    destruct (match d with DBuf => _ | _ => _ end) as [rc cp] eqn:Ed. cbn [r_rc r_copied r_size].
    assert (Hd : (length cp <= cap)%nat /\ (rc = OK -> (d <> DNull -> (size - 8 <= cap)%nat) /\ (d = DBuf -> cp = firstn (size - 8) (skipn 8 buf)))).
    { destruct d.
      - injection Ed as <- <-. split; [cbn; lia|]. intros _. split; [congruence|discriminate].
      - destruct (cap <? size - 8)%nat eqn:C0; injection Ed as <- <-.
        + split; [cbn; lia|discriminate].
        + apply Nat.ltb_ge in C0. split; [cbn; lia|]. intros _. split; [auto|discriminate].
      - destruct (cap <? size - 8)%nat eqn:C0; injection Ed as <- <-.
        + split; [cbn; lia|discriminate].
        + apply Nat.ltb_ge in C0. rewrite pk_data_length by lia. split; [lia|]. intros _. split; auto. }
    split; [tauto|]. intros ->. destruct Hd as [_ Hd]. destruct (Hd eq_refl). repeat split; auto; lia.
  - cbn. split; [lia|]. intros ->. discriminate.
Qed.

End P.

(** ** Sequence numbers of one connection *)
Definition is_send (o : cout) : bool := match o with OSend _ (Some _) _ => true | _ => false end.
Definition requests (tr : list cout) : nat := length (filter is_send tr).

Section Q.
Variable DL : nat.
Lemma is_send_accepted o : is_send o = true <-> exists q, accepted o q.
Proof.
  split.
  - destruct o as [|rc [q|] p| | |]; try discriminate. intros _. exists q, rc, p. reflexivity.
  - intros (q & rc & p & ->). reflexivity.
Qed.
Lemma seq_count es : forall c, c_seq c < 65536 -> ~ In OInit (crun DL es c) ->
  c_seq (cstate DL es c) = (c_seq c + N.of_nat (requests (crun DL es c))) mod 65536.
Proof.
  induction es as [|e es IH]; intros c HC NI; cbn [cstate crun] in *.
  - cbn. rewrite N.add_0_r, N.mod_small; auto.
  - destruct (ccall_step DL e c) as [o c'] eqn:E. cbn [snd].
    assert (NO : o <> OInit) by (intros ->; apply NI; left; auto).
    assert (NT : ~ In OInit (crun DL es c')) by (intros X; apply NI; right; auto).
    unfold requests in *. cbn [filter].
    destruct (seq_step DL _ _ _ _ E NO) as [S|(q & A & S & Q)].
    + assert (is_send o = false).
      { destruct (is_send o) eqn:X; auto. apply is_send_accepted in X as (q & A).
        destruct (accepted_idle DL _ _ _ _ _ E A) as (_ & _ & Q). 
        destruct A as (rc & p & ->). destruct e; cbn [ccall_step] in E; try discriminate.
        - destruct (cl_send DL trc now magic kind size s c) as [[[r0 s0] p0] c0] eqn:E0.
          injection E as -> -> -> ->. revert E0. unfold cl_send.
          destruct (negb (c_init c)); [discriminate|]. destruct (c_pending c); [discriminate|].
          destruct (DL <? size)%nat; [discriminate|]. destruct (is_ok trc); [|discriminate].
          destruct (timeout_start now (c_timer c)). intros [= _ _ _ <-]. cbn in S.
          pose proof (N.div_mod (c_seq c + 1) 65536). lia.
        - destruct (cl_recv DL trc size buf app now cap d c); discriminate. 
        - destruct (cl_abort c); discriminate. }
      rewrite H. rewrite IH by (rewrite ?S; auto). rewrite S. reflexivity.
    + assert (is_send o = true) by (apply is_send_accepted; eauto). rewrite H.
      rewrite IH; auto; [|rewrite S, Q; lia]. rewrite S, Q. cbn [length].
      rewrite Nat2N.inj_succ, N.add_mod_idemp_l by lia. f_equal. lia.
Qed.

Theorem seq_distinct es tcfg i j q q' :
  let tr := crun DL es (cl_init DL tcfg) in
  (i < j)%nat -> at_ tr i (fun o => accepted o q) -> at_ tr j (fun o => accepted o q') ->
  ~ In OInit tr -> N.of_nat (requests (firstn (j - i) (skipn i tr))) < 65536 -> q <> q'.
Proof.
  intros tr Hij (oi & Hi & Ai) (oj & Hj & Aj) NI HR.
  destruct (nth_split_run DL _ _ _ _ Hi) as (a & e & b & -> & La & Eo).
  destruct (ccall_step DL e (cstate DL a (cl_init DL tcfg))) as [o' c'] eqn:E. cbn [fst] in Eo. subst o'.
  destruct (accepted_idle DL _ _ _ _ _ E Ai) as (_ & _ & Eq).
  subst tr. rewrite crun_app in *. cbn [crun] in *. rewrite E in *.
  rewrite nth_error_app2, crun_length in Hj by (rewrite crun_length; lia).
  replace (j - length a)%nat with (S (j - length a - 1)) in Hj by lia. cbn [nth_error] in Hj.
  destruct (nth_split_run DL _ _ _ _ Hj) as (a2 & e2 & b2 & -> & La2 & Eo2).
  destruct (ccall_step DL e2 (cstate DL a2 c')) as [o2 c2] eqn:E2. cbn [fst] in Eo2. subst o2.
  destruct (accepted_idle DL _ _ _ _ _ E2 Aj) as (_ & _ & Eq2).
  rewrite skipn_app, skipn_all2, crun_length, La, Nat.sub_diag, skipn_O, app_nil_l in HR by (rewrite crun_length; lia).
  replace (j - i)%nat with (S (length a2)) in HR by lia. cbn [firstn] in HR.
  rewrite crun_app, firstn_app, crun_length, Nat.sub_diag, firstn_O, app_nil_r, firstn_all2 in HR by (rewrite crun_length; lia).
  unfold requests in HR. cbn [filter] in HR.
  assert (is_send oi = true) by (apply is_send_accepted; eauto). rewrite H in HR. cbn [length] in HR.
  assert (NO : oi <> OInit) by (intros ->; discriminate).
  assert (Sc : c_seq c' = q).
  { destruct Ai as (rc & p & ->). destruct e; cbn [ccall_step] in E; try discriminate.
    - destruct (cl_send DL trc now magic kind size s (cstate DL a (cl_init DL tcfg))) as [[[r0 s0] p0] c0] eqn:E0.
      injection E as -> -> -> ->. revert E0. unfold cl_send.
      destruct (negb _); [discriminate|]. destruct (c_pending _); [discriminate|].
      destruct (DL <? size)%nat; [discriminate|]. destruct (is_ok trc); [|discriminate].
      destruct (timeout_start now _). intros [= _ <- _ <-]. reflexivity.
    - destruct (cl_recv DL trc size buf app now cap d (cstate DL a (cl_init DL tcfg))); discriminate.
    - destruct (cl_abort (cstate DL a (cl_init DL tcfg))); discriminate. }
  rewrite (seq_count a2 c') in Eq2.
  - unfold requests in Eq2. rewrite Sc in Eq2. set (n := length (filter is_send (crun DL a2 c'))) in *.
    assert (Q : q < 65536) by (rewrite Eq; apply N.mod_lt; lia).
    rewrite N.add_mod_idemp_l in Eq2 by lia. intros <-.
    rewrite Nat2N.inj_succ in HR.
    pose proof (N.div_mod (q + N.of_nat n + 1) 65536). lia.
  - rewrite Sc, Eq. apply N.mod_lt. lia.
  - intros X. apply NI. apply in_or_app. right. right. rewrite crun_app. apply in_or_app. auto.
Qed.
End Q.
