(** The shared-memory transport is an ideal exchange, for every schedule. *)
From Verif Require Import BaseLemmas MemModel MemSpec.
Local Open Scope N_scope.

Lemma upd_length i b l : (i < length l)%nat -> length (upd i b l) = length l.
Proof. intros. unfold upd. rewrite app_length. cbn [length]. rewrite firstn_length, skipn_length. lia. Qed.
Lemma firstn_S_nth {A} (d : A) i l : (i < length l)%nat -> firstn (S i) l = firstn i l ++ [nth i l d].
Proof.
  revert l; induction i; intros [|x l] H; cbn [length] in H; try lia; [reflexivity|].
  cbn [firstn nth app]. f_equal. apply IHi. lia.
Qed.
Lemma upd_firstn i b l : (i < length l)%nat -> firstn (S i) (upd i b l) = firstn i l ++ [b].
Proof.
  intros H. unfold upd. rewrite firstn_app, firstn_firstn, firstn_length.
  replace (Nat.min (S i) i) with i by lia. replace (S i - Nat.min i (length l))%nat with 1%nat by lia. reflexivity.
Qed.

Lemma nth_error_Some_lt {A} (l : list A) k x : nth_error l k = Some x -> (k < length l)%nat.
Proof. intros H. apply nth_error_Some. congruence. Qed.

Section Proof.
Variables RQ RS : nat.

Lemma copy_len_le len cap area : (copy_len len cap area <= len)%nat /\ (copy_len len cap area <= cap)%nat /\ (copy_len len cap area <= area)%nat.
Proof.
  unfold copy_len. destruct (Nat.ltb_spec cap len);
  [destruct (Nat.ltb_spec area cap)|destruct (Nat.ltb_spec area len)]; lia.
Qed.
Lemma copy_len_fit len cap area : (len <= area)%nat -> copy_len len cap area = Nat.min cap len.
Proof.
  intros. unfold copy_len. destruct (Nat.ltb_spec cap len);
  [destruct (Nat.ltb_spec area cap)|destruct (Nat.ltb_spec area len)]; lia.
Qed.

Definition J_mem (m : mem) (c : chan) : Prop :=
  length (rq_data m) = RQ /\ length (rs_data m) = RS /\ rq_n m < M16 /\ rs_n m < M16 /\
  match flight c with
  | Some q => rq_n m = (rs_n m + 1) mod M16 /\ rq_len m = length q /\ firstn (length q) (rq_data m) = q /\
              (length q <= RQ)%nat /\ answer c = None
  | None => rq_n m = rs_n m
  end /\
  forall r, answer c = Some r -> rs_len m = length r /\ firstn (length r) (rs_data m) = r /\ (length r <= RS)%nat.

Definition J_cl (s : st) (c : chan) : Prop :=
  let m := sh s in
  match cl s with
  | PIdle => True
  | PSend1 d => (length d <= RQ)%nat /\ (cl_must c = true -> flight c = None)
  | PSend2 d n => (length d <= RQ)%nat /\ (n = rq_n m -> flight c = None) /\ (cl_must c = true -> n = rq_n m)
  | PSendC d n i => (length d <= RQ)%nat /\ flight c = None /\ n = rq_n m /\ (i <= length d)%nat /\
                    firstn i (rq_data m) = firstn i d
  | PRecv1 cap => cl_open s = true /\ (cl_must c = true -> flight c = None)
  | PRecv2 cap n _ => cl_open s = true /\ n = rq_n m /\ (cl_must c = true -> flight c = None)
  | PRecvC cap len got => cl_open s = true /\ flight c = None /\ (exists r, answer c = Some r /\ len = length r) /\
      (length got <= copy_len len cap RS)%nat /\ got = firstn (length got) (rs_data m)
  end.

Definition J_sv (s : st) (c : chan) : Prop :=
  let m := sh s in
  match sv s with
  | PIdle => True
  | PSend1 d => (length d <= RS)%nat /\ sv_open s = true
  | PSend2 d n => (length d <= RS)%nat /\ sv_open s = true /\ n = rq_n m
  | PSendC d n i => (length d <= RS)%nat /\ sv_open s = true /\ n = rq_n m /\ (i <= length d)%nat /\
                    firstn i (rs_data m) = firstn i d
  | PRecv1 cap => sv_must c = true -> flight c <> None
  | PRecv2 cap n len => (n <> rs_n m -> exists q, flight c = Some q /\ len = length q) /\
                        (sv_must c = true -> n <> rs_n m)
  | PRecvC cap len got => (exists q, flight c = Some q /\ len = length q) /\
      (length got <= copy_len len cap RQ)%nat /\ got = firstn (length got) (rq_data m)
  end.

Definition J (s : st) (c : chan) : Prop :=
  J_mem (sh s) c /\ (cl_open s = true -> flight c <> None \/ answer c <> None) /\
  (sv_open s = true -> flight c <> None) /\ (cl_open s = want c /\ (sv_open s = true -> seen c = true)) /\ J_cl s c /\ J_sv s c.

Lemma J_started s : started RQ RS s -> J s empty.
Proof.
  intros (n & ql & qd & sl & sd & Hn & H1 & H2 & ->).
  split; [|split; [|split; [|split]]]; cbn; try discriminate; auto.
  repeat split; auto; discriminate.
Qed.

Lemma succ_ne n : n < M16 -> (n + 1) mod M16 <> n.
Proof.
  unfold M16. intros H E. destruct (N.eq_dec n 65535) as [->|]; [discriminate E|].
  rewrite N.mod_small in E; lia.
Qed.

(** The other side's invariant does not mind. *)
Lemma sv_frame s s' c c' :
  J_sv s c -> sv s' = sv s -> sv_open s' = sv_open s -> sv_must c' = sv_must c -> sh s' = sh s ->
  flight c' = flight c -> J_sv s' c'.
Proof. intros H E1 E2 E3 E4 E5. unfold J_sv in *. rewrite E1, E2, E3, E4, E5. exact H. Qed.
Lemma cl_frame s s' c c' :
  J_cl s c -> cl s' = cl s -> cl_open s' = cl_open s -> cl_must c' = cl_must c -> sh s' = sh s ->
  flight c' = flight c -> answer c' = answer c -> J_cl s' c'.
Proof. intros H E1 E2 E3 E4 E5 E6. unfold J_cl in *. rewrite E1, E2, E3, E4, E5, E6. exact H. Qed.

Ltac red_ := unfold J_cl, J_sv, set_cl, set_sv;
  cbn [sh cl sv cl_open sv_open rq_data rq_n rq_len rs_n rs_len rs_data flight answer cl_must sv_must].
Ltac wt := cbn [cl_open sv_open want seen set_cl set_sv flight answer];
  solve [split; auto; congruence | split; [congruence|auto] | split; [auto|intros; discriminate] | split; [reflexivity|intros; congruence]].
Ltac one c' := exists c'; split; [econstructor; [|constructor]|].

Lemma cl_sim x s c s' es : J s c -> cl_step RQ RS x s = (s', es) -> exists c', chan_run c es c' /\ J s' c'.
Proof.
  intros (JM & JO & JS & (JW1 & JW2) & JC & JV) E. unfold cl_step in E.
  unfold J_cl in JC. destruct (cl s) as [|d|d n|d n i|cap|cap n len|cap len got] eqn:EC.
  - (* between calls *)
    destruct x as [d|cap| |].
    + destruct (cl_open s) eqn:EO; [injection E as <- <-; exists c; split; [constructor|]; split; [exact JM|]; split; [rewrite EO; exact JO|]; split; [exact JS|]; split; [wt|]; split; [unfold J_cl; rewrite EC; exact I|exact JV]|].
      destruct (Nat.ltb_spec RQ (length d)); injection E as <- <-.
      * exists (mkCh (flight c) (seen c) (answer c) (want c) (negb (is_some (flight c))) (sv_must c)).
        split; [econstructor; [reflexivity|]; econstructor; [|constructor]; cbn; auto|].
        split; [exact JM|]. split; [rewrite EO; discriminate|]. split; [exact JS|]. split; [wt|].
        split; [unfold J_cl; rewrite EC; exact I|]. eapply sv_frame; eauto.
      * one (mkCh (flight c) (seen c) (answer c) (want c) (negb (is_some (flight c))) (sv_must c)); [reflexivity|].
        split; [exact JM|]. split; [cbn; rewrite EO; discriminate|]. split; [exact JS|]. split; [wt|].
        split; [|eapply sv_frame; eauto]. red_. split; [auto|]. destruct (flight c); [discriminate|auto].
    + destruct (cl_open s) eqn:EO; injection E as <- <-.
      * one (mkCh (flight c) (seen c) (answer c) (want c) (negb (is_some (flight c))) (sv_must c)); [reflexivity|].
        split; [exact JM|]. split; [cbn; rewrite EO; auto|]. split; [exact JS|]. split; [wt|].
        split; [|eapply sv_frame; eauto]. red_. split; [auto|]. destruct (flight c); [discriminate|auto].
      * exists c. split; [constructor|]. split; [exact JM|]. split; [rewrite EO; discriminate|]. split; [exact JS|]. split; [wt|].
        split; [unfold J_cl; rewrite EC; exact I|auto].
    + injection E as <- <-. one (mkCh (flight c) (seen c) (answer c) false (cl_must c) (sv_must c)); [reflexivity|]. split; [exact JM|]. split; [discriminate|]. split; [exact JS|]. split; [wt|].
      split; [exact I|]. eapply sv_frame; eauto.
    + injection E as <- <-. exists c. split; [constructor|]. split; [exact JM|]. split; [exact JO|]. split; [exact JS|]. split; [wt|]. split; [unfold J_cl; rewrite EC; exact I|exact JV].
  - injection E as <- <-. exists c. split; [constructor|]. split; [exact JM|]. split; [exact JO|]. split; [exact JS|]. split; [wt|].
    split; [|eapply sv_frame; eauto]. red_. destruct JC as [C1 C2]. split; [auto|].
    destruct JM as (M1 & M2 & M3 & M4 & M5 & M6). split.
    + intros E. destruct (flight c); auto. destruct M5 as (M5 & _). exfalso. rewrite M5 in E. now apply (succ_ne (rs_n (sh s))).
    + intros E. rewrite (C2 E) in M5. auto.
  - destruct JC as (C1 & C2 & C3). destruct (N.eqb_spec (rq_n (sh s)) n) as [En|En]; injection E as <- <-.
    + exists c. split; [constructor|]. split; [exact JM|]. split; [exact JO|]. split; [exact JS|]. split; [wt|].
      split; [|eapply sv_frame; eauto]. red_. repeat split; auto. lia.
    + one c.
      { split; [left; split; auto; destruct (cl_must c); auto; exfalso; apply En; symmetry; auto|reflexivity]. }
      split; [exact JM|]. split; [exact JO|]. split; [exact JS|]. split; [wt|]. split; [exact I|eapply sv_frame; eauto].
  - destruct JC as (C1 & C2 & C3 & C4 & C5). destruct JM as (M1 & M2 & M3 & M4 & M5 & M6).
    destruct (Nat.ltb_spec i (length d)) as [Hi|Hi]; injection E as <- <-.
    + exists c. split; [constructor|]. split; [|split; [exact JO|split; [exact JS|split; [wt|split]]]].
      * unfold J_mem. cbn [sh rq_data rs_data rq_n rs_n rq_len rs_len]. rewrite upd_length by lia. rewrite C2 in *. auto 10.
      * red_. repeat split; auto. rewrite (firstn_S_nth 0 i d) by auto. rewrite <- C5. apply upd_firstn. lia.
      * unfold J_sv in *. cbn in *. destruct (sv s); auto. destruct JV as ((q & V1 & _) & _). congruence.
    + replace i with (length d) in * by lia. rewrite firstn_all in C5.
      one (mkCh (Some d) false None true false (sv_must c)); [cbn; auto|].
      split; [|split; [left; discriminate|split; [discriminate|split; [split; [reflexivity|intros X; exfalso; exact (JS X C2)]|split; [exact I|]]]]].
      * unfold J_mem. red_. rewrite C2 in M5. split; [auto|]. split; [auto|].
        split; [apply N.mod_lt; discriminate|]. split; [auto|]. split; [|discriminate].
        rewrite C3, M5. auto.
      * unfold J_sv in *. cbn in *. destruct (sv s) as [|d'|d' n'|d' n' i'|cap'|cap' n' len'|cap' len' got']; auto.
        -- destruct JV as (_ & V & _). exfalso. apply JS; auto.
        -- destruct JV as (_ & V & _). exfalso. apply JS; auto.
        -- discriminate.
        -- destruct JV as (V1 & V2). split; [|auto]. intros Hn. destruct (V1 Hn) as (q & V & _). congruence.
        -- destruct JV as ((q & V & _) & _). congruence.
  - injection E as <- <-. exists c. split; [constructor|]. split; [exact JM|]. split; [exact JO|]. split; [exact JS|]. split; [wt|].
    split; [|eapply sv_frame; eauto]. red_. destruct JC. auto.
  - destruct JC as (C1 & C2 & C3). destruct JM as (M1 & M2 & M3 & M4 & M5 & M6).
    destruct (N.eqb_spec (rs_n (sh s)) n) as [En|En]; injection E as <- <-.
    + exists c. split; [constructor|]. split; [exact (conj M1 (conj M2 (conj M3 (conj M4 (conj M5 M6)))))|]. split; [exact JO|]. split; [exact JS|]. split; [wt|].
      split; [|eapply sv_frame; eauto]. cbn.
      assert (F : flight c = None).
      { destruct (flight c); auto. destruct M5 as (M5 & _). exfalso. apply (succ_ne (rs_n (sh s))); auto. congruence. }
      split; [auto|]. split; [auto|]. split; [|split; [cbn [length]; lia|reflexivity]].
      destruct (JO C1) as [X|X]; [contradiction|]. destruct (answer c) as [r|]; [|congruence].
      exists r. split; auto. apply M6. auto.
    + one c.
      { split; [left; split; auto|reflexivity]. destruct (cl_must c) eqn:EM; auto. exfalso. apply En.
        rewrite C3 in M5 by auto. congruence. }
      split; [exact (conj M1 (conj M2 (conj M3 (conj M4 (conj M5 M6)))))|]. split; [exact JO|]. split; [exact JS|]. split; [wt|]. split; [exact I|eapply sv_frame; eauto].
  - destruct JC as (C0 & C1 & (r & C2 & C3) & C4 & C5). destruct JM as (M1 & M2 & M3 & M4 & M5 & M6).
    destruct (M6 r C2) as (R1 & R2 & R3). subst len.
    destruct (Nat.ltb_spec (length got) (copy_len (length r) cap RS)) as [Hi|Hi]; injection E as <- <-.
    + exists c. split; [constructor|]. split; [exact (conj M1 (conj M2 (conj M3 (conj M4 (conj M5 M6)))))|]. split; [exact JO|]. split; [exact JS|]. split; [wt|].
      split; [|eapply sv_frame; eauto]. red_. split; [auto|]. split; [auto|]. split; [exists r; auto|].
      rewrite app_length. cbn [length]. split; [lia|]. rewrite Nat.add_1_r, (firstn_S_nth 0), <- C5; auto.
      pose proof (copy_len_le (length r) cap RS). lia.
    + one (mkCh None (seen c) (answer c) false (cl_must c) (sv_must c)).
      { exists r. split; auto. split; auto. split; [congruence|]. split; auto. split; [|reflexivity].
        rewrite C5. replace (length got) with (copy_len (length r) cap RS) by lia.
        rewrite copy_len_fit by auto. rewrite <- R2 at 2. rewrite firstn_firstn. reflexivity. }
      split; [unfold J_mem; cbn [sh flight answer]; rewrite C1 in M5; exact (conj M1 (conj M2 (conj M3 (conj M4 (conj M5 M6)))))|].
      split; [discriminate|]. split; [intros X; exfalso; exact (JS X C1)|]. split; [wt|]. split; [exact I|eapply sv_frame; eauto].
Qed.

Lemma sv_sim x s c s' es : J s c -> sv_step RQ RS x s = (s', es) -> exists c', chan_run c es c' /\ J s' c'.
Proof.
  intros (JM & JO & JS & (JW1 & JW2) & JC & JV) E. unfold sv_step in E.
  unfold J_sv in JV. destruct (sv s) as [|d|d n|d n i|cap|cap n len|cap len got] eqn:EC.
  - destruct x as [d|cap| |].
    + destruct (sv_open s) eqn:EO; cbn [negb] in E; [|injection E as <- <-; exists c; split; [constructor|]; split; [exact JM|]; split; [exact JO|]; split; [rewrite EO; discriminate|]; split; [wt|]; split; auto; unfold J_sv; rewrite EC; exact I].
      destruct (Nat.ltb_spec RS (length d)); injection E as <- <-.
      * exists (mkCh (flight c) (seen c) (answer c) (want c) (cl_must c) true).
        split; [econstructor; [reflexivity|]; econstructor; [|constructor]; cbn; auto|].
        split; [exact JM|]. split; [exact JO|]. split; [rewrite EO; exact JS|]. split; [wt|].
        split; [eapply cl_frame; eauto|]. unfold J_sv; rewrite EC; exact I.
      * one (mkCh (flight c) (seen c) (answer c) (want c) (cl_must c) true); [reflexivity|].
        split; [exact JM|]. split; [exact JO|]. split; [cbn; rewrite EO; exact JS|]. split; [wt|].
        split; [eapply cl_frame; eauto|]. red_. auto.
    + injection E as <- <-. one (mkCh (flight c) (seen c) (answer c) (want c) (cl_must c) (is_some (flight c))); [reflexivity|].
      split; [exact JM|]. split; [exact JO|]. split; [exact JS|]. split; [wt|].
      split; [eapply cl_frame; eauto|]. red_. destruct (flight c); discriminate.
    + injection E as <- <-. exists c. split; [constructor|]. split; [exact JM|]. split; [exact JO|]. split; [exact JS|]. split; [wt|]. split; [auto|]. unfold J_sv; rewrite EC; exact I.
    + injection E as <- <-. exists c. split; [constructor|]. split; [exact JM|]. split; [exact JO|]. split; [exact JS|]. split; [wt|]. split; [auto|]. unfold J_sv; rewrite EC; exact I.
  - injection E as <- <-. exists c. split; [constructor|]. split; [exact JM|]. split; [exact JO|]. split; [exact JS|]. split; [wt|].
    split; [eapply cl_frame; eauto|]. red_. destruct JV. auto.
  - injection E as <- <-. exists c. split; [constructor|]. split; [exact JM|]. split; [exact JO|]. split; [exact JS|]. split; [wt|].
    split; [eapply cl_frame; eauto|]. red_. destruct JV as (V1 & V2 & V3). repeat split; auto. lia.
  - destruct JV as (V1 & V2 & V3 & V4 & V5). destruct JM as (M1 & M2 & M3 & M4 & M5 & M6).
    pose proof (JS V2) as HF. destruct (flight c) as [q|] eqn:EF; [|congruence].
    destruct M5 as (M5 & M7 & M8 & M9 & M10).
    destruct (Nat.ltb_spec i (length d)) as [Hi|Hi]; injection E as <- <-.
    + exists c. split; [constructor|]. split; [|split; [rewrite EF; exact JO|split; [rewrite EF; exact JS|split; [wt|split]]]].
      * unfold J_mem. cbn [sh rq_data rs_data rq_n rs_n rq_len rs_len]. rewrite upd_length by lia. rewrite EF, M10. repeat split; auto; discriminate.
      * unfold J_cl in *. cbn in *. destruct (cl s); auto. destruct JC as (_ & JC & _). congruence.
      * red_. repeat split; auto. rewrite (firstn_S_nth 0 i d) by auto. rewrite <- V5. apply upd_firstn. lia.
    + replace i with (length d) in * by lia. rewrite firstn_all in V5.
      one (mkCh None false (Some d) (want c) (cl_must c) false); [cbn; split; [congruence|split; [auto|reflexivity]]|].
      split; [|split; [right; discriminate|split; [discriminate|split; [wt|split; [|exact I]]]]].
      * unfold J_mem. red_. repeat split; auto; try lia; injection H as <-; auto.
      * unfold J_cl in *. cbn in *. destruct (cl s) as [|d'|d' n'|d' n' i'|cap'|cap' n' len'|cap' len' got']; auto.
        -- destruct JC; auto.
        -- destruct JC as (C1 & C2 & C3). repeat split; auto.
        -- destruct JC as (_ & C & _). congruence.
        -- destruct JC; auto.
        -- destruct JC as (C1 & C2 & C3). auto.
        -- destruct JC as (_ & C & _). congruence.
  - injection E as <- <-. exists c. split; [constructor|]. split; [exact JM|]. split; [exact JO|]. split; [exact JS|]. split; [wt|].
    split; [eapply cl_frame; eauto|]. red_. destruct JM as (M1 & M2 & M3 & M4 & M5 & M6). split.
    + intros Hn. destruct (flight c) as [q|]; [exists q; split; auto; apply M5|contradiction].
    + intros HM. specialize (JV HM). destruct (flight c) as [q|]; [|congruence].
      destruct M5 as (M5 & _). rewrite M5. apply succ_ne. auto.
  - destruct JV as (V1 & V2). destruct (N.eqb_spec n (rs_n (sh s))) as [En|En]; injection E as <- <-.
    + one c.
      { split; [left; split; auto|reflexivity]. destruct (sv_must c); auto. exfalso. apply V2; auto. }
      split; [exact JM|]. split; [exact JO|]. split; [exact JS|]. split; [wt|]. split; [eapply cl_frame; eauto|exact I].
    + exists c. split; [constructor|]. split; [exact JM|]. split; [exact JO|]. split; [exact JS|]. split; [wt|].
      split; [eapply cl_frame; eauto|]. red_. split; [auto|]. split; [cbn [length]; lia|reflexivity].
  - destruct JV as ((q & V1 & V2) & V3 & V4). destruct JM as (M1 & M2 & M3 & M4 & M5 & M6).
    assert (M5' := M5). rewrite V1 in M5'. destruct M5' as (_ & R1 & R2 & R3 & _). subst len.
    destruct (Nat.ltb_spec (length got) (copy_len (length q) cap RQ)) as [Hi|Hi]; injection E as <- <-.
    + exists c. split; [constructor|]. split; [exact (conj M1 (conj M2 (conj M3 (conj M4 (conj M5 M6)))))|]. split; [exact JO|]. split; [exact JS|]. split; [wt|].
      split; [eapply cl_frame; eauto|]. red_. split; [exists q; auto|].
      rewrite app_length. cbn [length]. split; [lia|]. rewrite Nat.add_1_r, (firstn_S_nth 0), <- V4; auto.
      pose proof (copy_len_le (length q) cap RQ). lia.
    + one (mkCh (flight c) true (answer c) (want c) (cl_must c) (sv_must c)).
      { exists q. split; auto. split; auto. split; [|reflexivity].
        rewrite V4. replace (length got) with (copy_len (length q) cap RQ) by lia.
        rewrite copy_len_fit by auto. rewrite <- R2 at 2. rewrite firstn_firstn. reflexivity. }
      split; [exact (conj M1 (conj M2 (conj M3 (conj M4 (conj M5 M6)))))|]. split; [exact JO|]. split; [cbn; congruence|]. split; [wt|]. split; [eapply cl_frame; eauto|exact I].
Qed.

Lemma chan_run_app c es c1 es' c2 : chan_run c es c1 -> chan_run c1 es' c2 -> chan_run c (es ++ es') c2.
Proof. induction 1; cbn [app]; auto. intros. econstructor; eauto. Qed.

Theorem mem_refines_chan : forall xs s tr s',
  started RQ RS s -> mrun RQ RS xs s = (tr, s') -> exists c, chan_run empty tr c.
Proof.
  intros xs s tr s' HS. pose proof (J_started s HS) as HJ. clear HS. revert HJ. generalize empty as c0.
  revert s tr s'. induction xs as [|x xs IH]; cbn [mrun]; intros s tr s' c0 HJ E.
  - injection E as <- <-. exists c0. constructor.
  - destruct (mstep RQ RS x s) as [s1 e] eqn:E1. destruct (mrun RQ RS xs s1) as [es s2] eqn:E2. injection E as <- <-.
    assert (H : exists c', chan_run c0 e c' /\ J s1 c').
    { destruct x as [[] k]; cbn in E1; [eapply cl_sim|eapply sv_sim]; eauto. }
    destruct H as (c' & H1 & H2). destruct (IH _ _ _ _ H2 E2) as (c2 & H3).
    exists c2. eapply chan_run_app; eauto.
Qed.
End Proof.

(** ** From the exchange to positions in the trace *)
Lemma chan_prefix c tr c' i : chan_run c tr c' -> (i <= length tr)%nat ->
  exists c1, chan_run c (firstn i tr) c1 /\ chan_run c1 (skipn i tr) c'.
Proof.
  intros H. revert i. induction H; intros i Hi.
  - cbn in Hi. replace i with 0%nat by lia. exists c. split; constructor.
  - destruct i; [exists c; split; [constructor|econstructor; eauto]|].
    cbn in Hi. destruct (IHchan_run i ltac:(lia)) as (cc & A & B). exists cc. split; auto. cbn. econstructor; eauto.
Qed.

Lemma chan_at c tr c' j e : chan_run c tr c' -> nth_error tr j = Some e ->
  exists c1 c2, chan_run c (firstn j tr) c1 /\ chan_step c1 e c2.
Proof.
  intros H. revert j. induction H; intros [|j] Hj; cbn in Hj; try discriminate.
  - injection Hj as ->. exists c, c1. split; [constructor|auto].
  - destruct (IHchan_run j Hj) as (a & b & A & B). exists a, b. split; auto. cbn. econstructor; eauto.
Qed.

Lemma run_snoc c tr c' e : chan_run c (tr ++ [e]) c' -> exists c1, chan_run c tr c1 /\ chan_step c1 e c'.
Proof.
  revert c. induction tr; intros c H; inversion H; subst.
  - inversion H5; subst. exists c. split; [constructor|auto].
  - destruct (IHtr _ H5) as (x & A & B). exists x. split; auto. econstructor; eauto.
Qed.

(** The state of the exchange, in terms of the trace. *)
Definition tells (tr : list ev) (c : chan) : Prop :=
  match flight c with
  | Some q => exists i, nth_error tr i = Some (EvSent Client q) /\
      (forall k w, (i < k)%nat -> ~ sent_at w tr k) /\
      (seen c = true -> exists g cap len d, (i < g)%nat /\ nth_error tr g = Some (EvGot Server cap len d))
  | None => match answer c with
    | Some r => exists i j q, (i < j)%nat /\ nth_error tr i = Some (EvSent Client q) /\ nth_error tr j = Some (EvSent Server r) /\
        (forall k w, (i < k)%nat -> k <> j -> ~ sent_at w tr k)
    | None => forall w k, ~ sent_at w tr k
    end
  end.

Lemma tells_snoc tr e c c' :
  (forall w d, e <> EvSent w d) -> flight c' = flight c -> answer c' = answer c ->
  (seen c' = true -> seen c = true \/ exists cap len d, e = EvGot Server cap len d) ->
  tells tr c -> tells (tr ++ [e]) c'.
Proof.
  intros NE F1 F2 F3 IH.
  assert (K1 : forall i x, nth_error tr i = Some x -> nth_error (tr ++ [e]) i = Some x).
  { intros i x Hx. rewrite nth_error_app1; auto. apply nth_error_Some. congruence. }
  assert (K2 : forall k w, sent_at w (tr ++ [e]) k -> sent_at w tr k).
  { intros k w (d & Hd). destruct (Nat.lt_ge_cases k (length tr)).
    - exists d. rewrite nth_error_app1 in Hd; auto.
    - rewrite nth_error_app2 in Hd by auto. destruct (k - length tr)%nat eqn:EK.
      + injection Hd as ->. exfalso. exact (NE _ _ eq_refl).
      + destruct n; discriminate. }
  unfold tells in *. rewrite F1, F2. destruct (flight c) as [q|]; [|destruct (answer c)].
  - destruct IH as (i & A & B & C). exists i. split; [auto|]. split; [intros k w Hk X; exact (B k w Hk (K2 _ _ X))|].
    intros HS. destruct (F3 HS) as [X|(cap & len & d & X)].
    + destruct (C X) as (g & cap & len & d & C1 & C2). exists g, cap, len, d. auto.
    + exists (length tr), cap, len, d. split; [apply nth_error_Some; congruence|].
      rewrite nth_error_app2, Nat.sub_diag by auto. cbn. congruence.
  - destruct IH as (i & j & q & A & B & C & D). exists i, j, q. repeat split; auto.
    intros k w Hk Hj X. exact (D k w Hk Hj (K2 _ _ X)).
  - intros w k X. exact (IH w k (K2 _ _ X)).
Qed.

Lemma chan_state tr : forall c, chan_run empty tr c -> tells tr c.
Proof.
  induction tr as [|e tr IH] using rev_ind; intros c H.
  - inversion H; subst. cbn. intros w k (d & X). destruct k; discriminate.
  - destruct (run_snoc _ _ _ _ H) as (c1 & H1 & H2). specialize (IH _ H1).
    assert (LT : forall i x, nth_error tr i = Some x -> (i < length tr)%nat) by (intros i x Hx; apply nth_error_Some; congruence).
    destruct e as [w op|w d|w cap len d|w rc|].
    + apply (tells_snoc _ _ c1); auto; try discriminate; destruct w, op; cbn in H2; subst; auto.
    + destruct w; cbn in H2.
      * destruct H2 as (F & ->). cbn. exists (length tr). split.
        { rewrite nth_error_app2, Nat.sub_diag by auto. reflexivity. }
        split; [|discriminate]. intros k w Hk (d' & X). apply nth_error_Some_lt in X. rewrite app_length in X. cbn in X. lia.
      * destruct H2 as (F & FS & ->). unfold tells in *. cbn. destruct (flight c1) as [q|]; [|congruence].
        destruct IH as (i & A & B & C). exists i, (length tr), q. split; [eauto|]. split; [rewrite nth_error_app1; eauto|]. split.
        { rewrite nth_error_app2, Nat.sub_diag by auto. reflexivity. }
        intros k w Hk Hj (d' & X). destruct (Nat.lt_ge_cases k (length tr)).
        { apply (B k w Hk). exists d'. rewrite nth_error_app1 in X; auto. }
        apply nth_error_Some_lt in X. rewrite app_length in X. cbn in X. lia.
    + destruct w; cbn in H2.
      * destruct H2 as (r & F1 & F2 & F3 & _ & _ & ->). apply (tells_snoc _ _ c1); auto; discriminate.
      * destruct H2 as (q & F1 & _ & _ & ->). apply (tells_snoc _ _ c1); auto; try discriminate. right. eauto.
    + destruct w; cbn in H2; destruct H2 as (_ & ->); apply (tells_snoc _ _ c1); auto; discriminate.
    + cbn in H2. subst. apply (tells_snoc _ _ c1); auto; discriminate.
Qed.

Lemma firstn_nth {A} (l : list A) j k x : nth_error (firstn j l) k = Some x -> nth_error l k = Some x /\ (k < j)%nat.
Proof.
  intros H. assert (k < length (firstn j l))%nat by (apply nth_error_Some; congruence). rewrite firstn_length in H0.
  split; [|lia]. rewrite <- (firstn_skipn j l). rewrite nth_error_app1; auto. rewrite firstn_length. auto.
Qed.
Lemma nth_firstn {A} (l : list A) j k x : nth_error l k = Some x -> (k < j)%nat -> nth_error (firstn j l) k = Some x.
Proof.
  intros H Hk. rewrite <- (firstn_skipn j l) in H. rewrite nth_error_app1 in H; auto.
  rewrite firstn_length. assert (k < length l)%nat by (apply nth_error_Some; rewrite firstn_skipn in H; congruence). lia.
Qed.

Section Trace.
Variables (tr : list ev) (c0 : chan).
Hypothesis RUN : chan_run empty tr c0.

Theorem server_gets : forall j cap len d, nth_error tr j = Some (EvGot Server cap len d) ->
  exists i q, (i < j)%nat /\ nth_error tr i = Some (EvSent Client q) /\ len = length q /\ d = firstn cap q /\
    forall k w, (i < k < j)%nat -> ~ sent_at w tr k.
Proof.
  intros j cap len d Hj. destruct (chan_at _ _ _ _ _ RUN Hj) as (c1 & c2 & H1 & H2).
  destruct H2 as (q & F & L & D & _). pose proof (chan_state _ _ H1) as T. unfold tells in T. rewrite F in T.
  destruct T as (i & A & B & _). destruct (firstn_nth _ _ _ _ A) as [A1 A2].
  exists i, q. repeat split; auto. intros k w Hk (x & X). apply (B k w); [lia|]. exists x. apply nth_firstn; [auto|lia].
Qed.

Theorem server_answers : forall j r, nth_error tr j = Some (EvSent Server r) ->
  exists i g q cap len d, (i < g < j)%nat /\ nth_error tr i = Some (EvSent Client q) /\
    nth_error tr g = Some (EvGot Server cap len d) /\
    forall k w, (i < k < j)%nat -> ~ sent_at w tr k.
Proof.
  intros j r Hj. destruct (chan_at _ _ _ _ _ RUN Hj) as (c1 & c2 & H1 & H2).
  destruct H2 as (F & S & _). pose proof (chan_state _ _ H1) as T. unfold tells in T.
  destruct (flight c1) as [q|]; [|congruence].
  destruct T as (i & A & B & C). destruct (firstn_nth _ _ _ _ A) as [A1 A2].
  destruct (C S) as (g & cap & len & d & G1 & G2). destruct (firstn_nth _ _ _ _ G2) as [G3 G4].
  exists i, g, q, cap, len, d. repeat split; auto. intros k w Hk (x & X). apply (B k w); [lia|]. exists x. apply nth_firstn; [auto|lia].
Qed.

Theorem client_gets : forall j cap len d, nth_error tr j = Some (EvGot Client cap len d) ->
  exists i k q r, (i < k < j)%nat /\ nth_error tr i = Some (EvSent Client q) /\ nth_error tr k = Some (EvSent Server r) /\
    len = length r /\ d = firstn cap r /\ forall n w, (i < n < j)%nat -> n <> k -> ~ sent_at w tr n.
Proof.
  intros j cap len d Hj. destruct (chan_at _ _ _ _ _ RUN Hj) as (c1 & c2 & H1 & H2).
  destruct H2 as (r & F & A & W & L & D & _). pose proof (chan_state _ _ H1) as T. unfold tells in T. rewrite F, A in T.
  destruct T as (i & k & q & T1 & T2 & T3 & T4). destruct (firstn_nth _ _ _ _ T2) as [A1 A2]. destruct (firstn_nth _ _ _ _ T3) as [A3 A4].
  exists i, k, q, r. repeat split; auto. intros n w Hn Hk (x & X). apply (T4 n w); [lia|auto|]. exists x. apply nth_firstn; [auto|lia].
Qed.

Theorem client_sends : forall i j q q', (i < j)%nat -> nth_error tr i = Some (EvSent Client q) -> nth_error tr j = Some (EvSent Client q') ->
  exists k, (i < k < j)%nat /\ sent_at Server tr k.
Proof.
  intros i j q q' Hij Hi Hj. destruct (chan_at _ _ _ _ _ RUN Hj) as (c1 & c2 & H1 & H2).
  destruct H2 as (F & _). pose proof (chan_state _ _ H1) as T. unfold tells in T. rewrite F in T.
  pose proof (nth_firstn _ j _ _ Hi Hij) as Hi'. destruct (answer c1) as [r|].
  - destruct T as (i' & k & q0 & T1 & T2 & T3 & T4). destruct (firstn_nth _ _ _ _ T3) as [A3 A4].
    exists k. split; [|exists r; auto]. split; auto.
    destruct (Nat.lt_ge_cases i k); auto. exfalso. destruct (Nat.eq_dec i k); [subst; congruence|].
    apply (T4 i Client); [lia|auto|]. exists q. auto.
  - exfalso. apply (T Client i). exists q. auto.
Qed.

Lemma want_run c es c' : chan_run c es c' -> want c = false -> (forall q, ~ In (EvSent Client q) es) ->
  forall cap len d, ~ In (EvGot Client cap len d) es.
Proof.
  induction 1; intros W NS cap len d HI; [destruct HI|].
  assert (E : want c1 = false /\ e <> EvGot Client cap len d).
  { destruct e as [[] op|[] x|[] a b x|[] rc|]; cbn in H; try (destruct op); subst; try (split; [exact W|discriminate]).
    - exfalso. apply (NS x). now left.
    - destruct H as (_ & _ & ->). split; [exact W|discriminate].
    - destruct H as (r & _ & _ & X & _). congruence.
    - destruct H as (q & _ & _ & _ & ->). split; [exact W|discriminate].
    - destruct H as (_ & ->). split; [exact W|discriminate].
    - destruct H as (_ & ->). split; [exact W|discriminate].
    - split; [reflexivity|discriminate]. }
  destruct E as [E1 E2]. destruct HI as [HI|HI]; [congruence|].
  apply (IHchan_run E1) in HI; auto. intros q HQ. apply (NS q). now right.
Qed.

(** Nothing is delivered twice. *)
Theorem client_gets_once : forall i j cap len d cap' len' d', (i < j)%nat ->
  nth_error tr i = Some (EvGot Client cap len d) -> nth_error tr j = Some (EvGot Client cap' len' d') ->
  exists k, (i < k < j)%nat /\ sent_at Client tr k.
Proof.
  intros i j cap len d cap' len' d' Hij Hi Hj.
  assert (Li : (S i <= length tr)%nat) by (apply nth_error_Some; congruence).
  destruct (chan_prefix _ _ _ (S i) RUN Li) as (c1 & H1 & H2).
  assert (W : want c1 = false).
  { replace (firstn (S i) tr) with (firstn i tr ++ [EvGot Client cap len d]) in H1.
    - destruct (run_snoc _ _ _ _ H1) as (x & _ & S2). destruct S2 as (r & _ & _ & _ & _ & _ & ->). reflexivity.
    - rewrite (firstn_S_nth EvAbort) by lia. f_equal. f_equal. symmetry. now apply nth_error_nth. }
  assert (Lj : (j - S i <= length (skipn (S i) tr))%nat).
  { rewrite skipn_length. assert (j < length tr)%nat by (apply nth_error_Some; congruence). lia. }
  assert (Lj' : (S (j - S i) <= length (skipn (S i) tr))%nat).
  { rewrite skipn_length. assert (j < length tr)%nat by (apply nth_error_Some; congruence). lia. }
  destruct (chan_prefix _ _ _ _ H2 Lj') as (c2 & H3 & _).
  assert (NS : forall k x, nth_error (skipn (S i) tr) k = Some x -> nth_error tr (S i + k) = Some x).
  { intros k x X. rewrite <- (firstn_skipn (S i) tr). rewrite nth_error_app2; rewrite firstn_length; [|lia].
    replace (S i + k - Nat.min (S i) (length tr))%nat with k by lia. auto. }
  assert (IN : In (EvGot Client cap' len' d') (firstn (S (j - S i)) (skipn (S i) tr))).
  { apply nth_error_In with (j - S i)%nat. apply nth_firstn; [|lia].
    rewrite <- (firstn_skipn (S i) tr) in Hj. rewrite nth_error_app2 in Hj; rewrite firstn_length in *; [|lia].
    replace (j - Nat.min (S i) (length tr))%nat with (j - S i)%nat in Hj by lia. auto. }
  destruct (existsb (fun e => match e with EvSent Client _ => true | _ => false end) (firstn (S (j - S i)) (skipn (S i) tr))) eqn:EX.
  - apply existsb_exists in EX. destruct EX as (e & E1 & E2). destruct e as [| [] q | | |]; try discriminate.
    apply In_nth_error in E1. destruct E1 as (k & E1). destruct (firstn_nth _ _ _ _ E1) as [E3 E4]. apply NS in E3.
    exists (S i + k)%nat. split; [|exists q; auto]. split; [lia|].
    assert ((S i + k)%nat <> j) by (intros EQ; rewrite EQ in E3; congruence). lia.
  - exfalso. apply (want_run _ _ _ H3 W) in IN; auto. intros q HQ.
    assert (existsb (fun e => match e with EvSent Client _ => true | _ => false end) (firstn (S (j - S i)) (skipn (S i) tr)) = true).
    { apply existsb_exists. eexists. split; [exact HQ|reflexivity]. }
    congruence.
Qed.
End Trace.
