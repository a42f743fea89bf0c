(** The operations of the log backend against its specification. *)
From Verif Require Import Base Flash BaseLemmas NvmSpec Store LogModel LogSpec LogRam LogProof.

Section Ops.
Variable C : lcfg.
Variable fl : bool.
Hypothesis HC : lcfg_ok C.
Notation G := (l_g C).
Notation P := (l_psz C).
Notation lpart := (lpart C).
Notation hd := (hd C).
Notation hblank := (hblank C).
Notation img := (img C).
Notation ramb := (ramb C).
Notation lwp := (lwp C fl).

Definition hdr0 (ep : N) (n : nat) : list N := le_enc 4 ep ++ le_enc 4 (N.of_nat n) ++ repeat 0%N (G - 8).
Definition older (ep : N) (f : flash) (p : bool) : Prop := hblank p f \/ (h_epoch (hd f p) < ep)%N.
Definition Full (a : bool) (ep : N) (bs : list N) (f : flash) : Prop :=
  hd f a = hdr0 ep (length bs) /\ read_units f (lpart a + G) (length bs) = bs /\ older ep f (negb a).
Definition Rep (n : N) (f : flash) (s : store) : Prop :=
  (hblank false f /\ hblank true f /\ s = []) \/
  exists a ep bs, Full a ep bs f /\ ~ hblank a f /\ img s bs /\ good C s /\ length bs <= P - G /\ (ep <= n)%N.
Definition Sess (n : N) (f : flash) (x : lctx) (s : store) : Prop :=
  exists bs, Full (lx_act x) (lx_epoch x) bs f /\ ramb x s bs /\ (lx_epoch x <= n)%N.

Lemma sz : 8 <= G /\ G <= P /\ (N.of_nat P < 2 ^ 31)%N.
Proof. destruct HC as (H1 & H2 & _ & _ & _ & H6 & _). split; [auto|]. split; [auto|]. change (2 ^ 32)%N with (2 * 2 ^ 31)%N in H6. lia. Qed.

Lemma hdr0_epoch ep n : (ep < 2 ^ 32)%N -> h_epoch (hdr0 ep n) = ep.
Proof. intros H. unfold h_epoch, hdr0. rewrite firstn_app_len by apply le_enc_length. apply le_dec_enc. exact H. Qed.
Lemma hdr0_size ep n : (N.of_nat n < 2 ^ 32)%N -> h_size (hdr0 ep n) = N.of_nat n.
Proof.
  intros H. unfold h_size, hdr0. rewrite skipn_app_len by apply le_enc_length.
  rewrite firstn_app_len by apply le_enc_length. apply le_dec_enc. exact H.
Qed.
Lemma hdr0_pad ep n : skipn 8 (hdr0 ep n) = repeat 0%N (G - 8).
Proof. unfold hdr0. rewrite app_assoc. apply skipn_app_len. rewrite app_length, !le_enc_length. reflexivity. Qed.

Lemma hd_blank_repeat f p : hblank p f -> hd f p = repeat (l_eb C) G.
Proof.
  intros B. unfold LogProof.hd, read_units.
  assert (H : forall n o, lpart p <= o -> o + n <= lpart p + G -> map f (seq o n) = repeat (l_eb C) n).
  { induction n as [|n IH]; intros o H1 H2; auto. cbn [seq map repeat]. rewrite B by lia. f_equal. apply IH; lia. }
  apply H; lia.
Qed.
Lemma firstn_repeat_le {A} (a : A) k n : k <= n -> firstn k (repeat a n) = repeat a k.
Proof. revert n. induction k as [|k IH]; intros [|n] H; cbn [firstn repeat]; auto; [lia|]. f_equal. apply IH. lia. Qed.
Lemma skipn_repeat_le {A} (a : A) k n : skipn k (repeat a n) = repeat a (n - k).
Proof. revert n. induction k as [|k IH]; intros [|n]; cbn [skipn repeat Nat.sub]; auto. Qed.

Lemma blank_full a ep bs f s : Full a ep bs f -> img s bs -> length bs <= P - G -> (ep < 2 ^ 32)%N -> hblank a f ->
  hblank (negb a) f /\ s = [] /\ ep = 0%N /\ bs = [].
Proof.
  intros (F1 & F2 & F3) I L EP B. pose proof sz as (S1 & S2 & S3).
  pose proof (hd_blank_repeat f a B) as E. rewrite F1 in E.
  assert (SZ : h_size (hdr0 ep (length bs)) = le_dec (repeat (l_eb C) 4)).
  { unfold h_size. rewrite E, skipn_repeat_le, firstn_repeat_le by lia. reflexivity. }
  assert (EE : h_epoch (hdr0 ep (length bs)) = le_dec (repeat (l_eb C) 4)).
  { unfold h_epoch. rewrite E, firstn_repeat_le by lia. reflexivity. }
  rewrite hdr0_size in SZ by (change (2 ^ 32)%N with (2 * 2 ^ 31)%N; lia). rewrite hdr0_epoch in EE by auto.
  destruct HC as (_ & _ & _ & _ & _ & _ & _ & [Z|Z]); rewrite Z in *.
  - change (le_dec (repeat 0%N 4)) with 0%N in *. assert (bs = []) as -> by (destruct bs; [auto|cbn [length] in SZ; lia]).
    split; [|split; [inversion I; auto|auto]]. destruct F3 as [F3|F3]; auto. lia.
  - change (le_dec (repeat 255%N 4)) with 4294967295%N in *. change (2 ^ 31)%N with 2147483648%N in S3. lia.
Qed.

Lemma Full_Rep n a ep bs f s : Full a ep bs f -> img s bs -> good C s -> length bs <= P - G -> (ep <= n)%N -> (n < 2 ^ 32)%N -> Rep n f s.
Proof.
  intros F I GD L EN NN. destruct (lblankb C f (lpart a) G) eqn:B.
  - rewrite lblank_true in B. destruct (blank_full a ep bs f s F I L ltac:(lia) B) as (B2 & -> & _).
    left. destruct a; auto.
  - right. exists a, ep, bs. split; auto. split; [|auto]. intros B'. apply lblank_true in B'. unfold LogModel.lpart in *. congruence.
Qed.
Lemma Sess_Rep n f x s : Sess n f x s -> (n < 2 ^ 32)%N -> Rep n f s.
Proof. intros (bs & F & (I & GD & L & _) & E) N. eapply Full_Rep; eauto. Qed.
Lemma Rep_mono n m f s : (n <= m)%N -> Rep n f s -> Rep m f s.
Proof. intros H [R|(a & ep & bs & R1 & R2 & R3 & R4 & R5 & R6)]; [left; auto|]. right. exists a, ep, bs. repeat (split; [auto|]). lia. Qed.
Lemma Sess_mono n m f x s : (n <= m)%N -> Sess n f x s -> Sess m f x s.
Proof. intros H (bs & F & R & E). exists bs. split; [auto|]. split; [auto|]. lia. Qed.

(** Writing to the other partition keeps [Full]. *)
Lemma Full_same a ep bs f g : Full a ep bs f -> length bs <= P - G -> samep C a f g ->
  hd g (negb a) = hd f (negb a) \/ hblank (negb a) g -> Full a ep bs g.
Proof.
  intros (F1 & F2 & F3) L S1 H. pose proof sz as (S2 & S3 & _). split; [rewrite <- F1; apply hd_same; auto|].
  split; [rewrite <- F2 at 2; apply read_ext; intros o I; apply S1; lia|].
  destruct H as [H|H]; [|left; auto]. destruct F3 as [B|O]; [left|right; rewrite H; auto].
  (* a header equal to a blank one is blank *)
  intros o I. assert (E : forall k, k < G -> nth k (hd g (negb a)) 0%N = nth k (hd f (negb a)) 0%N) by (intros; rewrite H; auto).
  specialize (E (o - lpart (negb a)) ltac:(lia)). unfold LogProof.hd, read_units in E.
  rewrite (nth_indep _ 0%N (g 0)), (nth_indep (map f _) 0%N (f 0)) in E by (rewrite map_length, seq_length; lia).
  rewrite !map_nth, !seq_nth in E by lia. replace (lpart (negb a) + (o - lpart (negb a))) with o in E by lia.
  rewrite E. apply B. auto.
Qed.
Lemma Full_erase a ep bs f g : Full a ep bs f -> length bs <= P - G -> erased_some C (negb a) f g -> Full a ep bs g.
Proof. intros F L [E1 E2]. rewrite Bool.negb_involutive in E1. eapply Full_same; eauto. Qed.

(** ** Reading the active partition *)
Lemma wp_read x ep bs f (Q : Z * lctx -> flash -> Prop) (Cr : flash -> Prop) :
  Full (lx_act x) ep bs f -> length bs <= P - G -> (ep < 2 ^ 32)%N -> Cr f ->
  Q (OK, mkLx (lx_act x) ep (N.of_nat (length bs)) (repeat 0%N (G - 8)) (splice (lx_data x) 0 bs)) f ->
  lwp (part_read C x) f Q Cr.
Proof.
  intros (F1 & F2 & F3) L EP HCr HQ. pose proof sz as (S1 & S2 & S3). pose proof (lpart_le C (lx_act x)) as LL.
  unfold part_read. cbn [LogProof.lwp lokcall]. split; [split; [lia|auto]|]. split; [|discriminate].
  cbn [lstep]. destruct (Nat.leb_spec (lpart (lx_act x) + G) (2 * P)); [|lia]. cbn [fst snd].
  change (is_ok OK) with true. cbv iota zeta. fold (hd f (lx_act x)). rewrite F1, hdr0_epoch, hdr0_pad by auto.
  rewrite hdr0_size by (change (2 ^ 32)%N with (2 * 2 ^ 31)%N; lia). cbn [lx_act lx_size lx_data lx_epoch lx_pad].
  destruct (N.ltb_spec (N.of_nat (P - G)) (N.of_nat (length bs))); [lia|].
  destruct (N.eqb_spec (N.of_nat (length bs)) 0) as [E|NE].
  - assert (bs = []) as -> by (destruct bs; [auto|cbn [length] in E; lia]). cbn [LogProof.lwp]. split; auto.
  - cbn [LogProof.lwp lokcall]. rewrite Nat2N.id. split; [split; [lia|auto]|]. split; [|discriminate].
    cbn [lstep]. destruct (Nat.leb_spec (lpart (lx_act x) + G + length bs) (2 * P)); [|lia]. cbn [fst snd].
    change (is_ok OK) with true. cbv iota. rewrite F2. split; auto.
Qed.

(** ** A new epoch *)
Lemma hdr_eq x s bs : ramb x s bs -> hdr_bytes x = hdr0 (lx_epoch x) (length bs) /\ length (hdr_bytes x) = G.
Proof.
  intros (_ & _ & _ & SZ & _ & PD & _). unfold hdr_bytes, hdr0. rewrite SZ, PD. split; auto.
  rewrite !app_length, !le_enc_length, repeat_length. pose proof sz. lia.
Qed.
Definition next_lx (x : lctx) : lctx := mkLx (negb (lx_act x)) (lx_epoch x + 1) (lx_size x) (lx_pad x) (lx_data x).

Lemma wp_new_epoch x s bs' bs f (Q : Z * lctx -> flash -> Prop) (Cr : flash -> Prop) :
  let a := lx_act x in let ep := lx_epoch x in
  Full a ep bs f -> length bs <= P - G -> ramb x s bs' -> (ep + 1 < 2 ^ 32)%N ->
  (forall g, Full a ep bs g \/ Full (negb a) (ep + 1) bs' g -> Cr g) ->
  (forall g, Full (negb a) (ep + 1) bs' g -> Q (OK, next_lx x) g) ->
  (fl = true -> forall g rc x', rc <> OK -> lx_act x' = a -> lx_data x' = lx_data x -> Full a ep bs g -> Q (rc, x') g) ->
  lwp (new_epoch C x) f Q Cr.
Proof.
  intros a ep F L R EP HCr HQ HF. pose proof sz as (S1 & S2 & S3).
  pose proof R as (I & GD & LB & SZ & LD & PD & (junk & D) & EMP).
  unfold new_epoch. cbv zeta. fold a ep. replace ((ep + 1) mod 4294967296)%N with (ep + 1)%N by (symmetry; apply N.mod_small; exact EP).
  set (x1 := mkLx a (ep + 1) (lx_size x) (lx_pad x) (lx_data x)).
  assert (SD : forall p (g : flash), samep C p g g) by (intros p g o Ho; auto).
  apply lwp_bind. apply wp_erase; auto.
  - intros g E. apply HCr. left. eapply Full_erase; eauto.
  - intros g1 E1 E2. rewrite Bool.negb_involutive in E1. change (is_ok OK) with true. cbv iota.
    assert (HB : hblank (negb a) g1) by (intros o Ho; apply E2; lia).
    assert (F1 : Full a ep bs g1) by (eapply Full_same; eauto).
    apply lwp_bind. unfold part_write. cbn [lx_size lx_data x1].
    destruct (used_mod C s) as [k U]. rewrite <- (img_len C HC s bs' I) in U.
    replace (lx_size x mod N.of_nat G)%N with 0%N by (rewrite SZ, U, Nat2N.inj_mul, N.mod_mul by lia; auto).
    cbn [N.eqb negb].
    (* what remains after the data *)
    assert (REST : forall g2, data_some C (negb a) g1 g2 -> read_units g2 (lpart (negb a) + G) (length bs') = bs' ->
      lwp (if is_ok OK then do rc <- part_commit C x1 (negb a) ;; Ret (if is_ok rc then (OK, with_act x1 (negb a)) else (rc, x1))
           else Ret (OK, x1)) g2 Q Cr).
    { intros g2 [D1 D2] RD. change (is_ok OK) with true. cbv iota. rewrite Bool.negb_involutive in D1.
      assert (F2 : Full a ep bs g2) by (eapply Full_same; eauto).
      assert (HB2 : hblank (negb a) g2).
      { intros o Ho. assert (X : hd g2 (negb a) = hd g1 (negb a)) by exact D2.
        rewrite (hd_blank_repeat g1 _ HB) in X.
        assert (Y : nth (o - lpart (negb a)) (hd g2 (negb a)) 0%N = nth (o - lpart (negb a)) (repeat (l_eb C) G) 0%N) by (rewrite X; auto).
        unfold LogProof.hd, read_units in Y. rewrite (nth_indep _ 0%N (g2 0)) in Y by (rewrite map_length, seq_length; lia).
        rewrite map_nth, seq_nth in Y by lia. rewrite (nth_indep _ 0%N (l_eb C)), nth_repeat in Y by (rewrite repeat_length; lia).
        replace (lpart (negb a) + (o - lpart (negb a))) with o in Y by lia. exact Y. }
      assert (HX : hdr_bytes x1 = hdr0 (ep + 1) (length bs') /\ length (hdr_bytes x1) = G).
      { apply (hdr_eq x1 s bs'). unfold LogRam.ramb. cbn [lx_size lx_data lx_pad x1]. split; [exact I|]. split; [exact GD|]. split; [exact LB|]. split; [exact SZ|]. split; [exact LD|]. split; [exact PD|]. split; [exists junk; exact D|exact EMP]. }
      destruct HX as [HX HL].
      assert (NEW : forall g3, rest_same C (negb a) g2 g3 -> hd g3 (negb a) = hdr_bytes x1 -> Full (negb a) (ep + 1) bs' g3).
      { intros g3 [T1 T2] T3. rewrite Bool.negb_involutive in T1. split; [rewrite T3; exact HX|]. split.
        - rewrite <- RD at 2. apply read_ext. intros o Ho. apply T2. lia.
        - rewrite Bool.negb_involutive. right. rewrite (hd_same C HC g2 g3 a T1). destruct F2 as [-> _]. rewrite hdr0_epoch by lia. lia. }
      assert (OLD : forall g3, rest_same C (negb a) g2 g3 -> hd g3 (negb a) = hd g2 (negb a) -> Full a ep bs g3).
      { intros g3 [T1 _] T3. rewrite Bool.negb_involutive in T1. eapply Full_same; eauto. }
      apply lwp_bind. apply wp_commit; auto.
      - intros g3 T1 [T2|T2]; apply HCr; [left|right]; auto.
      - intros g3 T1 T2. apply lwp_ret; [|apply HCr; right; auto]. change (is_ok OK) with true. cbv iota. apply HQ. auto.
      - intros Hf g3 rc NE T1 T2. apply is_ok_false in NE as NE'. apply lwp_ret; [|apply HCr; left; auto]. rewrite NE'. apply HF; auto. }
    destruct (N.eqb_spec (lx_size x) 0) as [E0|NE0].
    + assert (bs' = []) as EB by (rewrite SZ in E0; destruct bs'; [auto|cbn [length] in E0; lia]).
      apply lwp_ret; [|apply HCr; left; auto]. apply REST; [split; [apply SD|auto]|rewrite EB; reflexivity].
    + rewrite SZ, Nat2N.id, D, firstn_app_len by auto. apply wp_data; auto.
      * rewrite U. apply Nat.mod_mul. lia.
      * intros o Ho. apply E2. lia.
      * intros g2 [D1 D2]. rewrite Bool.negb_involutive in D1. apply HCr. left. eapply Full_same; eauto.
      * intros Hf g2 rc NE [D1 D2]. rewrite Bool.negb_involutive in D1. apply is_ok_false in NE as NE'. rewrite NE'.
        assert (F2 : Full a ep bs g2) by (eapply Full_same; eauto).
        apply lwp_ret; [apply HF; auto|apply HCr; left; auto].
  - intros Hf g rc NE E. apply is_ok_false in NE as NE'. rewrite NE'.
    assert (F2 : Full a ep bs g) by (eapply Full_erase; eauto).
    apply lwp_ret; [apply HF; auto|apply HCr; left; auto].
Qed.

Lemma wp_fallback x s bs' bs f (Q : Z * lctx -> flash -> Prop) (Cr : flash -> Prop) :
  let a := lx_act x in let ep := lx_epoch x in
  Full a ep bs f -> length bs <= P - G -> ramb x s bs' -> (ep + 1 < 2 ^ 32)%N ->
  (forall g, Full a ep bs g \/ Full (negb a) (ep + 1) bs' g -> Cr g) ->
  (forall g, Full (negb a) (ep + 1) bs' g -> Q (OK, next_lx x) g) ->
  (fl = true -> forall g rc, rc <> OK -> Full a ep bs g ->
     Q (rc, mkLx a ep (N.of_nat (length bs)) (repeat 0%N (G - 8)) (splice (lx_data x) 0 bs)) g) ->
  lwp (new_epoch_or_fallback C x) f Q Cr.
Proof.
  intros a ep F L R EP HCr HQ HF. pose proof R as (_ & _ & LB & _).
  unfold new_epoch_or_fallback. apply lwp_bind.
  apply (wp_new_epoch x s bs' bs); auto; fold a ep.
  - intros g FN. cbv iota. change (is_ok OK) with true. cbv iota. cbn [bind].
    apply lwp_bind. apply wp_erase; auto; cbn [next_lx lx_act]; fold a.
    + intros g1 E. apply HCr. right. eapply Full_erase; eauto.
    + intros g1 E1 E2. rewrite Bool.negb_involutive in *.
      assert (F1 : Full (negb a) (ep + 1) bs' g1).
      { eapply Full_same; eauto. rewrite Bool.negb_involutive. right. intros o Ho. apply E2. pose proof sz. lia. }
      apply lwp_ret; auto.
    + intros Hf g1 rc NE E. assert (F1 : Full (negb a) (ep + 1) bs' g1) by (eapply Full_erase; eauto). apply lwp_ret; auto.
  - intros Hf g rc x' NE A DX FO. cbv iota. apply is_ok_false in NE as NE'. rewrite NE'. cbn [bind].
    apply lwp_bind. apply lwp_bind. apply wp_read with (ep := ep) (bs := bs); auto; [rewrite A; auto|lia|].
    cbv iota. apply lwp_ret; [|auto]. apply lwp_bind. rewrite A, DX.
    apply wp_erase; auto; cbn [lx_act]; rewrite ?A.
    + intros g1 E. apply HCr. left. eapply Full_erase; eauto.
    + intros g1 E1 E2. rewrite Bool.negb_involutive in *.
      assert (F1 : Full a ep bs g1).
      { eapply Full_same; eauto. right. intros o Ho. apply E2. pose proof sz. lia. }
      apply lwp_ret; auto.
    + intros _ g1 rc1 NE1 E. assert (F1 : Full a ep bs g1) by (eapply Full_erase; eauto). apply lwp_ret; auto.
Qed.
End Ops.
