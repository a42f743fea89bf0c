(** Start of the log backend, one operation, and lives of a device. *)
From Verif Require Import Base Flash BaseLemmas NvmSpec Store LogModel LogSpec LogRam LogProof LogOps.

Definition lcap_of (C : lcfg) : lcap := mkLcap (l_oc C) (l_psz C - l_g C) (l_g C).
Definition wcost (o : nvm_op) : N := if is_query o then 0%N else 1%N.

Section Life.
Variable C : lcfg.
Hypothesis HC : lcfg_ok C.
Notation G := (l_g C).
Notation P := (l_psz C).
Notation K := (lcap_of C).

Section Fl.
Variable fl : bool.
Notation lwp := (lwp C fl).

Definition boot_post (n : N) (s : store) (rx : Z * lctx) (g : flash) : Prop :=
  (fst rx = OK /\ Sess C n g (snd rx) s) \/ (fl = true /\ fst rx <> OK /\ Rep C n g s).

Lemma id_zeros n : m_id (meta_of_bytes (firstn 32 (skipn 0 (repeat 0%N n)))) = 0%N.
Proof.
  cbn [skipn]. set (l := firstn 32 (repeat 0%N n)).
  assert (Z : Forall (eq 0%N) l).
  { unfold l. clear. generalize 32. intros k. revert n. induction k as [|k IH]; intros [|n]; cbn [firstn repeat]; auto. }
  assert (D : forall l, Forall (eq 0%N) l -> le_dec l = 0%N).
  { clear. induction 1 as [|y l E H IH]; auto. cbn [le_dec]. rewrite IH, <- E. reflexivity. }
  unfold meta_of_bytes. cbn [m_id]. apply D. clear -Z.
  revert Z. generalize 2. intros k Z. revert k. induction Z as [|y l E H IH]; intros [|k]; cbn [firstn]; auto.
Qed.

Lemma read_session n a ep bs f s : Full C a ep bs f -> img C s bs -> good C s -> length bs <= P - G -> (ep <= n)%N ->
  Sess C n f (mkLx a ep (N.of_nat (length bs)) (repeat 0%N (G - 8)) (splice (repeat 0%N P) 0 bs)) s.
Proof.
  intros F I GD L E. exists bs. cbn [lx_act lx_epoch]. split; [auto|]. split; [|auto].
  unfold LogRam.ramb. cbn [lx_size lx_data lx_pad]. pose proof (sz C HC) as (S1 & S2 & _).
  split; [auto|]. split; [auto|]. split; [auto|]. split; [auto|].
  split; [rewrite splice_length; rewrite repeat_length; lia|]. split; [auto|].
  split; [eexists; unfold splice; cbn [firstn app]; reflexivity|].
  intros ->. inversion I; subst. unfold meta_at. cbn [lx_data]. unfold splice. cbn [firstn app length Nat.add skipn].
  apply (id_zeros P).
Qed.

Lemma wp_boot_tail n a ep bs f s : Full C a ep bs f -> img C s bs -> good C s -> length bs <= P - G -> (ep <= n)%N -> (n < 2 ^ 32)%N ->
  lwp (do '(rc, x) <- part_read C (with_act (lx_zero C) a) ;;
       if is_ok rc then do rc <- part_erase C (negb (lx_act x)) ;; Ret (rc, x) else Ret (rc, x)) f (boot_post n s) (fun g => Rep C n g s).
Proof.
  intros F I GD L E N. apply lwp_bind. apply wp_read with (ep := ep) (bs := bs); auto.
  - lia.
  - eapply Full_Rep; eauto.
  - cbv iota. change (is_ok OK) with true. cbv iota. cbn [lx_act with_act]. apply lwp_bind. apply wp_erase; auto.
    + intros g H. eapply Full_Rep; eauto. eapply Full_erase; eauto.
    + intros g H1 H2. rewrite Bool.negb_involutive in H1.
      assert (FG : Full C a ep bs g).
      { eapply Full_same; eauto. right. intros o Ho. apply H2. pose proof (sz C HC). lia. }
      apply lwp_ret; [|eapply Full_Rep; eauto]. left. split; [auto|]. cbn [snd]. apply read_session; auto.
    + intros Hf g rc NE H. assert (FG : Full C a ep bs g) by (eapply Full_erase; eauto).
      assert (R : Rep C n g s) by (eapply Full_Rep; eauto).
      apply lwp_ret; [|auto]. right. auto.
Qed.

Lemma hblank_dec p f : {hblank C p f} + {~ hblank C p f}.
Proof.
  destruct (lblankb C f (lpart C p) G) eqn:B; [left|right].
  - exact (proj1 (lblank_true C f _ _) B).
  - intros H. assert (X : lblankb C f (lpart C p) G = true) by (apply lblank_true; exact H). congruence.
Defined.
Lemma blank_b p f : lblankb C f (lpart C p) G = if hblank_dec p f then true else false.
Proof.
  destruct (hblank_dec p f) as [H|H]; [apply lblank_true; exact H|].
  destruct (lblankb C f (lpart C p) G) eqn:B; auto. destruct (H (proj1 (lblank_true C f _ _) B)).
Qed.
Lemma hblank_hd p f g : hd C g p = hd C f p -> hblank C p f -> hblank C p g.
Proof.
  intros H B o I. assert (E : nth (o - lpart C p) (hd C g p) 0%N = nth (o - lpart C p) (hd C f p) 0%N) by (rewrite H; auto).
  unfold LogProof.hd, read_units in E.
  rewrite (nth_indep _ 0%N (g 0)), (nth_indep (map f _) 0%N (f 0)) in E by (rewrite map_length, seq_length; lia).
  rewrite !map_nth, !seq_nth in E by lia. replace (lpart C p + (o - lpart C p)) with o in E by lia.
  rewrite E. apply B. auto.
Qed.

Lemma wp_boot n f s : Rep C n f s -> (n < 2 ^ 32)%N -> lwp (lg_init C) f (boot_post n s) (fun g => Rep C n g s).
Proof.
  intros R N0. pose proof (sz C HC) as (S1 & S2 & S3).
  unfold lg_init. apply lwp_bind. unfold part_choose.
  pose proof (blank_b false f) as B0. pose proof (blank_b true f) as B1.
  change (lpart C false) with 0 in B0. change (lpart C true) with P in B1.
  cbn [LogProof.lwp lokcall]. split; [split; [lia|auto]|]. split; [|discriminate].
  cbn [lstep]. destruct (Nat.leb_spec (0 + G) (2 * P)); [|lia]. rewrite B0.
  assert (TWO : forall b : bool, fst (lstep C f (FBlank 0 G)) = f) by (intros; cbn [lstep]; destruct (0 + G <=? 2 * P); auto).
  assert (BL : forall b : bool, negb (is_ok (fst (if b then OK else NOTBLANK, @nil N))) &&
     negb (Z.eqb (fst (if b then OK else NOTBLANK, @nil N)) NOTBLANK) = false) by (intros []; reflexivity).
  cbn [fst snd]. specialize (BL (if hblank_dec false f then true else false)) as BL0. cbn [fst] in BL0. rewrite BL0. clear BL0 TWO.
  cbn [LogProof.lwp lokcall]. split; [split; [lia|auto]|]. split; [|discriminate].
  cbn [lstep]. destruct (Nat.leb_spec (P + G) (2 * P)); [|lia]. rewrite B1. cbn [fst snd].
  specialize (BL (if hblank_dec true f then true else false)) as BL0. cbn [fst] in BL0. rewrite BL0. clear BL0 BL.
  destruct R as [(Q0 & Q1 & ->)|(a & ep & bs & F & NB & I & GD & L & E)].
  - destruct (hblank_dec false f) as [_|X]; [|contradiction]. destruct (hblank_dec true f) as [_|X]; [|contradiction].
    change (is_ok OK) with true. cbn [andb].
    assert (RB : forall g, hblank C false g -> hblank C true g -> Rep C n g []) by (intros; left; auto).
    assert (HS : forall p g g', hblank C p g -> samep C p g g' -> hblank C p g').
    { intros p g g' B SM. eapply hblank_hd; [|exact B]. apply hd_same; auto. }
    assert (HL : hdr_bytes (lx_zero C) = hdr0 C 0 0 /\ length (hdr_bytes (lx_zero C)) = G).
    { split; [reflexivity|]. unfold hdr_bytes, lx_zero. cbn [lx_epoch lx_size lx_pad].
      rewrite !app_length, !le_enc_length, repeat_length. lia. }
    destruct HL as [HX HL].
    apply lwp_bind. apply wp_erase; auto.
    + intros g [E1 E2]. apply RB; [destruct E2 as [E2|E2]; [eapply hblank_hd; eauto|auto]|]. eapply HS; eauto.
    + intros g E1 E2. change (is_ok OK) with true. cbv iota.
      assert (G0 : hblank C false g) by (intros o Ho; apply E2; change (lpart C false) with 0 in *; lia).
      assert (G1 : hblank C true g) by (eapply HS; eauto).
      apply lwp_bind. 
      assert (NEW : forall g', rest_same C false g g' -> hd C g' false = hdr_bytes (lx_zero C) -> Full C false 0 [] g').
      { intros g' [T1 T2] T3. split; [rewrite T3; exact HX|]. split; [reflexivity|]. left. eapply HS; eauto. }
      assert (GD0 : good C []) by (split; [constructor|]; split; [intros []|cbn [length]; lia]).
      apply wp_commit; auto.
      * intros g' T1 [T2|T2]; [apply RB; [eapply hblank_hd; eauto|eapply HS; [exact G1|apply T1]]|].
        eapply (Full_Rep C HC n false 0 []); eauto; [constructor|cbn [length]; lia|lia].
      * intros g' T1 T2. cbn [with_act lx_act].
        apply lwp_ret; [|eapply (Full_Rep C HC n false 0 []); eauto; [constructor|cbn [length]; lia|lia]].
        cbv iota. change (is_ok OK) with true. cbv iota. change (lx_zero C) with (with_act (lx_zero C) false).
        eapply wp_boot_tail with (bs := []) (ep := 0%N); auto; [constructor|cbn [length]; lia|lia].
      * intros Hf g' rc NE T1 T2. apply is_ok_false in NE as NE'.
        assert (RG : Rep C n g' []) by (apply RB; [eapply hblank_hd; eauto|eapply HS; [exact G1|apply T1]]).
        apply lwp_ret; auto. cbv iota. rewrite NE'. apply lwp_ret; auto. right. auto.
    + intros Hf g rc NE [E1 E2]. apply is_ok_false in NE as NE'. rewrite NE'.
      assert (RG : Rep C n g []) by (apply RB; [destruct E2 as [E2|E2]; [eapply hblank_hd; eauto|auto]|eapply HS; eauto]).
      apply lwp_ret; auto. cbv iota. rewrite NE'. apply lwp_ret; auto. right. auto.
  - assert (RG : Rep C n f s) by (eapply Full_Rep; eauto).
    assert (PICK : lwp (Ret (OK, with_act (lx_zero C) a)) f
      (fun a0 g => lwp (let '(rc, x) := a0 in if is_ok rc then do '(rc, x0) <- part_read C x;; (if is_ok rc then do rc <- part_erase C (negb (lx_act x0));; Ret (rc, x0) else Ret (rc, x0)) else Ret (rc, x)) g (boot_post n s) (fun g => Rep C n g s)) (fun g => Rep C n g s)).
    { apply lwp_ret; auto. cbv iota. change (is_ok OK) with true. cbv iota. eapply wp_boot_tail; eauto. }
    destruct (hblank_dec false f) as [X0|X0], (hblank_dec true f) as [X1|X1];
      change (is_ok OK) with true; change (is_ok NOTBLANK) with false; cbn [andb].
    + exfalso. apply NB. destruct a; auto.
    + destruct a; [exact PICK|contradiction].
    + destruct a; [contradiction|exact PICK].
    + cbn [LogProof.lwp lokcall]. split; [split; [lia|auto]|]. split; [|discriminate].
      cbn [lstep]. destruct (Nat.leb_spec (0 + G) (2 * P)); [|lia]. cbn [fst snd].
      change (is_ok OK) with true. cbv iota.
      cbn [LogProof.lwp lokcall]. split; [split; [lia|auto]|]. split; [|discriminate].
      cbn [lstep]. destruct (Nat.leb_spec (P + G) (2 * P)); [|lia]. cbn [fst snd].
      change (is_ok OK) with true. cbv iota.
      change (read_units f 0 G) with (hd C f false). change (read_units f P G) with (hd C f true).
      destruct F as (F1 & F2 & F3). assert (O : (h_epoch (hd C f (negb a)) < ep)%N) by (destruct F3 as [F3|F3]; [destruct a; contradiction|auto]).
      assert (EA : h_epoch (hd C f a) = ep) by (rewrite F1; apply hdr0_epoch; lia).
      replace (negb (h_epoch (hd C f true) <? h_epoch (hd C f false))%N) with a; [exact PICK|].
      destruct a; cbn [negb] in O.
      * destruct (N.ltb_spec (h_epoch (hd C f true)) (h_epoch (hd C f false))); [lia|auto].
      * destruct (N.ltb_spec (h_epoch (hd C f true)) (h_epoch (hd C f false))); [auto|lia].
Qed.

(** ** Queries *)
Lemma after_spec s1 o s2 id : ~ In id (map oid s1) -> oid o = id -> sp_after (s1 ++ o :: s2) id = s2.
Proof.
  induction s1 as [|y s1 IH]; cbn [app map sp_after]; intros NI E.
  - rewrite E, N.eqb_refl. auto.
  - destruct (N.eqb_spec (oid y) id) as [X|_]; [exfalso; apply NI; left; auto|]. apply IH; auto. intros X. apply NI. right. auto.
Qed.
Lemma after_none s id : sp_find s id = None -> sp_after s id = [].
Proof.
  induction s as [|y s IH]; cbn [sp_find sp_after]; auto. destruct (N.eqb_spec (oid y) id); [discriminate|]. auto.
Qed.
Lemma meta_skip x pre b m d junk : lx_data x = pre ++ b ++ junk -> img C [(m, d)] b -> meta_at x (length pre) = m.
Proof.
  intros D I. unfold meta_at. rewrite D, skipn_app_len by auto. eapply (img_one_meta C HC m d b I junk).
Qed.
Lemma list_spec x s bs start : ramb C x s bs -> lg_list C x start = (OK, fst (sp_list s start), snd (sp_list s start)).
Proof.
  intros R. pose proof R as (I & (ND & Z & LO) & LB & SZ & LD & PD & (junk & D) & EMP).
  assert (AT : forall pre s2 b2, s2 <> [] -> img C s2 b2 -> ~ In 0%N (map oid s2) -> lx_data x = pre ++ b2 ++ junk ->
     lx_size x = N.of_nat (length pre + length b2) -> length s2 <= P ->
     (if N.eqb (m_id (meta_at x (length pre))) 0 then (OK, 0, 0%N)
      else (OK, obj_count C x (length pre), m_id (meta_at x (length pre)))) =
     (OK, length s2, match s2 with [] => 0%N | o :: _ => oid o end)).
  { intros pre s2 b2 NE I2 Z2 D2 SZ2 L2. destruct s2 as [|[m d] s2]; [congruence|].
    destruct (img_split C [] (m, d) s2 b2 I2) as (b0 & b1 & b3 & -> & J0 & J1 & J3).
    inversion J0; subst b0. cbn [app] in *.
    assert (ME : meta_at x (length pre) = m) by (eapply meta_skip; [rewrite D2, <- app_assoc; reflexivity|exact J1]).
    rewrite ME. destruct (N.eqb_spec (m_id m) 0) as [X|_]; [exfalso; apply Z2; left; exact X|].
    unfold obj_count. assert (U : 32 * length ((m, d) :: s2) <= length (b1 ++ b3)) by (rewrite (img_len C HC _ _ I2); apply used_ge; auto). cbn [length] in U.
    destruct (N.leb_spec (lx_size x) (N.of_nat (length pre))); [lia|].
    rewrite (count_from C HC x ((m, d) :: s2) pre (b1 ++ b3) junk); auto. }
  assert (LP : length s <= P) by (eapply ram_len; eauto).
  unfold lg_list, sp_list. destruct (N.eqb_spec start 0) as [E0|NE0].
  - destruct s as [|o s].
    + rewrite EMP by auto. reflexivity.
    + apply (AT [] (o :: s) bs); auto; congruence.
  - pose proof (find_spec C HC x s bs start R) as F. destruct (sp_find s start) as [o|] eqn:FS.
    + destruct F as (s1 & s2 & b1 & b2 & b3 & -> & -> & I1 & I2 & I3 & NI & EO & ->).
      rewrite (after_spec s1 o s2 start NI EO). destruct o as [m d].
      unfold obj_next.
      assert (ME : meta_at x (length b1) = m) by (apply (meta_skip x b1 b2 m d (b3 ++ junk)); [rewrite D, <- !app_assoc; reflexivity|exact I2]).
      assert (OL : obj_len C x (length b1) = length b2).
      { unfold obj_len. rewrite ME, (img_one C HC _ _ I2). destruct (img_one_meta C HC m d b2 I2 []) as (_ & -> & _). reflexivity. }
      rewrite OL, SZ. rewrite !app_length.
      destruct s2 as [|o2 s2].
      * inversion I3; subst b3. cbn [length]. destruct (N.ltb_spec (N.of_nat (length b1 + length b2)) (N.of_nat (length b1 + (length b2 + 0)))); [lia|]. reflexivity.
      * assert (U : 32 * length (o2 :: s2) <= length b3) by (rewrite (img_len C HC _ _ I3); apply used_ge; auto). cbn [length] in U.
        destruct (N.ltb_spec (N.of_nat (length b1 + length b2)) (N.of_nat (length b1 + (length b2 + length b3)))); [|lia].
        rewrite <- app_length. rewrite (AT (b1 ++ b2) (o2 :: s2) b3); auto.
        -- congruence.
        -- intros X. apply Z. rewrite map_app. apply in_or_app. right. right. exact X.
        -- rewrite D, <- !app_assoc. reflexivity.
        -- rewrite SZ, !app_length. f_equal. lia.
        -- rewrite app_length in LP. cbn [length] in *. lia.
    + rewrite F, (after_none s start FS). reflexivity.
Qed.

(** ** One operation *)
Definition lfailed (r : nvm_res) : Prop := match r with RCode rc => rc <> OK | _ => False end.
Definition lop_post (n : N) (s : store) (o : nvm_op) (rx : nvm_res * lctx) (g : flash) : Prop :=
  (exists s', lg_step K s o (fst rx) s' /\ Sess C (n + wcost o) g (snd rx) s') \/
  (fl = true /\ lfailed (fst rx) /\ Rep C (n + wcost o) g s /\ (s <> [] -> Sess C (n + wcost o) g (snd rx) s)).
Definition lop_cut (n : N) (s : store) (o : nvm_op) (g : flash) : Prop :=
  exists s', lg_cut K s o s' /\ Rep C (n + wcost o) g s'.

Lemma used_app g s1 s2 : used g (s1 ++ s2) = used g s1 + used g s2.
Proof. unfold used. induction s1 as [|y s1 IH]; cbn [app fold_right]; auto. rewrite IH. lia. Qed.
Lemma msz_round : msz C = round_up G 32.
Proof. unfold msz. apply pad_eq. Qed.
Lemma good_len s : good C s -> length s < 256.
Proof. intros (_ & _ & L). destruct HC as (_ & _ & _ & _ & _ & _ & H & _). lia. Qed.

Lemma fallback_session n a ep bs f s data : Full C a ep bs f -> img C s bs -> good C s -> length bs <= P - G -> (ep <= n)%N ->
  length data = P -> s <> [] ->
  Sess C n f (mkLx a ep (N.of_nat (length bs)) (repeat 0%N (G - 8)) (splice data 0 bs)) s.
Proof.
  intros F I GD L E LD NE. exists bs. cbn [lx_act lx_epoch]. split; [auto|]. split; [|auto].
  unfold LogRam.ramb. cbn [lx_size lx_data lx_pad]. pose proof (sz C HC) as (S1 & S2 & _).
  split; [auto|]. split; [auto|]. split; [auto|]. split; [auto|].
  split; [rewrite splice_length; lia|]. split; [auto|].
  split; [eexists; unfold splice; cbn [firstn app]; reflexivity|]. intros X. congruence.
Qed.

(** The test of AddObject. *)
Lemma add_test x s bs id n : ramb C x s bs ->
  let old := obj_find C x id in
  let space := P - G - N.to_nat (lx_size x) + match old with Some off => obj_len C x off | None => 0 end in
  let no := (space <? pad_size C n + msz C) || match old with
          | Some _ => (obj_count C x 0 =? 0) || (l_oc C <=? obj_count C x 0 - 1)
          | None => l_oc C <=? obj_count C x 0
          end in
  (no = false /\ lfits K s id n) \/ (no = true /\ ~ lfits K s id n).
Proof.
  intros R old space no. pose proof R as (I & (ND & Z & LO) & LB & SZ & LD & PD & (junk & D) & EMP).
  pose proof (find_spec C HC x s bs id R) as F. unfold lfits, lcap_of. cbn [lk_objs lk_bytes lk_gran].
  subst no space old. rewrite SZ, Nat2N.id, (count_spec C HC x s bs R). rewrite (img_len C HC s bs I) in *.
  unfold obj_bytes. rewrite <- msz_round, <- (pad_eq C n).
  destruct (sp_find s id) as [[m d]|] eqn:FS.
  - destruct F as (s1 & s2 & b1 & b2 & b3 & -> & -> & I1 & I2 & I3 & NI & EO & FE). rewrite FE.
    assert (ME : meta_at x (length b1) = m) by (apply (meta_skip x b1 b2 m d (b3 ++ junk)); [rewrite D, <- !app_assoc; reflexivity|exact I2]).
    assert (OL : obj_len C x (length b1) = msz C + pad_size C (length d)).
    { unfold obj_len. rewrite ME. destruct (img_one_meta C HC m d b2 I2 []) as (_ & -> & _). reflexivity. }
    rewrite OL. rewrite <- EO, (destroy_one s1 (m, d) s2 ND). rewrite !used_app in *. cbn [used fold_right snd] in *.
    change (fold_right _ 0 s2) with (used G s2) in *. unfold obj_bytes in *. rewrite <- msz_round, <- pad_eq in *.
    rewrite !app_length in *. cbn [length] in *.
    destruct (Nat.ltb_spec (P - G - (used G s1 + (msz C + pad_size C (length d) + used G s2)) + (msz C + pad_size C (length d))) (pad_size C n + msz C)); cbn [orb].
    + right. split; auto. lia.
    + destruct (Nat.eqb_spec (length s1 + S (length s2)) 0); [lia|]. cbn [orb].
      destruct (Nat.leb_spec (l_oc C) (length s1 + S (length s2) - 1)); [right|left]; (split; [auto|lia]).
  - rewrite F. rewrite (destroy_absent s id FS).
    destruct (Nat.ltb_spec (P - G - used G s + 0) (pad_size C n + msz C)); cbn [orb]; [right; split; [auto|lia]|].
    destruct (Nat.leb_spec (l_oc C) (length s)); [right|left]; (split; [auto|lia]).
Qed.

Lemma find_destroyed s id : sp_find (sp_destroy [id] s) id = None.
Proof.
  unfold sp_destroy. induction s as [|y s IH]; auto. cbn [filter existsb].
  destruct (N.eqb_spec (oid y) id); cbn [orb negb]; auto. cbn [sp_find].
  destruct (N.eqb_spec (oid y) id); [congruence|auto].
Qed.

Lemma wp_ladd n f x s m data :
  Sess C n f x s -> meta_ok m -> m_id m <> 0%N -> (N.of_nat (length (data_of data)) < 2 ^ 16)%N -> (n + 1 < 2 ^ 32)%N ->
  lwp (lg_add C x m data) f
    (fun rx g => (exists s', lg_step K s (OAdd m data) (RCode (fst rx)) s' /\ Sess C (n + 1) g (snd rx) s') \/
                 (fl = true /\ fst rx <> OK /\ Rep C (n + 1) g s /\ (s <> [] -> Sess C (n + 1) g (snd rx) s)))
    (lop_cut n s (OAdd m data)).
Proof.
  intros S0 M NZ DL HN. pose proof S0 as (bs & F & R & E). set (d := data_of data) in *.
  assert (S1 : Sess C (n + 1) f x s) by (eapply Sess_mono; [|exact S0]; lia).
  assert (R0 : Rep C (n + 1) f s) by (eapply Sess_Rep; eauto).
  assert (CF : forall g, Rep C (n + 1) g s -> lop_cut n s (OAdd m data) g) by (intros g Hg; exists s; split; [left; auto|exact Hg]).
  pose proof (add_test x s bs (m_id m) (length d) R) as T. cbv zeta in T.
  unfold lg_add. cbv zeta. fold d.
  assert (NO : ~ lfits K s (m_id m) (length d) -> lwp (Ret (NOSPACE, x)) f
    (fun rx g => (exists s', lg_step K s (OAdd m data) (RCode (fst rx)) s' /\ Sess C (n + 1) g (snd rx) s') \/
                 (fl = true /\ fst rx <> OK /\ Rep C (n + 1) g s /\ (s <> [] -> Sess C (n + 1) g (snd rx) s))) (lop_cut n s (OAdd m data))).
  { intros NF. apply lwp_ret; [|apply CF; auto]. left. exists s. split; [right; auto|exact S1]. }
  destruct (_ <? pad_size C (length d) + msz C) eqn:T1.
  { apply NO. cbn [orb] in T. destruct T as [[T _]|[_ T]]; [discriminate|auto]. }
  match goal with |- LogProof.lwp _ _ (if ?c then _ else _) _ _ _ => destruct c eqn:T2 end.
  { apply NO. cbn [orb] in T. destruct T as [[T _]|[_ T]]; [discriminate|auto]. }
  cbn [orb] in T. destruct T as [[_ FI]|[T _]]; [|discriminate].
  assert (DES : exists x' bs', match obj_find C x (m_id m) with Some _ => obj_destroy C x (m_id m) | None => (OK, x) end = (OK, x') /\
     ramb C x' (sp_destroy [m_id m] s) bs' /\ lx_act x' = lx_act x /\ lx_epoch x' = lx_epoch x).
  { pose proof (find_spec C HC x s bs (m_id m) R) as FS. destruct (sp_find s (m_id m)) as [o|] eqn:FO.
    - destruct FS as (s1 & s2 & b1 & b2 & b3 & _ & _ & _ & _ & _ & _ & _ & ->). eapply destroy_spec; eauto.
    - rewrite FS. exists x, bs. rewrite (destroy_absent s _ FO). auto. }
  destruct DES as (x1 & bs1 & -> & R1 & A1 & E1). change (is_ok OK) with true. cbv iota.
  set (m' := with_len m (N.of_nat (length d))).
  fold m'. change (with_data x1 _ _) with (push C x1 m' d).
  pose proof R1 as (I1 & GD1 & LB1 & _). pose proof FI as [FI1 FI2]. unfold lcap_of in FI1, FI2. cbn [lk_objs lk_bytes lk_gran] in FI1, FI2.
  destruct (push_spec C HC x1 (sp_destroy [m_id m] s) bs1 m' d R1) as [bs2 R2].
  - unfold m', with_len, meta_ok in *. cbn [m_id m_access m_flags m_len m_label]. intuition.
  - unfold m', with_len. cbn [m_len]. apply Nat2N.id.
  - exact NZ.
  - apply find_destroyed.
  - auto.
  - rewrite (img_len C HC _ _ I1). unfold obj_bytes in FI2. rewrite msz_round, pad_eq. auto.
  - change (sp_destroy [m_id m] s ++ [(m', d)]) with (sp_add m d s) in R2.
    assert (ST : lg_step K s (OAdd m data) (RCode OK) (sp_add m d s)) by (left; auto).
    pose proof R2 as (I2 & GD2 & LB2 & _). pose proof R as (I0 & GD0 & LB0 & _).
    assert (OLD : forall g, Full C (lx_act x) (lx_epoch x) bs g -> Rep C (n + 1) g s).
    { intros g Hg. eapply Full_Rep; eauto. lia. }
    assert (NEW : forall g, Full C (negb (lx_act x)) (lx_epoch x + 1) bs2 g -> Rep C (n + 1) g (sp_add m d s)).
    { intros g Hg. eapply Full_Rep; eauto. lia. }
    assert (LP : length (lx_data (push C x1 m' d)) = P) by apply R2.
    eapply (wp_fallback C fl HC (push C x1 m' d) (sp_add m d s) bs2 bs); unfold push in *; cbn [lx_act lx_epoch lx_data with_data] in *; rewrite ?A1, ?E1; auto.
    + lia.
    + intros g [Hg|Hg]; [apply CF; auto|]. exists (sp_add m d s). split; [right; eauto|]. apply NEW. auto.
    + intros g Hg. left. exists (sp_add m d s). split; [exact ST|]. cbn [snd]. unfold next_lx. cbn [lx_act lx_epoch with_data]. rewrite A1, E1.
      exists bs2. cbn [lx_act lx_epoch]. split; [exact Hg|]. split; [exact R2|lia].
    + intros Hf g rc NE Hg. right. split; [auto|]. split; [exact NE|]. split; [auto|]. intros NS. cbn [snd].
      apply fallback_session; auto. lia.
Qed.

Lemma read_spec x s bs id off len : ramb C x s bs ->
  lg_read C x id off len = match sp_find s id with
    | None => (NOTFOUND, [])
    | Some (_, d) => if off + len <=? length d then (OK, firstn len (skipn off d)) else (BADARGS, [])
    end.
Proof.
  intros R. pose proof R as (I & _ & _ & _ & _ & _ & (junk & D) & _).
  pose proof (find_spec C HC x s bs id R) as F. unfold lg_read. destruct (sp_find s id) as [[m d]|].
  - destruct F as (s1 & s2 & b1 & b2 & b3 & _ & E & I1 & I2 & I3 & _ & _ & ->).
    assert (ME : meta_at x (length b1) = m) by (apply (meta_skip x b1 b2 m d (b3 ++ junk)); [rewrite D, E, <- !app_assoc; reflexivity|exact I2]).
    rewrite ME. destruct (img_one_meta C HC m d b2 I2 []) as (_ & -> & _ & RD).
    destruct (Nat.ltb_spec (length d) (off + len)), (Nat.leb_spec (off + len) (length d)); try lia; auto.
    f_equal. rewrite D, E. replace (length b1 + msz C + off) with (length b1 + (msz C + off)) by lia.
    rewrite <- !app_assoc, skipn_app, skipn_all2 by lia. cbn [app].
    replace (length b1 + (msz C + off) - length b1) with (msz C + off) by lia. apply RD. auto.
  - rewrite F. auto.
Qed.
Lemma meta_spec x s bs id : ramb C x s bs ->
  lg_meta C x id = match sp_find s id with Some (m, _) => (OK, Some m) | None => (NOTFOUND, None) end.
Proof.
  intros R. pose proof R as (I & _ & _ & _ & _ & _ & (junk & D) & _).
  pose proof (find_spec C HC x s bs id R) as F. unfold lg_meta. destruct (sp_find s id) as [[m d]|].
  - destruct F as (s1 & s2 & b1 & b2 & b3 & _ & E & I1 & I2 & I3 & _ & _ & ->).
    do 2 f_equal. apply (meta_skip x b1 b2 m d (b3 ++ junk)); [rewrite D, E, <- !app_assoc; reflexivity|exact I2].
  - rewrite F. auto.
Qed.
Lemma avail_spec x s bs : ramb C x s bs -> lg_avail C x = (P - G - used G s, l_oc C - length s).
Proof.
  intros R. pose proof R as (I & GD & _ & SZ & _). unfold lg_avail.
  rewrite SZ, Nat2N.id, (img_len C HC _ _ I), (count_spec C HC _ _ _ R), Nat.mod_small by (apply good_len; auto). auto.
Qed.

Lemma wp_lop n f x s o : Sess C n f x s -> lop_ok o -> (n + wcost o < 2 ^ 32)%N ->
  lwp (lg_run C x o) f (lop_post n s o) (lop_cut n s o).
Proof.
  intros S0 [OK0 Z0] HN. pose proof S0 as (bs & F & R & E).
  assert (S1 : Sess C (n + wcost o) f x s) by (eapply Sess_mono; [|exact S0]; lia).
  assert (R0 : Rep C (n + wcost o) f s) by (eapply Sess_Rep; eauto).
  assert (CF : lop_cut n s o f) by (exists s; split; [left; auto|exact R0]).
  destruct o as [m data|m data|ids|id off len|id|start|]; cbn [lg_run op_ok] in *.
  - destruct OK0 as (M1 & M2 & M3). apply lwp_bind. eapply lwp_mono; [apply (wp_ladd n f x s m data); [exact S0|exact M1|exact Z0|exact M3|exact HN]| |auto].
    intros [rc x'] g [(s' & ST & SS)|(Hf & NE & RR & SN)]; cbn [fst snd] in *; apply lwp_ret.
    + left. exists s'. auto.
    + exists s'. split; [right; eauto|eapply Sess_Rep; eauto].
    + right. auto.
    + exists s. split; [left; auto|auto].
  - destruct OK0 as (M1 & M2 & M3). unfold lg_add_reclaim. rewrite (avail_spec x s bs R). set (d := data_of data) in *.
    assert (REF : ~ lroom K s (length d) -> lop_post n s (OAddR m data) (RCode NOSPACE, x) f).
    { intros NR. left. exists s. split; [right; fold d; tauto|exact S1]. }
    unfold lroom, lcap_of in REF. cbn [lk_objs lk_bytes lk_gran] in REF.
    apply lwp_bind. apply lwp_bind.
    destruct (Nat.ltb_spec (P - G - used G s) (length d)); cbn [orb].
    { destruct (Nat.leb_spec (length d) (P - G - used G s + 0)); [lia|]. cbn [andb]. change (is_ok NOSPACE) with false.
      apply lwp_ret; auto. cbv iota. apply lwp_ret; auto. cbv iota. apply lwp_ret; auto. apply REF. lia. }
    destruct (Nat.eqb_spec (l_oc C - length s) 0).
    { destruct (Nat.ltb_spec 0 (l_oc C - length s + 0)); [lia|]. rewrite Bool.andb_false_r. change (is_ok NOSPACE) with false.
      apply lwp_ret; auto. cbv iota. apply lwp_ret; auto. cbv iota. apply lwp_ret; auto. apply REF. lia. }
    assert (RM : lroom K s (length d)) by (unfold lroom, lcap_of; cbn [lk_objs lk_bytes lk_gran]; lia).
    assert (STP : forall r s', lg_step K s (OAdd m data) r s' -> lg_step K s (OAddR m data) r s').
    { intros r s' [(A & B & D)|(A & B & D)]; [left; fold d; auto|right; fold d]. fold d in A. tauto. }
    apply lwp_ret; auto. cbv iota. change (is_ok OK) with true. cbv iota.
    eapply lwp_mono; [apply (wp_ladd n f x s m data); [exact S0|exact M1|exact Z0|exact M3|exact HN]| |].
    + intros [rc x'] g [(s' & ST & SS)|(Hf & NE & RR & SN)]; cbn [fst snd] in *; apply lwp_ret.
      * left. exists s'. split; [apply STP; auto|auto].
      * exists s'. split; [right; eauto|eapply Sess_Rep; eauto].
      * right. auto.
      * exists s. split; [left; auto|auto].
    + intros g (s' & [->|(r & ST)] & RR); [exists s; split; [left; auto|auto]|exists s'; split; [right; eauto|auto]].
  - apply lwp_bind. unfold lg_destroy. destruct ids as [|id0 ids0].
    + apply lwp_ret; auto. cbv iota. apply lwp_ret; auto. left. exists s. split; [split; [auto|rewrite destroy_nil; auto]|exact S1].
    + set (ids := id0 :: ids0) in *. destruct (destroy_all_spec C HC ids x s bs R Z0) as (x1 & bs1 & -> & R1 & A1 & E1).
      change (is_ok OK) with true. cbv iota. change (wcost (ODestroy ids)) with 1%N in *.
      assert (ST : lg_step K s (ODestroy ids) (RCode OK) (sp_destroy ids s)) by (split; auto).
      pose proof R1 as (I1 & GD1 & LB1 & _). pose proof R as (I0 & GD0 & LB0 & _).
      assert (OLD : forall g, Full C (lx_act x) (lx_epoch x) bs g -> Rep C (n + 1) g s).
      { intros g Hg. eapply Full_Rep; eauto. lia. }
      assert (NEW : forall g, Full C (negb (lx_act x)) (lx_epoch x + 1) bs1 g -> Rep C (n + 1) g (sp_destroy ids s)).
      { intros g Hg. eapply Full_Rep; eauto. lia. }
      assert (CN : forall g, Full C (negb (lx_act x)) (lx_epoch x + 1) bs1 g -> lop_cut n s (ODestroy ids) g).
      { intros g Hg. exists (sp_destroy ids s). split; [right; eauto|apply NEW; auto]. }
      assert (CO : forall g, Full C (lx_act x) (lx_epoch x) bs g -> lop_cut n s (ODestroy ids) g).
      { intros g Hg. exists s. split; [left; auto|apply OLD; auto]. }
      eapply (wp_fallback C fl HC x1 (sp_destroy ids s) bs1 bs); rewrite ?A1, ?E1; auto.
      * lia.
      * intros g [Hg|Hg]; auto.
      * intros g Hg. cbv iota. apply lwp_ret; auto. left. exists (sp_destroy ids s). split; [exact ST|]. cbn [snd].
        exists bs1. unfold next_lx. cbn [lx_act lx_epoch]. rewrite A1, E1. split; [exact Hg|]. split; [exact R1|change (wcost (ODestroy ids)) with 1%N; lia].
      * intros Hf g rc NE Hg. cbv iota. apply lwp_ret; auto. right. split; [auto|]. split; [exact NE|]. split; [apply OLD; auto|].
        intros NS. cbn [snd]. apply fallback_session; auto; [change (wcost (ODestroy ids)) with 1%N; lia|apply R1].
  - apply lwp_ret; auto. left. exists s. split; [|exact S1]. cbn [lg_step fst]. rewrite (read_spec x s bs id off len R).
    split; auto. destruct (sp_find s id) as [[m d]|]; auto. destruct (off + len <=? length d); auto.
  - apply lwp_ret; auto. left. exists s. split; [|exact S1]. cbn [lg_step fst]. rewrite (meta_spec x s bs id R).
    split; auto. destruct (sp_find s id) as [[m d]|]; auto.
  - apply lwp_ret; auto. left. exists s. split; [|exact S1]. cbn [lg_step fst]. rewrite (list_spec x s bs start R). auto.
  - apply lwp_ret; auto. left. exists s. split; [|exact S1]. cbn [lg_step fst]. rewrite (avail_spec x s bs R). auto.
Qed.
End Fl.
End Life.
