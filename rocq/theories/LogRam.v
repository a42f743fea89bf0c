(** The RAM directory of the log backend as a list of objects. *)
From Verif Require Import Base Flash BaseLemmas NvmSpec Store LogModel LogSpec.

(** Configurations: a granularity that holds the header, whole partitions of
    granules and of device atoms, a header inside one atom, 32-bit addresses. *)
Definition lcfg_ok (C : lcfg) : Prop :=
  8 <= l_g C /\ l_g C <= l_psz C /\ l_psz C mod l_g C = 0 /\
  l_g C <= l_atom C /\ l_psz C mod l_atom C = 0 /\
  (N.of_nat (2 * l_psz C) < 2 ^ 32)%N /\ l_oc C < 256 /\ (l_eb C = 0%N \/ l_eb C = 255%N).

Definition good (C : lcfg) (s : store) : Prop :=
  NoDup (map oid s) /\ ~ In 0%N (map oid s) /\ length s <= l_oc C.

Section Ram.
Variable C : lcfg.
Hypothesis HC : lcfg_ok C.
Notation G := (l_g C).
Notation msz := (msz C).
Notation pad_size := (pad_size C).

Lemma G_pos : 8 <= G. Proof. apply HC. Qed.
Lemma pad_eq n : pad_size n = round_up G n.
Proof. unfold LogModel.pad_size, round_up. apply Nat.mul_comm. Qed.
Lemma pad_ge n : n <= pad_size n.
Proof.
  unfold LogModel.pad_size. pose proof G_pos.
  pose proof (Nat.div_mod (n + G - 1) G ltac:(lia)). pose proof (Nat.mod_upper_bound (n + G - 1) G ltac:(lia)). lia.
Qed.
Lemma msz_ge : 32 <= msz. Proof. apply pad_ge. Qed.
Lemma pad_mod n : exists k, pad_size n = k * G.
Proof. eexists. reflexivity. Qed.

Inductive img : store -> list N -> Prop :=
| img_nil : img [] []
| img_cons m d p1 p2 s bs :
    meta_ok m -> length d = N.to_nat (m_len m) ->
    length p1 = msz - 32 -> length p2 = pad_size (length d) - length d -> img s bs ->
    img ((m, d) :: s) (meta_bytes m ++ p1 ++ d ++ p2 ++ bs).

Lemma img_app s1 b1 s2 b2 : img s1 b1 -> img s2 b2 -> img (s1 ++ s2) (b1 ++ b2).
Proof.
  induction 1 as [|m d p1 p2 s bs H1 H2 H3 H4 H5 IH]; intros I2; cbn [app]; auto.
  rewrite <- !app_assoc. constructor; auto.
Qed.
Lemma img_len s bs : img s bs -> length bs = used G s.
Proof.
  induction 1 as [|m d p1 p2 s bs H1 H2 H3 H4 H5 IH]; cbn [used fold_right length]; auto.
  fold (used G s). rewrite !app_length, meta_bytes_length, H3, H4, IH by auto. cbn [snd].
  unfold obj_bytes. rewrite <- !pad_eq. fold msz. pose proof msz_ge. pose proof (pad_ge (length d)).
  change (pad_size 32) with msz. lia.
Qed.
Lemma used_mod s : exists k, used G s = k * G.
Proof.
  induction s as [|o s [k IH]]; cbn [used fold_right]; [exists 0; auto|]. fold (used G s).
  unfold obj_bytes. rewrite <- !pad_eq. destruct (pad_mod 32) as [a ->]. destruct (pad_mod (length (snd o))) as [b ->].
  exists (a + b + k). rewrite IH. lia.
Qed.
Lemma used_ge s : 32 * length s <= used G s.
Proof.
  induction s as [|o s IH]; cbn [used fold_right length]; [lia|]. fold (used G s).
  unfold obj_bytes. rewrite <- !pad_eq. pose proof msz_ge. change (pad_size 32) with msz. lia.
Qed.
Lemma img_meta m d s bs : img ((m, d) :: s) bs -> forall junk, meta_of_bytes (firstn 32 (bs ++ junk)) = m.
Proof.
  intros H junk. inversion H; subst. rewrite <- app_assoc. rewrite firstn_app_len by (apply meta_bytes_length; auto).
  rewrite <- (app_nil_r (meta_bytes m)). apply meta_of_bytes_app. auto.
Qed.
Lemma img_split s1 o s2 bs : img (s1 ++ o :: s2) bs ->
  exists b1 b2 b3, bs = b1 ++ b2 ++ b3 /\ img s1 b1 /\ img [o] b2 /\ img s2 b3.
Proof.
  revert bs. induction s1 as [|o' s1 IH]; cbn [app]; intros bs H; inversion H; subst.
  - exists [], (meta_bytes m ++ p1 ++ d ++ p2 ++ []), bs0. cbn [app]. rewrite <- !app_assoc. cbn [app].
    split; [auto|]. split; [constructor|]. split; [constructor; auto; constructor|auto].
  - match goal with X : img (s1 ++ o :: s2) _ |- _ => destruct (IH _ X) as (b1 & b2 & b3 & -> & I1 & I2 & I3) end.
    exists (meta_bytes m ++ p1 ++ d ++ p2 ++ b1), b2, b3. split; [rewrite <- !app_assoc; auto|].
    split; [constructor; auto|auto].
Qed.
Lemma img_one o b : img [o] b -> length b = msz + pad_size (length (snd o)).
Proof. intros I. rewrite (img_len _ _ I). cbn [used fold_right]. unfold obj_bytes. rewrite <- !pad_eq. change (pad_size 32) with msz. lia. Qed.
Lemma img_one_meta m d b : img [(m, d)] b -> forall junk, meta_of_bytes (firstn 32 (b ++ junk)) = m /\ N.to_nat (m_len m) = length d /\
  meta_ok m /\ forall junk2 off len, off + len <= length d -> firstn len (skipn (msz + off) (b ++ junk2)) = firstn len (skipn off d).
Proof.
  intros I junk. split; [eapply img_meta; eauto|]. inversion I as [|m' d' p1 p2 s' bs' M L P1 P2 I']; subst. split; [auto|]. split; [auto|].
  intros junk2 off len B. inversion I'; subst. 
  replace ((meta_bytes m ++ p1 ++ d ++ p2 ++ []) ++ junk2) with ((meta_bytes m ++ p1) ++ d ++ p2 ++ junk2)
    by (rewrite <- !app_assoc; cbn [app]; auto).
  assert (LM : length (meta_bytes m ++ p1) = msz) by (rewrite app_length, meta_bytes_length, P1 by auto; pose proof msz_ge; lia).
  rewrite skipn_app, LM. rewrite (skipn_all2 (meta_bytes m ++ p1)) by lia. cbn [app].
  replace (msz + off - msz) with off by lia. rewrite skipn_app, firstn_app. rewrite skipn_length.
  replace (len - (length d - off)) with 0 by lia. rewrite firstn_O, app_nil_r. reflexivity.
Qed.

Definition ramb (x : lctx) (s : store) (bs : list N) : Prop :=
  img s bs /\ good C s /\ length bs <= l_psz C - G /\ lx_size x = N.of_nat (length bs) /\
  length (lx_data x) = l_psz C /\ lx_pad x = repeat 0%N (G - 8) /\
  (exists junk, lx_data x = bs ++ junk) /\ (s = [] -> m_id (meta_at x 0) = 0%N).

Lemma find_from x id : forall s pre bs junk fuel,
  img s bs -> ~ In 0%N (map oid s) -> s <> [] -> lx_data x = pre ++ bs ++ junk ->
  lx_size x = N.of_nat (length pre + length bs) -> length s <= fuel ->
  match sp_find s id with
  | None => obj_find_from C x id fuel (length pre) = None
  | Some o => exists s1 s2 b1 b2 b3, s = s1 ++ o :: s2 /\ bs = b1 ++ b2 ++ b3 /\ img s1 b1 /\ img [o] b2 /\ img s2 b3 /\
      ~ In id (map oid s1) /\ oid o = id /\ obj_find_from C x id fuel (length pre) = Some (length pre + length b1)
  end.
Proof.
  induction s as [|[m d] s IH]; intros pre bs junk fuel I Z NE D SZ F; [congruence|].
  destruct fuel as [|k]; [cbn [length] in F; lia|].
  destruct (img_split [] (m, d) s bs I) as (b1 & b2 & b3 & -> & I1 & I2 & I3). inversion I1; subst b1. cbn [app] in *.
  assert (MA : meta_at x (length pre) = m).
  { unfold meta_at. rewrite D, skipn_app_len, <- app_assoc by auto. apply (img_one_meta m d b2 I2). }
  assert (OL : obj_len C x (length pre) = length b2).
  { unfold obj_len. rewrite MA. destruct (img_one_meta m d b2 I2 []) as (_ & -> & _). rewrite (img_one _ _ I2). reflexivity. }
  assert (NZ : m_id m <> 0%N) by (intros E; apply Z; cbn [map]; left; exact E).
  cbn [obj_find_from sp_find]. cbv zeta. rewrite MA. change (oid (m, d)) with (m_id m).
  destruct (N.eqb_spec (m_id m) 0) as [E|_]; [congruence|].
  destruct (N.eqb_spec (m_id m) id) as [E|NE1].
  - exists [], s, [], b2, b3. cbn [app length map]. rewrite Nat.add_0_r. repeat split; auto.
  - unfold obj_next. rewrite OL, SZ, app_length.
    destruct s as [|o2 s2].
    + inversion I3; subst b3. cbn [length sp_find]. destruct (N.ltb_spec (N.of_nat (length pre + length b2)) (N.of_nat (length pre + (length b2 + 0)))); [lia|reflexivity].
    + assert (L3 : 32 <= length b3) by (rewrite (img_len _ _ I3); pose proof (used_ge (o2 :: s2)); cbn [length] in *; lia).
      destruct (N.ltb_spec (N.of_nat (length pre + length b2)) (N.of_nat (length pre + (length b2 + length b3)))); [|lia].
      specialize (IH (pre ++ b2) b3 junk k I3). rewrite app_length in IH.
      assert (Z' : ~ In 0%N (map oid (o2 :: s2))) by (intros H1; apply Z; right; exact H1).
      specialize (IH Z' ltac:(discriminate)).
      specialize (IH ltac:(rewrite D, <- !app_assoc; reflexivity) ltac:(rewrite SZ, app_length; f_equal; lia) ltac:(cbn [length] in *; lia)).
      destruct (sp_find (o2 :: s2) id) as [o|]; [|exact IH].
      destruct IH as (s1 & s3 & c1 & c2 & c3 & E1 & E2 & J1 & J2 & J3 & NI & EO & ER).
      exists ((m, d) :: s1), s3, (b2 ++ c1), c2, c3. rewrite E1, E2. split; [reflexivity|]. split; [rewrite <- app_assoc; reflexivity|].
      split; [apply (img_app [(m, d)] b2 s1 c1); auto|]. split; [auto|]. split; [auto|].
      split; [cbn [map]; intros [X|X]; auto|]. split; [auto|]. rewrite ER, app_length. f_equal. lia.
Qed.

Lemma count_from x : forall s pre bs junk fuel,
  img s bs -> ~ In 0%N (map oid s) -> s <> [] -> lx_data x = pre ++ bs ++ junk ->
  lx_size x = N.of_nat (length pre + length bs) -> length s <= fuel ->
  obj_count_from C x fuel (length pre) = length s.
Proof.
  induction s as [|[m d] s IH]; intros pre bs junk fuel I Z NE D SZ F; [congruence|].
  destruct fuel as [|k]; [cbn [length] in F; lia|].
  destruct (img_split [] (m, d) s bs I) as (b1 & b2 & b3 & -> & I1 & I2 & I3). inversion I1; subst b1. cbn [app] in *.
  assert (MA : meta_at x (length pre) = m).
  { unfold meta_at. rewrite D, skipn_app_len, <- app_assoc by auto. apply (img_one_meta m d b2 I2). }
  assert (OL : obj_len C x (length pre) = length b2).
  { unfold obj_len. rewrite MA. destruct (img_one_meta m d b2 I2 []) as (_ & -> & _). rewrite (img_one _ _ I2). reflexivity. }
  assert (NZ : m_id m <> 0%N) by (intros E; apply Z; cbn [map]; left; exact E).
  cbn [obj_count_from]. cbv zeta. rewrite MA. cbn [length]. 
  destruct (N.eqb_spec (m_id m) 0) as [E|_]; [congruence|]. f_equal.
  unfold obj_next. rewrite OL, SZ, app_length.
  destruct s as [|o2 s2].
  - inversion I3; subst b3. cbn [length]. destruct (N.ltb_spec (N.of_nat (length pre + length b2)) (N.of_nat (length pre + (length b2 + 0)))); [lia|reflexivity].
  - assert (L3 : 32 <= length b3) by (rewrite (img_len _ _ I3); pose proof (used_ge (o2 :: s2)); cbn [length] in *; lia).
    destruct (N.ltb_spec (N.of_nat (length pre + length b2)) (N.of_nat (length pre + (length b2 + length b3)))); [|lia].
    specialize (IH (pre ++ b2) b3 junk k I3). rewrite app_length in IH.
    assert (Z' : ~ In 0%N (map oid (o2 :: s2))) by (intros H1; apply Z; right; exact H1).
    exact (IH Z' ltac:(discriminate) ltac:(rewrite D, <- !app_assoc; reflexivity) ltac:(rewrite SZ, app_length; f_equal; lia) ltac:(cbn [length] in *; lia)).
Qed.

Lemma ram_len x s bs : ramb x s bs -> length s <= l_psz C.
Proof. intros (I & _ & L & _). pose proof (used_ge s). rewrite <- (img_len _ _ I) in H. lia. Qed.

Lemma find_spec x s bs id : ramb x s bs ->
  match sp_find s id with
  | None => obj_find C x id = None
  | Some o => exists s1 s2 b1 b2 b3, s = s1 ++ o :: s2 /\ bs = b1 ++ b2 ++ b3 /\ img s1 b1 /\ img [o] b2 /\ img s2 b3 /\
      ~ In id (map oid s1) /\ oid o = id /\ obj_find C x id = Some (length b1)
  end.
Proof.
  intros R. pose proof R as (I & (ND & Z & LO) & LB & SZ & LD & PD & (junk & D) & EMP).
  unfold obj_find. destruct (N.eqb_spec id 0) as [->|NZ].
  - destruct (sp_find s 0) as [o|] eqn:E; auto. exfalso. apply Z. pose proof (find_id _ _ _ E) as X.
    apply in_map_iff. exists o. split; [exact X|]. clear - E. induction s as [|y s IH]; cbn [sp_find] in E; [discriminate|].
    destruct (N.eqb (oid y) 0); [injection E as <-; left; auto|right; auto].
  - destruct s as [|o1 s1].
    + cbn [sp_find obj_find_from]. cbv zeta. rewrite EMP by auto. reflexivity.
    + pose proof (ram_len _ _ _ R).
      pose proof (find_from x id (o1 :: s1) [] bs junk (S (l_psz C)) I Z ltac:(discriminate) D SZ ltac:(lia)) as H1.
      cbn [length Nat.add] in H1. exact H1.
Qed.

Lemma count_spec x s bs : ramb x s bs -> obj_count C x 0 = length s.
Proof.
  intros R. pose proof R as (I & (ND & Z & LO) & LB & SZ & LD & PD & (junk & D) & EMP).
  unfold obj_count. destruct s as [|o1 s1].
  - inversion I; subst bs. rewrite SZ. reflexivity.
  - pose proof (used_ge (o1 :: s1)) as U. rewrite <- (img_len _ _ I) in U. cbn [length] in U.
    destruct (N.leb_spec (lx_size x) (N.of_nat 0)); [lia|].
    pose proof (ram_len _ _ _ R).
    exact (count_from x (o1 :: s1) [] bs junk (S (l_psz C)) I Z ltac:(discriminate) D SZ ltac:(lia)).
Qed.

(** ** Destroy *)
Lemma destroy_one s1 o s2 : NoDup (map oid (s1 ++ o :: s2)) -> sp_destroy [oid o] (s1 ++ o :: s2) = s1 ++ s2.
Proof.
  intros ND. unfold sp_destroy. rewrite filter_app. cbn [filter existsb]. rewrite N.eqb_refl. cbn [orb negb].
  rewrite map_app in ND. cbn [map] in ND. apply NoDup_remove_2 in ND.
  assert (K : forall l, (forall y, In y l -> oid y <> oid o) -> filter (fun o0 => negb (existsb (N.eqb (oid o0)) [oid o])) l = l).
  { induction l as [|y l IH]; intros H; cbn [filter existsb]; auto.
    destruct (N.eqb_spec (oid y) (oid o)) as [E|]; [exfalso; apply (H y); [left; auto|auto]|].
    cbn [orb negb]. f_equal. apply IH. intros z Hz. apply H. right. auto. }
  cbn [existsb] in K. rewrite !K; auto.
  - intros y Hy E. apply ND. apply in_or_app. right. rewrite <- E. apply in_map. auto.
  - intros y Hy E. apply ND. apply in_or_app. left. rewrite <- E. apply in_map. auto.
Qed.
Lemma destroy_absent s id : sp_find s id = None -> sp_destroy [id] s = s.
Proof.
  induction s as [|o s IH]; cbn [sp_find sp_destroy filter existsb]; auto.
  destruct (N.eqb_spec (oid o) id); [discriminate|]. intros H. cbn [orb negb]. f_equal. apply IH. auto.
Qed.
Lemma good_sub s1 o s2 : good C (s1 ++ o :: s2) -> good C (s1 ++ s2).
Proof.
  intros (ND & Z & L). unfold good. rewrite !map_app in *. cbn [map] in *. rewrite app_length in *. cbn [length] in L.
  split; [eapply NoDup_remove_1; exact ND|]. split; [|lia].
  intros H. apply Z. apply in_app_iff in H as [H|H]; apply in_or_app; [left|right; right]; auto.
Qed.

Lemma destroy_spec x s bs id : ramb x s bs -> id <> 0%N ->
  exists x' bs', obj_destroy C x id = (OK, x') /\ ramb x' (sp_destroy [id] s) bs' /\
    lx_act x' = lx_act x /\ lx_epoch x' = lx_epoch x.
Proof.
  intros R NZ. pose proof R as (I & GD & LB & SZ & LD & PD & (junk & D) & EMP). pose proof GD as (ND & Z & LO).
  pose proof (find_spec x s bs id R) as F. unfold obj_destroy.
  destruct (N.eqb_spec id 0) as [|_]; [congruence|].
  destruct (sp_find s id) as [[m d]|] eqn:E.
  2:{ rewrite F. exists x, bs. rewrite destroy_absent by auto. auto. }
  destruct F as (s1 & s2 & b1 & b2 & b3 & -> & -> & I1 & I2 & I3 & NI & EO & ->). subst id.
  assert (MA : meta_at x (length b1) = m).
  { unfold meta_at. rewrite D, <- !app_assoc, skipn_app_len by auto. apply (img_one_meta m d b2 I2). }
  assert (OL : obj_len C x (length b1) = length b2).
  { unfold obj_len. rewrite MA. destruct (img_one_meta m d b2 I2 []) as (_ & -> & _). rewrite (img_one _ _ I2). reflexivity. }
  rewrite OL. cbv zeta. rewrite SZ. rewrite !app_length in *.
  destruct (N.ltb_spec (N.of_nat (length b1 + (length b2 + length b3))) (N.of_nat (length b1 + length b2))); [lia|].
  exists (with_data x (N.of_nat (length b1 + (length b2 + length b3)) - N.of_nat (length b2))
    ((b1 ++ b3) ++ repeat 0%N (length b2) ++ junk)), (b1 ++ b3).
  rewrite destroy_one by exact ND. split.
  { f_equal. unfold with_data. f_equal. rewrite <- (app_assoc b1 b3).
    assert (E1 : lx_data x = (b1 ++ b2) ++ b3 ++ junk) by (rewrite D, <- !app_assoc; auto).
    assert (E2 : lx_data x = ((b1 ++ b2) ++ b3) ++ junk) by (rewrite D, <- !app_assoc; auto).
    rewrite E1 at 2. rewrite (skipn_app_len (b1 ++ b2)) by (rewrite app_length; auto).
    rewrite E2 at 2. rewrite (skipn_app_len ((b1 ++ b2) ++ b3)) by (rewrite !app_length; lia).
    rewrite D, <- !app_assoc, firstn_app_len by auto. rewrite firstn_app_len by lia. reflexivity. }
  split; [|split; reflexivity].
  split; [apply img_app; auto|]. split; [eapply good_sub; eauto|]. rewrite app_length. split; [lia|].
  split; [cbn [with_data lx_size]; lia|]. cbn [with_data lx_data lx_pad].
  rewrite D, !app_length in LD. split; [rewrite !app_length, repeat_length; lia|]. split; [auto|].
  split; [eexists; reflexivity|]. intros E0. apply app_eq_nil in E0 as [-> ->]. inversion I1; inversion I3; subst.
  unfold meta_at, with_data. cbn [lx_data skipn app].
  assert (32 <= length b2) by (rewrite (img_one _ _ I2); pose proof msz_ge; lia).
  rewrite <- (Nat.sub_add 2 (length b2)) by lia. rewrite Nat.add_comm. reflexivity.
Qed.

Lemma destroy_cons id ids s : sp_destroy ids (sp_destroy [id] s) = sp_destroy (id :: ids) s.
Proof.
  unfold sp_destroy. induction s as [|o s IH]; auto. cbn [filter existsb].
  destruct (N.eqb (oid o) id); cbn [orb negb]; [exact IH|]. cbn [filter].
  destruct (existsb (N.eqb (oid o)) ids); cbn [negb]; [exact IH|f_equal; exact IH].
Qed.
Lemma destroy_nil s : sp_destroy [] s = s.
Proof. induction s as [|o s IH]; auto. unfold sp_destroy in *. cbn [filter existsb negb]. f_equal. exact IH. Qed.

Lemma destroy_all_spec ids : forall x s bs, ramb x s bs -> ~ In 0%N ids ->
  exists x' bs', destroy_all C x ids = (OK, x') /\ ramb x' (sp_destroy ids s) bs' /\
    lx_act x' = lx_act x /\ lx_epoch x' = lx_epoch x.
Proof.
  induction ids as [|id ids IH]; intros x s bs R Z; cbn [destroy_all].
  - exists x, bs. rewrite destroy_nil. auto.
  - assert (id <> 0%N) as NZ by (intros ->; apply Z; left; auto).
    destruct (destroy_spec x s bs id R NZ) as (x1 & bs1 & -> & R1 & A1 & E1). change (is_ok OK) with true. cbv iota.
    destruct (IH x1 _ bs1 R1) as (x2 & bs2 & E2 & R2 & A2 & E3); [intros H; apply Z; right; auto|].
    rewrite destroy_cons in R2. exists x2, bs2. rewrite E2, A2, A1, E3, E1. auto.
Qed.

(** ** Append *)
Lemma splice_app a b k l : splice (a ++ b) (length a + k) l = a ++ splice b k l.
Proof.
  unfold splice. rewrite firstn_app_2, <- app_assoc. do 3 f_equal.
  rewrite skipn_app, skipn_all2 by lia. cbn [app]. f_equal. lia.
Qed.
Lemma splice_length l off bs : off + length bs <= length l -> length (splice l off bs) = length l.
Proof. intros H. unfold splice. rewrite !app_length, firstn_length, skipn_length. lia. Qed.

Lemma NoDup_app_one (l : list N) a : NoDup l -> ~ In a l -> NoDup (l ++ [a]).
Proof.
  induction 1 as [|y l NI ND IH]; intros H; cbn [app]; [repeat constructor; auto|].
  constructor; [|apply IH; intros X; apply H; right; auto].
  rewrite in_app_iff. intros [X|[X|[]]]; [auto|]. apply H. left. auto.
Qed.

Definition push (x : lctx) (m : meta) (d : list N) : lctx :=
  with_data x (lx_size x + N.of_nat (msz + pad_size (length d)))
    (splice (splice (lx_data x) (N.to_nat (lx_size x)) (meta_bytes m)) (N.to_nat (lx_size x) + msz) d).

Lemma push_spec x s bs m d : ramb x s bs -> meta_ok m -> N.to_nat (m_len m) = length d ->
  m_id m <> 0%N -> sp_find s (m_id m) = None -> length s < l_oc C ->
  length bs + (msz + pad_size (length d)) <= l_psz C - G ->
  exists bs', ramb (push x m d) (s ++ [(m, d)]) bs'.
Proof.
  intros R M L NZ NF LO SP. pose proof R as (I & (ND & Z & _) & LB & SZ & LD & PD & (junk & D) & EMP).
  pose proof msz_ge as MG. pose proof (pad_ge (length d)) as PG. pose proof G_pos as GP.
  rewrite D, app_length in LD.
  set (k := pad_size (length d) - length d). set (j1 := skipn 32 junk). set (p1 := firstn (msz - 32) j1).
  set (j2 := skipn (msz - 32 + length d) j1). set (p2 := firstn k j2).
  assert (LJ1 : length j1 = length junk - 32) by apply skipn_length.
  assert (LJ2 : length j2 = length junk - 32 - (msz - 32 + length d)) by (unfold j2; rewrite skipn_length; lia).
  assert (ED : lx_data (push x m d) = (bs ++ meta_bytes m ++ p1 ++ d ++ p2 ++ []) ++ skipn k j2).
  { unfold push. cbn [with_data lx_data]. rewrite D, SZ, Nat2N.id.
    replace (length bs) with (length bs + 0) at 1 by lia. rewrite splice_app, splice_app. rewrite <- !app_assoc. f_equal.
    unfold splice at 2. cbn [firstn app Nat.add]. rewrite meta_bytes_length by auto. fold j1.
    replace msz with (length (meta_bytes m) + (msz - 32)) by (rewrite meta_bytes_length by auto; lia).
    rewrite splice_app. f_equal. unfold splice. fold p1 j2. cbn [app]. do 2 f_equal. unfold p2. rewrite firstn_skipn. reflexivity. }
  exists (bs ++ meta_bytes m ++ p1 ++ d ++ p2 ++ []).
  assert (I1 : img [(m, d)] (meta_bytes m ++ p1 ++ d ++ p2 ++ [])).
  { constructor; auto; [unfold p1; rewrite firstn_length; lia|unfold p2; rewrite firstn_length; unfold k in *; lia|constructor]. }
  assert (IA : img (s ++ [(m, d)]) (bs ++ meta_bytes m ++ p1 ++ d ++ p2 ++ [])) by (apply img_app; auto).
  split; [exact IA|]. rewrite (app_length bs), (img_one _ _ I1). cbn [snd].
  split.
  { unfold good. rewrite map_app, app_length. cbn [map length]. split; [|split; [|lia]].
    - apply NoDup_app_one; auto. clear - NF. induction s as [|o s IH]; cbn [map sp_find] in *; auto.
      destruct (N.eqb_spec (oid o) (m_id m)) as [|NE]; [discriminate|]. intros [H|H]; [contradiction|apply IH; auto].
    - rewrite in_app_iff. intros [H|[H|[]]]; [auto|]. apply NZ. exact H. }
  split; [lia|]. split; [unfold push; cbn [with_data lx_size]; lia|].
  split. { rewrite ED, !app_length, skipn_length. rewrite meta_bytes_length by auto. unfold p1, p2. rewrite !firstn_length. cbn [length]. unfold k in *. lia. }
  split; [exact PD|]. split; [eexists; exact ED|]. intros E. destruct s; discriminate.
Qed.
End Ram.
