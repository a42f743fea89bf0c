(** Key identifiers: wolfhsm/wh_keyid.h 36-131, src/wh_keyid.c 27-86. *)
From Verif Require Import Base Flags.
Local Open Scope N_scope.

(** WH_MAKE_KEYID: wh_keyid.h 90-94. *)
Definition mk_keyid (ty user id : N) : N :=
  N.lor (N.lor (N.land (N.shiftl ty 12) 61440) (N.land (N.shiftl user 8) 3840)) (N.land id 255).
(** WH_KEYID_TYPE, WH_KEYID_USER, WH_KEYID_ID: wh_keyid.h 95-97. *)
Definition kid_type (k : N) : N := N.shiftr (N.land k 61440) 12.
Definition kid_user (k : N) : N := N.shiftr (N.land k 3840) 8.
Definition kid_id (k : N) : N := N.land k 255.

(** Key types: wh_keyid.h 108-114. *)
Definition KT_NVM : N := 0.
Definition KT_CRYPTO : N := 1.
Definition KT_SHE : N := 2.
Definition KT_COUNTER : N := 3.
Definition KT_WRAPPED : N := 4.
Definition KT_HW : N := 5.

(** WH_KEYID_ISERASED, ISWRAPPED, ISHW, IS_UNASSIGNED: wh_keyid.h 99-122. *)
Definition kid_erased (k : N) : bool := N.eqb (kid_id k) 0.
Definition kid_wrapped (k : N) : bool := N.eqb (kid_type k) KT_WRAPPED.
Definition kid_hw (k : N) : bool := N.eqb (kid_type k) KT_HW.
Definition kid_unassigned (k : N) : bool := kid_erased k && negb (N.eqb (kid_type k) KT_SHE).

(** Client flags: wh_keyid.h 71-82. *)
Definition CF_GLOBAL : N := 256.
Definition CF_WRAPPED : N := 512.
Definition CF_HW : N := 1024.

(** WOLFHSM_CFG_GLOBAL_KEYS, WOLFHSM_CFG_KEYWRAP, WOLFHSM_CFG_HWKEYSTORE. *)
Record kcfg := mkKcfg { k_global : bool; k_wrap : bool; k_hw : bool }.

(** wh_KeyId_TranslateFromClient: wh_keyid.c 27-57. *)
Definition from_client (K : kcfg) (ty client req : N) : N :=
  let user := if k_global K && has req CF_GLOBAL then 0 else client in
  let ty := if k_wrap K && has req CF_WRAPPED then KT_WRAPPED else ty in
  let ty := if k_hw K && has req CF_HW then KT_HW else ty in
  mk_keyid ty user (N.land req 255).

(** wh_KeyId_TranslateToClient: wh_keyid.c 59-85. *)
Definition to_client (K : kcfg) (k : N) : N :=
  let c := kid_id k in
  let c := if k_global K && N.eqb (kid_user k) 0 then N.lor c CF_GLOBAL else c in
  let c := if k_wrap K && N.eqb (kid_type k) KT_WRAPPED then N.lor c CF_WRAPPED else c in
  if k_hw K && N.eqb (kid_type k) KT_HW then N.lor c CF_HW else c.

(** ** Arithmetic reading *)
Lemma land_low a b n : b < 2 ^ n -> N.land (N.shiftl a n) b = 0.
Proof.
  intros H. apply N.bits_inj. intros m. rewrite N.land_spec, N.bits_0.
  destruct (N.lt_ge_cases m n) as [L|L].
  - rewrite N.shiftl_spec_low; auto.
  - replace (N.testbit b m) with false; [apply Bool.andb_false_r|].
    symmetry. destruct (N.eq_dec b 0) as [->|NZ]; [apply N.bits_0|].
    apply N.bits_above_log2. apply N.log2_lt_pow2; try lia.
    apply N.lt_le_trans with (2 ^ n); auto. apply N.pow_le_mono_r; lia.
Qed.
Lemma lor_add a b n : b < 2 ^ n -> N.lor (N.shiftl a n) b = a * 2 ^ n + b.
Proof.
  intros H. pose proof (land_low a b n H) as L.
  rewrite <- N.lxor_lor by exact L. rewrite <- N.add_nocarry_lxor by exact L. rewrite N.shiftl_mul_pow2. reflexivity.
Qed.
Lemma low8 a : N.land a 255 = a mod 256.
Proof. change 255 with (N.ones 8). rewrite N.land_ones. reflexivity. Qed.
Lemma low4 a : N.land a 15 = a mod 16.
Proof. change 15 with (N.ones 4). rewrite N.land_ones. reflexivity. Qed.

Lemma mk_arith ty user id : mk_keyid ty user id = (ty mod 16) * 4096 + (user mod 16) * 256 + id mod 256.
Proof.
  unfold mk_keyid.
  change 61440 with (N.shiftl 15 12). change 3840 with (N.shiftl 15 8).
  rewrite <- !N.shiftl_land, !low4, low8.
  assert (U : user mod 16 < 16) by (apply N.mod_lt; discriminate).
  assert (I : id mod 256 < 256) by (apply N.mod_lt; discriminate).
  change 12 with (4 + 8) at 1. rewrite <- N.shiftl_shiftl, <- N.shiftl_lor, lor_add by exact I.
  rewrite lor_add by exact U. change (2 ^ 4) with 16. change (2 ^ 8) with 256. lia.
Qed.
Lemma type_arith k : kid_type k = (k / 4096) mod 16.
Proof.
  unfold kid_type. rewrite N.shiftr_land. change (N.shiftr 61440 12) with 15.
  rewrite low4, N.shiftr_div_pow2. reflexivity.
Qed.
Lemma user_arith k : kid_user k = (k / 256) mod 16.
Proof.
  unfold kid_user. rewrite N.shiftr_land. change (N.shiftr 3840 8) with 15.
  rewrite low4, N.shiftr_div_pow2. reflexivity.
Qed.
Lemma id_arith k : kid_id k = k mod 256.
Proof. apply low8. Qed.

Lemma has_pow2 a k : has a (2 ^ k) = N.testbit a k.
Proof.
  unfold has. destruct (N.testbit a k) eqn:E.
  - apply Bool.negb_true_iff, N.eqb_neq. intros H.
    assert (X : N.testbit (N.land a (2 ^ k)) k = true) by (rewrite N.land_spec, E, N.pow2_bits_true; reflexivity).
    rewrite H, N.bits_0 in X. discriminate.
  - apply Bool.negb_false_iff, N.eqb_eq. apply N.bits_inj. intros m. rewrite N.land_spec, N.bits_0.
    destruct (N.eq_dec k m) as [<-|NE]; [rewrite E; reflexivity|].
    rewrite N.pow2_bits_false by auto. apply Bool.andb_false_r.
Qed.

(** ** What the parts of a made id are *)
Lemma mk_type ty u i : ty < 16 -> kid_type (mk_keyid ty u i) = ty.
Proof.
  intros H. rewrite type_arith, mk_arith, (N.mod_small ty) by auto.
  pose proof (N.mod_lt u 16 ltac:(discriminate)). pose proof (N.mod_lt i 256 ltac:(discriminate)).
  replace ((ty * 4096 + u mod 16 * 256 + i mod 256) / 4096) with ty; [apply N.mod_small; auto|].
  apply N.div_unique with (u mod 16 * 256 + i mod 256); lia.
Qed.
Lemma mk_user ty u i : u < 16 -> kid_user (mk_keyid ty u i) = u.
Proof.
  intros H. rewrite user_arith, mk_arith, (N.mod_small u) by auto.
  pose proof (N.mod_lt i 256 ltac:(discriminate)).
  replace ((ty mod 16 * 4096 + u * 256 + i mod 256) / 256) with (ty mod 16 * 16 + u).
  - rewrite N.add_comm, N.mod_add by discriminate. apply N.mod_small; auto.
  - apply N.div_unique with (i mod 256); lia.
Qed.
Lemma mk_id ty u i : kid_id (mk_keyid ty u i) = i mod 256.
Proof.
  rewrite id_arith, mk_arith. symmetry. apply N.mod_unique with (ty mod 16 * 16 + u mod 16).
  - apply N.mod_lt; discriminate.
  - lia.
Qed.
Lemma mk_inj t1 u1 i1 t2 u2 i2 : t1 < 16 -> u1 < 16 -> t2 < 16 -> u2 < 16 ->
  (mk_keyid t1 u1 i1 = mk_keyid t2 u2 i2 <-> t1 = t2 /\ u1 = u2 /\ i1 mod 256 = i2 mod 256).
Proof.
  intros A B C D. split.
  - intros E. pose proof (f_equal kid_type E) as ET. pose proof (f_equal kid_user E) as EU.
    pose proof (f_equal kid_id E) as EI. rewrite !mk_type in ET by auto. rewrite !mk_user in EU by auto.
    rewrite !mk_id in EI. auto.
  - intros (-> & -> & E). rewrite !mk_arith, E. reflexivity.
Qed.
Lemma mk_lt ty u i : mk_keyid ty u i < 65536.
Proof.
  rewrite mk_arith. pose proof (N.mod_lt ty 16 ltac:(discriminate)).
  pose proof (N.mod_lt u 16 ltac:(discriminate)). pose proof (N.mod_lt i 256 ltac:(discriminate)). lia.
Qed.
