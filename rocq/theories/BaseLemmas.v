(** Lemmas about the encodings of Base.v. *)
From Verif Require Import Base.

Lemma le_enc_length n x : length (le_enc n x) = n.
Proof. revert x; induction n as [|n IH]; intros x; cbn [le_enc length]; auto. Qed.

Lemma le_enc_ok n x : bytes_ok (le_enc n x).
Proof.
  revert x; induction n as [|n IH]; intros x; cbn [le_enc]; constructor; [unfold byte_ok; lia|apply IH].
Qed.

Lemma le_dec_enc n x : (x < 256 ^ N.of_nat n)%N -> le_dec (le_enc n x) = x.
Proof.
  revert x; induction n as [|n IH]; intros x Hx; cbn [le_enc le_dec].
  - change (256 ^ N.of_nat 0)%N with 1%N in Hx; lia.
  - rewrite IH; [lia|].
    rewrite Nat2N.inj_succ, N.pow_succ_r' in Hx.
    apply N.div_lt_upper_bound; lia.
Qed.

Lemma le_enc_dec l : bytes_ok l -> le_enc (length l) (le_dec l) = l.
Proof.
  induction l as [|b l IH]; intros H; cbn [le_enc le_dec length]; auto.
  inversion H; subst. unfold byte_ok in *.
  f_equal; [lia|].
  replace ((b + 256 * le_dec l) / 256)%N with (le_dec l) by lia. auto.
Qed.

Lemma le_dec_bound l : bytes_ok l -> (le_dec l < 256 ^ N.of_nat (length l))%N.
Proof.
  induction l as [|b l IH]; intros H; cbn [le_dec length].
  - change (256 ^ N.of_nat 0)%N with 1%N; lia.
  - inversion H; subst. specialize (IH H3). unfold byte_ok in *.
    rewrite Nat2N.inj_succ, N.pow_succ_r'. lia.
Qed.

Lemma le_dec_app a b :
  le_dec (a ++ b) = (le_dec a + 256 ^ N.of_nat (length a) * le_dec b)%N.
Proof.
  induction a as [|x a IH]; cbn [app le_dec length].
  - change (256 ^ N.of_nat 0)%N with 1%N; lia.
  - rewrite IH, Nat2N.inj_succ, N.pow_succ_r'. lia.
Qed.

Lemma le_dec_zeros n : le_dec (repeat 0%N n) = 0%N.
Proof. induction n; cbn [repeat le_dec]; lia. Qed.

Lemma le_dec_pad l n : le_dec (l ++ repeat 0%N n) = le_dec l.
Proof. rewrite le_dec_app, le_dec_zeros; lia. Qed.

Lemma bytes_ok_app a b : bytes_ok (a ++ b) <-> bytes_ok a /\ bytes_ok b.
Proof. unfold bytes_ok; apply Forall_app. Qed.

Lemma bytes_ok_firstn n l : bytes_ok l -> bytes_ok (firstn n l).
Proof.
  unfold bytes_ok; rewrite !Forall_forall; intros H x Hx. apply H.
  rewrite <- (firstn_skipn n l). apply in_or_app; auto.
Qed.

Lemma bytes_ok_skipn n l : bytes_ok l -> bytes_ok (skipn n l).
Proof.
  unfold bytes_ok; rewrite !Forall_forall; intros H x Hx. apply H.
  rewrite <- (firstn_skipn n l). apply in_or_app; auto.
Qed.

Lemma bytes_ok_repeat0 n : bytes_ok (repeat 0%N n).
Proof. induction n; cbn [repeat]; constructor; [unfold byte_ok; lia|assumption]. Qed.

(** * Units *)

Lemma units_spec b : 8 * units b >= b /\ 8 * units b < b + 8.
Proof. unfold units. destruct (Nat.eqb_spec (b mod 8) 0); lia. Qed.

Lemma units_mul8 n : units (8 * n) = n.
Proof. pose proof (units_spec (8 * n)); lia. Qed.

Lemma units_add8 a b : units (8 * a + b) = a + units b.
Proof. pose proof (units_spec (8 * a + b)); pose proof (units_spec b); lia. Qed.

Lemma units_0 : units 0 = 0.
Proof. reflexivity. Qed.

Lemma units_le a b : a <= b -> units a <= units b.
Proof. intros; pose proof (units_spec a); pose proof (units_spec b); lia. Qed.

Lemma units_iff len n : units len <= n <-> len <= 8 * n.
Proof. pose proof (units_spec len); split; lia. Qed.

Lemma pack_fuel_eq f1 : forall f2 l, length l <= f1 -> length l <= f2 ->
  pack_fuel f1 l = pack_fuel f2 l.
Proof.
  induction f1 as [|k IH]; intros [|k2] l H1 H2; try (destruct l; cbn in *; [reflexivity|lia]).
  destruct l as [|x l]; [reflexivity|].
  cbn [pack_fuel]. f_equal.
  apply IH; rewrite skipn_length; cbn [length] in *; lia.
Qed.

Lemma pack_nil : pack [] = [].
Proof. reflexivity. Qed.

Lemma pack_step l : l <> [] -> pack l = le_dec (firstn 8 l) :: pack (skipn 8 l).
Proof.
  intros H. unfold pack at 1. destruct l as [|x l]; [congruence|].
  cbn [pack_fuel length]. f_equal. apply pack_fuel_eq; rewrite skipn_length; cbn [length]; lia.
Qed.

(** Induction by 8-byte blocks. *)
Lemma block_ind (P : list N -> Prop) :
  P [] -> (forall l, l <> [] -> P (skipn 8 l) -> P l) -> forall l, P l.
Proof.
  intros H0 H1 l.
  assert (G : forall n l, length l <= n -> P l).
  { intros n; induction n as [|n IH]; intros k Hk.
    - destruct k; [exact H0|cbn in Hk; lia].
    - destruct k as [|x k]; [exact H0|]. apply H1; [discriminate|].
      apply IH. rewrite skipn_length; cbn [length] in *; lia. }
  apply (G (length l)); auto.
Qed.

Lemma pack_length l : length (pack l) = units (length l).
Proof.
  induction l as [|l Hl IH] using block_ind; [reflexivity|].
  rewrite pack_step by auto. cbn [length]. rewrite IH, skipn_length.
  assert (length l > 0) by (destruct l; [congruence|cbn; lia]).
  pose proof (units_spec (length l)); pose proof (units_spec (length l - 8)); lia.
Qed.

Lemma pack_app8 k : forall a b, length a = 8 * k -> pack (a ++ b) = pack a ++ pack b.
Proof.
  induction k as [|k IH]; intros a b Ha.
  - destruct a; [reflexivity|cbn in Ha; lia].
  - assert (a <> []) by (destruct a; [cbn in Ha; lia|discriminate]).
    rewrite (pack_step a), (pack_step (a ++ b)) by (destruct a; [congruence|discriminate]).
    cbn [app]. f_equal.
    + f_equal. rewrite firstn_app. replace (8 - length a) with 0 by lia.
      rewrite firstn_O. rewrite app_nil_r; reflexivity.
    + rewrite skipn_app. replace (8 - length a) with 0 by lia. rewrite skipn_O.
      apply IH. rewrite skipn_length; lia.
Qed.

Lemma pack_short l : l <> [] -> length l <= 8 -> pack l = [le_dec l].
Proof.
  intros H1 H2. rewrite pack_step by auto.
  rewrite firstn_all2, skipn_all2 by lia. reflexivity.
Qed.

Lemma unpack_app a b : unpack (a ++ b) = unpack a ++ unpack b.
Proof. unfold unpack; apply flat_map_app. Qed.

Lemma unpack_length us : length (unpack us) = 8 * length us.
Proof.
  induction us as [|u us IH]; [reflexivity|].
  change (unpack (u :: us)) with (le_enc 8 u ++ unpack us).
  rewrite app_length, le_enc_length, IH; cbn [length]; lia.
Qed.

Lemma unpack_pack l : bytes_ok l ->
  unpack (pack l) = l ++ repeat 0%N (8 * units (length l) - length l).
Proof.
  induction l as [|l Hl IH] using block_ind; intros Hok; [reflexivity|].
  rewrite pack_step by auto.
  change (unpack (?u :: ?us)) with (le_enc 8 u ++ unpack us).
  rewrite IH by (apply bytes_ok_skipn; auto). rewrite skipn_length.
  assert (length l > 0) by (destruct l; [congruence|cbn; lia]).
  destruct (le_lt_dec 8 (length l)) as [H8|H8].
  - assert (E : le_enc 8 (le_dec (firstn 8 l)) = firstn 8 l).
    { rewrite <- (le_enc_dec (firstn 8 l)) at 2 by (apply bytes_ok_firstn; auto).
      rewrite firstn_length, Nat.min_l by lia. reflexivity. }
    rewrite E, app_assoc, firstn_skipn.
    f_equal. f_equal.
    pose proof (units_spec (length l)); pose proof (units_spec (length l - 8)); lia.
  - rewrite firstn_all2, skipn_all2 by lia.
    replace (length l - 8) with 0 by lia. rewrite units_0. cbn [Nat.mul Nat.sub repeat app].
    rewrite app_nil_r.
    rewrite <- (le_dec_pad l (8 - length l)).
    transitivity (l ++ repeat 0%N (8 - length l)).
    + rewrite <- (le_enc_dec (l ++ repeat 0%N (8 - length l))) at 2.
      * rewrite app_length, repeat_length. f_equal; lia.
      * apply bytes_ok_app; split; auto using bytes_ok_repeat0.
    + f_equal. f_equal. pose proof (units_spec (length l)); lia.
Qed.

Lemma pack_bound l : bytes_ok l -> Forall (fun u => (u < 2 ^ 64)%N) (pack l).
Proof.
  induction l as [|l Hl IH] using block_ind; intros Hok; [constructor|].
  rewrite pack_step by auto. constructor.
  - eapply N.lt_le_trans; [apply le_dec_bound, bytes_ok_firstn; auto|].
    change (2 ^ 64)%N with (256 ^ 8)%N.
    apply N.pow_le_mono_r; [lia|]. rewrite firstn_length; lia.
  - apply IH, bytes_ok_skipn; auto.
Qed.

(** * Metadata round trip *)

Lemma meta_bytes_length m : meta_ok m -> length (meta_bytes m) = 32.
Proof.
  intros (_ & H & _). unfold meta_bytes. rewrite !app_length, !le_enc_length, H. reflexivity.
Qed.

Lemma meta_bytes_ok m : meta_ok m -> bytes_ok (meta_bytes m).
Proof.
  intros (_ & _ & H). unfold meta_bytes. rewrite !bytes_ok_app.
  repeat split; auto using le_enc_ok.
Qed.

Lemma firstn_app_len {A} (a b : list A) n : length a = n -> firstn n (a ++ b) = a.
Proof. intros <-. rewrite firstn_app, Nat.sub_diag, firstn_all; cbn [firstn]; apply app_nil_r. Qed.

Lemma skipn_app_len {A} (a b : list A) n : length a = n -> skipn n (a ++ b) = b.
Proof. intros <-. rewrite skipn_app, Nat.sub_diag, skipn_all; reflexivity. Qed.

Lemma meta_of_bytes_app m r : meta_ok m -> meta_of_bytes (meta_bytes m ++ r) = m.
Proof.
  intros ((H1 & H2 & H3 & H4) & H5 & H6). unfold meta_of_bytes, meta_bytes.
  destruct m as [i a fl n lb]; cbn [m_id m_access m_flags m_len m_label] in *.
  assert (E : firstn 24 (lb ++ r) = lb) by (apply firstn_app_len; assumption).
  rewrite <- !app_assoc. cbn [le_enc app].
  match goal with |- context [firstn 24 (skipn 8 ?l)] =>
    replace (firstn 24 (skipn 8 l)) with lb by (symmetry; exact E) end.
  cbn [firstn skipn le_dec]. f_equal; lia.
Qed.

Lemma meta_units_length m : meta_ok m -> length (meta_units m) = 4.
Proof. intros H. unfold meta_units. rewrite pack_length, meta_bytes_length by auto. reflexivity. Qed.

Lemma meta_of_units_units m : meta_ok m -> meta_of_units (meta_units m) = m.
Proof.
  intros H. unfold meta_of_units, meta_units.
  rewrite unpack_pack by (apply meta_bytes_ok; auto). apply meta_of_bytes_app; auto.
Qed.

Lemma meta_bytes_inj a b : meta_ok a -> meta_ok b -> meta_bytes a = meta_bytes b -> a = b.
Proof.
  intros Ha Hb E. rewrite <- (meta_of_bytes_app a []), <- (meta_of_bytes_app b []) by auto.
  rewrite E; reflexivity.
Qed.

(** * CRC *)
Lemma crc_bits_bound n c : (c < 65536)%N -> (crc_bits n c < 65536)%N.
Proof.
  revert c; induction n as [|n IH]; intros c Hc; cbn [crc_bits]; auto.
  apply IH. destruct (N.testbit c 15).
  - assert (B : (N.lxor ((2 * c) mod 65536) 4129 < 2 ^ 16)%N).
    { destruct (N.eq_dec (N.lxor ((2 * c) mod 65536) 4129) 0) as [->|Hn]; [reflexivity|].
      apply N.log2_lt_pow2; [lia|].
      eapply N.le_lt_trans; [apply N.log2_lxor|].
      apply N.max_lub_lt; [|reflexivity].
      destruct (N.eq_dec ((2 * c) mod 65536) 0) as [->|Hz]; [reflexivity|].
      apply N.log2_lt_pow2; [lia|]. change (2 ^ 16)%N with 65536%N. lia. }
    exact B.
  - lia.
Qed.

Lemma crc16_bound l : forall c, (c < 65536)%N -> (crc16 c l < 65536)%N.
Proof.
  unfold crc16. induction l as [|b l IH]; intros c Hc; cbn [fold_left]; auto.
  apply IH. unfold crc_byte. apply crc_bits_bound. lia.
Qed.

Lemma crc16_app c a b : crc16 c (a ++ b) = crc16 (crc16 c a) b.
Proof. unfold crc16; apply fold_left_app. Qed.
