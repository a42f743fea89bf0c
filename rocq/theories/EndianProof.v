(** Proofs about byte-order translation (C18). *)
From Coq Require Import String.
From Verif Require Import Base BaseLemmas KeyId EndianModel.
Local Open Scope N_scope.

(** ** Specification: the memory of a big- or little-endian machine *)
Definition enc (be : bool) (w : nat) (v : N) : list N := if be then rev (le_enc w v) else le_enc w v.
Definition dec (be : bool) (l : list N) : N := le_dec (if be then rev l else l).
(** Reversal of the [w] bytes of a value. *)
Definition bswap (w : nat) (v : N) : N := le_dec (rev (le_enc w v)).

(** ** The swap functions reverse the bytes *)
Definition byt (k v : N) : N := (v / 2 ^ k) mod 256.
Lemma byt_lt k v : byt k v < 256.
Proof. apply N.mod_lt. discriminate. Qed.
Lemma land_byte v k : N.land v (N.shiftl 255 k) = N.shiftl (byt k v) k.
Proof.
  unfold byt. rewrite <- N.shiftr_div_pow2. change 256 with (2 ^ 8). rewrite <- N.land_ones. change (N.ones 8) with 255.
  apply N.bits_inj. intros n. rewrite N.land_spec. destruct (N.lt_ge_cases n k) as [L|L].
  - rewrite !N.shiftl_spec_low by auto. apply Bool.andb_false_r.
  - rewrite !N.shiftl_spec_high' by auto. rewrite N.land_spec, N.shiftr_spec'. f_equal. f_equal. lia.
Qed.
Lemma shr v k j : j <= k -> N.shiftr (N.shiftl v k) j = N.shiftl v (k - j).
Proof. intros H. apply N.shiftr_shiftl_l. auto. Qed.
Lemma shl v k j : N.shiftl (N.shiftl v k) j = N.shiftl v (k + j).
Proof. apply N.shiftl_shiftl. Qed.

Lemma swap16_rev v : v < 65536 -> swap16 v = bswap 2 v.
Proof.
  intros H. unfold swap16, bswap. cbn [le_enc rev app le_dec].
  change 65535 with (N.ones 16). rewrite N.land_ones, N.shiftl_mul_pow2.
  change (2 ^ 8) with 256. change (2 ^ 16) with 65536.
  replace ((v * 256) mod 65536) with ((v mod 256) * 2 ^ 8) by (change (2 ^ 8) with 256; lia).
  rewrite <- N.shiftl_mul_pow2, N.lor_comm, N.shiftr_div_pow2. change (2 ^ 8) with 256.
  rewrite lor_add by (change (2 ^ 8) with 256; lia). change (2 ^ 8) with 256. lia.
Qed.
Lemma swap32_rev v : v < 4294967296 -> swap32 v = bswap 4 v.
Proof.
  intros H. unfold swap32.
  change 0xFF000000 with (N.shiftl 255 24). change 0xFF0000 with (N.shiftl 255 16).
  change 0xFF00 with (N.shiftl 255 8). change 0xFF with (N.shiftl 255 0).
  rewrite !land_byte, !shr, !shl by discriminate.
  change (24 - 24) with 0. change (16 - 8) with 8. change (8 + 8) with 16. change (0 + 24) with 24.
  rewrite N.shiftl_0_r.
  pose proof (byt_lt 24 v). pose proof (byt_lt 16 v). pose proof (byt_lt 8 v). pose proof (byt_lt 0 v).
  rewrite (N.lor_comm (byt 24 v)), lor_add by assumption. change (2 ^ 8) with 256.
  rewrite (N.lor_comm (_ + _)), lor_add by (change (2 ^ 16) with 65536; lia). change (2 ^ 16) with 65536.
  rewrite (N.lor_comm (_ + _)), lor_add by (change (2 ^ 24) with 16777216; lia). change (2 ^ 24) with 16777216.
  unfold bswap. cbn [le_enc rev app le_dec]. unfold byt.
  change (2 ^ 24) with (256 * 256 * 256). change (2 ^ 16) with (256 * 256). change (2 ^ 8) with 256. change (2 ^ 0) with 1.
  rewrite N.div_1_r, <- !N.div_div by discriminate. lia.
Qed.
Lemma swap64_rev v : v < 18446744073709551616 -> swap64 v = bswap 8 v.
Proof.
  intros H. unfold swap64.
  change 0xFF00000000000000 with (N.shiftl 255 56). change 0xFF000000000000 with (N.shiftl 255 48).
  change 0xFF0000000000 with (N.shiftl 255 40). change 0xFF00000000 with (N.shiftl 255 32).
  change 0xFF000000 with (N.shiftl 255 24). change 0xFF0000 with (N.shiftl 255 16).
  change 0xFF00 with (N.shiftl 255 8). change 0xFF with (N.shiftl 255 0).
  rewrite !land_byte, !shr, !shl by discriminate.
  change (56 - 56) with 0. change (48 - 40) with 8. change (40 - 24) with 16. change (32 - 8) with 24.
  change (24 + 8) with 32. change (16 + 24) with 40. change (8 + 40) with 48. change (0 + 56) with 56.
  rewrite N.shiftl_0_r.
  pose proof (byt_lt 56 v). pose proof (byt_lt 48 v). pose proof (byt_lt 40 v). pose proof (byt_lt 32 v).
  pose proof (byt_lt 24 v). pose proof (byt_lt 16 v). pose proof (byt_lt 8 v). pose proof (byt_lt 0 v).
  rewrite (N.lor_comm (byt 56 v)), lor_add by assumption. change (2 ^ 8) with 256.
  rewrite (N.lor_comm (_ + _)), lor_add by (change (2 ^ 16) with 65536; lia). change (2 ^ 16) with 65536.
  rewrite (N.lor_comm (_ + _)), lor_add by (change (2 ^ 24) with 16777216; lia). change (2 ^ 24) with 16777216.
  rewrite (N.lor_comm (_ + _)), lor_add by (change (2 ^ 32) with 4294967296; lia). change (2 ^ 32) with 4294967296.
  rewrite (N.lor_comm (_ + _)), lor_add by (change (2 ^ 40) with 1099511627776; lia). change (2 ^ 40) with 1099511627776.
  rewrite (N.lor_comm (_ + _)), lor_add by (change (2 ^ 48) with 281474976710656; lia). change (2 ^ 48) with 281474976710656.
  rewrite (N.lor_comm (_ + _)), lor_add by (change (2 ^ 56) with 72057594037927936; lia). change (2 ^ 56) with 72057594037927936.
  unfold bswap. cbn [le_enc rev app le_dec]. unfold byt.
  change (2 ^ 56) with (256 * 256 * 256 * 256 * 256 * 256 * 256). change (2 ^ 48) with (256 * 256 * 256 * 256 * 256 * 256).
  change (2 ^ 40) with (256 * 256 * 256 * 256 * 256). change (2 ^ 32) with (256 * 256 * 256 * 256).
  change (2 ^ 24) with (256 * 256 * 256). change (2 ^ 16) with (256 * 256). change (2 ^ 8) with 256. change (2 ^ 0) with 1.
  rewrite N.div_1_r, <- !N.div_div by discriminate.
  set (b0 := v mod 256). set (b1 := (v / 256) mod 256). set (b2 := (v / 256 / 256) mod 256).
  set (b3 := (v / 256 / 256 / 256) mod 256). set (b4 := (v / 256 / 256 / 256 / 256) mod 256).
  set (b5 := (v / 256 / 256 / 256 / 256 / 256) mod 256). set (b6 := (v / 256 / 256 / 256 / 256 / 256 / 256) mod 256).
  set (b7 := (v / 256 / 256 / 256 / 256 / 256 / 256 / 256) mod 256).
  clearbody b0 b1 b2 b3 b4 b5 b6 b7. lia.
Qed.

Definition wide (w : nat) : Prop := w = 1%nat \/ w = 2%nat \/ w = 4%nat \/ w = 8%nat.
Lemma bswap_lt w v : bswap w v < 256 ^ N.of_nat w.
Proof.
  unfold bswap. pose proof (le_dec_bound (rev (le_enc w v))) as H.
  rewrite rev_length, le_enc_length in H. apply H. apply Forall_rev, le_enc_ok.
Qed.
Lemma bswap_invol w v : v < 256 ^ N.of_nat w -> bswap w (bswap w v) = v.
Proof.
  intros H. unfold bswap.
  assert (E : le_enc w (le_dec (rev (le_enc w v))) = rev (le_enc w v)).
  { rewrite <- (le_enc_dec (rev (le_enc w v))) at 2 by (apply Forall_rev, le_enc_ok).
    rewrite rev_length, le_enc_length. reflexivity. }
  rewrite E, rev_involutive. apply le_dec_enc; auto.
Qed.

Lemma translate_eq w magic v : wide w -> v < 256 ^ N.of_nat w ->
  translate w magic v = if swaptest magic then v else bswap w v.
Proof.
  intros [->|[->|[->| ->]]] H; unfold translate; destruct (swaptest magic); auto.
  - unfold bswap. cbn [le_enc rev app le_dec]. change (256 ^ N.of_nat 1) with 256 in H. lia.
  - apply swap16_rev. exact H.
  - apply swap32_rev. exact H.
  - apply swap64_rev. exact H.
Qed.

(** Reading on a machine of the other order is byte reversal. *)
Lemma dec_enc be be' w v : v < 256 ^ N.of_nat w ->
  dec be' (enc be w v) = if Bool.eqb be be' then v else bswap w v.
Proof.
  intros H. unfold dec, enc, bswap. destruct be, be'; cbn [Bool.eqb]; rewrite ?rev_involutive; auto using le_dec_enc.
Qed.

(** The magic a peer sees tells whether the orders agree. *)
Lemma magic_seen be be' : swaptest (dec be' (enc be 2 MAGIC_NATIVE)) = Bool.eqb be be'.
Proof. destruct be, be'; vm_compute; reflexivity. Qed.

Lemma field_agree w be be' v : wide w -> v < 256 ^ N.of_nat w ->
  translate w (dec be' (enc be 2 MAGIC_NATIVE)) (dec be' (enc be w v)) = v.
Proof.
  intros HW H. rewrite (dec_enc be be' w v) by auto.
  assert (B : (if Bool.eqb be be' then v else bswap w v) < 256 ^ N.of_nat w) by (destruct (Bool.eqb be be'); auto; apply bswap_lt).
  rewrite translate_eq, magic_seen by auto. destruct (Bool.eqb be be'); auto. apply bswap_invol; auto.
Qed.
Lemma field_reply w be be' v : wide w -> v < 256 ^ N.of_nat w ->
  dec be (enc be' w (translate w (dec be' (enc be 2 MAGIC_NATIVE)) v)) = v.
Proof.
  intros HW H. rewrite translate_eq, magic_seen by auto.
  assert (B : (if Bool.eqb be be' then v else bswap w v) < 256 ^ N.of_nat w) by (destruct (Bool.eqb be be'); auto; apply bswap_lt).
  rewrite (dec_enc be' be w) by auto. destruct be, be'; cbn [Bool.eqb] in *; auto; apply bswap_invol; auto.
Qed.

(** ** Messages *)
(** A translation function is complete if it treats every field except padding,
    with the operation of the field's width. *)
Definition field_complete (f : mfield) : bool :=
  match f_op f with
  | FT w => Nat.eqb w (f_width f) && (Nat.eqb w 2 || Nat.eqb w 4 || Nat.eqb w 8)
  | FCopy | FStr => Nat.eqb (f_width f) 1
  | FNone => f_pad f
  end.
Definition complete (fs : list mfield) : bool := forallb field_complete fs.

(** Values that fit their fields; strings end in zero. *)
Definition fits (f : mfield) (l : list N) : Prop :=
  Forall (fun v => v < 256 ^ N.of_nat (f_width f)) l /\ (f_op f = FStr -> exists s, l = s ++ [0]).
(** Equal on the fields that are not padding. *)
Inductive agree : list mfield -> values -> values -> Prop :=
| agree_nil : agree [] [] []
| agree_cons f fs a b va vb : (f_pad f = false -> a = b) -> agree fs va vb -> agree (f :: fs) (a :: va) (b :: vb).
(** What a machine of order [be'] sees of values another stored in order [be]. *)
Definition seen_by (be be' : bool) (f : mfield) (l : list N) : list N :=
  map (fun v => dec be' (enc be (f_width f) v)) l.
Fixpoint msg_seen (be be' : bool) (fs : list mfield) (vs : values) : values :=
  match fs, vs with f :: fs', v :: vs' => seen_by be be' f v :: msg_seen be be' fs' vs' | _, _ => [] end.

Lemma map_id_in {A} (f : A -> A) l : (forall x, In x l -> f x = x) -> map f l = l.
Proof. induction l as [|a l IH]; intros H; cbn [map]; auto. rewrite H, IH; auto using in_eq. intros x I. apply H. right; auto. Qed.

Lemma seen_byte be be' f l : f_width f = 1%nat -> Forall (fun v => v < 256 ^ N.of_nat (f_width f)) l -> seen_by be be' f l = l.
Proof.
  intros HW HF. unfold seen_by. apply map_id_in. intros x HI. rewrite Forall_forall in HF. specialize (HF x HI). rewrite HW in *.
  rewrite dec_enc by auto. destruct (Bool.eqb be be'); auto. unfold bswap. cbn [le_enc rev app le_dec].
  change (256 ^ N.of_nat 1) with 256 in HF. lia.
Qed.
Lemma field_complete_wide f w : field_complete f = true -> f_op f = FT w -> w = f_width f /\ wide w.
Proof. unfold field_complete, wide. intros H E. rewrite E in H. lia. Qed.

Lemma msg_agree be be' : forall fs vs dest, complete fs = true -> Forall2 fits fs vs -> length dest = length fs ->
  agree fs vs (tr_msg fs (dec be' (enc be 2 MAGIC_NATIVE)) (msg_seen be be' fs vs) dest).
Proof.
  induction fs as [|f fs IH]; intros vs dest HC HF HL; inversion HF as [|? v ? vs' [HV HS] HF']; subst; cbn [msg_seen tr_msg].
  { constructor. }
  destruct dest as [|d dest]; [discriminate|]. injection HL as HL.
  cbn [complete forallb] in HC. apply andb_prop in HC as [HC1 HC2]. constructor; [|apply IH; auto].
  intros NP. unfold tr_field. destruct (f_op f) as [w| | |] eqn:EO.
  - destruct (field_complete_wide _ _ HC1 EO) as [EW WD]. unfold seen_by. rewrite map_map, <- EW in *. symmetry. apply map_id_in.
    intros x HI. rewrite Forall_forall in HV. apply field_agree; auto.
  - unfold field_complete in HC1. rewrite EO in HC1. apply Nat.eqb_eq in HC1. rewrite seen_byte; auto.
  - unfold field_complete in HC1. rewrite EO in HC1. apply Nat.eqb_eq in HC1. rewrite seen_byte; auto.
    destruct (HS eq_refl) as (s & ->). rewrite removelast_last. reflexivity.
  - unfold field_complete in HC1. rewrite EO in HC1. congruence.
Qed.
Lemma msg_reply be be' : forall fs vs dest, complete fs = true -> Forall2 fits fs vs -> length dest = length fs ->
  agree fs vs (msg_seen be' be fs (tr_msg fs (dec be' (enc be 2 MAGIC_NATIVE)) vs dest)).
Proof.
  induction fs as [|f fs IH]; intros vs dest HC HF HL; inversion HF as [|? v ? vs' [HV HS] HF']; subst; cbn [msg_seen tr_msg].
  { constructor. }
  destruct dest as [|d dest]; [discriminate|]. injection HL as HL.
  cbn [complete forallb] in HC. apply andb_prop in HC as [HC1 HC2]. cbn [msg_seen]. constructor; [|apply IH; auto].
  intros NP. unfold tr_field. destruct (f_op f) as [w| | |] eqn:EO.
  - destruct (field_complete_wide _ _ HC1 EO) as [EW WD]. unfold seen_by. rewrite map_map, <- EW in *. symmetry. apply map_id_in.
    intros x HI. rewrite Forall_forall in HV. apply field_reply; auto.
  - unfold field_complete in HC1. rewrite EO in HC1. apply Nat.eqb_eq in HC1. rewrite seen_byte; auto.
  - unfold field_complete in HC1. rewrite EO in HC1. apply Nat.eqb_eq in HC1.
    destruct (HS eq_refl) as (s & ->). rewrite removelast_last. rewrite seen_byte; auto.
  - unfold field_complete in HC1. rewrite EO in HC1. congruence.
Qed.
Lemma msg_invol magic : forall fs vs d1 d2, complete fs = true -> Forall2 fits fs vs -> length d1 = length fs -> length d2 = length fs ->
  agree fs vs (tr_msg fs magic (tr_msg fs magic vs d1) d2).
Proof.
  induction fs as [|f fs IH]; intros vs d1 d2 HC HF HL1 HL2; inversion HF as [|? v ? vs' [HV HS] HF']; subst; cbn [tr_msg].
  { constructor. }
  destruct d1 as [|a d1]; [discriminate|]. destruct d2 as [|b d2]; [discriminate|]. injection HL1 as HL1. injection HL2 as HL2.
  cbn [complete forallb] in HC. apply andb_prop in HC as [HC1 HC2]. cbn [tr_msg]. constructor; [|apply IH; auto].
  intros NP. unfold tr_field. destruct (f_op f) as [w| | |] eqn:EO; auto.
  - destruct (field_complete_wide _ _ HC1 EO) as [EW WD]. rewrite map_map, <- EW in *. symmetry. apply map_id_in.
    intros x HI. rewrite Forall_forall in HV. specialize (HV x HI). rewrite (translate_eq w magic x) by auto.
    destruct (swaptest magic) eqn:ST.
    + rewrite translate_eq by auto. rewrite ST. reflexivity.
    + rewrite translate_eq by (auto using bswap_lt). rewrite ST. apply bswap_invol; auto.
  - destruct (HS eq_refl) as (s & ->). rewrite !removelast_last. reflexivity.
  - unfold field_complete in HC1. rewrite EO in HC1. congruence.
Qed.
