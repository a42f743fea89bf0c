(** Proofs about the image manager (C44, C45). *)
From Verif Require Import Base NvmSpec Store ImgModel.

(** ** Specification of the header walk *)
(** The bytes at [p] form a field of type [t] and length [l] wholly inside. *)
Definition field_at (hdr : list N) (odd : bool) (p : nat) (t : N) (l : nat) : Prop :=
  exists b0 b1 b2 b3, nth_error hdr p = Some b0 /\ nth_error hdr (p + 1) = Some b1 /\
    nth_error hdr (p + 2) = Some b2 /\ nth_error hdr (p + 3) = Some b3 /\
    t = (b0 + 256 * b1)%N /\ l = N.to_nat (b2 + 256 * b3) /\
    t <> 0%N /\ b0 <> 255%N /\ xorb odd (Nat.odd p) = false /\
    p + 4 < length hdr /\ p + 4 + l <= length hdr.
(** The byte at [p] is skipped: padding, or an odd address. *)
Definition pad_at (hdr : list N) (odd : bool) (p : nat) : Prop :=
  exists b0 b1, nth_error hdr p = Some b0 /\ nth_error hdr (p + 1) = Some b1 /\
    (b0 + 256 * b1 <> 0)%N /\ (b0 = 255%N \/ xorb odd (Nat.odd p) = true) /\ p + 4 < length hdr.
(** [q] is reached from [p] by skipping padding and whole fields. *)
Inductive walk (hdr : list N) (odd : bool) : nat -> nat -> Prop :=
| walk_here p : walk hdr odd p p
| walk_pad p q : pad_at hdr odd p -> walk hdr odd (p + 1) q -> walk hdr odd p q
| walk_field p t l q : field_at hdr odd p t l -> walk hdr odd (p + 4 + l) q -> walk hdr odd p q.

Lemma loop_sound hdr odd ty : forall fuel p, length hdr <= fuel + p -> 8 <= p ->
  match tlv_loop fuel hdr odd ty p with
  | TFound off len => exists q, walk hdr odd p q /\ field_at hdr odd q ty len /\ off = q + 4
  | TNone => True | _ => False end.
Proof.
  induction fuel as [|f IH]; intros p HF HP; cbn [tlv_loop].
  - destruct (Nat.ltb_spec (p + 4) (length hdr)); cbn [negb]; auto. lia.
  - destruct (Nat.ltb_spec (p + 4) (length hdr)) as [L|L]; cbn [negb]; auto.
    destruct (nth_error hdr p) as [b0|] eqn:E0; [|apply nth_error_None in E0; lia].
    destruct (nth_error hdr (p + 1)) as [b1|] eqn:E1; [|apply nth_error_None in E1; lia].
    destruct (N.eqb_spec (b0 + 256 * b1) 0) as [Z|NZ]; auto.
    destruct (N.eqb b0 255 || xorb odd (Nat.odd p)) eqn:PD.
    + specialize (IH (p + 1) ltac:(lia) ltac:(lia)).
      destruct (tlv_loop f hdr odd ty (p + 1)) as [off len| | |]; auto.
      destruct IH as (q & W & R). exists q. split; auto. apply walk_pad; auto.
      exists b0, b1. repeat split; auto. apply Bool.orb_prop in PD as [PD|PD]; auto. left. apply N.eqb_eq; auto.
    + apply Bool.orb_false_elim in PD as [PD1 PD2]. apply N.eqb_neq in PD1.
      destruct (nth_error hdr (p + 2)) as [b2|] eqn:E2; [|apply nth_error_None in E2; lia].
      destruct (nth_error hdr (p + 3)) as [b3|] eqn:E3; [|apply nth_error_None in E3; lia].
      destruct (Nat.ltb_spec (length hdr - 8) (4 + N.to_nat (b2 + 256 * b3))); auto.
      destruct (Nat.ltb_spec (length hdr) (p + 4 + N.to_nat (b2 + 256 * b3))); auto.
      assert (FA : field_at hdr odd p (b0 + 256 * b1) (N.to_nat (b2 + 256 * b3))).
      { exists b0, b1, b2, b3. repeat split; auto. }
      destruct (N.eqb_spec (b0 + 256 * b1) ty) as [<-|NE].
      * exists p. repeat split; auto. constructor.
      * specialize (IH (p + 4 + N.to_nat (b2 + 256 * b3)) ltac:(lia) ltac:(lia)).
        destruct (tlv_loop f hdr odd ty _) as [off len| | |]; auto.
        destruct IH as (q & W & R). exists q. split; auto. eapply walk_field; eauto.
Qed.

Lemma field_fun hdr odd p t1 l1 t2 l2 : field_at hdr odd p t1 l1 -> field_at hdr odd p t2 l2 -> t1 = t2 /\ l1 = l2.
Proof.
  intros (a0 & a1 & a2 & a3 & A0 & A1 & A2 & A3 & -> & -> & _) (b0 & b1 & b2 & b3 & B0 & B1 & B2 & B3 & -> & -> & _).
  rewrite A0 in B0. rewrite A1 in B1. rewrite A2 in B2. rewrite A3 in B3. repeat match goal with H : Some _ = Some _ |- _ => injection H as -> end. auto.
Qed.

Lemma walk_le hdr odd p q : walk hdr odd p q -> p <= q.
Proof. induction 1; lia. Qed.

Lemma loop_complete hdr odd ty l : forall fuel p q, length hdr <= fuel + p -> 8 <= p ->
  walk hdr odd p q -> field_at hdr odd q ty l ->
  exists off len, tlv_loop fuel hdr odd ty p = TFound off len /\ off <= q + 4.
Proof.
  induction fuel as [|f IH]; intros p q HF HP W FA.
  - pose proof (walk_le _ _ _ _ W). destruct FA as (? & ? & ? & ? & _ & _ & _ & _ & _ & _ & _ & _ & _ & FA & _). lia.
  - assert (STEP : (exists t l0, field_at hdr odd p t l0) \/ pad_at hdr odd p).
    { destruct W as [p|p q P W|p t l0 q F W]; eauto. }
    assert (L : p + 4 < length hdr).
    { destruct STEP as [(t & l0 & ? & ? & ? & ? & _ & _ & _ & _ & _ & _ & _ & _ & _ & X & _)|(? & ? & _ & _ & _ & _ & X)]; exact X. }
    cbn [tlv_loop]. rewrite (proj2 (Nat.ltb_lt _ _) L). cbn [negb].
    destruct STEP as [(t & l0 & F0)|P].
    + pose proof F0 as (b0 & b1 & b2 & b3 & E0 & E1 & E2 & E3 & ET & EL & NZ & N255 & EV & _ & LE).
      rewrite E0, E1, E2, E3. rewrite <- ET, <- EL. apply N.eqb_neq in NZ, N255. rewrite NZ, N255, EV. cbn [orb].
      destruct (Nat.ltb_spec (length hdr - 8) (4 + l0)); [lia|].
      destruct (Nat.ltb_spec (length hdr) (p + 4 + l0)); [lia|].
      destruct (N.eqb_spec t ty) as [->|NE].
      * exists (p + 4), l0. split; auto. pose proof (walk_le _ _ _ _ W). lia.
      * destruct W as [p|p q P W|p t' l' q F W].
        -- destruct (field_fun _ _ _ _ _ _ _ F0 FA). congruence.
        -- destruct P as (c0 & c1 & C0 & C1 & _ & C2 & _). rewrite E0 in C0. injection C0 as <-.
           apply N.eqb_neq in N255. destruct C2; congruence.
        -- destruct (field_fun _ _ _ _ _ _ _ F0 F) as [-> ->]. apply IH; auto; lia.
    + pose proof P as (b0 & b1 & E0 & E1 & NZ & C2 & _). rewrite E0, E1. apply N.eqb_neq in NZ. rewrite NZ.
      replace (N.eqb b0 255 || xorb odd (Nat.odd p)) with true.
      2:{ destruct C2 as [->| ->]; [reflexivity|rewrite Bool.orb_true_r; reflexivity]. }
      assert (NF : forall t l0, ~ field_at hdr odd p t l0).
      { intros t l0 (c0 & c1 & c2 & c3 & D0 & _ & _ & _ & _ & _ & _ & D1 & D2 & _). rewrite E0 in D0. injection D0 as <-. destruct C2; congruence. }
      destruct W as [p|p q P' W|p t' l' q F W]; [destruct (NF _ _ FA)| |destruct (NF _ _ F)].
      apply IH; auto; lia.
Qed.

Lemma find_sound hdr odd ty :
  match tlv_find hdr odd ty with
  | TFound off len => exists q, walk hdr odd 8 q /\ field_at hdr odd q ty len /\ off = q + 4
  | TNone => True | _ => False end.
Proof.
  unfold tlv_find. destruct (Nat.ltb_spec (length hdr) 8); auto. apply loop_sound; lia.
Qed.
Lemma find_complete hdr odd ty q l : walk hdr odd 8 q -> field_at hdr odd q ty l ->
  exists off len, tlv_find hdr odd ty = TFound off len /\ off <= q + 4.
Proof.
  intros W F. unfold tlv_find. pose proof (walk_le _ _ _ _ W).
  destruct (Nat.ltb_spec (length hdr) 8).
  - destruct F as (? & ? & ? & ? & _ & _ & _ & _ & _ & _ & _ & _ & _ & F & _). lia.
  - eapply loop_complete; eauto. lia.
Qed.

Lemma found_bounds hdr odd ty off len : tlv_find hdr odd ty = TFound off len ->
  12 <= off /\ off + len <= length hdr.
Proof.
  intros E. pose proof (find_sound hdr odd ty) as X. rewrite E in X. destruct X as (q & W & F & ->).
  pose proof (walk_le _ _ _ _ W). destruct F as (? & ? & ? & ? & _ & _ & _ & _ & _ & _ & _ & _ & _ & _ & F). lia.
Qed.

(** ** Image verification *)
Lemma bytes_eqb_eq a b : bytes_eqb a b = true <-> a = b.
Proof. unfold bytes_eqb. destruct (list_eq_dec N.eq_dec a b); split; auto; discriminate. Qed.

Section Img.
Variable sha256 : list N -> list N.
Variable rsa_open : list N -> list N -> option (list N).
Variable ecdsa_ok : list N -> list N -> list N -> bool.
Variable cmac_ok : list N -> list N -> list N -> bool.
Variable dma : bool.

(** The signature recovers the hash, bare or inside a DigestInfo. *)
Definition rsa_signs (key sig hash : list N) : Prop :=
  exists out, rsa_open key sig = Some out /\ (out = hash \/ digest_info out = Some hash).

(** A wolfBoot image signed under [key]: the header declares a size the payload
    has, its hash field is the hash of the header before that field and of that
    much payload, its signature field signs this hash, its hint is the key's
    hash, and it names the RSA-4096 algorithm. *)
Definition wolfboot_signed (hdr payload key : list N) : Prop :=
  exists size t a h g k glen,
    le32 hdr 0 = WB_MAGIC /\ le32 hdr 4 = N.of_nat size /\ size <= length payload /\
    field_at hdr false a HDR_IMG_TYPE 2 /\ le_dec (slice hdr (a + 4) 2) = (4 * 256 + t)%N /\ (t < 256)%N /\
    field_at hdr false h HDR_SHA256 32 /\
    sha256 (firstn h hdr ++ firstn size payload) = slice hdr (h + 4) 32 /\
    field_at hdr false g HDR_SIGNATURE glen /\
    rsa_signs key (slice hdr (g + 4) glen) (slice hdr (h + 4) 32) /\
    field_at hdr false k HDR_PUBKEY 32 /\ sha256 key = slice hdr (k + 4) 32.

Lemma validate_ok e hdr odd payload h sig : wb_validate sha256 e hdr odd payload = (OK, (h, sig)) ->
  odd = false /\ exists size t a hp g glen,
    le32 hdr 0 = WB_MAGIC /\ le32 hdr 4 = N.of_nat size /\ size <= length payload /\
    field_at hdr false a HDR_IMG_TYPE 2 /\ le_dec (slice hdr (a + 4) 2) = (4 * 256 + t)%N /\ (t < 256)%N /\
    field_at hdr false hp HDR_SHA256 32 /\
    sha256 (firstn hp hdr ++ firstn size payload) = slice hdr (hp + 4) 32 /\
    h = slice hdr (hp + 4) 32 /\
    field_at hdr false g HDR_SIGNATURE glen /\ sig = slice hdr (g + 4) glen.
Proof.
  unfold wb_validate. intros H. cbv zeta in H. destruct odd; [discriminate|]. split; auto.
  destruct (length hdr <? 12); [discriminate|].
  destruct (N.eqb_spec (le32 hdr 0) WB_MAGIC) as [EM|]; cbn [negb] in H; [|discriminate].
  destruct (Nat.ltb_spec (length payload) (N.to_nat (le32 hdr 4))) as [|LS]; [discriminate|].
  pose proof (find_sound hdr false HDR_IMG_TYPE) as F1.
  destruct (tlv_find hdr false HDR_IMG_TYPE) as [toff tlen| | |]; try discriminate.
  destruct tlen as [|[|[|]]]; try discriminate. destruct F1 as (a & _ & F1 & ->).
  destruct (N.eqb_spec (le_dec (slice hdr (a + 4) 2) / 256) AUTH_RSA4096) as [EA|]; cbn [negb] in H; [|discriminate].
  pose proof (find_sound hdr false HDR_SHA256) as F2.
  destruct (tlv_find hdr false HDR_SHA256) as [soff slen| | |]; try discriminate.
  destruct (Nat.eq_dec slen 32) as [->|NE].
  2:{ do 33 (destruct slen as [|slen]; [try discriminate; try congruence|]). discriminate. }
  destruct F2 as (hp & _ & F2 & ->). destruct (negb (is_ok (ie_hash e))); [discriminate|].
  unfold wb_hash in H. replace (hp + 4 - 4) with hp in H by lia.
  destruct (bytes_eqb _ (slice hdr (hp + 4) 32)) eqn:EH; cbn [negb] in H; [|discriminate].
  apply bytes_eqb_eq in EH.
  pose proof (find_sound hdr false HDR_SIGNATURE) as F3.
  destruct (tlv_find hdr false HDR_SIGNATURE) as [goff glen| | |]; try discriminate.
  destruct F3 as (g & _ & F3 & ->). destruct glen as [|glen]; [discriminate|].
  injection H as <- <-.
  exists (N.to_nat (le32 hdr 4)), (le_dec (slice hdr (a + 4) 2) mod 256)%N, a, hp, g, (S glen).
  rewrite N2Nat.id. repeat split; auto.
  - pose proof (N.div_mod (le_dec (slice hdr (a + 4) 2)) 256 ltac:(discriminate)) as DM. rewrite EA in DM. unfold AUTH_RSA4096 in DM. lia.
  - apply N.mod_lt. discriminate.
Qed.

Lemma verify_sig_ok e sig hash key : length hash = 32 -> wb_verify_sig rsa_open e sig hash key = OK -> rsa_signs key sig hash.
Proof.
  intros HL. unfold wb_verify_sig. destruct (negb _); [discriminate|]. destruct (negb _); [discriminate|].
  destruct (rsa_open key sig) as [out|] eqn:E; [|discriminate]. cbv zeta. intros H.
  exists out. split; auto. destruct (32 <? length out).
  - destruct (digest_info out) as [x|]; [|discriminate]. destruct (negb _); [discriminate|].
    destruct (bytes_eqb x hash) eqn:B; [|discriminate]. apply bytes_eqb_eq in B. subst; auto.
  - destruct (negb _); [discriminate|]. destruct (bytes_eqb out hash) eqn:B; [|discriminate]. apply bytes_eqb_eq in B. auto.
Qed.
Lemma verify_hint_ok e key hdr odd : wb_verify_hint sha256 e key hdr (tlv_find hdr odd HDR_PUBKEY) = OK ->
  exists k, field_at hdr odd k HDR_PUBKEY 32 /\ sha256 key = slice hdr (k + 4) 32.
Proof.
  pose proof (find_sound hdr odd HDR_PUBKEY) as F. unfold wb_verify_hint.
  destruct (tlv_find hdr odd HDR_PUBKEY) as [off len| | |]; try discriminate.
  destruct F as (k & _ & F & ->). destruct (Nat.eqb_spec len 32) as [->|]; cbn [negb]; [|discriminate].
  destruct (negb _); [discriminate|]. destruct (bytes_eqb _ _) eqn:B; [|discriminate]. apply bytes_eqb_eq in B. eauto.
Qed.

Lemma slice_length l off n : off + n <= length l -> length (slice l off n) = n.
Proof. intros H. unfold slice. rewrite firstn_length, skipn_length. lia. Qed.

Lemma map_ok e hdr odd payload p : wb_map dma e hdr odd payload = (OK, p) ->
  p = payload \/ p = firstn (N.to_nat (le32 hdr 4)) payload /\ N.to_nat (le32 hdr 4) <= length payload.
Proof.
  unfold wb_map. destruct dma; [|intros H; injection H as <-; auto].
  destruct (is_ok (ie_dma_hdr e)) eqn:R; cbn [negb]; [|intros H; injection H as E _; apply is_ok_false in R; congruence].
  destruct odd; [discriminate|]. destruct (_ <? 8); [discriminate|]. destruct (negb _); [discriminate|].
  cbv zeta. destruct (Nat.ltb_spec (length payload) (N.to_nat (le32 hdr 4))); [discriminate|].
  destruct (is_ok (ie_dma e)) eqn:R2; cbn [negb]; [|intros H0; injection H0 as E _; apply is_ok_false in R2; congruence].
  intros X; injection X as <-. auto.
Qed.

Lemma signed_common e hdr odd payload p h sig key :
  wb_map dma e hdr odd payload = (OK, p) -> wb_validate sha256 e hdr odd p = (OK, (h, sig)) ->
  wb_verify_hint sha256 e key hdr (tlv_find hdr odd HDR_PUBKEY) = OK ->
  wb_verify_sig rsa_open e sig h key = OK -> wolfboot_signed hdr payload key.
Proof.
  intros M V HH VS. destruct (validate_ok _ _ _ _ _ _ V) as (-> & size & t & a & hp & g & glen & A & B & C & D & E & F & G & H & I & J & K).
  destruct (verify_hint_ok _ _ _ _ HH) as (k & HK1 & HK2).
  assert (PE : firstn size p = firstn size payload /\ size <= length payload).
  { destruct (map_ok _ _ _ _ _ M) as [->|[-> L]]; auto.
    assert (N.to_nat (le32 hdr 4) = size) as X by (rewrite B; apply Nat2N.id). rewrite X in *.
    rewrite firstn_firstn, Nat.min_id. auto. }
  destruct PE as [PE1 PE2]. rewrite PE1 in H.
  exists size, t, a, hp, g, k, glen. repeat split; auto.
  rewrite <- I, <- K. eapply verify_sig_ok; eauto. rewrite I. apply slice_length.
  destruct G as (? & ? & ? & ? & _ & _ & _ & _ & _ & _ & _ & _ & _ & _ & X). lia.
Qed.

Ltac ifok H := match type of H with
  | (if negb (is_ok ?r) then _ else _) = _ =>
      let R := fresh "R" in destruct (is_ok r) eqn:R; cbn [negb] in H;
      [apply is_ok_iff in R|try (apply is_ok_false in R; congruence); try discriminate] end.

Lemma wb_method_ok e hdr odd payload key : wb_method sha256 rsa_open dma e hdr odd payload key = OK ->
  wolfboot_signed hdr payload key.
Proof.
  unfold wb_method. intros H. destruct (_ =? 0); [discriminate|].
  destruct (wb_map dma e hdr odd payload) as [rc p] eqn:M. ifok H.
  destruct (wb_validate sha256 e hdr odd p) as [rc2 [h sig]] eqn:V. ifok H. cbv zeta in H. ifok H. subst.
  eapply signed_common; eauto.
Qed.
Lemma wb_cert_method_ok e hdr odd payload cl : wb_cert_method sha256 rsa_open dma e hdr odd payload cl = OK ->
  exists c clen leaf, field_at hdr odd c HDR_CERT_CHAIN clen /\
    cl (slice hdr (c + 4) clen) = (OK, leaf) /\ wolfboot_signed hdr payload leaf.
Proof.
  unfold wb_cert_method. intros H.
  destruct (wb_map dma e hdr odd payload) as [rc p] eqn:M. ifok H.
  destruct (wb_validate sha256 e hdr odd p) as [rc2 [h sig]] eqn:V. ifok H.
  pose proof (find_sound hdr odd HDR_CERT_CHAIN) as F.
  destruct (tlv_find hdr odd HDR_CERT_CHAIN) as [coff clen| | |]; try discriminate.
  destruct F as (c & _ & F & ->). destruct clen as [|clen]; [discriminate|].
  destruct (cl (slice hdr (c + 4) (S clen))) as [rc3 leaf] eqn:CL. ifok H. cbv zeta in H. ifok H. subst.
  exists c, (S clen), leaf. repeat split; auto. eapply signed_common; eauto.
Qed.

(** What it means for the configured method to have accepted the image, given
    the key bytes of its key id, the stored signature object, and what the
    certificate manager says about a chain. *)
Definition accepted (im : image) (key : option (list N)) (sig : option (list N)) (cl : list N -> Z * list N) : Prop :=
  match im_method im with
  | MEcc => exists k g, key = Some k /\ sig = Some g /\ ecdsa_ok k (sha256 (im_data im)) g = true
  | MCmac => exists k g, key = Some k /\ sig = Some g /\ length k = 16 /\ length g = 16 /\ cmac_ok k (im_data im) g = true
  | MRsa => exists k g, key = Some k /\ sig = Some g /\ rsa_open k g = Some (sha256 (im_data im))
  | MWolfBoot => exists k, key = Some k /\ wolfboot_signed (im_hdr im) (im_data im) k
  | MWolfBootCert => exists c clen leaf, field_at (im_hdr im) (im_odd im) c HDR_CERT_CHAIN clen /\
      cl (slice (im_hdr im) (c + 4) clen) = (OK, leaf) /\ wolfboot_signed (im_hdr im) (im_data im) leaf
  | MNoMethod => False
  end.

Lemma run_method_ok e im key sig cl :
  run_method sha256 rsa_open ecdsa_ok cmac_ok dma e im key sig cl = OK -> accepted im key sig cl.
Proof.
  unfold run_method, accepted. destruct (im_method im).
  - destruct key as [k|], sig as [g|]; try discriminate. unfold ecc_method. cbv zeta.
    destruct (_ || _); [discriminate|]. destruct (negb _); [discriminate|].
    intros H. exists k, g. repeat split; auto.
    destruct (ecdsa_ok k (sha256 (im_data im)) g) eqn:E; auto. exfalso.
    destruct (dma && negb (is_ok (ie_dma e))) eqn:X.
    { apply andb_prop in X as [_ X]. rewrite H in X. discriminate. }
    destruct (negb (is_ok (if dma && is_ok (ie_hash e) then ie_post e else ie_hash e))) eqn:Y.
    { rewrite H in Y. discriminate. }
    destruct (negb (is_ok (ie_sig e))) eqn:Z; [rewrite H in Z|]; discriminate.
  - destruct key as [k|], sig as [g|]; try discriminate. unfold cmac_method. cbv zeta.
    destruct (Nat.eqb_spec (length k) 16); cbn [negb]; [|discriminate].
    destruct (Nat.eqb_spec (length g) 16); cbn [negb]; [|discriminate].
    intros H. exists k, g. repeat split; auto.
    destruct (cmac_ok k (im_data im) g) eqn:E; auto. exfalso.
    destruct (dma && negb (is_ok (ie_dma e))) eqn:X.
    { apply andb_prop in X as [_ X]. rewrite H in X. discriminate. }
    destruct (is_ok (ie_sig e)) eqn:Y; cbn [negb] in H.
    + rewrite Bool.andb_false_r in H. discriminate.
    + rewrite Y, Bool.andb_false_r in H. rewrite H in Y. discriminate.
  - destruct key as [k|], sig as [g|]; try discriminate. unfold rsa_method. cbv zeta.
    destruct (_ || _); [discriminate|]. destruct (negb _); [discriminate|].
    intros H. exists k, g. repeat split; auto.
    destruct (dma && negb (is_ok (ie_dma e))) eqn:X.
    { apply andb_prop in X as [_ X]. rewrite H in X. discriminate. }
    destruct (negb (is_ok (if dma && is_ok (ie_hash e) then ie_post e else ie_hash e))) eqn:Y.
    { rewrite H in Y. discriminate. }
    destruct (rsa_open k g) as [out|]; [|discriminate].
    destruct (bytes_eqb out (sha256 (im_data im))) eqn:B; [|rewrite Bool.orb_true_r in H; discriminate].
    apply bytes_eqb_eq in B. subst; auto.
  - destruct key as [k|]; [|discriminate]. intros H. exists k. split; auto. eapply wb_method_ok. destruct sig; eauto.
  - intros H. destruct key, sig; eapply wb_cert_method_ok; eauto.
  - destruct key, sig; discriminate.
Qed.

Lemma verify_img_ok e freshen cl s im rc m a :
  verify_img sha256 rsa_open ecdsa_ok cmac_ok dma e freshen cl s im = (rc, (m, a)) -> m = OK \/ a = OK ->
  rc = OK /\ exists key sig, accepted im key sig cl /\
    (forall k, key = Some k -> freshen (im_key im) = (OK, k)) /\
    (forall g, sig = Some g -> exists mt d, sp_find s (im_sig im) = Some (mt, d) /\ g = firstn (N.to_nat (m_len mt)) d).
Proof.
  unfold verify_img. intros H HO.
  assert (STOP : forall r, (r, (ABORTED, ABORTED)) = (rc, (m, a)) -> False).
  { intros r E. injection E as _ <- <-. destruct HO; discriminate. }
  assert (FIN : forall key sig,
     (OK, (run_method sha256 rsa_open ecdsa_ok cmac_ok dma e im key sig cl,
        match im_action im with ActDefault => run_method sha256 rsa_open ecdsa_ok cmac_ok dma e im key sig cl | ActNone => NOHANDLER end)) = (rc, (m, a)) ->
     rc = OK /\ accepted im key sig cl).
  { intros key sig E. injection E as <- <- <-. split; auto. apply run_method_ok with (e := e).
    destruct HO as [HO|HO]; auto. destruct (im_action im); auto. discriminate. }
  cbv zeta in H. destruct (im_type im).
  - destruct (freshen (im_key im)) as [r k] eqn:FK. destruct (is_ok r) eqn:R; cbn [negb] in H; [|destruct (STOP _ H)].
    apply is_ok_iff in R; subst r.
    destruct (nv_meta s (im_sig im)) as [r2 mt] eqn:NM. destruct (is_ok r2) eqn:R2; cbn [negb] in H; [|destruct (STOP _ H)].
    destruct (_ <? _); [destruct (STOP _ H)|].
    destruct (sp_read s (im_sig im) 0 (N.to_nat (m_len mt))) as [r3 g] eqn:RD. destruct (is_ok r3) eqn:R3; cbn [negb] in H; [|destruct (STOP _ H)].
    destruct (FIN _ _ H) as [E A]. split; auto. exists (Some k), (Some g). split; auto. split; [congruence|].
    intros g0 E0. injection E0 as <-. unfold nv_meta in NM. unfold sp_read in RD.
    destruct (sp_find s (im_sig im)) as [[mt' d]|]; injection NM as <- <-; [|discriminate].
    exists mt', d. split; auto. apply is_ok_iff in R3; subst r3.
    destruct (_ && _); injection RD as RD; [auto|discriminate].
  - destruct (freshen (im_key im)) as [r k] eqn:FK. destruct (is_ok r) eqn:R; cbn [negb] in H; [|destruct (STOP _ H)].
    apply is_ok_iff in R; subst r. destruct (FIN _ _ H) as [E A]. split; auto. exists (Some k), None. split; auto. split; congruence.
  - destruct (FIN _ _ H) as [E A]. split; auto. exists None, None. split; auto. split; congruence.
  - destruct (STOP _ H).
Qed.

Lemma verify_all_ok freshen cl s : forall ims rc res i e im m a,
  verify_all sha256 rsa_open ecdsa_ok cmac_ok dma freshen cl s ims = (rc, res) ->
  nth_error ims i = Some (e, im) -> nth_error res i = Some (m, a) -> m = OK \/ a = OK ->
  exists rc', verify_img sha256 rsa_open ecdsa_ok cmac_ok dma e freshen (cl (im_sig im)) s im = (rc', (m, a)).
Proof.
  induction ims as [|[e0 im0] ims IH]; intros rc res i e im m a H HI HR HO; cbn [verify_all] in H.
  { destruct i; discriminate. }
  destruct (verify_img _ _ _ _ _ e0 freshen (cl (im_sig im0)) s im0) as [r1 res1] eqn:V.
  destruct (negb (is_ok r1)).
  - injection H as <- <-. destruct i as [|i]; cbn [nth_error] in *; [|destruct i; discriminate].
    injection HI as <- <-. injection HR as ->. eauto.
  - destruct (verify_all _ _ _ _ _ freshen cl s ims) as [rc2 l] eqn:VA. injection H as <- <-.
    destruct i as [|i]; cbn [nth_error] in *.
    + injection HI as <- <-. injection HR as ->. eauto.
    + eapply IH; eauto.
Qed.
End Img.
