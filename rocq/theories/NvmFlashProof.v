(** Flash images that represent a directory, and weakest-precondition
    specifications of the functions of wh_nvm_flash.c over them. *)
From Verif Require Import Base Flash BaseLemmas FlashWp NvmFlashModel NvmSpec NvmInv.

(** A usable configuration: the directory fits in a partition, the device is
    smaller than 2^32 bytes, and the erased value is a byte. *)
Definition cfg_ok (C : cfg) : Prop :=
  data_offset C <= c_pu C /\ (N.of_nat (c_pu C) * 16 < W32)%N /\ (c_eb C < 256)%N.

Lemma not_ok_false rc : rc <> OK -> is_ok rc = false.
Proof. intros H. unfold is_ok. apply Z.eqb_neq; auto. Qed.

Lemma map_ext_const {A B} (f : A -> B) c : forall l n,
  length l = n -> (forall x, In x l -> f x = c) -> map f l = repeat c n.
Proof.
  induction l as [|x l IH]; intros n <- H; cbn [length map repeat]; [reflexivity|].
  rewrite H by (left; auto). f_equal. apply IH; auto. intros y Hy; apply H; right; auto.
Qed.

Section Proof.
Variable C : cfg.
Variable fl : bool.
Hypothesis HC : cfg_ok C.
Notation OC := (c_oc C).
Notation PU := (c_pu C).
Notation DU := (dev_units C).
Notation WP := (wp C fl).
Notation EU := (erased_unit C).
Notation poff := (part_off C).
Notation pdata := (part_data C).
Notation ooff := (obj_off C).

Lemma geom : data_offset C = 3 + 7 * OC /\ 3 + 7 * OC <= PU /\ DU = 2 * PU /\ dmax C = PU - (3 + 7 * OC).
Proof. destruct HC as (H & _). unfold data_offset, dmax, dev_units in *. unfold data_offset. lia. Qed.

Lemma poff_cases p : poff p = 0 /\ p = false \/ poff p = PU /\ p = true.
Proof. destruct p; auto. Qed.

Ltac geo :=
  pose proof geom as (? & ? & ? & ?);
  unfold part_data, obj_off, U_STATE, U_OBJ, U_META in *;
  repeat match goal with
  | |- context [part_off C ?p] =>
      lazymatch goal with
      | H : poff p = 0 /\ _ \/ _ |- _ => fail
      | _ => pose proof (poff_cases p)
      end
  | _ : context [part_off C ?p] |- _ =>
      lazymatch goal with
      | H : poff p = 0 /\ _ \/ _ |- _ => fail
      | _ => pose proof (poff_cases p)
      end
  end;
  lia.

(** ** Words *)
Lemma eu_val : EU = (c_eb C * 72340172838076673)%N.
Proof. unfold erased_unit. cbn [repeat le_dec]. lia. Qed.

Lemma word_ne x : word x <> EU.
Proof.
  rewrite eu_val. unfold word, BASE, W32. destruct HC as (_ & _ & H). lia.
Qed.
Lemma crc_word_ne c x : crc_word c x <> EU.
Proof.
  rewrite eu_val. unfold crc_word, CRC_BASE, W32. destruct HC as (_ & _ & H). lia.
Qed.
Lemma obj_word_ne c x : obj_word C c x <> EU.
Proof. unfold obj_word. destruct (c_crc C); [apply crc_word_ne|apply word_ne]. Qed.
Lemma low32_word x : low32 (word x) = (x mod W32)%N.
Proof. unfold low32, word, BASE, W32. lia. Qed.
Lemma low32_obj_word c x : (N.of_nat x < W32)%N -> N.to_nat (low32 (obj_word C c x)) = x.
Proof. unfold obj_word, low32, crc_word, word, CRC_BASE, BASE, W32. destruct (c_crc C); lia. Qed.
Lemma crc_of_obj_word c x : c_crc C = true -> (c < 65536)%N -> crc_of (obj_word C c x) = c.
Proof. unfold obj_word, crc_of, crc_word, CRC_BASE, W32. intros ->. lia. Qed.

Lemma crcm_bound m : (crcm C m < 65536)%N.
Proof. unfold crcm. destruct (c_crc C); [apply crc16_bound; unfold CRC_INIT|]; lia. Qed.
Lemma crcd_bound d : (crcd C d < 65536)%N.
Proof. unfold crcd. destruct (c_crc C); [apply crc16_bound; unfold CRC_INIT|]; lia. Qed.

(** ** Reading states and objects *)
Definition nb (f : flash) (o : nat) : bool := negb (N.eqb EU (f o)).

Definition mstate_of (f : flash) (off : nat) : mstate :=
  if nb f off && nb f (off + 1) && nb f (off + 2) then
    mkMS Used (low32 (f off)) (N.to_nat (low32 (f (off + 1)))) (N.to_nat (low32 (f (off + 2))))
         (if c_crc C then crc_of (f (off + 1)) else 0%N) (if c_crc C then crc_of (f (off + 2)) else 0%N)
  else if nb f off && nb f (off + 1) then
    mkMS DataBad (low32 (f off)) (N.to_nat (low32 (f (off + 1)))) 0
         (if c_crc C then crc_of (f (off + 1)) else 0%N) 0
  else if nb f off then ms_zero MetaBad else ms_zero Free.

Lemma blank_rc f o : (if blankb C f o 1 then OK else NOTBLANK) = if nb f o then NOTBLANK else OK.
Proof. rewrite blankb_one. unfold nb. destruct (N.eqb EU (f o)); reflexivity. Qed.

Lemma wp_state_read f off (Q : Z * mstate -> flash -> Prop) (Cr : flash -> Prop) :
  off + 3 <= DU -> Cr f -> Q (OK, mstate_of f off) f -> WP (state_read C off) f Q Cr.
Proof.
  intros H1 H2 H3. unfold state_read.
  apply wp_bind, wp_fu_blank; auto; [lia|]. rewrite blank_rc.
  replace (bc_error (if nb f off then NOTBLANK else OK)) with false by (destruct (nb f off); auto).
  apply wp_bind, wp_fu_blank; auto; [lia|]. rewrite blank_rc.
  replace (bc_error (if nb f (off + 1) then NOTBLANK else OK)) with false by (destruct (nb f (off + 1)); auto).
  apply wp_bind, wp_fu_blank; auto; [lia|]. rewrite blank_rc.
  replace (bc_error (if nb f (off + 2) then NOTBLANK else OK)) with false by (destruct (nb f (off + 2)); auto).
  assert (NB : forall o, nonblank (if nb f o then NOTBLANK else OK) = nb f o)
    by (intros o; destruct (nb f o); auto).
  rewrite !NB. unfold mstate_of in H3.
  destruct (nb f off && nb f (off + 1) && nb f (off + 2)).
  - apply wp_bind, wp_fu_read; auto. change (is_ok OK) with true. cbv iota.
    rewrite !nth_read_units by lia. rewrite Nat.add_0_r. apply wp_ret; auto.
  - destruct (nb f off && nb f (off + 1)).
    + apply wp_bind, wp_fu_read; auto; [lia|]. change (is_ok OK) with true. cbv iota.
      rewrite !nth_read_units by lia. rewrite Nat.add_0_r. apply wp_ret; auto.
    + destruct (nb f off); apply wp_ret; auto.
Qed.

Definition mobj_of (f : flash) (off : nat) : mobj :=
  let s := mstate_of f off in
  if status_eqb (s_st s) Used || status_eqb (s_st s) DataBad then
    let m := meta_of_units (read_units f (off + 3) 4) in
    if c_crc C && negb (N.eqb (crc16 CRC_INIT (meta_bytes m)) (s_crcm s)) then
      mkMO (mkMS (if status_eqb (s_st s) Used then CrcBad else LenBad)
                 (s_epoch s) (s_start s) (s_count s) (s_crcm s) (s_crcd s)) meta_zero
    else mkMO s m
  else mkMO s meta_zero.

Lemma wp_object_read f off (Q : Z * mobj -> flash -> Prop) (Cr : flash -> Prop) :
  off + 7 <= DU -> Cr f -> Q (OK, mobj_of f off) f -> WP (object_read C off) f Q Cr.
Proof.
  intros H1 H2 H3. unfold object_read.
  apply wp_bind, wp_state_read; auto; [lia|]. change (is_ok OK) with true. cbn [andb].
  unfold mobj_of in H3. cbv zeta in H3.
  destruct (status_eqb (s_st (mstate_of f off)) Used || status_eqb (s_st (mstate_of f off)) DataBad).
  - apply wp_bind. apply wp_fu_read; auto; [unfold U_STATE, U_META; lia|].
    change (is_ok OK) with true. cbv iota zeta. unfold U_STATE, U_META in *.
    destruct (c_crc C && negb (crc16 CRC_INIT (meta_bytes (meta_of_units (read_units f (off + 3) 4)))
                =? s_crcm (mstate_of f off))%N); apply wp_ret; auto.
  - apply wp_ret; auto.
Qed.

Lemma wp_read_objs f p : forall n i (Q : list mobj -> flash -> Prop) (Cr : flash -> Prop),
  i + n <= OC -> Cr f -> Q (map (fun j => mobj_of f (ooff p j)) (seq i n)) f ->
  WP (read_objs C p i n) f Q Cr.
Proof.
  induction n as [|n IH]; intros i Q Cr H1 H2 H3; cbn [read_objs].
  - apply wp_ret; auto.
  - apply wp_bind, wp_object_read; auto; [geo|].
    apply wp_bind, IH; auto; [lia|]. apply wp_ret; auto.
Qed.

(** ** Representation of entries in flash *)
Definition slot_ok (f : flash) (p : bool) (i start : nat) (e : entry) : Prop :=
  match e with
  | EUsed ep m d =>
      f (ooff p i) = word ep /\ f (ooff p i + 1) = obj_word C (crcm C m) start
      /\ f (ooff p i + 2) = obj_word C (crcd C d) (units (length d))
      /\ read_units f (ooff p i + 3) 4 = meta_units m
      /\ read_units f (pdata p + start) (units (length d)) = pack d
      /\ meta_ok m /\ bytes_ok d /\ m_len m = N.of_nat (length d) /\ (ep < W32)%N
  | EData ep m =>
      f (ooff p i) = word ep /\ f (ooff p i + 1) = obj_word C (crcm C m) start
      /\ f (ooff p i + 2) = EU
      /\ read_units f (ooff p i + 3) 4 = meta_units m
      /\ meta_ok m /\ (ep < W32)%N
  | EMeta =>
      (exists ep, f (ooff p i) = word ep) /\ f (ooff p i + 1) = EU /\ f (ooff p i + 2) = EU
  end.

Lemma slot_ok_ext f g p i start e :
  (forall o, ooff p i <= o < ooff p i + 7 -> g o = f o) ->
  (forall o, pdata p + start <= o < pdata p + start + esize e -> g o = f o) ->
  slot_ok f p i start e -> slot_ok g p i start e.
Proof.
  intros H1 H2. destruct e as [ep m d|ep m|]; cbn [slot_ok esize] in *.
  - intros (A1 & A2 & A3 & A4 & A5 & A6).
    rewrite !H1 by lia. rewrite (read_units_ext g f) by (intros; apply H1; lia).
    rewrite (read_units_ext g f (pdata p + start)) by (intros; apply H2; lia). tauto.
  - rewrite !H1 by lia. rewrite (read_units_ext g f) by (intros; apply H1; lia). tauto.
  - rewrite !H1 by lia. tauto.
Qed.

Lemma nb_true f o : f o <> EU -> nb f o = true.
Proof. intros H. unfold nb. destruct (N.eqb_spec EU (f o)); [congruence|reflexivity]. Qed.
Lemma nb_false f o : f o = EU -> nb f o = false.
Proof. intros H. unfold nb. rewrite H, N.eqb_refl. reflexivity. Qed.

Lemma mobj_of_slot f p i start e :
  start + esize e <= dmax C -> slot_ok f p i start e -> mobj_of f (ooff p i) = raw C start e.
Proof.
  intros Hs H.
  assert (Hb : (N.of_nat (start + esize e) < W32)%N).
  { destruct HC as (_ & HH & _). geo. }
  unfold mobj_of, mstate_of.
  destruct e as [ep m d|ep m|]; cbn [slot_ok esize] in *.
  - destruct H as (A1 & A2 & A3 & A4 & A5 & A6 & A7 & A8 & A9).
    rewrite !nb_true by (rewrite ?A1, ?A2, ?A3; first [apply word_ne|apply obj_word_ne]).
    cbn [andb s_st status_eqb orb s_crcm s_epoch s_start s_count s_crcd].
    rewrite A1, A2, A3, A4, low32_word, !low32_obj_word by lia.
    rewrite meta_of_units_units by auto. rewrite (N.mod_small ep) by auto. cbn [raw].
    destruct (c_crc C) eqn:Ec; cbn [andb].
    + rewrite !crc_of_obj_word by (auto using crcm_bound, crcd_bound).
      assert (E : crcm C m = crc16 CRC_INIT (meta_bytes m)) by (unfold crcm; rewrite Ec; auto).
      rewrite <- E, N.eqb_refl. reflexivity.
    + unfold crcm, crcd. rewrite Ec. reflexivity.
  - destruct H as (A1 & A2 & A3 & A4 & A5 & A6).
    rewrite (nb_false f (ooff p i + 2)) by auto.
    rewrite !nb_true by (rewrite ?A1, ?A2; first [apply word_ne|apply obj_word_ne]).
    cbn [andb s_st status_eqb orb s_crcm s_epoch s_start s_count s_crcd].
    rewrite A1, A2, A4, low32_word, !low32_obj_word by lia.
    rewrite meta_of_units_units by auto. rewrite (N.mod_small ep) by auto. cbn [raw].
    destruct (c_crc C) eqn:Ec; cbn [andb].
    + rewrite !crc_of_obj_word by (auto using crcm_bound, crcd_bound).
      assert (E : crcm C m = crc16 CRC_INIT (meta_bytes m)) by (unfold crcm; rewrite Ec; auto).
      rewrite <- E, N.eqb_refl. reflexivity.
    + unfold crcm. rewrite Ec. reflexivity.
  - destruct H as ((ep & A1) & A2 & A3).
    rewrite (nb_false f (ooff p i + 1)) by auto.
    rewrite nb_true by (rewrite A1; apply word_ne). cbn [andb]. reflexivity.
Qed.

Lemma mobj_of_free f off : f off = EU -> mobj_of f off = free_obj.
Proof.
  intros H. unfold mobj_of, mstate_of. rewrite (nb_false f off) by auto. reflexivity.
Qed.

(** The directory and data area of partition [p] hold [es]. *)
Definition Body (f : flash) (p : bool) (es : list entry) : Prop :=
  length es <= OC /\ total es <= dmax C
  /\ (forall l e r, es = l ++ e :: r -> slot_ok f p (length l) (total l) e)
  /\ (forall o, ooff p (length es) <= o < pdata p -> f o = EU)
  /\ (forall o, pdata p + total es <= o < poff p + PU -> f o = EU).

Lemma Body_ext f g p es :
  (forall o, poff p + 3 <= o < poff p + PU -> g o = f o) -> Body f p es -> Body g p es.
Proof.
  intros H (B1 & B2 & B3 & B4 & B5). split; [auto|]. split; [auto|]. split; [|split].
  - intros l e r E. specialize (B3 _ _ _ E).
    assert (length l < OC) by (subst es; rewrite app_length in B1; cbn [length] in B1; lia).
    assert (total l + esize e <= dmax C) by (subst es; rewrite total_app, total_cons in B2; lia).
    eapply slot_ok_ext; [| |exact B3]; intros o Ho; apply H; geo.
  - intros o Ho. rewrite H by geo. auto.
  - intros o Ho. rewrite H by geo. auto.
Qed.

Lemma Body_nil f p : (forall o, poff p + 3 <= o < poff p + PU -> f o = EU) -> Body f p [].
Proof.
  intros H. split; [cbn; lia|]. split; [cbn; lia|]. split; [|split].
  - intros l e r E. destruct l; discriminate.
  - intros o Ho. apply H. cbn [length] in Ho. geo.
  - intros o Ho. apply H. geo.
Qed.

Lemma app_snoc_inv {A} (es : list A) x l e r :
  es ++ [x] = l ++ e :: r ->
  (r = [] /\ l = es /\ e = x) \/ (exists r', r = r' ++ [x] /\ es = l ++ e :: r').
Proof.
  intros E. destruct r as [|y r] using rev_ind.
  - apply app_inj_tail in E as [-> ->]. auto.
  - right. exists r. clear IHr. replace (l ++ e :: r ++ [y]) with ((l ++ e :: r) ++ [y]) in E
      by (rewrite <- app_assoc; reflexivity).
    apply app_inj_tail in E as [-> ->]. auto.
Qed.

Lemma Body_snoc f g p es x :
  Body f p es -> length es < OC -> total es + esize x <= dmax C ->
  (forall o, poff p + 3 <= o < poff p + PU ->
     o < ooff p (length es) \/ ooff p (length es) + 7 <= o ->
     o < pdata p + total es \/ pdata p + total es + esize x <= o -> g o = f o) ->
  slot_ok g p (length es) (total es) x -> Body g p (es ++ [x]).
Proof.
  intros (B1 & B2 & B3 & B4 & B5) H1 H2 H3 H4.
  split; [rewrite app_length; cbn [length]; lia|].
  split; [rewrite total_app; cbn [total fold_right]; lia|].
  split; [|split].
  - intros l e r E. destruct (app_snoc_inv _ _ _ _ _ E) as [(-> & -> & ->)|(r' & -> & E')]; [auto|].
    specialize (B3 _ _ _ E').
    assert (length l < length es) by (subst es; rewrite app_length; cbn [length]; lia).
    assert (total l + esize e <= total es) by (subst es; rewrite total_app, total_cons; lia).
    eapply slot_ok_ext; [| |exact B3]; intros o Ho; apply H3; geo.
  - intros o Ho. rewrite app_length in Ho. cbn [length] in Ho.
    rewrite H3; [apply B4| | |]; geo.
  - intros o Ho. rewrite total_app in Ho. cbn [total fold_right] in Ho.
    rewrite H3; [apply B5| | |]; geo.
Qed.

Lemma wp_read_parse_dir f p es (Q : Z * mdir -> flash -> Prop) (Cr : flash -> Prop) :
  Body f p es -> Cr f -> Q (OK, dir_of C es) f -> WP (read_parse_dir C p) f Q Cr.
Proof.
  intros B H2 H3. unfold read_parse_dir, read_dir.
  destruct B as (B1 & B2 & B3 & B4 & B5).
  apply wp_bind, wp_bind, wp_read_objs; auto.
  apply wp_ret; auto. apply wp_ret; auto.
  assert (E : map (fun j => mobj_of f (ooff p j)) (seq 0 OC) = raws C 0 es ++ frees C es).
  { replace OC with (length es + (OC - length es)) by lia. rewrite seq_app, map_app.
    f_equal.
    - assert (G : forall r l, es = l ++ r ->
          map (fun j => mobj_of f (ooff p j)) (seq (length l) (length r)) = raws C (total l) r).
      { induction r as [|e r IH]; intros l E; [reflexivity|].
        cbn [length seq map raws]. f_equal.
        - apply mobj_of_slot; [|apply (B3 l e r E)].
          subst es. rewrite total_app, total_cons in B2. lia.
        - specialize (IH (l ++ [e])). rewrite app_length, total_app in IH. cbn [length total fold_right] in IH.
          rewrite Nat.add_1_r, Nat.add_0_r in IH. apply IH.
          rewrite <- app_assoc. exact E. }
      apply (G es []); reflexivity.
    - unfold frees. cbn [Nat.add].
      apply map_ext_const; [rewrite seq_length; reflexivity|].
      intros j Hj. apply in_seq in Hj. apply mobj_of_free, B4. geo. }
  rewrite E. change (PU - data_offset C) with (dmax C).
  rewrite (parse_raws C es 0 0 0 0) by auto. exact H3.
Qed.

(** ** Partition headers and whole images *)
Definition used_hdr (f : flash) (p : bool) (ep : N) : Prop :=
  f (poff p) = word ep /\ f (poff p + 1) = word (N.of_nat (data_offset C))
  /\ f (poff p + 2) = word (N.of_nat PU) /\ (ep < W32)%N.

(** Partition [p] is not complete. *)
Definition hdr_bad (f : flash) (p : bool) : Prop :=
  f (poff p) = EU \/ f (poff p + 1) = EU \/ f (poff p + 2) = EU.

Definition not_newer (f : flash) (p : bool) (ep : N) : Prop :=
  hdr_bad f p \/ (low32 (f (poff p)) < ep)%N.

Definition Flash_ok (f : flash) (a : bool) (ep : N) (es : list entry) : Prop :=
  used_hdr f a ep /\ Body f a es /\ not_newer f (negb a) ep.

(** No partition is complete: a blank, foreign or interrupted first use. *)
Definition Pre_ok (f : flash) : Prop := hdr_bad f false /\ hdr_bad f true.

Definition ctx_ok (x : ctx) (a : bool) (ep : N) (es : list entry) : Prop :=
  x_active x = a /\ x_bad x = false /\ x_dir x = dir_of C es
  /\ s_epoch (x_state x) = ep /\ s_start (x_state x) = data_offset C /\ s_count (x_state x) = PU.

Lemma Flash_ok_ext f g a ep es :
  (forall o, o < DU -> g o = f o) -> Flash_ok f a ep es -> Flash_ok g a ep es.
Proof.
  intros H (H1 & H2 & H3). split; [|split].
  - unfold used_hdr in *. rewrite !H by geo. auto.
  - eapply Body_ext; [|exact H2]. intros o Ho. apply H. geo.
  - unfold not_newer, hdr_bad in *. rewrite !H by geo. auto.
Qed.

Lemma mstate_used f p ep : used_hdr f p ep ->
  exists c1 c2, mstate_of f (poff p) = mkMS Used ep (data_offset C) PU c1 c2.
Proof.
  intros (A1 & A2 & A3 & A4). unfold mstate_of.
  rewrite !nb_true by (rewrite ?A1, ?A2, ?A3; apply word_ne). cbn [andb].
  rewrite A1, A2, A3, !low32_word, N.mod_small by auto.
  destruct HC as (_ & HH & _).
  assert (N.of_nat (data_offset C) < W32 /\ N.of_nat PU < W32)%N as [L1 L2] by (split; geo).
  rewrite !N.mod_small by auto. rewrite !Nat2N.id. eauto.
Qed.

Lemma mstate_bad f p : hdr_bad f p -> status_eqb (s_st (mstate_of f (poff p))) Used = false.
Proof.
  intros H. unfold mstate_of.
  destruct H as [H|[H|H]]; rewrite (nb_false _ _ H); rewrite ?andb_false_r; cbn [andb];
    repeat match goal with |- context [if ?b then _ else _] => destruct b end; reflexivity.
Qed.

Lemma mstate_epoch f p : status_eqb (s_st (mstate_of f (poff p))) Used = true ->
  s_epoch (mstate_of f (poff p)) = low32 (f (poff p)).
Proof.
  unfold mstate_of.
  destruct (nb f (poff p) && nb f (poff p + 1) && nb f (poff p + 2)); [reflexivity|].
  destruct (nb f (poff p) && nb f (poff p + 1)); [discriminate|].
  destruct (nb f (poff p)); discriminate.
Qed.

(** *** Init on a formatted device *)
Lemma wp_init_ok f a ep es (Q : Z * ctx -> flash -> Prop) (Cr : flash -> Prop) :
  Flash_ok f a ep es -> Cr f ->
  (forall x, ctx_ok x a ep es -> Q (OK, x) f) -> WP (nf_init C) f Q Cr.
Proof.
  intros (H1 & H2 & H3) HCr HQ. unfold nf_init.
  apply wp_bind, wp_state_read; auto; [geo|].
  apply wp_bind, wp_state_read; auto; [geo|].
  assert (FIN : forall st, s_epoch st = ep /\ s_start st = data_offset C /\ s_count st = PU ->
    WP (bind (Ret (OK, a, st))
       (fun v => match v with (rc, active, st) =>
         if is_ok rc then bind (read_parse_dir C active)
            (fun v => match v with (rc, d) => Ret (rc, mkCtx st d active false) end)
         else Ret (rc, mkCtx st (mkMD (repeat mo_zero OC) 0 0 0 0 0) active false) end)) f Q Cr).
  { intros st Hst. cbn [bind]. change (is_ok OK) with true. cbv iota.
    apply wp_bind. eapply wp_read_parse_dir; eauto. apply wp_ret; auto.
    apply HQ. unfold ctx_ok. cbn [x_active x_bad x_dir x_state]. tauto. }
  destruct (mstate_used _ _ _ H1) as (c1 & c2 & EA).
  assert (OTH : status_eqb (s_st (mstate_of f (poff (negb a)))) Used = true ->
            (s_epoch (mstate_of f (poff (negb a))) < ep)%N).
  { intros E. destruct H3 as [H3|H3].
    - rewrite (mstate_bad _ _ H3) in E. discriminate.
    - rewrite mstate_epoch; auto. }
  destruct a; cbn [negb] in *.
  - rewrite EA. cbn [s_st status_eqb]. 
    destruct (status_eqb (s_st (mstate_of f (poff false))) Used); cbn [andb negb].
    + specialize (OTH eq_refl). cbn [s_epoch].
      destruct (N.ltb_spec (s_epoch (mstate_of f (poff false))) ep); [|lia].
      apply FIN. auto.
    + apply FIN. auto.
  - rewrite EA. cbn [s_st status_eqb].
    destruct (status_eqb (s_st (mstate_of f (poff true))) Used); cbn [andb negb].
    + specialize (OTH eq_refl). cbn [s_epoch].
      destruct (N.ltb_spec ep (s_epoch (mstate_of f (poff true)))); [lia|].
      apply FIN. auto.
    + apply FIN. auto.
Qed.

(** ** Erasing a partition *)
Lemma wp_blank_or_erase f p (Q : Z -> flash -> Prop) (Cr : flash -> Prop) :
  (forall g, partial_erase C f (poff p) PU g -> Cr g) ->
  (forall g, (forall o, poff p <= o < poff p + PU -> g o = EU) ->
             (forall o, o < poff p \/ poff p + PU <= o -> g o = f o) -> Q OK g) ->
  (fl = true -> forall rc g, rc <> OK -> partial_erase C f (poff p) PU g -> Q rc g) ->
  WP (blank_or_erase C p) f Q Cr.
Proof.
  intros H1 H2 H3. unfold blank_or_erase, part_blank.
  assert (Hf : Cr f) by (apply H1; intros o; left; auto).
  apply wp_bind, wp_fu_blank; auto; [geo|].
  destruct (blankb C f (poff p) PU) eqn:E.
  - change (nonblank OK) with false. cbv iota. apply wp_ret; auto.
    apply blankb_spec in E. apply H2; auto.
  - change (nonblank NOTBLANK) with true. cbv iota. unfold part_erase.
    apply wp_fu_erase; auto.
    + destruct (poff_cases p) as [[-> _]|[-> _]]; auto.
    + geo.
    + intros g Hg. apply H2; intros o Ho; rewrite Hg.
      * apply put_erased_in; lia.
      * apply put_erased_out; lia.
Qed.

(** Program one blank unit. *)
Lemma wp_prog1 f off w (Q : Z -> flash -> Prop) (Cr : flash -> Prop) :
  off < DU -> f off = EU ->
  (forall g, (forall o, o <> off -> g o = f o) -> g off = f off \/ g off = w -> Cr g) ->
  (forall g, (forall o, o <> off -> g o = f o) -> g off = w -> Q OK g) ->
  (fl = true -> forall rc g, rc <> OK -> (forall o, o <> off -> g o = f o) ->
       g off = f off \/ g off = w -> Q rc g) ->
  WP (fu_program off [w]) f Q Cr.
Proof.
  intros H1 H2 H3 H4 H5.
  assert (P : forall g, partial f off [w] g ->
             (forall o, o <> off -> g o = f o) /\ (g off = f off \/ g off = w)).
  { intros g Hg. cbn [length] in *. split.
    - intros o Ho. destruct (Hg o) as [E|[E _]]; auto. cbn [length] in E. lia.
    - destruct (Hg off) as [E|[_ E]]; auto. rewrite Nat.sub_diag in E. auto. }
  apply wp_fu_program; cbn [length].
  - lia.
  - intros o Ho. replace o with off by lia. auto.
  - intros g Hg. destruct (P g Hg). apply H3; auto.
  - intros g Hg. apply H4.
    + intros o Ho. rewrite Hg. apply put_units_out. cbn [length]. lia.
    + rewrite Hg, put_units_in by (cbn [length]; lia). rewrite Nat.sub_diag. reflexivity.
  - intros Hfl rc g Hrc Hg. destruct (P g Hg). apply H5; auto.
Qed.

(** *** Init on an unformatted device *)
Lemma wp_init_pre f (Q : Z * ctx -> flash -> Prop) (Cr : flash -> Prop) :
  Pre_ok f ->
  (forall g, Pre_ok g \/ Flash_ok g false 0 [] -> Cr g) ->
  (forall x g, ctx_ok x false 0 [] -> Flash_ok g false 0 [] -> Q (OK, x) g) ->
  (fl = true -> forall rc x g, rc <> OK -> Pre_ok g \/ Flash_ok g false 0 [] -> Q (rc, x) g) ->
  WP (nf_init C) f Q Cr.
Proof.
  intros [P0 P1] HCr HQ HF. unfold nf_init.
  assert (Cf : Cr f) by (apply HCr; left; split; auto).
  apply wp_bind, wp_state_read; auto; [geo|].
  apply wp_bind, wp_state_read; auto; [geo|].
  rewrite (mstate_bad _ _ P0), (mstate_bad _ _ P1). cbn [andb negb].
  unfold program_init. apply wp_bind, wp_bind, wp_bind.
  assert (PE : forall g, partial_erase C f (poff false) PU g -> Pre_ok g).
  { intros g Hg. split.
    - destruct P0 as [P|[P|P]]; [left|right; left|right; right];
        match goal with |- g ?o = _ => destruct (Hg o) as [E|[_ E]]; congruence end.
    - destruct P1 as [P|[P|P]]; [left|right; left|right; right];
        match goal with |- g ?o = _ => destruct (Hg o) as [E|[_ E]]; congruence end. }
  apply wp_blank_or_erase.
  - intros g Hg. apply HCr; left; auto.
  - intros f1 E1 E2. change (is_ok OK) with true. cbv iota.
    assert (Q1 : hdr_bad f1 true).
    { unfold hdr_bad in *. rewrite !E2 by geo. auto. }
    unfold prog_epoch. apply wp_bind.
    (* one step of header programming keeps a hole at unit 2 *)
    assert (HOLE : forall g, g (poff false + 2) = EU -> hdr_bad g true -> Pre_ok g).
    { intros g G1 G2. split; [right; right; auto|auto]. }
    assert (KEEP : forall g k, k < 3 -> (forall o, o <> poff false + k -> g o = f1 o) -> hdr_bad g true).
    { intros g k Hk Hg. unfold hdr_bad in *. rewrite !Hg by geo. auto. }
    apply wp_prog1; [geo|apply E1; geo| | |].
    + intros g G1 G2. apply HCr; left. apply HOLE; [rewrite G1 by geo; apply E1; geo|].
      apply (KEEP g 0); [lia|]. intros o Ho. apply G1. lia.
    + intros f2 G1 G2. change (is_ok OK) with true. cbv iota.
      assert (Q2 : hdr_bad f2 true) by (apply (KEEP f2 0); [lia|intros o Ho; apply G1; lia]).
      unfold prog_start. apply wp_bind.
      apply wp_prog1; [geo|rewrite G1 by geo; apply E1; geo| | |].
      * intros g K1 K2. apply HCr; left. apply HOLE.
        -- rewrite K1, G1 by geo; apply E1; geo.
        -- unfold hdr_bad in *. rewrite !K1 by geo. auto.
      * intros f3 K1 K2. change (is_ok OK) with true. cbv iota.
        assert (Q3 : hdr_bad f3 true) by (unfold hdr_bad in *; rewrite !K1 by geo; auto).
        assert (B3 : forall o, poff false + 3 <= o < poff false + PU -> f3 o = EU).
        { intros o Ho. rewrite K1, G1 by lia. apply E1. lia. }
        unfold prog_count. apply wp_bind.
        assert (DONE : forall g, (forall o, o <> poff false + 2 -> g o = f3 o) ->
           g (poff false + 2) = word (N.of_nat PU) -> Flash_ok g false 0 []).
        { intros g L1 L2. split; [|split].
          - unfold used_hdr. rewrite L2. rewrite (L1 (poff false)), (L1 (poff false + 1)) by lia.
            rewrite K2, (K1 (poff false)), G2 by lia. unfold W32. repeat split; auto; lia.
          - apply Body_nil. intros o Ho. rewrite L1 by lia. auto.
          - left. cbn [negb]. unfold hdr_bad in *. rewrite !L1 by geo. auto. }
        assert (PREOR : forall g, (forall o, o <> poff false + 2 -> g o = f3 o) ->
           g (poff false + 2) = f3 (poff false + 2) \/ g (poff false + 2) = word (N.of_nat PU) ->
           Pre_ok g \/ Flash_ok g false 0 []).
        { intros g L1 [L2|L2]; [left|right; auto]. apply HOLE.
          - rewrite L2, K1, G1 by lia. apply E1; geo.
          - unfold hdr_bad in *. rewrite !L1 by geo. auto. }
        apply wp_prog1; [geo|rewrite K1, G1 by lia; apply E1; geo| | |].
        -- intros g L1 L2. apply HCr. auto.
        -- intros f4 L1 L2. change (is_ok OK) with true. cbv iota.
           assert (F4 : Flash_ok f4 false 0 []) by auto.
           assert (C4 : Cr f4) by (apply HCr; auto).
           apply wp_ret; auto. apply wp_ret; auto.
           change (is_ok OK) with true. cbv iota.
           apply wp_bind. eapply wp_read_parse_dir; [apply F4|auto|].
           apply wp_ret; auto. apply HQ; auto. unfold ctx_ok. repeat split.
        -- intros Hfl rc g Hrc L1 L2. rewrite (not_ok_false rc) by auto.
           assert (Cr g) by (apply HCr; auto).
           apply wp_ret; auto. apply wp_ret; auto. rewrite (not_ok_false rc) by auto.
           apply wp_ret; auto.
      * intros Hfl rc g Hrc K1 K2. rewrite (not_ok_false rc) by auto.
        assert (Pre_ok g).
        { apply HOLE; [rewrite K1, G1 by geo; apply E1; geo|].
          unfold hdr_bad in *. rewrite !K1 by geo. auto. }
        assert (Cr g) by (apply HCr; auto).
        apply wp_ret; auto. apply wp_ret; auto. rewrite (not_ok_false rc) by auto.
        apply wp_ret; auto.
    + intros Hfl rc g Hrc G1 G2. rewrite (not_ok_false rc) by auto.
      assert (Pre_ok g).
      { apply HOLE; [rewrite G1 by geo; apply E1; geo|].
        apply (KEEP g 0); [lia|]. intros o Ho. apply G1. lia. }
      assert (Cr g) by (apply HCr; auto).
      apply wp_ret; auto. apply wp_ret; auto. rewrite (not_ok_false rc) by auto.
      apply wp_ret; auto.
  - intros Hfl rc g Hrc Hg. rewrite (not_ok_false rc) by auto.
    assert (Cr g) by (apply HCr; auto).
    apply wp_ret; auto. apply wp_ret; auto. rewrite (not_ok_false rc) by auto.
    apply wp_ret; auto.
Qed.

(** ** Programming one object *)
Definition slotB1 (f : flash) (off : nat) (g : flash) : Prop :=
  (forall o, o < off \/ off + 7 <= o -> g o = f o)
  /\ (exists ep, g off = word ep) /\ g (off + 1) = EU /\ g (off + 2) = EU.
Definition slotB2 (f : flash) (off : nat) (ep : N) (m : meta) (w : N) (g : flash) : Prop :=
  (forall o, o < off \/ off + 7 <= o -> g o = f o)
  /\ g off = word ep /\ g (off + 1) = w /\ g (off + 2) = EU
  /\ read_units g (off + 3) 4 = meta_units m.
Definition slotBX f off ep m w g : Prop :=
  feq g f \/ slotB1 f off g \/ slotB2 f off ep m w g.

Lemma wp_obj_begin f p i ep start m c (Q : Z -> flash -> Prop) (Cr : flash -> Prop) :
  ooff p i + 7 <= DU -> blank C f (ooff p i) 7 -> meta_ok m ->
  (forall g, slotBX f (ooff p i) ep m (obj_word C c start) g -> Cr g) ->
  (forall g, slotB2 f (ooff p i) ep m (obj_word C c start) g -> Q OK g) ->
  (fl = true -> forall rc g, rc <> OK -> slotBX f (ooff p i) ep m (obj_word C c start) g -> Q rc g) ->
  WP (obj_begin C p i ep start m c) f Q Cr.
Proof.
  set (off := ooff p i). set (w := obj_word C c start).
  intros H1 H2 Hm HCr HQ HF. unfold obj_begin. fold off. unfold U_STATE.
  assert (Cf : Cr f) by (apply HCr; left; intros o; auto).
  assert (Lm : length (meta_units m) = 4) by (apply meta_units_length; auto).
  apply wp_bind.
  assert (S1 : forall g, (forall o, o <> off -> g o = f o) -> g off = word ep -> slotB1 f off g).
  { intros g G1 G2. split; [intros o Ho; apply G1; lia|]. split; [eauto|].
    rewrite !G1 by lia. split; apply H2; lia. }
  assert (S1' : forall g, (forall o, o <> off -> g o = f o) -> g off = f off \/ g off = word ep ->
            slotBX f off ep m w g).
  { intros g G1 [G2|G2]; [left|right; left; auto].
    intros o. destruct (Nat.eq_dec o off) as [->|]; auto. }
  apply wp_prog1.
  - lia.
  - apply H2; lia.
  - intros g G1 G2. apply HCr; auto.
  - intros f1 G1 G2. change (is_ok OK) with true. cbv iota.
    apply wp_bind.
    assert (P2 : forall g, partial f1 (off + 3) (meta_units m) g -> slotB1 f off g).
    { intros g Hg. rewrite <- Lm in *.
      assert (X : forall o, o < off + 3 \/ off + 7 <= o -> g o = f1 o).
      { intros o Ho. destruct (Hg o) as [E|[E _]]; auto. lia. }
      split; [|split; [|split]].
      - intros o Ho. rewrite X, G1 by lia. reflexivity.
      - exists ep. rewrite X by lia. auto.
      - rewrite X, G1 by lia. apply H2; lia.
      - rewrite X, G1 by lia. apply H2; lia. }
    apply wp_fu_program.
    + lia.
    + rewrite Lm. intros o Ho. rewrite G1 by lia. apply H2; lia.
    + intros g Hg. apply HCr. right; left; auto.
    + intros f2 K. change (is_ok OK) with true. cbv iota.
      assert (X : forall o, o < off + 3 \/ off + 7 <= o -> f2 o = f1 o).
      { intros o Ho. rewrite K, put_units_out by lia. reflexivity. }
      assert (R : read_units f2 (off + 3) 4 = meta_units m).
      { rewrite <- Lm. rewrite (read_units_ext f2 (put_units f1 (off + 3) (meta_units m)))
          by (intros; apply K). apply read_put_units. }
      assert (S2 : forall g, (forall o, o <> off + 1 -> g o = f2 o) -> g (off + 1) = w ->
                 slotB2 f off ep m w g).
      { intros g L1 L2. split; [|split; [|split; [|split]]]; auto.
        - intros o Ho. rewrite L1, X, G1 by lia. reflexivity.
        - rewrite L1, X by lia. auto.
        - rewrite L1, X, G1 by lia. apply H2; lia.
        - rewrite (read_units_ext g f2) by (intros; apply L1; lia). auto. }
      assert (S2' : forall g, (forall o, o <> off + 1 -> g o = f2 o) ->
                 g (off + 1) = f2 (off + 1) \/ g (off + 1) = w -> slotBX f off ep m w g).
      { intros g L1 [L2|L2]; right; [left|right; auto]. apply P2.
        intros o. destruct (Nat.eq_dec o (off + 1)) as [->|].
        - left. rewrite L2, X by lia. reflexivity.
        - rewrite L1, K by auto. apply put_units_partial. }
      apply wp_prog1; auto.
      * lia.
      * rewrite X, G1 by lia. apply H2; lia.
    + intros Hfl rc g Hrc Hg. rewrite (not_ok_false rc) by auto.
      apply wp_ret; [apply HF|apply HCr]; auto; right; left; auto.
  - intros Hfl rc g Hrc G1 G2. rewrite (not_ok_false rc) by auto.
    apply wp_ret; [apply HF|apply HCr]; auto.
Qed.

(** ** From object images to directory images *)
(** g differs from f only in the directory and data area of p. *)
Definition samereg (f g : flash) (p : bool) : Prop :=
  forall o, o < poff p + 3 \/ poff p + PU <= o -> g o = f o.

Lemma samereg_trans f g h p : samereg f g p -> samereg g h p -> samereg f h p.
Proof. intros H1 H2 o Ho. rewrite H2, H1; auto. Qed.
Lemma samereg_refl f g p : feq g f -> samereg f g p.
Proof. intros H o _. apply H. Qed.

Section OneObject.
Variables (f : flash) (p : bool) (es : list entry) (ep : N) (m : meta) (d : list N).
Hypothesis (HB : Body f p es) (Hlen : length es < OC)
  (Htot : total es + units (length d) <= dmax C)
  (Hm : meta_ok m) (Hd : bytes_ok d) (Hml : m_len m = N.of_nat (length d)) (Hep : (ep < W32)%N).
Notation off := (ooff p (length es)).
Notation doff := (pdata p + total es).
Notation w1 := (obj_word C (crcm C m) (total es)).
Notation w2 := (obj_word C (crcd C d) (units (length d))).

Lemma slot_blank : blank C f off 7.
Proof. destruct HB as (_ & _ & _ & B & _). intros o Ho. apply B. geo. Qed.
Lemma data_blank n : total es + n <= dmax C -> blank C f doff n.
Proof. intros H. destruct HB as (_ & _ & _ & _ & B). intros o Ho. apply B. geo. Qed.

Lemma one_B0 g : feq g f -> samereg f g p /\ Body g p es.
Proof. intros H. split; [apply samereg_refl; auto|]. eapply Body_ext; [|exact HB]. intros; apply H. Qed.

Lemma one_B1 g : slotB1 f off g -> samereg f g p /\ Body g p (es ++ [EMeta]).
Proof.
  intros (G1 & G2 & G3 & G4). split.
  - intros o Ho. apply G1. geo.
  - eapply Body_snoc; [exact HB|auto|cbn [esize]; lia| |].
    + intros o Ho H1 H2. apply G1. lia.
    + cbn [slot_ok]. auto.
Qed.

Lemma one_B2 g1 g : slotB2 f off ep m w1 g1 -> partial g1 doff (pack d) g ->
  samereg f g p /\ Body g p (es ++ [EData ep m]).
Proof.
  intros (G1 & G2 & G3 & G4 & G5) P.
  assert (Lp : length (pack d) = units (length d)) by apply pack_length.
  assert (X : forall o, o < doff \/ doff + units (length d) <= o -> g o = g1 o).
  { intros o Ho. destruct (P o) as [E|[E _]]; auto. lia. }
  split.
  - intros o Ho. rewrite X, G1 by geo. reflexivity.
  - eapply Body_snoc; [exact HB|auto| | |].
    + cbn [esize]. rewrite Hml, Nat2N.id. auto.
    + intros o Ho H1 H2. cbn [esize] in H2. rewrite Hml, Nat2N.id in H2.
      rewrite X, G1 by lia. reflexivity.
    + cbn [slot_ok]. rewrite !X by geo.
      rewrite (read_units_ext g g1) by (intros; apply X; geo). tauto.
Qed.

Lemma one_B3 g1 g2 g : slotB2 f off ep m w1 g1 -> feq g2 (put_units g1 doff (pack d)) ->
  (forall o, o <> off + 2 -> g o = g2 o) -> g (off + 2) = w2 ->
  samereg f g p /\ Body g p (es ++ [EUsed ep m d]).
Proof.
  intros (G1 & G2 & G3 & G4 & G5) P K1 K2.
  assert (Lp : length (pack d) = units (length d)) by apply pack_length.
  assert (X : forall o, o < doff \/ doff + units (length d) <= o -> g2 o = g1 o).
  { intros o Ho. rewrite P, put_units_out by lia. reflexivity. }
  split.
  - intros o Ho. rewrite K1, X, G1 by geo. reflexivity.
  - eapply Body_snoc; [exact HB|auto|exact Htot| |].
    + intros o Ho H1 H2. cbn [esize] in H2. rewrite K1, X, G1 by lia. reflexivity.
    + cbn [slot_ok]. rewrite K2. rewrite !(K1 off), !(K1 (off + 1)), !X by geo.
      rewrite (read_units_ext g g1 (off + 3)) by (intros; rewrite K1, X by geo; reflexivity).
      assert (R : read_units g doff (units (length d)) = pack d).
      { rewrite <- Lp. rewrite (read_units_ext g (put_units g1 doff (pack d))).
        - apply read_put_units.
        - intros o Ho. rewrite K1 by geo. apply P. }
      tauto.
Qed.

(** All images an interrupted object write can leave. *)
Definition obj_img (g : flash) : Prop :=
  samereg f g p /\
  (Body g p es \/ Body g p (es ++ [EMeta]) \/ Body g p (es ++ [EData ep m])
   \/ Body g p (es ++ [EUsed ep m d])).

Lemma slotBX_img g : slotBX f off ep m w1 g -> obj_img g.
Proof.
  intros [H|[H|H]].
  - destruct (one_B0 g H). split; auto.
  - destruct (one_B1 g H). split; auto.
  - destruct (one_B2 g g H (partial_refl _ _ _)). split; auto.
Qed.

(** Writing the count word. *)
Lemma wp_obj_finish g1 g2 (Q : Z -> flash -> Prop) (Cr : flash -> Prop) :
  slotB2 f off ep m w1 g1 -> feq g2 (put_units g1 doff (pack d)) ->
  (forall g, obj_img g -> Cr g) ->
  (forall g, samereg f g p -> Body g p (es ++ [EUsed ep m d]) -> Q OK g) ->
  (fl = true -> forall rc g, rc <> OK -> obj_img g -> Q rc g) ->
  WP (obj_finish C p (length es) (length d) (crcd C d)) g2 Q Cr.
Proof.
  intros H1 H2 HCr HQ HF. unfold obj_finish.
  pose proof H1 as (G1 & G2 & G3 & G4 & G5).
  assert (Lp : length (pack d) = units (length d)) by apply pack_length.
  assert (I : forall g, (forall o, o <> off + 2 -> g o = g2 o) ->
             g (off + 2) = g2 (off + 2) \/ g (off + 2) = w2 -> obj_img g).
  { intros g K1 [K2|K2].
    - assert (P : partial g1 doff (pack d) g).
      { intros o. destruct (Nat.eq_dec o (off + 2)) as [->|];
          [rewrite K2|rewrite K1 by auto]; rewrite H2; apply put_units_partial. }
      destruct (one_B2 g1 g H1 P). split; auto.
    - destruct (one_B3 g1 g2 g H1 H2 K1 K2). split; auto. }
  apply wp_prog1.
  - geo.
  - rewrite H2, put_units_out by geo. auto.
  - intros g K1 K2. apply HCr; auto.
  - intros g K1 K2. destruct (one_B3 g1 g2 g H1 H2 K1 K2). auto.
  - intros Hfl rc g Hrc K1 K2. apply HF; auto.
Qed.

(** AddObject's write. *)
Lemma wp_obj_program data (Q : Z -> flash -> Prop) (Cr : flash -> Prop) :
  dbytes data = d ->
  (forall g, obj_img g -> Cr g) ->
  (forall g, samereg f g p -> Body g p (es ++ [EUsed ep m d]) -> Q OK g) ->
  (fl = true -> forall rc g, rc <> OK -> obj_img g -> Q rc g) ->
  WP (obj_program C p (length es) ep m (total es) data (crcm C m) (crcd C d)) f Q Cr.
Proof.
  intros Hdata HCr HQ HF. unfold obj_program.
  assert (Lp : length (pack d) = units (length d)) by apply pack_length.
  apply wp_bind, wp_obj_begin; auto.
  - geo.
  - apply slot_blank.
  - intros g Hg. apply HCr, slotBX_img; auto.
  - intros g1 Hg1. change (is_ok OK) with true. cbv iota.
    pose proof Hg1 as (G1 & G2 & G3 & G4 & G5).
    apply wp_bind. rewrite Hml, Nat2N.id.
    assert (I1 : forall g, partial g1 doff (pack d) g -> obj_img g).
    { intros g Hg. destruct (one_B2 g1 g Hg1 Hg). split; auto. }
    assert (Cg1 : Cr g1) by (apply HCr, I1, partial_refl).
    destruct data as [bs|]; cbn [dbytes] in Hdata.
    + subst bs. unfold obj_data. unfold check_range.
      replace ((pdata p * 8 <=? doff * 8) && (doff * 8 <=? (poff p + PU) * 8)
               && (length d <=? (poff p + PU) * 8 - doff * 8)) with true.
      2:{ pose proof (units_spec (length d)).
          symmetry. rewrite !andb_true_iff, !Nat.leb_le. geo. }
      apply wp_fu_program_bytes.
      * geo.
      * intros o Ho. rewrite G1 by geo.
        apply (data_blank (units (length d)) Htot); lia.
      * intros g Hg. apply HCr; auto.
      * intros g2 Hg2. change (is_ok OK) with true. cbv iota.
        eapply wp_obj_finish; eauto.
      * intros Hfl rc g Hrc Hg. rewrite (not_ok_false rc) by auto.
        apply wp_ret; [apply HF|apply HCr]; auto.
    + apply wp_ret; auto. change (is_ok OK) with true. cbv iota.
      eapply wp_obj_finish; eauto.
      intros o. rewrite <- Hdata, pack_nil, put_units_out; [reflexivity|cbn [length]; lia].
  - intros Hfl rc g Hrc Hg. rewrite (not_ok_false rc) by auto.
    apply wp_ret; [apply HF|apply HCr]; auto using slotBX_img.
Qed.

End OneObject.

End Proof.
