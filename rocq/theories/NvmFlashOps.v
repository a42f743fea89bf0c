(** Specifications of the wh_NvmFlash_* operations over directory images. *)
From Verif Require Import Base Flash BaseLemmas FlashWp NvmFlashModel NvmSpec NvmInv NvmFlashProof.

Lemma skipn_skipn {A} a : forall b (l : list A), skipn a (skipn b l) = skipn (b + a) l.
Proof.
  induction b as [|b IH]; intros l; [reflexivity|].
  destruct l as [|x l]; cbn [Nat.add skipn]; [destruct a; reflexivity|]. apply IH.
Qed.

Section Ops.
Variable C : cfg.
Variable fl : bool.
Hypothesis HC : cfg_ok C.
Notation OC := (c_oc C).
Notation PU := (c_pu C).
Notation DU := (dev_units C).
Notation WP := (wp C fl).
Notation EU := (erased_unit C).
Notation poff := (part_off C).
Notation pdata := (part_data C).
Notation ooff := (obj_off C).
Notation Body := (Body C).
Notation Flash_ok := (Flash_ok C).
Notation ctx_ok := (ctx_ok C).
Notation samereg := (samereg C).

Ltac geo :=
  pose proof (geom C HC) as (? & ? & ? & ?);
  unfold part_data, obj_off, U_STATE, U_OBJ, U_META in *;
  repeat match goal with
  | |- context [part_off C ?p] =>
      lazymatch goal with
      | H : poff p = 0 /\ _ \/ _ |- _ => fail
      | _ => pose proof (poff_cases C p)
      end
  | _ : context [part_off C ?p] |- _ =>
      lazymatch goal with
      | H : poff p = 0 /\ _ \/ _ |- _ => fail
      | _ => pose proof (poff_cases C p)
      end
  end;
  lia.

(** ** AddObject *)
Definition room (es : list entry) (n : nat) : Prop :=
  length es < OC /\ total es + units n <= dmax C.

Lemma room_dec es n :
  length es <= OC -> total es <= dmax C ->
  ((length es =? OC) || (dmax C * 8 <? total es * 8 + n) = false <-> room es n).
Proof.
  intros H1 H2. unfold room. rewrite orb_false_iff, Nat.eqb_neq, Nat.ltb_ge.
  pose proof (units_spec n). lia.
Qed.

Lemma meta_ok_with_len m n : meta_ok m -> (n < 65536)%N -> meta_ok (with_len m n).
Proof. unfold meta_ok, with_len. cbn. tauto. Qed.

Lemma Flash_ok_samereg f g a ep es es' :
  Flash_ok f a ep es -> samereg f g a -> Body g a es' -> Flash_ok g a ep es'.
Proof.
  intros (H1 & H2 & H3) S B. split; [|split; auto].
  - unfold used_hdr in *. rewrite !S by geo. auto.
  - unfold not_newer, hdr_bad in *. rewrite !S by (destruct a; cbn [negb]; geo). auto.
Qed.

Definition add_img a ep es m0 d g : Prop :=
  exists es', Flash_ok g a ep es' /\ (live es' = live es \/ (room es (length d) /\ live es' = sp_add m0 d (live es))).

Lemma wp_add f x a ep es m0 data (Q : Z * ctx -> flash -> Prop) (Cr : flash -> Prop) :
  let d := dbytes data in
  let m := with_len m0 (N.of_nat (length d)) in
  Flash_ok f a ep es -> ctx_ok x a ep es ->
  meta_ok m0 -> bytes_ok d -> (N.of_nat (length d) < 65536)%N ->
  (~ room es (length d) -> Q (NOSPACE, x) f) ->
  (forall g, add_img a ep es m0 d g -> Cr g) ->
  (forall g x' eo, room es (length d) ->
      Flash_ok g a ep (es ++ [EUsed eo m d]) -> ctx_ok x' a ep (es ++ [EUsed eo m d]) -> Q (OK, x') g) ->
  (fl = true -> forall rc g, rc <> OK -> add_img a ep es m0 d g -> Q (rc, x) g) ->
  WP (nf_add C x m0 data) f Q Cr.
Proof.
  intros d m F X Hm Hd Hlen HNS HCr HQ HF.
  pose proof X as (X1 & X2 & X3 & X4 & X5 & X6).
  pose proof F as (F1 & F2 & F3). pose proof F2 as (B1 & B2 & _).
  assert (Cf : Cr f) by (apply HCr; exists es; auto).
  unfold nf_add. rewrite X2. cbv zeta.
  assert (EL : dlen data = length d) by (unfold d; destruct data; reflexivity).
  rewrite X3. rewrite EL.
  change (d_nfo (dir_of C es)) with (length es). change (d_max (dir_of C es)) with (dmax C).
  change (d_nfd (dir_of C es)) with (total es).
  destruct ((length es =? OC) || (dmax C * 8 <? total es * 8 + length d)) eqn:ER.
  { apply wp_ret; auto. apply HNS. intros R. apply room_dec in R; auto. congruence. }
  apply room_dec in ER; auto. pose proof ER as [R1 R2].
  fold d m.
  set (old := find_obj (dir_of C es) (m_id m0)).
  set (eo := match old with
             | Some i => ((s_epoch (o_st (nth i (d_objs (dir_of C es)) mo_zero)) + 1) mod W32)%N
             | None => 0%N end).
  assert (Heo : (eo < W32)%N) by (unfold eo, W32; destruct old; lia).
  change (if c_crc C then crc16 CRC_INIT (meta_bytes m) else 0%N) with (crcm C m).
  change (if c_crc C then crc16 CRC_INIT d else 0%N) with (crcd C d).
  assert (LV : live (es ++ [EUsed eo m d]) = sp_add m0 d (live es)).
  { rewrite live_snoc_used. reflexivity. }
  assert (IMG : forall g, obj_img C f a es eo m d g -> add_img a ep es m0 d g).
  { intros g (S & [B|[B|[B|B]]]).
    - exists es. split; auto. eapply Flash_ok_samereg; eauto.
    - exists (es ++ [EMeta]). split; [eapply Flash_ok_samereg; eauto|].
      left. apply live_snoc_bad; auto.
    - exists (es ++ [EData eo m]). split; [eapply Flash_ok_samereg; eauto|].
      left. apply live_snoc_bad; auto.
    - exists (es ++ [EUsed eo m d]). split; [eapply Flash_ok_samereg; eauto|]. auto. }
  rewrite X1. apply wp_bind.
  apply wp_obj_program with (d := d); auto.
  - apply meta_ok_with_len; auto.
  - intros g S B. change (is_ok OK) with true. cbv iota.
    pose proof (add_dir C es eo m d R1) as AD. cbv zeta in AD.
    change (d_nfo (dir_of C es)) with (length es) in AD.
    change (d_nfd (dir_of C es)) with (total es) in AD.
    change (d_max (dir_of C es)) with (dmax C) in AD.
    change (find_obj (dir_of C es) (m_id m)) with old in AD.
    assert (FG : Flash_ok g a ep (es ++ [EUsed eo m d])) by (eapply Flash_ok_samereg; eauto).
    match type of AD with (let '(_, _) := ?M in _) = _ => destruct M as [[os re] rd] end.
    apply wp_ret.
    + apply (HQ g _ eo); auto. unfold NvmFlashProof.ctx_ok.
      cbn [x_active x_bad x_dir x_state]. rewrite AD. repeat split; auto.
    + apply HCr. exists (es ++ [EUsed eo m d]). auto.
  - intros Hfl rc g Hrc Hg. rewrite (not_ok_false rc) by auto.
    apply wp_ret; [apply HF|apply HCr]; auto.
Qed.

(** ** Reading *)
Lemma entry_bounds f p es l eo m d r : Body f p es -> es = l ++ EUsed eo m d :: r ->
  length l < OC /\ total l + units (length d) <= dmax C /\ slot_ok C f p (length l) (total l) (EUsed eo m d).
Proof.
  intros (B1 & B2 & B3 & _) E. split; [|split; [|apply (B3 l _ r E)]].
  - subst es. rewrite app_length in B1. cbn [length] in B1. lia.
  - subst es. rewrite total_app, total_cons in B2. cbn [esize] in B2. lia.
Qed.

Lemma wp_obj_read f p es l eo m d r boff n (Q : Z * list N -> flash -> Prop) (Cr : flash -> Prop) :
  Body f p es -> es = l ++ EUsed eo m d :: r -> dead [] (EUsed eo m d) r = false -> Cr f ->
  Q (if (boff <? length d) && (n <=? length d - boff)
     then (OK, firstn n (skipn boff d)) else (BADARGS, [])) f ->
  WP (obj_read C (dir_of C es) p (length l) boff n) f Q Cr.
Proof.
  intros B E D HCr HQ. unfold obj_read.
  destruct (entry_bounds _ _ _ _ _ _ _ _ B E) as (L1 & L2 & S).
  cbn [slot_ok] in S. destruct S as (A1 & A2 & A3 & A4 & A5 & A6 & A7 & A8 & A9).
  assert (N : nth (length l) (d_objs (dir_of C es)) mo_zero = raw C (total l) (EUsed eo m d)).
  { unfold dir_of. cbn [d_objs]. rewrite E, nth_mk, D. reflexivity. }
  rewrite N. cbn [raw o_st s_start].
  unfold o_len. cbn [o_meta]. rewrite A8, Nat2N.id.
  destruct (Nat.leb_spec (length d) boff) as [H1|H1].
  { apply wp_ret; auto. destruct (Nat.ltb_spec boff (length d)); [lia|]. auto. }
  destruct (Nat.ltb_spec boff (length d)); [|lia]. cbn [andb] in HQ.
  destruct (Nat.ltb_spec (length d - boff) n) as [H2|H2].
  { apply wp_ret; auto. destruct (Nat.leb_spec n (length d - boff)); [lia|]. auto. }
  destruct (Nat.leb_spec n (length d - boff)); [|lia].
  pose proof (units_spec (length d)).
  unfold check_range.
  replace ((pdata p * 8 <=? (pdata p + total l) * 8 + boff)
     && ((pdata p + total l) * 8 + boff <=? (poff p + PU) * 8)
     && (n <=? (poff p + PU) * 8 - ((pdata p + total l) * 8 + boff))) with true
    by (symmetry; rewrite !andb_true_iff, !Nat.leb_le; geo).
  cbn [negb]. apply wp_bind. apply wp_fu_read_bytes; auto; [geo|].
  assert (R : rbytes f ((pdata p + total l) * 8 + boff) n = firstn n (skipn boff d)).
  { assert (RD : rbytes f (8 * (pdata p + total l)) (length d) = d) by (apply rbytes_pack; auto).
    rewrite <- RD at 1. rewrite skipn_rbytes, firstn_rbytes. f_equal; lia. }
  rewrite R.
  match goal with |- WP (if ?b then _ else _) _ _ _ => destruct b eqn:EB end; [|apply wp_ret; auto].
  exfalso. rewrite !andb_true_iff in EB. destruct EB as (((((_ & Ec) & _) & E0) & En) & EN).
  apply Nat.eqb_eq in E0, En. subst boff n. rewrite skipn_O, firstn_all in EN.
  cbn [raw s_crcd] in EN. unfold crcd in EN. rewrite Ec, N.eqb_refl in EN. discriminate.
Qed.

Lemma wp_read f x a ep es id off len (Q : Z * list N -> flash -> Prop) (Cr : flash -> Prop) :
  Flash_ok f a ep es -> ctx_ok x a ep es -> Cr f ->
  Q (sp_read (live es) id off len) f -> WP (nf_read C x id off len) f Q Cr.
Proof.
  intros (F1 & F2 & F3) (X1 & X2 & X3 & _) HCr HQ. unfold nf_read. rewrite X2, X3, X1.
  pose proof (find_obj_dir C es id) as FO. unfold sp_read in HQ.
  destruct (find_obj (dir_of C es) id) as [i|].
  - destruct FO as (l & eo & m & d & r & E & -> & Eid & D & S). rewrite S in HQ.
    eapply wp_obj_read; eauto.
  - rewrite FO in HQ. apply wp_ret; auto.
Qed.

Lemma meta_spec x a ep es id : ctx_ok x a ep es ->
  nf_meta x id = match sp_find (live es) id with
                 | Some (m, _) => (OK, Some m) | None => (NOTFOUND, None) end.
Proof.
  intros (X1 & X2 & X3 & _). unfold nf_meta. rewrite X2, X3.
  pose proof (find_obj_dir C es id) as FO.
  destruct (find_obj (dir_of C es) id) as [i|].
  - destruct FO as (l & eo & m & d & r & E & -> & Eid & D & S). rewrite S.
    unfold dir_of. cbn [d_objs]. rewrite E, nth_mk, D. reflexivity.
  - rewrite FO. reflexivity.
Qed.

Lemma avail_spec x a ep es : ctx_ok x a ep es -> length es <= OC -> total es <= dmax C ->
  exists asz aobj rsz robj, nf_avail C x = (OK, (asz, aobj, rsz, robj))
  /\ asz = 8 * (dmax C - total es) /\ aobj = OC - length es
  /\ asz + rsz = 8 * (dmax C - sp_units (live es))
  /\ aobj + robj = OC - length (live es).
Proof.
  intros (X1 & X2 & X3 & _) H1 H2. unfold nf_avail. rewrite X2, X3.
  do 4 eexists. split; [reflexivity|].
  unfold dir_of. cbn [d_max d_nfd d_nfo d_rdata d_rent].
  pose proof (nbad_live [] es). pose proof (ubad_live [] es). unfold live. lia.
Qed.

(** ** Copying objects to the other partition *)
Lemma wp_copy_loop es l eo m d r act : es = l ++ EUsed eo m d :: r -> dead [] (EUsed eo m d) r = false ->
  forall fuel doff ddata crc f (Q : Z * nat * N -> flash -> Prop) (Cr : flash -> Prop),
  let dst := negb act in
  let n := length d - doff in
  let rest := skipn doff d in
  Body f act es -> doff <= length d -> (doff mod 64 = 0 \/ doff = length d) -> n <= fuel ->
  ddata + units n <= dmax C -> blank C f (pdata dst + ddata) (units n) ->
  (forall g, partial f (pdata dst + ddata) (pack rest) g -> Cr g) ->
  (forall g, feq g (put_units f (pdata dst + ddata) (pack rest)) ->
     Q (OK, ddata + units n, if c_crc C then crc16 crc rest else crc) g) ->
  (fl = true -> forall rc a b g, rc <> OK -> partial f (pdata dst + ddata) (pack rest) g -> Q (rc, a, b) g) ->
  WP (copy_loop C fuel (dir_of C es) act dst (length l) (length d) doff ddata crc) f Q Cr.
Proof.
  intros E D fuel. induction fuel as [|fuel IH]; intros doff ddata crc f Q Cr dst n rest B H1 H2 H3 H4 H5 HCr HQ HF.
  - assert (doff = length d) by lia. cbn [copy_loop].
    destruct (Nat.leb_spec (length d) doff); [|lia].
    assert (rest = []) as Er by (unfold rest; apply skipn_all2; lia).
    apply wp_ret; [|apply HCr, partial_refl].
    replace n with 0 in HQ by lia. rewrite Er in HQ. rewrite units_0, Nat.add_0_r in HQ.
    assert (EQ : (if c_crc C then crc16 crc [] else crc) = crc) by (destruct (c_crc C); reflexivity).
    rewrite EQ in HQ. apply HQ. intros o. rewrite pack_nil, put_units_out; [auto|cbn [length]; lia].
  - cbn [copy_loop]. destruct (Nat.leb_spec (length d) doff) as [Hd|Hd].
    { assert (rest = []) as Er by (unfold rest; apply skipn_all2; lia).
      apply wp_ret; [|apply HCr, partial_refl].
      replace n with 0 in HQ by lia. rewrite Er in HQ. rewrite units_0, Nat.add_0_r in HQ.
      assert (EQ : (if c_crc C then crc16 crc [] else crc) = crc) by (destruct (c_crc C); reflexivity).
      rewrite EQ in HQ. apply HQ. intros o. rewrite pack_nil, put_units_out; [auto|cbn [length]; lia]. }
    set (this := Nat.min 64 (length d - doff)).
    assert (Cf : Cr f) by (apply HCr, partial_refl).
    apply wp_bind. eapply wp_obj_read; eauto.
    destruct (Nat.ltb_spec doff (length d)); [|lia].
    destruct (Nat.leb_spec this (length d - doff)); [|lia]. cbn [andb].
    change (is_ok OK) with true. cbv iota. fold rest.
    set (bs := firstn this rest).
    assert (Lr : length rest = n) by (unfold rest; rewrite skipn_length; auto).
    assert (Lb : length bs = this) by (unfold bs; rewrite firstn_length; lia).
    assert (Er : skipn (doff + this) d = skipn this rest) by (unfold rest; rewrite skipn_skipn; auto).
    assert (Erest : rest = bs ++ skipn this rest) by (unfold bs; rewrite firstn_skipn; auto).
    assert (Ep : pack rest = pack bs ++ pack (skipn this rest)).
    { rewrite Erest at 1. destruct (Nat.eq_dec this 64) as [E64|E64].
      - apply (pack_app8 8). lia.
      - assert (skipn this rest = []) as -> by (apply skipn_all2; lia).
        rewrite app_nil_r, pack_nil, app_nil_r. reflexivity. }
    assert (Un : units n = units this + units (length d - (doff + this))).
    { destruct (Nat.eq_dec this 64) as [E64|E64].
      - rewrite E64. replace n with (8 * 8 + (length d - (doff + 64))) by lia.
        rewrite units_add8. reflexivity.
      - replace (length d - (doff + this)) with 0 by lia. replace n with this by lia.
        rewrite units_0. lia. }
    assert (Lpb : length (pack bs) = units this) by (rewrite pack_length, Lb; auto).
    apply wp_bind. unfold obj_data, check_range.
    pose proof (units_spec n). pose proof (units_spec this).
    replace ((pdata dst * 8 <=? (pdata dst + ddata) * 8)
      && ((pdata dst + ddata) * 8 <=? (poff dst + PU) * 8)
      && (length bs <=? (poff dst + PU) * 8 - (pdata dst + ddata) * 8)) with true
      by (symmetry; rewrite !andb_true_iff, !Nat.leb_le; geo).
    apply wp_fu_program_bytes; auto.
    + rewrite Lb. geo.
    + rewrite Lb. intros o Ho. apply H5; lia.
    + intros g Hg. apply HCr. rewrite Ep. apply partial_app_l; auto.
    + intros g Hg. change (is_ok OK) with true. cbv iota.
      assert (Bg : Body g act es).
      { eapply Body_ext; [exact HC| |exact B]. intros o Ho. rewrite Hg. apply put_units_out.
        rewrite Lpb. unfold dst in *. destruct act; cbn [negb] in *; geo. }
      apply IH; auto.
      * lia.
      * unfold this in *. lia.
      * lia.
      * lia.
      * intros o Ho. fold dst in Ho. rewrite Hg, put_units_out by lia. apply H5. lia.
      * fold dst. intros h Hh. apply HCr. rewrite Ep. rewrite Er in Hh. eapply partial_app_r; eauto.
        rewrite Lpb, <- Nat.add_assoc. exact Hh.
      * fold dst. intros h Hh. rewrite Er in *.
        assert (EQ : (if c_crc C then crc16 (if c_crc C then crc16 crc bs else crc) (skipn this rest)
                      else if c_crc C then crc16 crc bs else crc)
                     = (if c_crc C then crc16 crc rest else crc)).
        { destruct (c_crc C); auto. rewrite Erest at 2. rewrite crc16_app. reflexivity. }
        rewrite EQ. replace (ddata + units this + units (length d - (doff + this)))
          with (ddata + units n) by lia.
        apply HQ. rewrite Ep. eapply put_units_app; eauto. rewrite Lpb, <- Nat.add_assoc. exact Hh.
      * fold dst. intros Hfl rc a b h Hrc Hh. apply HF; auto. rewrite Ep. rewrite Er in Hh.
        eapply partial_app_r; eauto. rewrite Lpb, <- Nat.add_assoc. exact Hh.
    + intros Hfl rc g Hrc Hg. rewrite (not_ok_false rc) by auto.
      apply wp_ret; [apply HF; auto|apply HCr]; rewrite Ep; apply partial_app_l; auto.
Qed.

Lemma wp_obj_copy es l eo m d r act cs f (Q : Z * nat * nat -> flash -> Prop) (Cr : flash -> Prop) :
  let dst := negb act in
  es = l ++ EUsed eo m d :: r -> dead [] (EUsed eo m d) r = false ->
  Body f act es -> Body f dst cs -> length cs < OC -> total cs + units (length d) <= dmax C ->
  (forall g, samereg f g dst -> Cr g) ->
  (forall g, samereg f g dst -> Body g dst (cs ++ [EUsed eo m d]) ->
     Q (OK, S (length cs), total cs + units (length d)) g) ->
  (fl = true -> forall rc a b g, rc <> OK -> samereg f g dst -> Q (rc, a, b) g) ->
  WP (obj_copy C (dir_of C es) act dst (length l) (length cs) (total cs)) f Q Cr.
Proof.
  intros dst E D B Bd H1 H2 HCr HQ HF. unfold obj_copy.
  destruct (entry_bounds _ _ _ _ _ _ _ _ B E) as (L1 & L2 & S).
  cbn [slot_ok] in S. destruct S as (A1 & A2 & A3 & A4 & A5 & A6 & A7 & A8 & A9).
  assert (N : nth (length l) (d_objs (dir_of C es)) mo_zero = raw C (total l) (EUsed eo m d)).
  { unfold dir_of. cbn [d_objs]. rewrite E, nth_mk, D. reflexivity. }
  rewrite N. cbn [raw o_st s_start s_crcm s_crcd s_epoch o_meta].
  unfold o_len. cbn [o_meta]. rewrite A8, Nat2N.id.
  assert (EC : c_crc C && negb (crc16 CRC_INIT (meta_bytes m) =? crcm C m)%N = false).
  { unfold crcm. destruct (c_crc C); auto. rewrite N.eqb_refl. reflexivity. }
  rewrite EC. clear EC.
  assert (IMG : forall g, obj_img C f dst cs eo m d g -> samereg f g dst) by (intros g [S _]; auto).
  apply wp_bind, wp_obj_begin; auto.
  - geo.
  - apply (slot_blank C HC f dst cs eo m d); auto.
  - intros g Hg. apply HCr, IMG. apply slotBX_img; auto.
  - intros g1 Hg1. change (is_ok OK) with true. cbv iota.
    pose proof Hg1 as (G1 & G2 & G3 & G4 & G5).
    assert (I1 : forall g, partial g1 (pdata dst + total cs) (pack d) g -> samereg f g dst).
    { intros g Hg. apply (one_B2 C HC f dst cs eo m d Bd H1 H2 A6 A8 A9 g1 g Hg1 Hg). }
    apply wp_bind.
    apply (wp_copy_loop es l eo m d r act E D).
    + eapply Body_ext; [exact HC| |exact B]. intros o Ho. apply G1. unfold dst in *.
      destruct act; cbn [negb] in *; geo.
    + lia.
    + left. reflexivity.
    + lia.
    + rewrite Nat.sub_0_r. auto.
    + rewrite Nat.sub_0_r. intros o Ho. fold dst in Ho. rewrite G1 by geo.
      apply (data_blank C HC f dst cs eo m d Bd H1 H2 A8 A9 (units (length d)) H2). lia.
    + rewrite skipn_O. intros g Hg. apply HCr; auto.
    + rewrite skipn_O. intros g2 Hg2. change (is_ok OK) with true. cbv iota.
      assert (EC : c_crc C && negb ((if c_crc C then crc16 CRC_INIT d else CRC_INIT) =? crcd C d)%N = false).
      { unfold crcd. destruct (c_crc C); auto. rewrite N.eqb_refl. reflexivity. }
      rewrite EC. clear EC. apply wp_bind.
      apply (wp_obj_finish C fl HC f dst cs eo m d Bd H1 H2 A6 A7 A8 A9 g1 g2); auto.
      * intros g Sg Bg. change (is_ok OK) with true. cbv iota.
        apply wp_ret; auto. rewrite Nat.sub_0_r. auto.
      * intros Hfl rc g Hrc Hg. rewrite (not_ok_false rc) by auto. apply wp_ret; auto.
    + rewrite skipn_O. intros Hfl rc a b g Hrc Hg. rewrite (not_ok_false rc) by auto.
      apply wp_ret; auto.
  - intros Hfl rc g Hrc Hg. rewrite (not_ok_false rc) by auto.
    assert (samereg f g dst) by (apply IMG, slotBX_img; auto).
    apply wp_ret; auto.
Qed.

(** Entries that survive a compaction. *)
Fixpoint keepk (ids : list N) (es : list entry) : list entry :=
  match es with
  | [] => []
  | e :: r => if eused e && negb (dead [] e r) && negb (id_in ids (eid e))
              then e :: keepk ids r else keepk ids r
  end.

Lemma keepk_existsb ids P r : existsb P (keepk ids r) = true -> existsb P r = true.
Proof.
  induction r as [|e r IH]; cbn [keepk existsb]; auto.
  destruct (eused e && negb (dead [] e r) && negb (id_in ids (eid e))); cbn [existsb].
  - rewrite !orb_true_iff. tauto.
  - intros H. rewrite IH, orb_true_r; auto.
Qed.

Lemma keepk_dead ids e r : dead [] e r = false -> dead [] e (keepk ids r) = false.
Proof.
  unfold dead. destruct (eused e); cbn [andb]; auto.
  rewrite !orb_false_iff. intros [H1 H2]. split; auto.
  destruct (existsb (is_id (eid e)) (keepk ids r)) eqn:E; auto.
  apply keepk_existsb in E. congruence.
Qed.

Lemma live_keepk ids es : live (keepk ids es) = sp_destroy ids (live es).
Proof.
  unfold live. induction es as [|e r IH]; [reflexivity|].
  cbn [keepk livek]. destruct e as [eo m d|eo m|]; cbn [eused andb]; auto.
  destruct (dead [] (EUsed eo m d) r) eqn:D; cbn [negb andb]; auto.
  cbn [eid]. unfold sp_destroy at 1. cbn [filter]. unfold oid at 1; cbn [fst].
  change (id_in ids (m_id m)) with (existsb (N.eqb (m_id m)) ids).
  destruct (existsb (N.eqb (m_id m)) ids) eqn:E; cbn [negb]; auto.
  cbn [livek]. rewrite (keepk_dead ids _ _ D). rewrite IH. reflexivity.
Qed.

Lemma keepk_nobad ids es : nbad [] (keepk ids es) = 0 /\ ubad [] (keepk ids es) = 0.
Proof.
  induction es as [|e r IH]; [split; reflexivity|]. cbn [keepk].
  destruct (eused e) eqn:Eu; cbn [andb]; auto.
  destruct (dead [] e r) eqn:D; cbn [negb andb]; auto.
  destruct (id_in ids (eid e)); cbn [negb]; auto.
  cbn [nbad ubad]. rewrite Eu, (keepk_dead ids _ _ D). cbn [andb negb]. lia.
Qed.

Lemma wp_copy_all es act ids : forall n r l cs f (Q : Z -> flash -> Prop) (Cr : flash -> Prop),
  let dst := negb act in
  es = l ++ r -> n = OC - length l ->
  Body f act es -> Body f dst cs -> length cs <= length l -> total cs <= total l ->
  (forall g, samereg f g dst -> Cr g) ->
  (forall g, samereg f g dst -> Body g dst (cs ++ keepk ids r) -> Q OK g) ->
  (fl = true -> forall rc g, rc <> OK -> samereg f g dst -> Q rc g) ->
  WP (copy_all C n (length l) (dir_of C es) act dst ids (length cs) (total cs)) f Q Cr.
Proof.
  assert (FREE' : forall n i f (Q : Z -> flash -> Prop) (Cr : flash -> Prop) ids' a dst dobj ddata,
     length es <= i -> i + n <= OC -> Cr f -> Q OK f ->
     WP (copy_all C n i (dir_of C es) a dst ids' dobj ddata) f Q Cr).
  { induction n as [|n IH]; intros i f Q Cr ids' a dst dobj ddata H1 H2 H3 H4; cbn [copy_all].
    - apply wp_ret; auto.
    - assert (E : nth i (d_objs (dir_of C es)) mo_zero = free_obj).
      { unfold dir_of. cbn [d_objs]. rewrite app_nth2 by (rewrite mk_length; lia).
        rewrite mk_length. unfold frees.
        assert (In (nth (i - length es) (repeat free_obj (OC - length es)) mo_zero) (repeat free_obj (OC - length es)))
          by (apply nth_In; rewrite repeat_length; lia).
        apply repeat_spec in H; auto. }
      rewrite E. cbn [o_used free_obj o_st s_st ms_zero status_eqb andb].
      apply IH; auto; lia. }
  induction n as [|n IH]; intros r l cs f Q Cr dst E Hn B Bd H1 H2 HCr HQ HF.
  - destruct B as (B1 & _). subst es. rewrite app_length in B1.
    assert (r = []) as -> by (destruct r; auto; cbn [length] in B1; lia).
    cbn [copy_all]. cbn [keepk] in HQ. rewrite app_nil_r in HQ.
    apply wp_ret; [apply HQ; auto|apply HCr]; apply samereg_refl; intros o; auto.
  - destruct r as [|e r].
    + rewrite app_nil_r in E. apply FREE'.
      * subst l. auto.
      * lia.
      * apply HCr, samereg_refl; intros o; auto.
      * apply HQ; [apply samereg_refl; intros o; auto|]. cbn [keepk]. rewrite app_nil_r. auto.
    + cbn [copy_all].
      assert (Nth : nth (length l) (d_objs (dir_of C es)) mo_zero =
        if dead [] e r then set_st (raw C (total l) e) DataBad else raw C (total l) e).
      { unfold dir_of. cbn [d_objs]. rewrite E, nth_mk. reflexivity. }
      rewrite Nth. clear Nth.
      assert (El : es = (l ++ [e]) ++ r) by (rewrite <- app_assoc; auto).
      assert (Ln : n = OC - length (l ++ [e])) by (rewrite app_length; cbn [length]; lia).
      assert (SL : S (length l) = length (l ++ [e])) by (rewrite app_length; cbn [length]; lia).
      assert (TL : total (l ++ [e]) = total l + esize e) by (rewrite total_app; cbn [total fold_right]; lia).
      assert (SKIP : eused e && negb (dead [] e r) && negb (id_in ids (eid e)) = false ->
         WP (copy_all C n (S (length l)) (dir_of C es) act dst ids (length cs) (total cs)) f Q Cr).
      { intros EK. rewrite SL. apply (IH r); auto.
        - lia.
        - lia.
        - intros g Sg Bg. apply HQ; auto. cbn [keepk]. rewrite EK. auto. }
      destruct (dead [] e r) eqn:D.
      * rewrite set_st_used. cbn [andb]. apply SKIP. destruct (eused e); reflexivity.
      * rewrite raw_used. destruct e as [eo m d|eo m|]; cbn [eused andb] in *; auto.
        rewrite raw_id. cbn [eid negb] in SKIP.
        destruct (negb (id_in ids (m_id m))) eqn:EI; [|apply SKIP; auto].
        destruct (entry_bounds _ _ _ _ _ _ _ _ B E) as (Q1 & Q2 & Q3).
        apply wp_bind.
        apply (wp_obj_copy es l eo m d r act cs); auto.
        -- lia.
        -- lia.
        -- intros g Sg Bg. change (is_ok OK) with true. cbv iota.
           rewrite SL.
           replace (S (length cs)) with (length (cs ++ [EUsed eo m d])) by (rewrite app_length; cbn [length]; lia).
           replace (total cs + units (length d)) with (total (cs ++ [EUsed eo m d]))
             by (rewrite total_app; cbn [total fold_right esize]; lia).
           apply (IH r (l ++ [EUsed eo m d]) (cs ++ [EUsed eo m d])); auto.
           ++ eapply Body_ext; [exact HC| |exact B]. intros o Ho. apply Sg. unfold dst in *.
              destruct act; cbn [negb] in *; geo.
           ++ rewrite !app_length. cbn [length]. lia.
           ++ rewrite !total_app. cbn [total fold_right]. lia.
           ++ intros h Sh. apply HCr. eapply samereg_trans; eauto.
           ++ intros h Sh Bh. apply HQ; [eapply samereg_trans; eauto|].
              cbn [keepk eused eid andb]. rewrite D, EI. cbn [negb andb].
              rewrite <- app_assoc in Bh. exact Bh.
           ++ intros Hfl rc h Hrc Sh. apply HF; auto. eapply samereg_trans; eauto.
        -- intros Hfl rc a b g Hrc Sg. rewrite (not_ok_false rc) by auto.
           apply wp_ret; auto.
Qed.

(** ** DestroyObjects *)
Definition destroy_img a ep es ids g : Prop :=
  Flash_ok g a ep es \/ Flash_ok g (negb a) (ep + 1) (keepk ids es).

Definition ids_present (ids : list N) (s : store) : bool :=
  existsb (fun o => existsb (N.eqb (oid o)) ids) s.

Lemma present_spec es ids :
  existsb (fun o => o_used o && id_in ids (o_id o)) (d_objs (dir_of C es)) = ids_present ids (live es).
Proof.
  unfold dir_of. cbn [d_objs]. rewrite existsb_app.
  assert (F : existsb (fun o => o_used o && id_in ids (o_id o)) (frees C es) = false).
  { unfold frees. induction (OC - length es); cbn [repeat existsb]; auto. }
  rewrite F, orb_false_r. unfold live, ids_present. clear F. generalize 0 as st.
  induction es as [|e r IH]; intros st; cbn [mk existsb livek]; [reflexivity|].
  rewrite IH. destruct (dead [] e r) eqn:D.
  - rewrite set_st_used. cbn [andb orb]. destruct e; cbn [livek]; rewrite ?D; reflexivity.
  - rewrite raw_used. destruct e as [eo m d|eo m|]; cbn [eused andb orb]; auto.
Qed.

Lemma destroy_absent ids s : ids_present ids s = false -> sp_destroy ids s = s.
Proof.
  unfold ids_present, sp_destroy. induction s as [|o s IH]; cbn [existsb filter]; auto.
  rewrite orb_false_iff. intros [H1 H2]. rewrite H1. cbn [negb]. rewrite IH by auto. reflexivity.
Qed.

(** A torn or partial write below leaves the other partition's image valid. *)
Lemma wp_destroy f x a ep es ids (Q : Z * ctx -> flash -> Prop) (Cr : flash -> Prop) :
  Flash_ok f a ep es -> ctx_ok x a ep es -> (ep + 1 < W32)%N ->
  (forall g, destroy_img a ep es ids g -> Cr g) ->
  (ids <> [] -> ids_present ids (live es) = false -> Q (OK, x) f) ->
  (forall g x', ids = [] \/ ids_present ids (live es) = true ->
     Flash_ok g (negb a) (ep + 1) (keepk ids es) -> ctx_ok x' (negb a) (ep + 1) (keepk ids es) ->
     Q (OK, x') g) ->
  (fl = true -> forall rc x' g, rc <> OK -> destroy_img a ep es ids g -> Q (rc, x') g) ->
  WP (nf_destroy C x ids) f Q Cr.
Proof.
  intros F X Hep HCr HQ0 HQ HF.
  pose proof X as (X1 & X2 & X3 & X4 & X5 & X6). pose proof F as (F1 & F2 & F3).
  unfold nf_destroy. rewrite X2, X1, X3, X4, X5, X6. cbv zeta.
  rewrite present_spec, N.mod_small by auto.
  destruct (negb (length ids =? 0) && negb (ids_present ids (live es))) eqn:E0.
  { apply andb_prop in E0 as [E1 E2]. apply negb_true_iff in E1, E2. apply Nat.eqb_neq in E1.
    apply wp_ret; [|apply HCr; left; auto]. apply HQ0; auto. intros ->; auto. }
  assert (PRES : ids = [] \/ ids_present ids (live es) = true).
  { destruct ids as [|i0 ids0]; [left; auto|right]. cbn [length Nat.eqb negb andb] in E0.
    apply negb_false_iff in E0; auto. }
  clear E0 HQ0.
  set (dst := negb a).
  (* as long as the source partition is intact and dst incomplete or old *)
  assert (OLD : forall g, (forall o, poff a <= o < poff a + PU -> g o = f o) ->
            not_newer C g dst ep -> Flash_ok g a ep es).
  { intros g G1 G2. split; [|split; auto].
    - unfold used_hdr in *. rewrite !G1 by geo. auto.
    - eapply Body_ext; [exact HC| |exact F2]. intros o Ho. apply G1. geo. }
  assert (DIS : forall o, poff a <= o < poff a + PU -> poff dst <= o < poff dst + PU -> False).
  { intros o H1 H2. unfold dst in *. destruct a; cbn [negb] in *; geo. }
  assert (PE : forall g, partial_erase C f (poff dst) PU g -> Flash_ok g a ep es).
  { intros g Hg. apply OLD.
    - intros o Ho. destruct (Hg o) as [E|[E _]]; auto. exfalso. eauto.
    - unfold not_newer, hdr_bad in *. fold dst in F3.
      destruct F3 as [[P|[P|P]]|P].
      + left; left. destruct (Hg (poff dst)) as [E|[_ E]]; congruence.
      + left; right; left. destruct (Hg (poff dst + 1)) as [E|[_ E]]; congruence.
      + left; right; right. destruct (Hg (poff dst + 2)) as [E|[_ E]]; congruence.
      + destruct (Hg (poff dst)) as [E|[_ E]]; [right; rewrite E; auto|left; left; auto]. }
  apply wp_bind. apply wp_blank_or_erase; auto.
  { intros g Hg. apply HCr; left; auto. }
  2:{ intros Hfl rc g Hrc Hg. rewrite (not_ok_false rc) by auto. cbn [negb].
      apply wp_ret; [apply HF; auto; left; auto|apply HCr; left; auto]. }
  intros f1 E1 E2. change (is_ok OK) with true. cbn [negb].
  assert (SRC1 : forall o, poff a <= o < poff a + PU -> f1 o = f o).
  { intros o Ho. apply E2. destruct (le_lt_dec (poff dst) o), (le_lt_dec (poff dst + PU) o); try lia.
    exfalso. apply (DIS o); lia. }
  assert (HOLE : forall g, (forall o, poff a <= o < poff a + PU -> g o = f o) ->
            g (poff dst + 2) = EU -> Flash_ok g a ep es).
  { intros g G1 G2. apply OLD; auto. left. right. right. auto. }
  assert (ND : forall o k, k < PU -> poff a <= o < poff a + PU -> o <> poff dst + k).
  { intros o k Hk Ho ->. apply (DIS (poff dst + k)); lia. }
  assert (GP : 3 <= PU) by geo.
  unfold prog_epoch. apply wp_bind.
  apply wp_prog1.
  { geo. } { apply E1; lia. }
  { intros g G1 _. apply HCr; left. apply HOLE.
    - intros o Ho. rewrite G1; auto. rewrite <- (Nat.add_0_r (poff dst)). apply ND; lia.
    - rewrite G1 by lia. apply E1; lia. }
  2:{ intros Hfl rc g Hrc G1 _. rewrite (not_ok_false rc) by auto. cbn [negb].
      assert (destroy_img a ep es ids g).
      { left. apply HOLE.
        - intros o Ho. rewrite G1; auto. rewrite <- (Nat.add_0_r (poff dst)). apply ND; lia.
        - rewrite G1 by lia. apply E1; lia. }
      apply wp_ret; auto. }
  intros f2 G1 G2. change (is_ok OK) with true. cbn [negb].
  assert (SRC2 : forall o, poff a <= o < poff a + PU -> f2 o = f o).
  { intros o Ho. rewrite G1; auto. rewrite <- (Nat.add_0_r (poff dst)). apply ND; lia. }
  unfold prog_start. apply wp_bind.
  apply wp_prog1.
  { geo. } { rewrite G1 by lia. apply E1; lia. }
  { intros g K1 _. apply HCr; left. apply HOLE.
    - intros o Ho. rewrite K1; auto. apply ND; lia.
    - rewrite K1, G1 by lia. apply E1; lia. }
  2:{ intros Hfl rc g Hrc K1 _. rewrite (not_ok_false rc) by auto. cbn [negb].
      assert (destroy_img a ep es ids g).
      { left. apply HOLE.
        - intros o Ho. rewrite K1; auto. apply ND; lia.
        - rewrite K1, G1 by lia. apply E1; lia. }
      apply wp_ret; auto. }
  intros f3 K1 K2. change (is_ok OK) with true. cbn [negb].
  assert (SRC3 : forall o, poff a <= o < poff a + PU -> f3 o = f o).
  { intros o Ho. rewrite K1; auto. apply ND; lia. }
  assert (H2E : f3 (poff dst + 2) = EU) by (rewrite K1, G1 by lia; apply E1; lia).
  assert (B3 : Body f3 dst []).
  { apply Body_nil; auto. intros o Ho. rewrite K1, G1 by lia. apply E1; lia. }
  assert (A3 : Body f3 a es).
  { eapply Body_ext; [exact HC| |exact F2]. intros o Ho. apply SRC3. lia. }
  assert (SR : forall g, samereg f3 g dst -> (forall o, poff a <= o < poff a + PU -> g o = f o)
            /\ g (poff dst + 2) = EU).
  { intros g S. split.
    - intros o Ho. rewrite S; auto.
      destruct (le_lt_dec (poff dst) o), (le_lt_dec (poff dst + PU) o); try lia.
      exfalso. apply (DIS o); lia.
    - rewrite S by lia. auto. }
  apply wp_bind.
  apply (wp_copy_all es a ids OC es [] []); auto.
  { cbn [length]. lia. }
  { intros g S. apply HCr; left. destruct (SR g S). apply HOLE; auto. }
  2:{ intros Hfl rc g Hrc S. rewrite (not_ok_false rc) by auto. cbn [negb].
      destruct (SR g S).
      assert (destroy_img a ep es ids g) by (left; apply HOLE; auto).
      apply wp_ret; auto. }
  fold dst. cbn [app]. intros f4 S4 B4. change (is_ok OK) with true. cbn [negb].
  destruct (SR f4 S4) as [SRC4 H4E].
  unfold prog_count. apply wp_bind.
  (* once the count word is in place the new partition is the current one *)
  assert (NEW : forall g, used_hdr C g dst (ep + 1) -> Body g dst (keepk ids es) ->
             not_newer C g a (ep + 1) -> Flash_ok g dst (ep + 1) (keepk ids es)).
  { intros g N1 N2 N3. split; [auto|split; auto]. unfold dst. rewrite negb_involutive. auto. }
  assert (CNT : forall g, (forall o, o <> poff dst + 2 -> g o = f4 o) ->
             g (poff dst + 2) = word (N.of_nat PU) ->
             Flash_ok g dst (ep + 1) (keepk ids es) /\ used_hdr C g dst (ep + 1) /\ Body g dst (keepk ids es)).
  { intros g M1 M2.
    assert (N1 : used_hdr C g dst (ep + 1)).
    { unfold used_hdr. rewrite M2. rewrite (M1 (poff dst)), (M1 (poff dst + 1)) by lia.
      rewrite !S4 by lia. rewrite K2, (K1 (poff dst)), G2 by lia. auto. }
    assert (N2 : Body g dst (keepk ids es)).
    { eapply Body_ext; [exact HC| |exact B4]. intros o Ho. apply M1. lia. }
    split; auto. apply NEW; auto. right.
    assert (g (poff a) = f (poff a)) as ->.
    { rewrite M1 by (apply ND; lia). apply SRC4. lia. }
    destruct F1 as (W & _). rewrite W, low32_word, N.mod_small; lia. }
  apply wp_prog1.
  { geo. } { auto. }
  { intros g M1 [M2|M2]; apply HCr; [left|right].
    - apply HOLE; [|congruence]. intros o Ho. rewrite M1 by (apply ND; lia). auto.
    - apply CNT; auto. }
  2:{ intros Hfl rc g Hrc M1 M2. rewrite (not_ok_false rc) by auto. cbn [negb].
      assert (destroy_img a ep es ids g).
      { destruct M2 as [M2|M2]; [left|right].
        - apply HOLE; [|congruence]. intros o Ho. rewrite M1 by (apply ND; lia). auto.
        - apply CNT; auto. }
      apply wp_ret; auto. }
  intros f5 M1 M2. change (is_ok OK) with true. cbn [negb].
  destruct (CNT f5 M1 M2) as (FN & UN & BN).
  apply wp_bind. eapply wp_read_parse_dir; [exact HC|exact BN|apply HCr; right; auto|].
  change (is_ok OK) with true. cbn [negb].
  apply wp_bind. unfold part_erase.
  assert (PE2 : forall g, partial_erase C f5 (poff a) PU g -> Flash_ok g dst (ep + 1) (keepk ids es)).
  { intros g Hg.
    assert (D5 : forall o, poff dst <= o < poff dst + PU -> g o = f5 o).
    { intros o Ho. destruct (Hg o) as [E|[E _]]; auto. exfalso. eauto. }
    apply NEW.
    - unfold used_hdr in *. rewrite !D5 by lia. auto.
    - eapply Body_ext; [exact HC| |exact BN]. intros o Ho. apply D5. lia.
    - destruct FN as (_ & _ & P). unfold dst in P. rewrite negb_involutive in P.
      unfold not_newer, hdr_bad in *.
      destruct P as [[P|[P|P]]|P].
      + left; left. destruct (Hg (poff a)) as [E|[_ E]]; congruence.
      + left; right; left. destruct (Hg (poff a + 1)) as [E|[_ E]]; congruence.
      + left; right; right. destruct (Hg (poff a + 2)) as [E|[_ E]]; congruence.
      + destruct (Hg (poff a)) as [E|[_ E]]; [right; rewrite E; auto|left; left; auto]. }
  apply wp_fu_erase.
  - destruct (poff_cases C a) as [[-> _]|[-> _]]; auto.
  - auto.
  - lia.
  - intros g Hg. apply HCr. right. apply PE2; auto.
  - intros g Hg.
    assert (PG : partial_erase C f5 (poff a) PU g).
    { intros o. rewrite Hg. destruct (le_lt_dec (poff a) o), (le_lt_dec (poff a + PU) o);
        try (left; apply put_erased_out; lia).
      right; split; [lia|apply put_erased_in; lia]. }
    apply wp_ret; [|apply HCr; right; apply PE2; auto].
    apply HQ; auto. unfold NvmFlashProof.ctx_ok. cbn [x_active x_bad x_dir x_state s_epoch s_start s_count].
    repeat split; auto.
  - intros Hfl rc g Hrc Hg. apply wp_ret; [apply HF; auto; right; apply PE2; auto|].
    apply HCr. right. apply PE2; auto.
Qed.

End Ops.
