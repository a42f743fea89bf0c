(** An authentic and allowed key update is accepted (C39), and what the client
    library generates is such an update (C40). *)
From Verif Require Import Base BaseLemmas NvmSpec Flags KeyId Store NvmReqModel CounterModel KsModel KsCache KsReq KsEff KsOnly KsStep KsSys KsSpec KsSysProof SheModel SheSys SheSpec SheEff SheBoot SheInv SheUpd.
Local Open Scope N_scope.

Lemma two_nibbles a b : a < 16 -> b < 16 -> N.lor (N.shiftl a 4) b = a * 16 + b.
Proof.
  intros A B. revert a A. apply (lt_cases (fun a => N.lor (N.shiftl a 4) b = a * 16 + b) 16). revert b B. apply (lt_cases _ 16).
  repeat constructor.
Qed.
Lemma m1_fields uid id auth : length uid = UID_SZ -> id < 16 -> auth < 16 -> let m1 := m1_of uid id auth in
  length m1 = 16%nat /\ m1_slot m1 = id /\ m1_auth m1 = auth /\ firstn UID_SZ m1 = uid /\ nth 15 m1 0 = id * 16 + auth.
Proof.
  intros L A B m1. assert (N15 : nth 15 m1 0 = id * 16 + auth).
  { unfold m1, m1_of. rewrite app_nth2 by (rewrite L; cbv; lia). rewrite L. change (15 - UID_SZ)%nat with 0%nat. cbn [nth].
    rewrite two_nibbles by auto. change 255 with (N.ones 8). rewrite N.land_ones. apply N.mod_small. change (2 ^ 8) with 256. lia. }
  split; [unfold m1, m1_of; rewrite app_length, L; reflexivity|]. unfold m1_slot, m1_auth. rewrite N15.
  split. { rewrite N.div_add_l by discriminate. rewrite (N.div_small auth) by auto. rewrite N.add_0_r. apply N.mod_small; auto. }
  split. { rewrite N.add_comm, N.mod_add by discriminate. apply N.mod_small; auto. }
  split; [|reflexivity]. unfold m1, m1_of. rewrite firstn_app, L, Nat.sub_diag, firstn_O, app_nil_r, <- L. apply firstn_all.
Qed.
Lemma field_val count flags : count < 2 ^ 28 -> flags < 16 -> N.land (N.lor (N.shiftl count 4) flags) (2 ^ 32 - 1) = count * 16 + flags.
Proof.
  intros A B. change (2 ^ 28) with 268435456 in A.
  assert (E : N.lor (N.shiftl count 4) flags = count * 16 + flags).
  { rewrite N.shiftl_mul_pow2. change (2 ^ 4) with 16. symmetry. rewrite <- N.lxor_lor; [apply N.add_nocarry_lxor|]; apply N.bits_inj; intros n; rewrite N.land_spec, N.bits_0;
    (destruct (N.lt_ge_cases n 4) as [L|L]; [change 16 with (2 ^ 4); rewrite N.mul_pow2_bits_low by auto; reflexivity|]);
    rewrite (N.testbit_eqb flags), N.div_small, Bool.andb_false_r by (apply N.lt_le_trans with (2 ^ 4); [exact B|apply N.pow_le_mono_r; [discriminate|exact L]]); reflexivity. }
  rewrite E. change (2 ^ 32 - 1) with (N.ones 32). rewrite N.land_ones. apply N.mod_small. change (2 ^ 32) with 4294967296. lia.
Qed.
(** The client and the server agree on M4. *)
Lemma m4_client aes uid id auth count key : id < 16 -> auth < 16 -> 
  uid ++ [N.land (N.lor (N.shiftl id 4) auth) 255] ++ aes (mp16 aes (key ++ ENC_C)) (to_be32 (N.land (N.lor (N.shiftl count 4) 8) (2 ^ 32 - 1)) ++ repeat 0 12)
  = m4_of aes uid id auth count key.
Proof.
  intros A B. unfold m4_of. cbv zeta. f_equal. f_equal.
  { f_equal. rewrite two_nibbles by auto. change 255 with (N.ones 8). rewrite N.land_ones. apply N.mod_small. change (2 ^ 8) with 256. lia. }
  f_equal. rewrite N.land_lor_distr_l. change (N.land 8 (2 ^ 32 - 1)) with 8. set (x := N.land (N.shiftl count 4) (2 ^ 32 - 1)).
  unfold to_be32. cbn [firstn app nth]. rewrite !N.shiftr_lor. change (N.shiftr 8 24) with 0. change (N.shiftr 8 16) with 0. change (N.shiftr 8 8) with 0.
  rewrite !N.lor_0_r, N.land_lor_distr_l. reflexivity.
Qed.

Section Load.
Variable C : kscfg.
Variable aes : list N -> list N -> list N.
Variable cbc_enc cbc_dec : list N -> list N -> list N.
Variable cmac : list N -> list N -> list N.
Variable use_op : sop -> list N -> list N -> option (list N).
Notation sstep := (she_step C aes cbc_enc cbc_dec cmac use_op).
Notation vw := (find_cache C).
Notation nv := (fun S => sp_find (k_st S)).
Notation sid := (she_id C).

Lemma she_read_none rd S id rc S' m d : wf S -> good C S -> kid_type id = KT_SHE -> rd = OK -> vis C S id = None ->
  she_read C rd S id = (rc, S', m, d) ->
  she_count (m_label m) = 0 /\ she_flags (m_label m) = 0 /\
  ((rc = NOTFOUND /\ d = []) \/ (rc = OK /\ have_she C = true /\ kid_id id = SHE_MASTER_ECU /\ d = repeat 0 16)).
Proof.
  intros W G T RD V H. destruct (she_read_eff _ _ _ _ _ _ _ _ W G T H) as (_ & _ & _ & _ & _ & A & B & D).
  destruct (Z.eq_dec rc OK) as [E|E].
  - destruct (A E) as [Q|[_ (X1 & X2 & X3 & X4 & X5)]]; [congruence|]. subst m d. split; [reflexivity|]. split; [reflexivity|]. right. auto.
  - destruct (B RD E) as [(_ & -> & ->)|(m0 & d0 & Q & _)]; [|congruence]. split; [reflexivity|]. split; [reflexivity|]. left. auto.
Qed.

Lemma load_ok e client m1 m2 m3 h S ak : wf S -> good C S -> fine e -> refused (SLoadKey m1 m2 m3) h = false ->
  let M1 := exactly 16 m1 in let M2 := exactly 32 m2 in let clear := clear_m2 aes cbc_dec ak M2 in
  let slot := m1_slot M1 in let k := sid client slot in let n := m2_count clear in
  slot <> SLOT_RAM -> slot <> SLOT_SEED -> coh C S k -> length ak = 16%nat -> n < 2 ^ 32 ->
  ((exists m, vis C S (sid client (m1_auth M1)) = Some (m, ak)) \/
   (vis C S (sid client (m1_auth M1)) = None /\ have_she C = true /\ m1_auth M1 = SHE_MASTER_ECU /\ ak = repeat 0 16)) ->
  authentic aes cmac ak M1 M2 (exactly 16 m3) ->
  addressed (h_uid h) M1 (vis C S k) -> allowed n (vis C S k) ->
  (forall m d, vis C S k = Some (m, d) -> length d = 16%nat) -> (vis C S k = None -> slot = SHE_MASTER_ECU -> 0 < n) ->
  exists h' S' m', sstep e client (SLoadKey m1 m2 m3) h S = (mkSr OK 0 (let m4 := m4_of aes (h_uid h) slot (m1_auth M1) n (m2_key clear) in m4 ++ m5_of aes cmac (m2_key clear) m4), h', S') /\
    nv S' k = Some (m', m2_key clear) /\ she_count (m_label m') = n /\ she_flags (m_label m') = m2_flags clear.
Proof.
  intros W G (LK & RD & NVM & C1 & C2) RF M1 M2 clear slot k n NR NSD H LA NL AK AU AD AL L16 ZE.
  unfold she_step. rewrite RF. unfold she_handle. cbn [action_of locks is_boot]. rewrite LK. cbn [negb andb].
  unfold do_load_key. fold M1 M2. cbv zeta. rewrite !pop_id_slot, !pop_auth_slot. fold slot k.
  assert (SLT : slot < 16) by (unfold slot, m1_slot; apply N.mod_lt; discriminate).
  assert (KI : kid_id k = slot) by (apply slot_small; apply N.lt_trans with 16; [exact SLT|reflexivity]).
  assert (T0 : kid_type k = KT_SHE) by apply sid_type. destruct (she_assigned C _ T0) as (U0 & HW0 & WR0 & NZ0).
  (* the authorising key *)
  destruct (she_read C (se_rd e 0) S (sid client (m1_auth M1))) as [[[rc S1] ma] ak'] eqn:R.
  destruct (she_read_eff _ _ _ _ _ _ _ _ W G (sid_type _ _ _) R) as (W1 & G1 & T1 & F1 & _ & RA & _ & _).
  assert (RK : rc = OK /\ ak' = ak).
  { destruct AK as [[m V]|(V & HS & MA & ->)].
    - destruct (she_read_hit _ _ _ _ _ _ _ _ _ _ W G (sid_type _ _ _) (RD 0%nat) V LA R) as (A & _ & B). auto.
    - pose proof R as R0. unfold she_read in R. unfold vis in V. destruct (vw S (sid client (m1_auth M1))) eqn:VV; [discriminate|].
      rewrite (RD 0%nat) in R. change (is_ok OK) with true in R. cbv iota in R. destruct (she_assigned C _ (sid_type C client (m1_auth M1))) as (U1 & HW1 & WR1 & _).
      unfold read_key in R. rewrite U1, HW1, VV, WR1, V, HS, sid_type, MA in R. rewrite (sid_id C client SHE_MASTER_ECU ltac:(reflexivity)) in R.
      cbn [andb] in R. change (N.eqb KT_SHE KT_SHE) with true in R. change (N.eqb SHE_MASTER_ECU SHE_MASTER_ECU) with true in R. cbn [andb] in R.
      injection R as <- _ _ <-. auto. }
  destruct RK as [-> ->]. change (Z.eqb OK NOSPACE) with false. change (is_ok OK) with true. rewrite LA. change (Nat.eqb 16 16) with true. cbn [orb andb negb].
  rewrite C1. cbn [negb]. unfold authentic in AU. destruct (list_eq_dec N.eq_dec (exactly 16 m3) _) as [_|X]; [|exfalso; apply X; exact AU]. cbn [negb].
  fold (clear_m2 aes cbc_dec ak M2). fold clear.
  (* the slot *)
  assert (V1 : vis C S1 k = vis C S k).
  { pose proof (vis_fr _ _ _ _ H (F1 k NZ0)) as Q. destruct (vis C S k) as [[m d]|], (vis C S1 k) as [[m' d']|]; cbn in Q; try tauto.
    rewrite KI in Q. destruct Q as [_ Q]. destruct (Q NSD). congruence. }
  destruct (she_read C (se_rd e 1) S1 k) as [[[rt S2] mo] old] eqn:R2.
  destruct (she_read_eff _ _ _ _ _ _ _ _ W1 G1 T0 R2) as (W2 & G2 & T2 & _).
  assert (n = N.shiftr (be32 clear) 4) as EN by (unfold n, m2_count; rewrite N.shiftr_div_pow2; reflexivity). rewrite <- EN.
  assert (PRE : Z.eqb rt NOSPACE || is_ok rt && negb (Nat.eqb (length old) 16) = false /\
    negb (Z.eqb rt NOTFOUND) && N.testbit (she_flags (m_label mo)) 0 = false /\
    (if list_eq_dec N.eq_dec (firstn UID_SZ M1) (repeat 0 UID_SZ) then negb (N.testbit (she_flags (m_label mo)) 4)
     else if list_eq_dec N.eq_dec (firstn UID_SZ M1) (h_uid h) then false else true) = false /\
    negb (Z.eqb rt NOTFOUND) && (n <=? she_count (m_label mo)) = false).
  { unfold addressed in AD. destruct (vis C S k) as [[m d]|] eqn:V.
    - pose proof (L16 m d eq_refl) as LD. destruct (she_read_hit _ _ _ _ _ _ _ _ _ _ W1 G1 T0 (RD 1%nat) V1 LD R2) as (-> & -> & ->).
      destruct (AL m d eq_refl) as [WP CT]. change (Z.eqb OK NOSPACE) with false. change (Z.eqb OK NOTFOUND) with false. change (is_ok OK) with true. rewrite LD, WP.
      split; [reflexivity|]. split; [reflexivity|]. split; [|apply N.leb_gt; exact CT].
      cbv zeta in AD. destruct (list_eq_dec N.eq_dec (firstn UID_SZ M1) (repeat 0 UID_SZ)).
      + destruct AD as (m0 & d0 & Q & B). injection Q as <- <-. rewrite B. reflexivity.
      + destruct (list_eq_dec N.eq_dec (firstn UID_SZ M1) (h_uid h)); [reflexivity|congruence].
    - destruct (she_read_none _ _ _ _ _ _ _ W1 G1 T0 (RD 1%nat) V1 R2) as (CZ & FZ & X). rewrite CZ, FZ.
      assert (AD2 : (if list_eq_dec N.eq_dec (firstn UID_SZ M1) (repeat 0 UID_SZ) then negb (N.testbit 0 4)
         else if list_eq_dec N.eq_dec (firstn UID_SZ M1) (h_uid h) then false else true) = false).
      { cbv zeta in AD. destruct (list_eq_dec N.eq_dec (firstn UID_SZ M1) (repeat 0 UID_SZ)).
        - destruct AD as (m0 & d0 & Q & _). discriminate.
        - destruct (list_eq_dec N.eq_dec (firstn UID_SZ M1) (h_uid h)); [reflexivity|congruence]. }
      destruct X as [[-> ->]|(-> & _ & MA & ->)].
      + repeat split; auto.
      + split; [reflexivity|]. split; [reflexivity|]. split; [auto|]. apply N.leb_gt, ZE; congruence. }
  destruct PRE as (B1 & B2 & B3 & B4). rewrite B1, B2, B3, B4.
  set (key := skipn 16 clear). set (nm := mkMeta k (m_access mo) (m_flags mo) (N.of_nat SHE_KEY_SZ) (she_label n (pop_flags clear) (m_label mo))).
  assert (KL : length key = 16%nat) by (unfold key, clear, clear_m2; rewrite skipn_length, exact_len; reflexivity).
  destruct (N.eqb_spec (kid_id k) SLOT_RAM) as [Q|_]; [congruence|].
  destruct (nv_add (se_nvm e) nm key (k_st S2)) as [rw st] eqn:A.
  assert (GS : good_store st) by (pose proof (add_good (se_nvm e) nm key (k_st S2) (proj1 G2)) as Q; rewrite A in Q; exact Q).
  pose proof (fun j => nv_add_find _ _ _ _ _ _ j A) as NF. change (m_id nm) with k in NF. rewrite (nm_len nm key eq_refl KL) in NF.
  assert (RW : rw = OK) by (unfold nv_add in A; rewrite NVM in A; change (is_ok OK) with true in A; injection A as <- _; reflexivity).
  subst rw. change (is_ok OK) with true. cbn [negb].
  destruct (evict_key C (set_st S2 st) k) as [rv S4] eqn:EV. assert (WS : wf (set_st S2 st)) by exact W2.
  destruct (evict_key_eff _ _ _ _ _ WS EV) as (W4 & T4 & _ & _ & E4 & O4). specialize (E4 U0 HW0). cbn [set_st k_st] in T4.
  assert (RV : negb (is_ok rv) && negb (Z.eqb rv NOTFOUND) = false).
  { unfold evict_key in EV. rewrite U0, HW0 in EV. destruct (vw (set_st S2 st) k); injection EV as <- _; reflexivity. }
  rewrite RV.
  assert (G4 : good C S4).
  { split; [rewrite T4; auto|]. intros j s NJ V. destruct (N.eq_dec j k) as [->|NE]; [congruence|]. rewrite O4 in V by auto. apply (proj2 G2 j); auto. }
  assert (NK : nv S4 k = Some (nm, key)) by (cbv beta; rewrite T4, NF, N.eqb_refl; reflexivity).
  destruct (she_read C (se_rd e 2) S4 k) as [[[r5 S5] fm] fk] eqn:R5.
  assert (VK : vis C S4 k = Some (nm, key)) by (unfold vis; rewrite E4; exact NK).
  destruct (she_read_hit _ _ _ _ _ _ _ _ _ _ W4 G4 T0 (RD 2%nat) VK KL R5) as (-> & -> & ->).
  destruct (she_read_eff _ _ _ _ _ _ _ _ W4 G4 T0 R5) as (_ & _ & T5 & _).
  change (is_ok OK) with true. cbn [negb]. rewrite C2. cbn [negb].
  assert (NC : she_count (m_label nm) = n) by (cbn [nm m_label she_label]; unfold she_count; apply be32_to; exact NL).
  rewrite NC. eexists _, _, nm. split; [reflexivity|]. cbv beta in NK |- *. rewrite T5. split; [exact NK|]. split; [exact NC|].
  cbn [nm m_label she_label]. rewrite pop_flags_bits. apply label_flags, m2_flags_lt.
Qed.

(** ** What the client library generates *)

Lemma to_be32_bytes x : is_bytes (to_be32 x).
Proof.
  unfold to_be32, is_bytes. change 255 with (N.ones 8). rewrite !N.land_ones. change (2 ^ 8) with 256.
  repeat constructor; apply N.mod_lt; discriminate.
Qed.
Hypothesis cbc_len : forall k d, length (cbc_enc k d) = length d.
Hypothesis cbc_inv : forall k d, length d = 32%nat -> is_bytes d -> cbc_dec k (cbc_enc k d) = d.

Lemma clear_of ak field key : length key = 16%nat -> is_bytes key -> field < 2 ^ 32 ->
  let m2 := m2_of aes cbc_enc ak field key in let clear := clear_m2 aes cbc_dec ak m2 in
  length m2 = 32%nat /\ m2_key clear = key /\ m2_count clear = field / 16 /\ m2_flags clear = field mod 16 * 16.
Proof.
  intros LK BK LF m2 clear. assert (PL : length (to_be32 field ++ repeat 0 12 ++ key) = 32%nat) by (rewrite !app_length, repeat_length, LK; reflexivity).
  assert (CE : clear = to_be32 field ++ repeat 0 12 ++ key).
  { unfold clear, clear_m2, m2, m2_of. rewrite cbc_inv; [|exact PL|apply Forall_app; split; [apply to_be32_bytes|apply Forall_app; split; [apply Forall_forall; intros x X; apply repeat_spec in X; subst x; reflexivity|exact BK]]]. apply exact_id, PL. }
  split; [unfold m2, m2_of; rewrite cbc_len; exact PL|]. rewrite CE. split; [reflexivity|]. split; [unfold m2_count; rewrite be32_to by exact LF; reflexivity|].
  unfold m2_flags. change (nth 3 (to_be32 field ++ repeat 0 12 ++ key) 0) with (N.land field 255). change (nth 4 (to_be32 field ++ repeat 0 12 ++ key) 0) with 0.
  rewrite <- land15, <- N.land_assoc. change (N.land 255 15) with 15. rewrite land15. change (0 / 128 mod 2) with 0. apply N.add_0_r.
Qed.
End Load.
