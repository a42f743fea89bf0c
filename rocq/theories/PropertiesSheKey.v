(** The SHE extension: key update (C39, C40).  Vocabulary: SheSpec.v. *)
From Verif Require Import Base BaseLemmas NvmSpec Flags KeyId Store NvmReqModel CounterModel KsModel KsCache KsReq KsEff KsSys KsSpec KsSysProof SheModel SheSys SheSpec SheEff SheBoot SheInv SheUpd SheLoad PropertiesShe.
Local Open Scope N_scope.

Definition obj_eq_dec (a b : option (meta * list N)) : {a = b} + {a <> b}.
Proof. repeat decide equality. Defined.

Section Props.
Variable C : kscfg.
Variable crypt : cop -> list N -> list N -> Z * list N.
Variable pub : N -> list N -> Z * list N.
Variable ots : list N -> list N -> option (list N * list N).
Variable gcm_enc : list N -> list N -> N -> list N -> option (list N).
Variable gcm_dec : list N -> list N -> N -> list N -> option (list N).
Variable max_read : nat.
Variable aes : list N -> list N -> list N.
Variable cbc_enc cbc_dec : list N -> list N -> list N.
Variable cmac : list N -> list N -> list N.
Variable use_op : sop -> list N -> list N -> option (list N).
(** Decryption yields bytes. *)
Hypothesis cbc_bytes : forall k d, is_bytes (cbc_dec k d).
Notation step := (hstep C crypt pub ots gcm_enc gcm_dec max_read aes cbc_enc cbc_dec cmac use_op).
Notation after := (hafter C crypt pub ots gcm_enc gcm_dec max_read aes cbc_enc cbc_dec cmac use_op).
Notation sstep := (she_step C aes cbc_enc cbc_dec cmac use_op).
Notation uid_given := (uid_given C crypt pub ots gcm_enc gcm_dec max_read aes cbc_enc cbc_dec cmac use_op).
Notation booted := (booted C crypt pub ots gcm_enc gcm_dec max_read aes cbc_enc cbc_dec cmac use_op).
Notation agr := (agrees_fresh C crypt pub ots gcm_enc gcm_dec max_read aes cbc_enc cbc_dec cmac use_op).
Notation at_ Y i := (ks_of (hy_ks Y) i).

Lemma sole_coh evs st r b i0 k : nvm_sane st -> kid_type k = KT_SHE -> Forall (sole C i0 k) evs ->
  sys_ok C (hy_ks (after evs (fresh_hsys st r b))) /\ coh C (at_ (after evs (fresh_hsys st r b)) i0) k.
Proof.
  intros N1 T F. pose proof (fresh_hok C st r b N1) as O. split; [apply hafter_ok; auto|].
  apply (coh_run C crypt pub ots gcm_enc gcm_dec max_read aes cbc_enc cbc_dec cmac use_op cbc_bytes i0 k evs _ O T F). apply coh_fresh; auto.
Qed.

(** C39: in every history in which a SHE key is served by one server context or
    the shared cache, its stored object changes only by an update that names it and
    is authentic under the key of the slot it names as authorising, addressed to
    this device, and allowed by the slot as it was; the new object carries the key,
    counter and flags of the update.  The seed of the random generator is also
    rewritten by the generator, which keeps its counter and flags. *)
Theorem C39_update_partial evs ev st r b i0 k :
  let Y0 := fresh_hsys st r b in let Y := after evs Y0 in let Y' := snd (step ev Y) in
  nvm_sane st -> kid_type k = KT_SHE -> Forall (sole C i0 k) (evs ++ [ev]) ->
  in_nvm (hy_ks Y') k <> in_nvm (hy_ks Y) k ->
  exists i client e, let old := key_now C (hy_ks Y) i k in
  (exists m1 m2 m3 ak uid m', let M1 := exactly 16 m1 in let M2 := exactly 32 m2 in let clear := clear_m2 aes cbc_dec ak M2 in
     ev = HShe i client e (SLoadKey m1 m2 m3) /\ k = she_id C client (m1_slot M1) /\
     auth_key C Y i client (m1_auth M1) ak /\ authentic aes cmac ak M1 M2 (exactly 16 m3) /\
     uid_given i evs Y0 None = Some uid /\ addressed uid M1 old /\ allowed (m2_count clear) old /\
     in_nvm (hy_ks Y') k = Some (m', m2_key clear) /\ she_count (m_label m') = m2_count clear /\ she_flags (m_label m') = m2_flags clear) \/
  (exists m d m' d', (ev = HShe i client e SInitRnd \/ exists x, ev = HShe i client e (SExtendSeed x)) /\ k = she_id C client SLOT_SEED /\
     old = Some (m, d) /\ in_nvm (hy_ks Y') k = Some (m', d') /\ m_label m' = m_label m).
Proof.
  intros Y0 Y Y' NS T F NE. apply Forall_app in F as [F1 F2]. inversion F2 as [|? ? F3 _]; subst.
  destruct (sole_coh evs st r b i0 k NS T F1) as [O H]. fold Y0 in O, H. fold Y in O, H.
  destruct (change_step C crypt pub ots gcm_enc gcm_dec max_read aes cbc_enc cbc_dec cmac use_op cbc_bytes i0 k ev Y O T F3 H NE) as (i & client & e & q & -> & _ & CH & RF).
  fold Y' in CH. pose proof (agr i evs st r b) as A. cbv zeta in A. fold Y0 in A. fold Y in A. destruct A as (M & EB & EU & HU).
  exists i, client, e. cbv zeta. destruct CH as [(m1 & m2 & m3 & ak & m' & -> & J & AK & AU & AD & AL & N1 & C1 & F4)|(m & d & m' & d' & Q & J & OLD & N1 & L)].
  - left. cbn [refused action_of] in RF. destruct (uid_given i evs Y0 None) as [uid|] eqn:UG.
    + exists m1, m2, m3, ak, uid, m'. cbv zeta. rewrite HU in AD. repeat (split; [solve [auto]|]). auto.
    + exfalso. cbn [is_some] in EU. unfold refused in RF. cbn [action_of] in RF. rewrite EU in RF. discriminate RF.
  - right. exists m, d, m', d'. split; [|auto]. destruct Q as [->|[x ->]]; eauto.
Qed.

(** The counter of a slot never goes back, and the slot is never emptied. *)
Theorem C39_counter_partial evs evs2 st r b i0 k m d :
  let Y := after evs (fresh_hsys st r b) in
  nvm_sane st -> kid_type k = KT_SHE -> kid_id k <> SLOT_RAM -> Forall (sole C i0 k) (evs ++ evs2) ->
  in_nvm (hy_ks Y) k = Some (m, d) ->
  exists m' d', in_nvm (hy_ks (after evs2 Y)) k = Some (m', d') /\ she_count (m_label m) <= she_count (m_label m').
Proof.
  intros Y NS T NR F E. apply Forall_app in F as [F1 F2]. destruct (sole_coh evs st r b i0 k NS T F1) as [O H]. fold Y in O, H.
  destruct (coh_run C crypt pub ots gcm_enc gcm_dec max_read aes cbc_enc cbc_dec cmac use_op cbc_bytes i0 k evs2 Y O T F2 H) as [_ X].
  specialize (X NR). unfold fresh_count in X. rewrite E in X. exact X.
Qed.

(** While no wrapped key is unwrapped into the cache, a slot other than the RAM key
    and the seed is seen as it is stored. *)
Lemma sole_seen evs st r b i0 k : nvm_sane st -> kid_type k = KT_SHE -> kid_id k <> SLOT_RAM -> kid_id k <> SLOT_SEED ->
  Forall (sole C i0 k) evs -> Forall no_unwrap evs ->
  let Y := after evs (fresh_hsys st r b) in forall i, is_global C k = true \/ i = i0 -> key_now C (hy_ks Y) i k = in_nvm (hy_ks Y) k.
Proof.
  intros NS T NR NE F U Y i D. destruct (sole_coh evs st r b i0 k NS T F) as [O H]. fold Y in O, H.
  apply seen_stored; auto; [eapply same_cell; eauto|].
  apply comm_run; auto; [apply fresh_hok; auto|apply comm_fresh; auto].
Qed.

(** A write protected slot keeps its content for ever. *)
Theorem C39_write_protected_partial evs evs2 st r b i0 k m d :
  let Y := after evs (fresh_hsys st r b) in
  nvm_sane st -> kid_type k = KT_SHE -> kid_id k <> SLOT_RAM -> kid_id k <> SLOT_SEED ->
  Forall (sole C i0 k) (evs ++ evs2) -> Forall no_unwrap (evs ++ evs2) ->
  in_nvm (hy_ks Y) k = Some (m, d) -> N.testbit (she_flags (m_label m)) 0 = true ->
  in_nvm (hy_ks (after evs2 Y)) k = Some (m, d).
Proof.
  intros Y NS T NR NE F U E WP. revert evs Y F U E. induction evs2 as [|ev evs2 IH]; intros evs Y F U E; [exact E|].
  assert (X : in_nvm (hy_ks (snd (step ev Y))) k = Some (m, d)).
  { rewrite <- E. assert (F' := F). assert (U' := U). apply Forall_app in F' as [F1 F2]. apply Forall_app in U' as [U1 U2]. inversion F2 as [|? ? F3 F4]; subst.
    destruct (sole_coh evs st r b i0 k NS T F1) as [O H]. fold Y in O, H.
    destruct (obj_eq_dec (in_nvm (hy_ks (snd (step ev Y))) k) (in_nvm (hy_ks Y) k)) as [Q|Q]; [exact Q|exfalso].
    destruct (change_step C crypt pub ots gcm_enc gcm_dec max_read aes cbc_enc cbc_dec cmac use_op cbc_bytes i0 k ev Y O T F3 H Q) as (i & client & e & q & -> & D & CH & RF).
    pose proof (sole_seen evs st r b i0 k NS T NR NE F1 U1 i D) as SE. cbv zeta in SE. fold Y in SE.
    destruct CH as [(m1 & m2 & m3 & ak & m' & -> & J & AK & AU & AD & AL & _)|(m0 & d0 & m' & d' & _ & J & _)].
    - rewrite SE, E in AL. destruct (AL m d eq_refl) as [W _]. congruence.
    - apply NE. rewrite J. apply slot_small. reflexivity. }
  cbn [hafter]. replace (snd (step ev Y)) with (after (evs ++ [ev]) (fresh_hsys st r b)) in X |- *.
  - apply IH; [rewrite <- app_assoc; exact F|rewrite <- app_assoc; exact U|exact X].
  - rewrite hafter_app. reflexivity.
Qed.

(** Conversely such an update is served: the answer confirms it with M4 and M5 and
    the slot holds the new key.  A first update of an empty master key slot needs a
    counter above zero; the slot must not hold an object of another size. *)
Theorem C39_served evs st r b i k client e m1 m2 m3 ak uid :
  let Y0 := fresh_hsys st r b in let Y := after evs Y0 in
  let M1 := exactly 16 m1 in let M2 := exactly 32 m2 in let clear := clear_m2 aes cbc_dec ak M2 in
  let old := key_now C (hy_ks Y) i k in let n := m2_count clear in
  nvm_sane st -> Forall (sole C i k) evs -> fine e ->
  booted i evs Y0 false = true -> uid_given i evs Y0 None = Some uid ->
  k = she_id C client (m1_slot M1) -> m1_slot M1 <> SLOT_RAM -> m1_slot M1 <> SLOT_SEED ->
  auth_key C Y i client (m1_auth M1) ak -> authentic aes cmac ak M1 M2 (exactly 16 m3) ->
  addressed uid M1 old -> allowed n old ->
  (forall m d, old = Some (m, d) -> length d = 16%nat) -> (old = None -> m1_slot M1 = SHE_MASTER_ECU -> 0 < n) ->
  exists Y' m', let m4 := m4_of aes uid (m1_slot M1) (m1_auth M1) n (m2_key clear) in
    step (HShe i client e (SLoadKey m1 m2 m3)) Y = (Some (mkSr OK 0 (m4 ++ m5_of aes cmac (m2_key clear) m4)), Y') /\
    in_nvm (hy_ks Y') k = Some (m', m2_key clear) /\ she_count (m_label m') = n /\ she_flags (m_label m') = m2_flags clear.
Proof.
  intros Y0 Y M1 M2 clear old n NS F FI BT UG KE NR NE AK AU AD AL L16 ZE.
  assert (T : kid_type k = KT_SHE) by (rewrite KE; apply sid_type).
  destruct (sole_coh evs st r b i k NS T F) as [O H]. fold Y0 in O, H. fold Y in O, H. destruct (O i) as [W G].
  pose proof (agr i evs st r b) as A. cbv zeta in A. fold Y0 in A. fold Y in A. destruct A as (M & EB & EU & HU). rewrite UG in EU, HU. rewrite BT in EB.
  assert (RF : refused (SLoadKey m1 m2 m3) (hy_she Y i) = false) by (unfold refused; cbn [action_of is_boot]; rewrite EU, <- EB; reflexivity).
  assert (AK2 : (exists m, vis C (at_ Y i) (she_id C client (m1_auth M1)) = Some (m, ak)) \/
   (vis C (at_ Y i) (she_id C client (m1_auth M1)) = None /\ have_she C = true /\ m1_auth M1 = SHE_MASTER_ECU /\ ak = repeat 0 16)).
  { destruct AK as [_ AK]. rewrite slot_vis in AK. destruct (vis C (at_ Y i) (she_id C client (m1_auth M1))) as [[m d]|]; [subst d; eauto|tauto]. }
  change old with (vis C (at_ Y i) k) in *. clear old. unfold M1 in KE. rewrite KE in H, AD, AL, L16, ZE. rewrite <- HU in AD.
  destruct (load_ok C aes cbc_enc cbc_dec cmac use_op e client m1 m2 m3 (hy_she Y i) (at_ Y i) ak W G FI RF NR NE H (proj1 AK) (count_lt aes cbc_dec cbc_bytes ak M2) AK2 AU AD AL L16 ZE) as (h' & S' & m' & E & N1 & C1 & F1).
  cbv zeta in E. eexists. exists m'. cbv zeta. cbn [hstep]. rewrite E. split; [|split; [|split]].
  - cbn [is_some] in HU. rewrite HU. reflexivity.
  - rewrite KE. exact N1.
  - exact C1.
  - exact F1.
Qed.

(** ** Updates made by the client library *)
Hypothesis cbc_len : forall k d, length (cbc_enc k d) = length d.
Hypothesis cbc_inv : forall k d, length d = 32%nat -> is_bytes d -> cbc_dec k (cbc_enc k d) = d.

(** C40: an update the client library makes for this device and a slot that allows
    it is served, the answer is the M4 and M5 the library computed, and the slot
    holds the key and the counter given.  The flags are not the ones given: they
    come out shifted by four bits (see the refutations below). *)
Theorem C40_roundtrip_partial evs st r b i client e id auth count flags uid key ak m1 m2 m3 m4 m5 :
  let Y0 := fresh_hsys st r b in let Y := after evs Y0 in let k := she_id C client id in let old := key_now C (hy_ks Y) i k in
  id < 16 -> auth < 16 -> count < 2 ^ 28 -> flags < 16 -> length key = 16%nat -> is_bytes key ->
  generate_loadable aes cbc_enc cmac id auth count flags uid key ak = (m1, m2, m3, m4, m5) ->
  nvm_sane st -> Forall (sole C i k) evs -> fine e ->
  booted i evs Y0 false = true -> uid_given i evs Y0 None = Some uid -> uid <> repeat 0 UID_SZ ->
  id <> SLOT_RAM -> id <> SLOT_SEED -> auth_key C Y i client auth ak ->
  allowed count old -> (forall m d, old = Some (m, d) -> length d = 16%nat) -> (old = None -> id = SHE_MASTER_ECU -> 0 < count) ->
  exists Y' m',
    step (HShe i client e (SLoadKey m1 m2 m3)) Y = (Some (mkSr OK 0 (m4 ++ m5)), Y') /\
    in_nvm (hy_ks Y') k = Some (m', key) /\ she_count (m_label m') = count /\ she_flags (m_label m') = flags * 16.
Proof.
  intros Y0 Y k old I16 A16 CL FL LK BK GE NS F FI BT UG UZ NR NE AK AL L16 ZE.
  pose proof (agr i evs st r b) as A. cbv zeta in A. fold Y0 in A. fold Y in A. destruct A as (M & EB & EU & HU). rewrite UG in HU.
  assert (UL : length uid = UID_SZ) by (apply (uid_len C crypt pub ots gcm_enc gcm_dec max_read aes cbc_enc cbc_dec cmac use_op i evs Y0 None uid UG); discriminate).
  unfold generate_loadable in GE. rewrite (field_val count flags CL FL) in GE. cbv zeta in GE. rewrite (m4_client aes uid id auth count key I16 A16) in GE.
  injection GE as <- <- <- <- <-.
  destruct (m1_fields uid id auth UL I16 A16) as (L1 & S1 & S2 & U1 & _).
  assert (FB : count * 16 + flags < 2 ^ 32) by (change (2 ^ 28) with 268435456 in CL; change (2 ^ 32) with 4294967296; lia).
  destruct (clear_of aes cbc_enc cbc_dec cbc_len cbc_inv ak (count * 16 + flags) key LK BK FB) as (L2 & K2 & C2 & F2).
  rewrite N.div_add_l, (N.div_small flags), N.add_0_r in C2 by (auto; discriminate).
  rewrite N.add_comm, N.mod_add, (N.mod_small flags) in F2 by (auto; discriminate). rewrite (N.add_comm flags) in F2.
  set (m1 := m1_of uid id auth) in *. set (m2 := m2_of aes cbc_enc ak (count * 16 + flags) key) in *. set (m3 := m3_of aes cmac ak m1 m2).
  assert (E1 : exactly 16 m1 = m1) by (apply exact_id; exact L1). assert (E2 : exactly 32 m2 = m2) by (apply exact_id; exact L2).
  pose proof (C39_served evs st r b i k client e m1 m2 m3 ak uid) as X. cbv zeta in X. rewrite E1, E2, S1, S2, K2, C2, F2 in X.
  apply X; auto.
  - reflexivity.
  - unfold addressed. rewrite U1. destruct (list_eq_dec N.eq_dec uid (repeat 0 UID_SZ)); [contradiction|reflexivity].
Qed.
End Props.

Module SheKeyExamples.
Import SheExamples.
(** A toy cipher that meets the hypotheses on decryption; the rest as in SheExamples. *)
Definition enc (k b : list N) : list N := map (fun x => (x + mix k) mod 256) b.
Definition dec (k b : list N) : list N := map (fun x => (x + (256 - mix k)) mod 256) b.
Definition aes (k b : list N) : list N := map (fun x => (x * 3 + mix k) mod 256) (exactly 16 b).
Lemma mix_lt k : mix k < 256.
Proof.
  unfold mix. destruct k as [|x k]; [reflexivity|]. cbn [fold_left]. assert (H : (0 * 3 + x + 1) mod 251 < 256).
  { eapply N.lt_trans; [apply N.mod_lt; discriminate|reflexivity]. }
  revert H. generalize ((0 * 3 + x + 1) mod 251). induction k as [|y k IH]; intros a H; cbn [fold_left]; auto.
  apply IH. eapply N.lt_trans; [apply N.mod_lt; discriminate|reflexivity].
Qed.
Lemma dec_bytes k d : is_bytes (dec k d).
Proof. unfold dec, is_bytes. apply Forall_forall. intros x X. apply in_map_iff in X as (y & <- & _). apply N.mod_lt. discriminate. Qed.
Lemma enc_len k d : length (enc k d) = length d. Proof. apply map_length. Qed.
Lemma dec_enc k d : length d = 32%nat -> is_bytes d -> dec k (enc k d) = d.
Proof.
  intros _ B. unfold dec, enc. rewrite map_map. rewrite <- (map_id d) at 2. apply map_ext_in. intros x X.
  rewrite N.add_mod_idemp_l by discriminate. pose proof (mix_lt k). replace (x + mix k + (256 - mix k)) with (x + 1 * 256) by lia.
  rewrite N.mod_add by discriminate. apply N.mod_small. unfold is_bytes in B. rewrite Forall_forall in B. auto.
Qed.
Notation at1 f := (f cfg toy_crypt toy_pub toy_ots toy_gcm toy_dec 100%nat aes enc dec toy_cmac toy_use).
Definition step := at1 hstep.
Definition after := at1 hafter.
Definition booted := at1 SheSpec.booted.
Definition uid_given := at1 SheSpec.uid_given.
Definition code (evs : list hev) (ev : hev) (Y : hsys) : Z := match fst (step ev (after evs Y)) with Some a => sr_rc a | None => 1%Z end.
Definition kobj (s count flags : N) (d : list N) : meta * list N := (mkMeta (she_id cfg 1 s) 0 0 (N.of_nat (length d)) (to_be32 count ++ to_be32 flags ++ repeat 0 16), d).
Definition uid : list N := 9 :: repeat 0 14.
Definition master : list N := repeat 5 16.
Definition key1 : list N := repeat 7 16.
Definition key2 : list N := repeat 8 16.
(** The update the client library makes. *)
Definition upd (id auth count flags : N) (key ak : list N) : sreq :=
  let '(m1, m2, m3, _, _) := generate_loadable aes enc toy_cmac id auth count flags uid key ak in SLoadKey m1 m2 m3.
Definition st0 : store := [kobj SHE_MASTER_ECU 1 0 master; kobj 4 5 0 key1].
Definition boot : list hev := [req 1 (SSetUid uid); req 1 (SBootInit 5)].
Lemma sane_cons (o : meta * list N) st : m_len (fst o) = N.of_nat (length (snd o)) -> nvm_sane st -> nvm_sane (o :: st).
Proof. intros E H id m x NZ. cbn [sp_find]. destruct (N.eqb _ _); [|apply H; auto]. intros F. injection F as ->. exact E. Qed.
Lemma sane_kobj s n f d st : nvm_sane st -> nvm_sane (kobj s n f d :: st).
Proof. apply sane_cons. reflexivity. Qed.
Definition slot4 : N := she_id cfg 1 4.
Lemma sole_req q : sole cfg 0 slot4 (req 1 q).
Proof. split; [right; left; reflexivity|reflexivity]. Qed.
(** What is stored in slot 4: counter, flags, key. *)
Definition stored4 (Y : hsys) : option (N * N * list N) :=
  option_map (fun o => (she_count (m_label (fst o)), she_flags (m_label (fst o)), snd o)) (in_nvm (hy_ks Y) slot4).

(** C39: an update of slot 4 under the master key; again; with a wrong authorising
    key; with an old counter; then of the now write protected slot. *)
Definition up6 : hev := req 1 (upd 4 SHE_MASTER_ECU 6 0 key2 master).
Example ex_C39 : nvm_sane st0 /\ Forall (sole cfg 0 slot4) (boot ++ [up6]) /\ kid_type slot4 = KT_SHE /\ kid_id slot4 <> SLOT_RAM /\ kid_id slot4 <> SLOT_SEED /\
  stored4 (after boot (start st0)) = Some (5, 0, key1) /\ code boot up6 (start st0) = OK /\
  stored4 (after (boot ++ [up6]) (start st0)) = Some (6, 0, key2) /\
  code (boot ++ [up6]) up6 (start st0) = KEY_UPDATE_ERROR /\
  code boot (req 1 (upd 4 SHE_MASTER_ECU 6 0 key2 key1)) (start st0) = KEY_UPDATE_ERROR /\
  code boot (req 1 (upd 4 SHE_MASTER_ECU 5 0 key2 master)) (start st0) = KEY_UPDATE_ERROR.
Proof.
  split; [repeat apply sane_kobj; apply sane_nil|]. split; [repeat constructor; apply sole_req|].
  repeat split; try (vm_compute; reflexivity); vm_compute; discriminate.
Qed.
Example ex_C39_write_protected : nvm_sane [kobj SHE_MASTER_ECU 1 0 master; kobj 4 5 1 key1] /\ Forall no_unwrap (boot ++ [up6]) /\
  code boot up6 (start [kobj SHE_MASTER_ECU 1 0 master; kobj 4 5 1 key1]) = WRITE_PROTECTED.
Proof. split; [repeat apply sane_kobj; apply sane_nil|]. split; [repeat constructor|vm_compute; reflexivity]. Qed.
(** C39, C40: the hypotheses of the theorems on served updates. *)
Example ex_C40 : exists m1 m2 m3 m4 m5,
  (forall k d, is_bytes (dec k d)) /\ (forall k d, length (enc k d) = length d) /\ (forall k d, length d = 32%nat -> is_bytes d -> dec k (enc k d) = d) /\
  generate_loadable aes enc toy_cmac 4 SHE_MASTER_ECU 6 0 uid key2 master = (m1, m2, m3, m4, m5) /\
  nvm_sane st0 /\ Forall (sole cfg 0 slot4) boot /\ fine env /\ booted 0%nat boot (start st0) false = true /\ uid_given 0%nat boot (start st0) None = Some uid /\
  auth_key cfg (after boot (start st0)) 0 1 SHE_MASTER_ECU master /\ allowed 6 (key_now cfg (hy_ks (after boot (start st0))) 0 slot4) /\
  fst (step (req 1 (SLoadKey m1 m2 m3)) (after boot (start st0))) = Some (mkSr OK 0 (m4 ++ m5)).
Proof.
  do 5 eexists. split; [apply dec_bytes|]. split; [apply enc_len|]. split; [apply dec_enc|]. split; [vm_compute; reflexivity|].
  split; [repeat apply sane_kobj; apply sane_nil|]. split; [repeat constructor; apply sole_req|]. split; [repeat split|].
  split; [vm_compute; reflexivity|]. split; [vm_compute; reflexivity|]. split; [split; vm_compute; reflexivity|].
  split; [intros m d E; vm_compute in E; injection E as <- <-; split; vm_compute; reflexivity|vm_compute; reflexivity].
Qed.

(** C39 is false of a slot whose object is written with an NVM request, which any
    client may send: the counter restarts, and after a reset of the device an old
    update is accepted again. *)
Definition nenv : nvm_env := mkEnv OK OK OK OK [].
Theorem C39_nvm_write_refuted : exists evs, nvm_sane st0 /\
  stored4 (after (boot ++ [up6]) (start st0)) = Some (6, 0, key2) /\
  evs = boot ++ [up6; HSys (SNvm nenv (QAdd (mkMeta slot4 0 0 16 (repeat 0 24)) key1)); HSys SReset] ++ boot /\
  stored4 (after evs (start st0)) = Some (0, 0, key1) /\
  code evs (req 1 (upd 4 SHE_MASTER_ECU 1 0 key1 master)) (start st0) = OK.
Proof. eexists. split; [repeat apply sane_kobj; apply sane_nil|]. split; [vm_compute; reflexivity|]. split; [reflexivity|]. split; vm_compute; reflexivity. Qed.
(** Of one client served by two server contexts: context 1 still holds the slot as
    it was, and takes the counter back. *)
Definition req1 (q : sreq) : hev := HShe 1 1 env q.
Theorem C39_two_contexts_refuted : exists evs, nvm_sane st0 /\
  evs = boot ++ [req1 (SSetUid uid); req1 (SBootInit 5); req1 (SUse OGenMac 4 [1]); req 1 (upd 4 SHE_MASTER_ECU 9 0 key2 master)] /\
  stored4 (after evs (start st0)) = Some (9, 0, key2) /\
  code evs (req1 (upd 4 SHE_MASTER_ECU 6 0 key1 master)) (start st0) = OK /\
  stored4 (after (evs ++ [req1 (upd 4 SHE_MASTER_ECU 6 0 key1 master)]) (start st0)) = Some (6, 0, key1).
Proof. eexists. split; [repeat apply sane_kobj; apply sane_nil|]. split; [reflexivity|]. repeat split; vm_compute; reflexivity. Qed.
(** When the slot cannot be read, its counter counts as zero and its write
    protection as absent. *)
Definition slot_unreadable : senv := mkSenv true (fun n => match n with 1%nat => ABORTED | _ => OK end) OK true true (repeat 0 16).
Definition st_wp : store := [kobj SHE_MASTER_ECU 1 0 master; kobj 4 5 1 key1].
Theorem C39_read_failure_refuted : exists ev, nvm_sane st_wp /\ stored4 (after boot (start st_wp)) = Some (5, 1, key1) /\
  ev = HShe 0 1 slot_unreadable (upd 4 SHE_MASTER_ECU 1 0 key2 master) /\
  code boot ev (start st_wp) = OK /\ stored4 (after (boot ++ [ev]) (start st_wp)) = Some (1, 0, key2).
Proof. eexists. split; [repeat apply sane_kobj; apply sane_nil|]. split; [vm_compute; reflexivity|]. split; [reflexivity|]. split; vm_compute; reflexivity. Qed.
(** A client with a trusted wrapping key shadows a write protected slot with a
    wrapped key of its own, and then updates it. *)
Definition kek : meta * list N := (mkMeta (mk_keyid KT_CRYPTO 1 4) 65535 (F_TRUSTED + F_USAGE_WRAP) 16 (repeat 0 24), key1).
Definition st_kek : store := [kobj SHE_MASTER_ECU 1 0 master; kobj 4 5 1 key1; kek].
Definition kenv0 : kenv := mkKenv OK OK OK (repeat 0 12) OK [] OK [] 0 nenv.
Definition kreq0 (q : kreq) : hev := HSys (SKey 0 1 kenv0 q).
Definition blob : list N := repeat 0 28 ++ ser_meta (fst (kobj 4 5 0 key2)) ++ key2.
Theorem C39_unwrap_refuted : exists evs, nvm_sane st_kek /\
  stored4 (after boot (start st_kek)) = Some (5, 1, key1) /\
  evs = boot ++ [kreq0 (KUnwrapCache 4 blob)] /\ Forall (sole cfg 0 slot4) evs /\
  code evs up6 (start st_kek) = OK /\ stored4 (after (evs ++ [up6]) (start st_kek)) = Some (6, 0, key2).
Proof.
  eexists. split; [repeat apply sane_kobj; apply sane_cons; [reflexivity|apply sane_nil]|].
  split; [vm_compute; reflexivity|]. split; [reflexivity|]. split; [repeat (constructor; [first [apply sole_req|exact I]|]); constructor|].
  split; vm_compute; reflexivity.
Qed.
(** C40 is false of the flags: a key made with write protection is stored with the
    wildcard flag instead, and can be overwritten ... *)
Theorem C40_flags_refuted : exists ev, nvm_sane st0 /\ ev = req 1 (upd 4 SHE_MASTER_ECU 6 1 key2 master) /\
  code boot ev (start st0) = OK /\ stored4 (after (boot ++ [ev]) (start st0)) = Some (6, 16, key2) /\
  code (boot ++ [ev]) (req 1 (upd 4 SHE_MASTER_ECU 7 0 key1 master)) (start st0) = OK.
Proof. eexists. split; [repeat apply sane_kobj; apply sane_nil|]. split; [reflexivity|]. repeat split; vm_compute; reflexivity. Qed.
(** ... and one made with the wildcard flag has another counter, and no flag. *)
Theorem C40_wildcard_refuted : exists ev, nvm_sane st0 /\ ev = req 1 (upd 4 SHE_MASTER_ECU 6 16 key2 master) /\
  code boot ev (start st0) = OK /\ stored4 (after (boot ++ [ev]) (start st0)) = Some (7, 0, key2).
Proof. eexists. split; [repeat apply sane_kobj; apply sane_nil|]. split; [reflexivity|]. split; vm_compute; reflexivity. Qed.
(** A counter of more than 28 bits loses its upper bits. *)
Theorem C40_big_counter_refuted : exists ev, nvm_sane st0 /\ ev = req 1 (upd 4 SHE_MASTER_ECU (2 ^ 28 + 6) 0 key2 master) /\
  code boot ev (start st0) = OK /\ stored4 (after (boot ++ [ev]) (start st0)) = Some (6, 0, key2).
Proof. eexists. split; [repeat apply sane_kobj; apply sane_nil|]. split; [reflexivity|]. split; vm_compute; reflexivity. Qed.
(** C57 is false: a key loaded in plain into the RAM slot authorises the update of
    any other slot, the master key included. *)
Theorem C57_any_authority_refuted : exists evs, nvm_sane st0 /\ evs = boot ++ [req 1 (SLoadPlain key2)] /\
  slot_key cfg (after evs (start st0)) 0 1 SHE_MASTER_ECU = Some (kobj SHE_MASTER_ECU 1 0 master) /\
  code evs (req 1 (upd SHE_MASTER_ECU SLOT_RAM 2 0 key1 key2)) (start st0) = OK /\
  slot_key cfg (after (evs ++ [req 1 (upd SHE_MASTER_ECU SLOT_RAM 2 0 key1 key2)]) (start st0)) 0 1 SHE_MASTER_ECU = Some (kobj SHE_MASTER_ECU 2 0 key1).
Proof. eexists. split; [repeat apply sane_kobj; apply sane_nil|]. split; [reflexivity|]. repeat split; vm_compute; reflexivity. Qed.
End SheKeyExamples.
Print Assumptions C39_update_partial.
Print Assumptions C39_counter_partial.
Print Assumptions C39_write_protected_partial.
Print Assumptions C39_served.
Print Assumptions C40_roundtrip_partial.
