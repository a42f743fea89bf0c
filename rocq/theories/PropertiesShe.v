(** The SHE extension: secure boot and provisioning (C37, C38).  Vocabulary: SheSpec.v. *)
From Verif Require Import Base BaseLemmas NvmSpec Flags KeyId Store NvmReqModel CounterModel KsModel KsCache KsReq KsEff KsSys KsSpec KsSysProof SheModel SheSys SheSpec SheEff SheBoot.
Local Open Scope N_scope.

Lemma first_app2 (a b : list N) : firstn (length a) (a ++ b) = a.
Proof. rewrite firstn_app, Nat.sub_diag, firstn_all, firstn_O. apply app_nil_r. Qed.

Section Props.
Variable C : kscfg.
Variable crypt : cop -> list N -> list N -> Z * list N.
Variable pub : N -> list N -> Z * list N.
Variable ots : list N -> list N -> option (list N * list N).
Variable gcm_enc : list N -> list N -> N -> list N -> option (list N).
Variable gcm_dec : list N -> list N -> N -> list N -> option (list N).
Variable max_read : nat.
Variable aes : list N -> list N -> list N.
Variable cbc_enc cbc_dec : list N -> list N -> list N.
Variable cmac : list N -> list N -> list N.
Variable use_op : sop -> list N -> list N -> option (list N).
Notation step := (hstep C crypt pub ots gcm_enc gcm_dec max_read aes cbc_enc cbc_dec cmac use_op).
Notation after := (hafter C crypt pub ots gcm_enc gcm_dec max_read aes cbc_enc cbc_dec cmac use_op).
Notation sstep := (she_step C aes cbc_enc cbc_dec cmac use_op).
Notation booted := (booted C crypt pub ots gcm_enc gcm_dec max_read aes cbc_enc cbc_dec cmac use_op).
Notation uid_given := (uid_given C crypt pub ots gcm_enc gcm_dec max_read aes cbc_enc cbc_dec cmac use_op).
Notation image_sent := (image_sent C crypt pub ots gcm_enc gcm_dec max_read aes cbc_enc cbc_dec cmac use_op).
Notation slot_key := (slot_key C).
Notation agr := (agrees_fresh C crypt pub ots gcm_enc gcm_dec max_read aes cbc_enc cbc_dec cmac use_op).

(** C37: before secure boot is complete on a server context, a command other than
    the boot, status and set-unique-id commands is answered with a sequence error
    and changes nothing. *)
Theorem C37_gated evs st r b i client e q a Y' : let Y0 := fresh_hsys st r b in
  open_command q = false -> booted i evs Y0 false = false ->
  step (HShe i client e q) (after evs Y0) = (a, Y') ->
  a = Some (mkSr SEQUENCE_ERROR 0 []) /\ unchanged (after evs Y0) Y'.
Proof.
  intros Y0 OP NB H. destruct (agr i evs st r b) as (M & EB & _). fold Y0 in M, EB. rewrite NB in EB.
  set (Y := after evs Y0) in *. cbn [hstep] in H.
  destruct (sstep e client q (hy_she Y i) (ks_of (hy_ks Y) i)) as [[r0 h'] S1] eqn:E. injection H as <- <-.
  assert (NS : h_sb (hy_she Y i) <> SbSuccess) by (intros Q; rewrite Q in EB; discriminate).
  assert (B : is_boot (action_of q) = false) by (destruct q; try discriminate OP; try reflexivity; destruct a; try discriminate OP; reflexivity).
  destruct (sstep_other _ _ _ _ _ _ _ _ _ _ _ _ _ _ M E B) as (_ & _ & _ & _ & Q).
  assert (X : h' = hy_she Y i /\ S1 = ks_of (hy_ks Y) i /\ r0 = mkSr SEQUENCE_ERROR 0 []) by (destruct q; try discriminate OP; try (apply Q; auto)).
  destruct X as (-> & -> & ->). split; [reflexivity|]. split; [reflexivity|]. split; [reflexivity|]. split; intros x; cbn.
  - destruct (Nat.eqb_spec x i); subst; reflexivity.
  - unfold upd_she. destruct (Nat.eqb_spec x i); subst; reflexivity.
Qed.

(** Once it is complete, the unique id is set and no command is answered with a
    sequence error for want of it; the random generator is initialised once. *)
Lemma evict_codes S id : fst (evict_key C S id) <> SEQUENCE_ERROR.
Proof. unfold evict_key. destruct (kid_unassigned id); [discriminate|]. destruct (hwkey C id); [discriminate|]. destruct (find_cache C S id); discriminate. Qed.
Lemma cache_codes S m d : fst (cache_key C false S m d) <> SEQUENCE_ERROR.
Proof.
  unfold cache_key. destruct (_ || _); [discriminate|]. destruct (_ && _); [discriminate|]. destruct (hwkey C (m_id m)) eqn:HW; [discriminate|].
  unfold cache_slot. rewrite HW. destruct (_ && _); [discriminate|].
  destruct (match find_cache C S (m_id m) with Some _ => evict_key C S (m_id m) | None => (OK, S) end) as [rc S1] eqn:E.
  assert (N1 : rc <> SEQUENCE_ERROR).
  { destruct (find_cache C S (m_id m)); [|injection E as <- <-; discriminate]. pose proof (evict_codes S (m_id m)) as X. rewrite E in X. exact X. }
  destruct (is_ok rc) eqn:O; cbn [negb]; [|rewrite O; cbn [negb]; exact N1].
  destruct (alloc _ _ _ _); discriminate.
Qed.
Lemma she_read_codes rd S id : rd <> SEQUENCE_ERROR -> fst (fst (fst (she_read C rd S id))) <> SEQUENCE_ERROR.
Proof.
  intros RD. assert (X : fst (fst (fst (read_key C S id 16))) <> SEQUENCE_ERROR).
  { unfold read_key. destruct (kid_unassigned id); [discriminate|]. destruct (hwkey C id); [discriminate|].
    destruct (find_cache C S id); [destruct (_ <? _); discriminate|]. destruct (kid_wrapped id); [discriminate|].
    destruct (sp_find (k_st S) id) as [[m d]|] eqn:F; [|destruct (_ && _); discriminate]. destruct (_ <? _); [discriminate|].
    unfold sp_read. rewrite F. destruct ((_ <? _)%nat && _)%bool; [|discriminate]. change (is_ok OK) with true. cbn [negb].
    destruct (_ && _); [discriminate|]. destruct (cache_key C false S m _). discriminate. }
  unfold she_read. destruct (find_cache C S id); [|destruct (is_ok rd); [|exact RD]];
    destruct (read_key C S id 16) as [[[rc S1] m] d]; exact X.
Qed.
Lemma tr_seq rc : translate rc = SEQUENCE_ERROR -> rc = SEQUENCE_ERROR.
Proof. unfold translate. destruct (existsb _ _); [auto|discriminate]. Qed.
Theorem C37_served evs st r b i client e q a Y' : let Y0 := fresh_hsys st r b in
  open_command q = false -> booted i evs Y0 false = true -> q <> SInitRnd -> (forall n, se_rd e n <> SEQUENCE_ERROR) ->
  step (HShe i client e q) (after evs Y0) = (Some a, Y') ->
  uid_given i evs Y0 None <> None /\ sr_rc a <> SEQUENCE_ERROR.
Proof.
  intros Y0 OP NB NI RD H. destruct (agr i evs st r b) as (M & EB & EU & _). fold Y0 in M, EB, EU. rewrite NB in EB.
  set (Y := after evs Y0) in *. symmetry in EB. apply sb_eqb_iff in EB. destruct M as (_ & M2 & _). rewrite EB in M2. specialize (M2 ltac:(discriminate)).
  split. { intros Q. rewrite Q, M2 in EU. discriminate. }
  cbn [hstep] in H. destruct (sstep e client q (hy_she Y i) (ks_of (hy_ks Y) i)) as [[r0 h'] S1] eqn:E. injection H as <- <-.
  unfold she_step in E. assert (RF : refused q (hy_she Y i) = false).
  { unfold refused. rewrite M2, EB. destruct (action_of q) as [[]|] eqn:AQ; try reflexivity. destruct q; try discriminate AQ; try discriminate OP. injection AQ as ->. discriminate OP. }
  rewrite RF in E. destruct (she_handle C aes cbc_enc cbc_dec cmac use_op e client q (hy_she Y i) (ks_of (hy_ks Y) i)) as [[[[rc w] out] h1] S2] eqn:H.
  injection E as <- _ _. cbn [sr_rc].
  assert (N1 : rc <> SEQUENCE_ERROR). 2:{ destruct (_ && _); [exact N1|]. intros T. apply N1, tr_seq, T. }
  assert (X : rc = fst (fst (fst (fst (she_handle C aes cbc_enc cbc_dec cmac use_op e client q (hy_she Y i) (ks_of (hy_ks Y) i)))))) by (rewrite H; reflexivity).
  rewrite X. clear - OP NI RD. set (h := hy_she Y i). set (S := ks_of (hy_ks Y) i).
  assert (RC : forall n S id, fst (fst (fst (she_read C (se_rd e n) S id))) <> SEQUENCE_ERROR) by (intros; apply she_read_codes, RD).
  unfold she_handle. destruct (_ && _); [discriminate|]. destruct q; try discriminate OP; try discriminate.
  - unfold do_load_key. cbv zeta. pose proof (RC 0%nat S (she_id C client (pop_auth (exactly 16 m1)))) as Q.
    destruct (she_read C (se_rd e 0) S _) as [[[rc S1] m] ak]. cbn [fst] in Q. destruct (_ || _); [discriminate|].
    destruct (negb (is_ok rc)); [exact Q|]. destruct (negb (se_c1 e)); [discriminate|].
    destruct (negb (if list_eq_dec _ _ _ then true else false)); [discriminate|].
    destruct (she_read C (se_rd e 1) _ _) as [[[rt S2] mo] old]. destruct (Z.eqb rt NOSPACE || _); [discriminate|].
    destruct (negb (Z.eqb rt NOTFOUND) && N.testbit _ _); [discriminate|].
    match goal with |- context[if (if list_eq_dec N.eq_dec ?a ?b then ?c else ?d) then _ else _] => destruct (if list_eq_dec N.eq_dec a b then c else d); [discriminate|] end.
    destruct (negb (Z.eqb rt NOTFOUND) && (_ <=? _)); [discriminate|].
    destruct (if N.eqb _ _ then _ else _) as [[[rw S3] fm] fk]. destruct (negb (is_ok rw)); [discriminate|].
    destruct (negb (se_c2 e)); discriminate.
  - unfold do_load_plain. pose proof (cache_codes S (ram_meta C client) (exactly 16 key)) as Q.
    destruct (cache_key _ _ _ _ _) as [rc S1]. destruct (is_ok rc); [discriminate|exact Q].
  - unfold do_export_ram. destruct (negb (h_plain h)); [discriminate|]. destruct (she_read _ _ _ _) as [[[rc S1] m] ak].
    destruct (negb (is_ok rc) || _); [discriminate|]. destruct (negb (se_c1 e)); [discriminate|].
    destruct (she_read C (se_rd e 1) _ _) as [[[rt S2] mo] old]. destruct (negb (is_ok rt) || _); [discriminate|].
    destruct (negb (se_c2 e)); discriminate.
  - destruct (NI eq_refl).
  - unfold do_rnd. cbv zeta. destruct (negb _); [discriminate|]. destruct (negb _); discriminate.
  - unfold do_extend_seed. cbv zeta. destruct (negb _); [discriminate|]. destruct (negb _); [discriminate|].
    destruct (she_read _ _ _ _) as [[[rc S1] m] ak]. destruct (negb (is_ok rc)); [discriminate|]. destruct (negb (se_c2 e)); [discriminate|].
    destruct (write_seed _ _ _ _ _ _) as [rw S3]. destruct (negb (is_ok rw)); discriminate.
  - unfold do_use. cbv zeta. destruct (she_read _ _ _ _) as [[[rc S1] m] ak].
    destruct (negb (is_ok rc) || _); [discriminate|]. destruct op; try destruct (if se_c1 e then _ else None); discriminate.
Qed.

(** The status command is always answered, and its BOOT_OK bit says whether
    secure boot is complete. *)
Theorem C37_status evs st r b i client e a Y' : let Y0 := fresh_hsys st r b in
  step (HShe i client e SStatus) (after evs Y0) = (a, Y') ->
  exists w, a = Some (mkSr OK w []) /\ N.testbit w 4 = booted i evs Y0 false.
Proof.
  intros Y0 H. destruct (agr i evs st r b) as (M & EB & _). fold Y0 in M, EB. rewrite EB.
  cbn [hstep] in H. unfold she_step in H. cbn [refused action_of she_handle locks andb is_boot do_status] in H. unfold do_status in H.
  injection H as <- <-. eexists. split; [reflexivity|]. set (h := hy_she (after evs Y0) i).
  destruct (h_cmk h), (h_sb h), (h_rnd h); reflexivity.
Qed.

(** The unique id is set once: a second attempt is refused until the server
    context is set up again. *)
Theorem C37_uid_once evs st r b i client e u a Y' : let Y0 := fresh_hsys st r b in
  step (HShe i client e (SSetUid u)) (after evs Y0) = (Some a, Y') ->
  sr_rc a = match uid_given i evs Y0 None with None => OK | Some _ => SEQUENCE_ERROR end.
Proof.
  intros Y0 H. destruct (agr i evs st r b) as (M & _ & EU & _). fold Y0 in M, EU.
  set (Y := after evs Y0) in *. cbn [hstep] in H. destruct (sstep e client (SSetUid u) (hy_she Y i) (ks_of (hy_ks Y) i)) as [[r0 h'] S1] eqn:E. injection H as <- <-.
  destruct (sstep_other _ _ _ _ _ _ _ _ _ _ _ _ _ _ M E eq_refl) as (_ & _ & _ & _ & Q). rewrite EU in Q.
  destruct (uid_given i evs Y0 None); cbn [is_some] in Q; tauto.
Qed.
Definition keeps_uid (i : nat) (ev : hev) : Prop := ev <> HSys SReset /\ ev <> HSys (SServer i).
Theorem C37_uid_stays evs evs2 st r b i u : let Y0 := fresh_hsys st r b in
  uid_given i evs Y0 None = Some u -> Forall (keeps_uid i) evs2 -> uid_given i (evs ++ evs2) Y0 None = Some u.
Proof.
  intros Y0 H F. assert (X : forall evs Y v, uid_given i (evs ++ evs2) Y v = uid_given i evs2 (after evs Y) (uid_given i evs Y v)).
  { clear. induction evs as [|ev evs IH]; intros Y v; cbn [app SheSpec.uid_given hafter]; auto. destruct (step ev Y) as [a Y1]. cbn [snd]. apply IH. }
  rewrite X, H. pose proof (agr i evs st r b) as A. cbv zeta in A. fold Y0 in A. rewrite H in A. clear - A F.
  revert A. generalize (booted i evs Y0 false). generalize (after evs Y0). induction F as [|ev evs2 [N1 N2] F IH]; intros Y bb A; cbn [SheSpec.uid_given]; auto.
  destruct (step ev Y) as [a Y1] eqn:E. pose proof (agrees_step _ _ _ _ _ _ _ _ _ _ _ _ i ev Y a Y1 _ _ A E) as A1.
  assert (U : uid_by i ev a (Some u) = Some u).
  { destruct ev as [j client e q|[]]; cbn [uid_by]; auto; try congruence.
    - destruct q; auto. destruct (Nat.eqb_spec j i) as [->|]; auto. cbn [andb].
      cbn [hstep] in E. destruct (sstep e client (SSetUid uid) (hy_she Y i) (ks_of (hy_ks Y) i)) as [[r0 h'] S1] eqn:E2. injection E as <- <-.
      destruct A as (M & _ & EU & _). destruct (sstep_other _ _ _ _ _ _ _ _ _ _ _ _ _ _ M E2 eq_refl) as (_ & _ & _ & _ & Q). rewrite EU in Q. cbn [is_some] in Q.
      destruct Q as [Q _]. cbn [rc_is]. rewrite Q. reflexivity.
    - destruct (Nat.eqb_spec i0 i); [congruence|auto]. }
  rewrite U in *. eapply IH; eauto.
Qed.

(** C38: secure boot succeeds only on the image whose MAC is stored: a finish
    answered OK means that an image was announced while the client had a 16-byte
    boot MAC key, that as many bytes were sent as announced, and that the stored
    boot MAC is the CMAC of the size and all the bytes under that key. *)
Theorem C38_finish_sound evs st r b i client e a Y' : let Y0 := fresh_hsys st r b in let Y := after evs Y0 in
  nvm_sane st -> step (HShe i client e SBootFinish) Y = (Some a, Y') -> sr_rc a = OK ->
  exists sz key img m mac,
    image_sent i evs Y0 None = Some (sz, key, img) /\ length key = 16%nat /\ N.of_nat (length img) mod 2 ^ 32 = sz /\
    slot_key Y i client SLOT_BOOT_MAC = Some (m, mac) /\
    mac = firstn (length mac) (exactly 16 (cmac key (boot_prefix sz ++ img))).
Proof.
  intros Y0 Y NS H O. pose proof (fresh_hok C st r b NS) as OK0.
  pose proof (agr i evs st r b) as A. pose proof (pending_run C crypt pub ots gcm_enc gcm_dec max_read aes cbc_enc cbc_dec cmac use_op i evs Y0 false None None OK0 agrees_zero (pending_zero None)) as P.
  pose proof (hafter_ok C crypt pub ots gcm_enc gcm_dec max_read aes cbc_enc cbc_dec cmac use_op evs Y0 OK0 i) as [W G]. fold Y in P, W, G.
  cbn [hstep] in H. destruct (sstep e client SBootFinish (hy_she Y i) (ks_of (hy_ks Y) i)) as [[r0 h'] S1] eqn:E. injection H as <- <-.
  destruct (finish_ok _ _ _ _ _ _ _ _ _ _ _ _ _ W G E O) as (SB & m & mac & V & EQ).
  destruct (P (or_intror SB)) as (k & img & I & K1 & K2 & K3 & K4 & K5). specialize (K5 SB).
  exists (h_size (hy_she Y i)), k, img, m, mac. split; [exact I|]. split; [auto|]. split; [congruence|]. split; [rewrite slot_vis; exact V|].
  rewrite <- K3, <- K1, EQ. unfold exactly.
  assert (V2 : (length mac <= 16)%nat).
  { revert E O. clear - V W G. intros E O. assert (RF := refused_not _ _ _ _ _ _ _ _ _ _ _ _ _ _ E ltac:(rewrite O; discriminate)).
    unfold she_step in E. rewrite RF in E. unfold she_handle in E. cbn [action_of is_boot locks] in E.
    destruct (se_lock e); cbn [negb andb] in E. 2:{ unfold err in E. injection E as <- <- <-. discriminate O. }
    unfold do_boot_finish in E. destruct (negb (sb_eqb _ _)). { unfold err in E. injection E as <- <- <-. discriminate O. }
    destruct (negb (se_c1 e)). { unfold err in E. injection E as <- <- <-. discriminate O. }
    destruct (she_read C (se_rd e 0) (ks_of (hy_ks Y) i) (she_id C client SLOT_BOOT_MAC)) as [[[rr S2] m2] k2] eqn:R.
    destruct (is_ok rr) eqn:B; cbn [negb] in E. 2:{ unfold err in E. injection E as <- <- <-. discriminate O. }
    clear E. destruct (Nat.leb_spec (length mac) 16) as [|LT]; [auto|]. exfalso.
    pose proof (sid_type C client SLOT_BOOT_MAC) as T. destruct (she_assigned C _ T) as (UA & HW & WR & NZ).
    unfold vis in V. unfold she_read, read_key in R. rewrite UA, HW in R.
    destruct (find_cache C (ks_of (hy_ks Y) i) (she_id C client SLOT_BOOT_MAC)) as [s|] eqn:F.
    - injection V as <- <-. pose proof (proj2 G _ s NZ F) as GL. unfold good_slot in GL.
      assert (X : 16 <? m_len (sl_meta s) = true) by (apply N.ltb_lt; rewrite GL; lia). rewrite X in R. injection R as <- _ _ _. discriminate B.
    - destruct (is_ok (se_rd e 0)) eqn:RD; [|injection R as <- _ _ _; congruence]. rewrite WR, V in R.
      pose proof (proj1 G _ m mac NZ V) as GL. assert (X : 16 <? m_len m = true) by (apply N.ltb_lt; rewrite GL; lia). rewrite X in R. injection R as <- _ _ _. discriminate B. }
  rewrite firstn_firstn, Nat.min_l by auto. rewrite <- app_assoc, first_app2. reflexivity.
Qed.

(** Secure boot becomes complete only in that way, or when the boot starts while
    no 16-byte boot MAC key can be found in its slot. *)
Theorem C38_boot_only_partial evs st r b i ev : let Y0 := fresh_hsys st r b in let Y := after evs Y0 in
  nvm_sane st -> booted i evs Y0 false = false -> booted i (evs ++ [ev]) Y0 false = true ->
  exists client e,
    (ev = HShe i client e SBootFinish /\
     exists sz key img m mac,
       image_sent i evs Y0 None = Some (sz, key, img) /\ length key = 16%nat /\ N.of_nat (length img) mod 2 ^ 32 = sz /\
       slot_key Y i client SLOT_BOOT_MAC = Some (m, mac) /\
       mac = firstn (length mac) (exactly 16 (cmac key (boot_prefix sz ++ img)))) \/
    (exists sz, ev = HShe i client e (SBootInit sz) /\
     (se_rd e 0 = OK -> forall m k, slot_key Y i client SLOT_BOOT_MAC_KEY = Some (m, k) -> length k <> 16%nat)).
Proof.
  intros Y0 Y NS B0 B1. assert (X : forall evs Y v, booted i (evs ++ [ev]) Y v = booted i [ev] (after evs Y) (booted i evs Y v)).
  { clear. induction evs as [|x evs IH]; intros Y v; cbn [app SheSpec.booted hafter]; auto. destruct (step x Y) as [a Y1]. cbn [snd]. apply IH. }
  rewrite X, B0 in B1. clear X. fold Y in B1. cbn [SheSpec.booted] in B1. destruct (step ev Y) as [a Y1] eqn:E.
  destruct ev as [j client e q|[]]; cbn [booted_by] in B1; try discriminate; [|destruct (Nat.eqb i0 i); discriminate].
  destruct (Nat.eqb_spec j i) as [->|]; [|discriminate]. exists client, e.
  destruct a as [a|]; [|cbn [hstep] in E; destruct (sstep e client q (hy_she Y i) (ks_of (hy_ks Y) i)) as [[r0 h'] S1]; discriminate].
  destruct q; try discriminate; cbn [rc_is] in B1.
  - apply Z.eqb_eq in B1. right. exists sz. split; [reflexivity|]. intros RD m k V.
    pose proof (hafter_ok C crypt pub ots gcm_enc gcm_dec max_read aes cbc_enc cbc_dec cmac use_op evs Y0 (fresh_hok C st r b NS) i) as [W G]. fold Y in W, G.
    cbn [hstep] in E. destruct (sstep e client (SBootInit sz) (hy_she Y i) (ks_of (hy_ks Y) i)) as [[r0 h'] S1] eqn:E2. injection E as <- <-.
    eapply init_none; eauto.
  - apply Z.eqb_eq in B1. left. split; [reflexivity|]. eapply C38_finish_sound; eauto.
  - destruct a0; discriminate.
Qed.
End Props.

(** ** Concrete cases *)
Module SheExamples.
(** Caches of four 16-byte slots and one of 32; toy crypto. *)
Definition cfg : kscfg := mkKs_cfg (mkKcfg true true true) 16 32 true true false 100 32 32 200 196.
Definition toy_crypt (o : cop) (inp d : list N) : Z * list N := (OK, d ++ inp).
Definition toy_pub (a : N) (d : list N) : Z * list N := (OK, firstn 1 d).
Definition toy_ots (d msg : list N) : option (list N * list N) := None.
Definition toy_gcm (k iv : list N) (a : N) (pt : list N) : option (list N) := Some (repeat 0 16 ++ pt).
Definition toy_dec (k iv : list N) (a : N) (b : list N) : option (list N) := Some (skipn 16 b).
Definition mix (k : list N) : N := fold_left (fun a x => (a * 3 + x + 1) mod 251) k 0.
Definition toy_aes (k b : list N) : list N := map (fun x => N.lxor x (mix k)) (exactly 16 b).
Definition toy_cbc (k b : list N) : list N := map (fun x => N.lxor x (mix k)) b.
Definition toy_cmac (k d : list N) : list N := exactly 16 [mix k; mix d; N.of_nat (length d)].
Definition toy_use (o : sop) (k d : list N) : option (list N) := Some (toy_cbc k d).
Definition step := hstep cfg toy_crypt toy_pub toy_ots toy_gcm toy_dec 100 toy_aes toy_cbc toy_cbc toy_cmac toy_use.
Definition after := hafter cfg toy_crypt toy_pub toy_ots toy_gcm toy_dec 100 toy_aes toy_cbc toy_cbc toy_cmac toy_use.
Definition booted := booted cfg toy_crypt toy_pub toy_ots toy_gcm toy_dec 100 toy_aes toy_cbc toy_cbc toy_cmac toy_use.
Definition uid_given := uid_given cfg toy_crypt toy_pub toy_ots toy_gcm toy_dec 100 toy_aes toy_cbc toy_cbc toy_cmac toy_use.
Definition image_sent := image_sent cfg toy_crypt toy_pub toy_ots toy_gcm toy_dec 100 toy_aes toy_cbc toy_cbc toy_cmac toy_use.
Definition env : senv := mkSenv true (fun _ => OK) OK true true (repeat 0 16).
Definition req (c : N) (q : sreq) : hev := HShe 0 c env q.
Definition obj (c s : N) (d : list N) : meta * list N := (mkMeta (she_id cfg c s) 0 0 (N.of_nat (length d)) (repeat 0 24), d).
Definition start (st : store) : hsys := fresh_hsys st 4 1.
Definition answer (n : nat) (evs : list hev) (Y : hsys) : option sresp :=
  match skipn n evs with ev :: _ => fst (step ev (after (firstn n evs) Y)) | [] => None end.
Definition code (n : nat) (evs : list hev) (Y : hsys) : Z := match answer n evs Y with Some a => sr_rc a | None => 1%Z end.

Definition bkey : list N := [1; 2; 3; 4; 5; 6; 7; 8; 9; 10; 11; 12; 13; 14; 15; 16].
Definition img : list N := [10; 20; 30; 40; 50].
Definition st_boot : store := [obj 1 SLOT_BOOT_MAC_KEY bkey; obj 1 SLOT_BOOT_MAC (toy_cmac bkey (boot_prefix 5 ++ img))].
Lemma sane_obj c s d st : nvm_sane st -> nvm_sane (obj c s d :: st).
Proof.
  intros H id m x NZ F. unfold sp_find in F. cbn [find obj fst m_id] in F.
  match type of F with (if ?b then _ else _) = _ => destruct b end; [injection F as <- <-; reflexivity|]. eapply H; eauto.
Qed.
Lemma sane_nil : nvm_sane []. Proof. intros id m d _ F. discriminate. Qed.

(** C37, C38: a boot in two chunks; commands before and after. *)
Definition boot : list hev :=
  [req 1 (SSetUid [9]); req 1 (SBootInit 5); req 1 (SBootUpdate [10; 20]); req 1 (SBootUpdate [30; 40; 50]); req 1 SBootFinish].
Example ex_C37_before : open_command (SLoadPlain bkey) = false /\ booted 0 (firstn 4 boot) (start st_boot) false = false /\
  code 4 (firstn 4 boot ++ [req 1 (SLoadPlain bkey)]) (start st_boot) = SEQUENCE_ERROR.
Proof. repeat split; vm_compute; reflexivity. Qed.
Example ex_C37_after : booted 0 boot (start st_boot) false = true /\ uid_given 0 boot (start st_boot) None = Some (9 :: repeat 0 14) /\
  code 5 (boot ++ [req 1 (SLoadPlain bkey)]) (start st_boot) = OK /\
  answer 5 (boot ++ [req 1 SStatus]) (start st_boot) = Some (mkSr OK 26 []) /\
  code 5 (boot ++ [req 1 (SSetUid [8])]) (start st_boot) = SEQUENCE_ERROR.
Proof. repeat split; vm_compute; reflexivity. Qed.
Example ex_C38 : nvm_sane st_boot /\ code 4 boot (start st_boot) = OK /\
  image_sent 0 (firstn 4 boot) (start st_boot) None = Some (5, bkey, img) /\
  booted 0 (firstn 4 boot) (start st_boot) false = false /\ booted 0 (firstn 4 boot ++ [req 1 SBootFinish]) (start st_boot) false = true.
Proof. split; [repeat apply sane_obj; apply sane_nil|]. repeat split; vm_compute; reflexivity. Qed.
(** One wrong byte. *)
Example ex_C38_wrong : code 4 (firstn 2 boot ++ [req 1 (SBootUpdate [10; 21]); req 1 (SBootUpdate [30; 40; 50]); req 1 SBootFinish]) (start st_boot) = GENERAL_ERROR.
Proof. vm_compute; reflexivity. Qed.

(** A boot MAC key of the wrong size counts as none: the boot is skipped. *)
Theorem C38_wrong_size_key_refuted : exists st evs o, nvm_sane st /\
  slot_key cfg (start st) 0 1 SLOT_BOOT_MAC_KEY = Some o /\ evs = [req 1 (SSetUid [9]); req 1 (SBootInit 5)] /\
  booted 0 evs (start st) false = true /\ code 2 (evs ++ [req 1 (SLoadPlain bkey)]) (start st) = OK.
Proof.
  exists [obj 1 SLOT_BOOT_MAC_KEY (bkey ++ bkey); obj 1 SLOT_BOOT_MAC bkey]. do 2 eexists.
  split; [repeat apply sane_obj; apply sane_nil|]. split; [vm_compute; reflexivity|]. split; [reflexivity|]. split; vm_compute; reflexivity.
Qed.
(** So does one whose read fails. *)
Definition bad_read : senv := mkSenv true (fun _ => ABORTED) OK true true (repeat 0 16).
Theorem C38_read_failure_refuted : exists evs, nvm_sane st_boot /\
  slot_key cfg (start st_boot) 0 1 SLOT_BOOT_MAC_KEY = Some (obj 1 SLOT_BOOT_MAC_KEY bkey) /\ evs = [req 1 (SSetUid [9]); HShe 0 1 bad_read (SBootInit 5)] /\
  booted 0 evs (start st_boot) false = true /\ code 2 (evs ++ [req 1 (SLoadPlain bkey)]) (start st_boot) = OK.
Proof.
  eexists. split; [repeat apply sane_obj; apply sane_nil|]. split; [vm_compute; reflexivity|]. split; [reflexivity|]. split; vm_compute; reflexivity.
Qed.
(** The boot state belongs to the server context, not to the client: after client
    2, who has no boot MAC key, skipped the boot, client 1's commands are served. *)
Theorem C38_other_client_refuted : exists evs, nvm_sane st_boot /\
  slot_key cfg (start st_boot) 0 1 SLOT_BOOT_MAC_KEY = Some (obj 1 SLOT_BOOT_MAC_KEY bkey) /\ evs = [req 2 (SSetUid [9]); req 2 (SBootInit 5)] /\
  code 2 (evs ++ [req 1 (SUse OGenMac SLOT_BOOT_MAC_KEY [1])]) (start st_boot) = OK.
Proof.
  eexists. split; [repeat apply sane_obj; apply sane_nil|]. split; [vm_compute; reflexivity|]. split; [reflexivity|]. vm_compute; reflexivity.
Qed.
(** Of a stored boot MAC of fewer than 16 bytes the rest is compared with what the
    stack holds: an image can pass whose MAC is not stored. *)
Definition stack : senv := mkSenv true (fun _ => OK) OK true true (toy_cmac bkey (boot_prefix 5 ++ [99; 20; 30; 40; 50])).
Definition st_short : store := [obj 1 SLOT_BOOT_MAC_KEY bkey; obj 1 SLOT_BOOT_MAC (firstn 1 (toy_cmac bkey (boot_prefix 5 ++ img)))].
Theorem C38_short_mac_refuted : exists evs, nvm_sane st_short /\
  evs = firstn 2 boot ++ [req 1 (SBootUpdate [99; 20; 30; 40; 50])] /\
  image_sent 0 evs (start st_short) None = Some (5, bkey, [99; 20; 30; 40; 50]) /\
  slot_key cfg (after evs (start st_short)) 0 1 SLOT_BOOT_MAC = Some (obj 1 SLOT_BOOT_MAC [mix bkey]) /\
  code 3 (evs ++ [HShe 0 1 stack SBootFinish]) (start st_short) = OK.
Proof.
  eexists. split; [repeat apply sane_obj; apply sane_nil|]. split; [reflexivity|]. repeat split; vm_compute; reflexivity.
Qed.
End SheExamples.
Print Assumptions C37_gated.
Print Assumptions C37_served.
Print Assumptions C37_status.
Print Assumptions C37_uid_once.
Print Assumptions C37_uid_stays.
Print Assumptions C38_finish_sound.
Print Assumptions C38_boot_only_partial.
