(** Properties C87, C88 and C89: the key and key wrap calls of the client, on
    bytes, against the key system of KsSys.v.

    The caller's machine has either byte order, the server is little endian.
    KycModel.v has the calls, KycSpec.v the vocabulary: [meant] is the request a
    call stands for, [told] what the caller finds, [memory] the client's memory
    afterwards. *)
From Verif Require Import Base BaseLemmas NvmSpec Flags KeyId Store NvmReqModel CounterModel KdfModel KsModel KsCache KsReq KsEff KsStep KsSys KsSysProof KsSpec KsKeep KsResp
  NvcModel NvcSpec NvcProof PropertiesUse PropertiesKeys PropertiesWrap KycModel KycSpec KycCode KycProof.

Section Props.
Variable DL : nat.
Variable C : kscfg.
Variable crypt : cop -> list N -> list N -> Z * list N.
Variable pub : N -> list N -> Z * list N.
Variable ots : list N -> list N -> option (list N * list N).
Variable gcm_enc : list N -> list N -> N -> list N -> option (list N).
Variable gcm_dec : list N -> list N -> N -> list N -> option (list N).
Variable she_count : list N -> N.
Variable mx : nat.
Variable GCM : N.
Notation step := (sys_step C crypt pub ots gcm_enc gcm_dec she_count mx).
Notation after := (sys_after C crypt pub ots gcm_enc gcm_dec she_count mx).
Notation ok := (reachable C crypt pub ots gcm_enc gcm_dec she_count mx).
Notation key_of := (key_of C).
Notation cached := (cached C).
Notation key_now := (key_now C).
Notation kek_bytes := (kek_bytes C).
(** The call [c] of client number [client], byte order [cb], connected to
    server context [i]. *)
Notation call := (kcall_sys DL C crypt pub ots gcm_enc gcm_dec she_count GCM).
Notation device := (device DL C pub gcm_enc gcm_dec GCM).

(** ** C87 *)
(** A call does to the keys what the request for its own arguments does, and
    the caller finds that request's answer. *)
Theorem C87_call : forall cb i client c e L mem Y r Y',
  device -> ok Y -> typed c -> env32 e -> sendable DL C c -> l_send L = OK -> l_recv L = OK ->
  (exports_wrapped c = true -> labels24 C (ks_of Y i)) -> (wraps c = true -> v_lock e = OK) ->
  step (SKey i client (seen_by c mem e) (meant DL c)) Y = (Some r, Y') ->
  call cb i client c e L mem Y = (told c r, memory c r mem, Y').
Proof.
  intros cb i client c e L mem Y r Y' (BO & AC & GU & NZ & PB) R T EN SE LS LR LB LK H. cbn [sys_step] in H.
  destruct (ks_step _ _ _ _ _ _ _ _ client _ (ks_of Y i)) as [r0 S1] eqn:E. injection H as <- <-.
  destruct (reachable_ok _ _ _ _ _ _ _ _ _ R i) as [W G]. unfold kcall_sys. erewrite call_ks; eauto.
  pose proof (step32 DL C crypt pub ots gcm_enc gcm_dec she_count (seen_by c mem e) client c (ks_of Y i) EN PB) as X. rewrite E in X. exact X.
Qed.
(** A call that cannot be sent is refused on the spot, and nothing happens. *)
Lemma put_same Y i : put_ks Y i (ks_of Y i) = mkSys (y_st Y) (y_glob Y) (fun x => if Nat.eqb x i then y_loc Y i else y_loc Y x).
Proof. reflexivity. Qed.
Definition same (Y Y' : sys) : Prop := y_st Y' = y_st Y /\ y_glob Y' = y_glob Y /\ forall x, y_loc Y' x = y_loc Y x.
Lemma put_back Y i : same Y (put_ks Y i (ks_of Y i)).
Proof. rewrite put_same. repeat split. intros x. cbn [y_loc]. destruct (Nat.eqb_spec x i) as [->|]; auto. Qed.
Theorem C87_refused : forall cb i client c e L mem Y o mem' Y',
  ~ sendable DL C c -> call cb i client c e L mem Y = (o, mem', Y') -> o = fails BADARGS /\ mem' = mem /\ same Y Y'.
Proof.
  intros cb i client c e L mem Y o mem' Y' SE H. unfold kcall_sys in H. rewrite call_refused in H by auto. injection H as <- <- <-.
  repeat (split; [reflexivity|]). apply put_back.
Qed.
(** A call whose packet is not sent changes nothing; one whose answer is lost
    reports that, although the server has done its work. *)
Theorem C87_unsent : forall cb i client c e L mem Y o mem' Y',
  device -> sendable DL C c -> l_send L <> OK -> call cb i client c e L mem Y = (o, mem', Y') ->
  o = fails (l_send L) /\ mem' = mem /\ same Y Y'.
Proof.
  intros cb i client c e L mem Y o mem' Y' (BO & _) SE LS H. unfold kcall_sys in H. rewrite call_unsent in H by auto. injection H as <- <- <-.
  repeat (split; [reflexivity|]). apply put_back.
Qed.
Theorem C87_unheard : forall cb i client c e L mem Y r Y',
  device -> typed c -> sendable DL C c -> l_send L = OK -> l_recv L <> OK ->
  step (SKey i client (seen_by c mem e) (meant DL c)) Y = (Some r, Y') ->
  call cb i client c e L mem Y = (fails (l_recv L), memory c r mem, Y').
Proof.
  intros cb i client c e L mem Y r Y' (BO & AC & GU & _) T SE LS LR H. cbn [sys_step] in H.
  destruct (ks_step _ _ _ _ _ _ _ _ client _ (ks_of Y i)) as [r0 S1] eqn:E. injection H as <- <-. unfold kcall_sys. erewrite call_unheard; eauto.
Qed.
(** A call that fails, for whatever reason, leaves the caller's variables and
    buffers alone; only wh_Client_KeyExport writes the label buffer when the
    key does not fit the key buffer. *)
Theorem C87_failed : forall cb i client c e L mem Y o mem' Y',
  call cb i client c e L mem Y = (o, mem', Y') -> o_rc o <> OK ->
  o_num o = None /\ o_data o = None /\ o_meta o = None /\ (o_label o <> [] -> exists id lcap cap, c = CExport id lcap cap /\ o_rc o = ABORTED).
Proof.
  intros cb i client c e L mem Y o mem' Y' H O.
  assert (F : forall rc, o = fails rc -> o_num o = None /\ o_data o = None /\ o_meta o = None /\ (o_label o <> [] -> exists id lcap cap, c = CExport id lcap cap /\ o_rc o = ABORTED)).
  { intros rc ->. repeat split. intros X. contradiction X. reflexivity. }
  unfold kcall_sys in H. destruct (kcall_ks _ _ _ _ _ _ _ _ _ cb client c e L mem (ks_of Y i)) as [[o0 m0] S0] eqn:E. injection H as <- <- <-.
  unfold kcall_ks in E. destruct (krequest DL C GCM cb (l_pad L) c) as [p|]; [|injection E as <- _ _; eapply F; reflexivity].
  destruct (negb (is_ok (l_send L))); [injection E as <- _ _; eapply F; reflexivity|].
  destruct (kserve _ _ _ _ _ _ _ _ _ _ _ _ _ _ _ _) as [[resp m1] S1]. destruct (is_ok (l_recv L)); [|injection E as <- _ _; eapply F; reflexivity].
  injection E as <- _ _. revert O F. clear. unfold kresponse, sized.
  assert (B : forall w off cap, o_rc (gives_blob GCM cb w off cap resp) <> OK -> gives_blob GCM cb w off cap resp = fails (o_rc (gives_blob GCM cb w off cap resp))).
  { intros w off cap. unfold gives_blob. cbv zeta. destruct (_ || _); [reflexivity|]. destruct (negb (is_ok _)); [reflexivity|]. destruct (_ <? _); [reflexivity|]. intros X. contradiction X. reflexivity. }
  assert (D : forall ws p, o_rc (gives_id cb ws p) <> OK -> gives_id cb ws p = fails (o_rc (gives_id cb ws p))).
  { intros ws p. unfold gives_id. cbv zeta. destruct (negb (is_ok _)); [reflexivity|]. intros X. contradiction X. reflexivity. }
  destruct c; intros O F; try (destruct (length resp <? _); [eapply F; reflexivity|]).
  all: try (eapply F; apply D; exact O). all: try (eapply F; apply B; exact O). all: try (eapply F; reflexivity).
  - destruct (negb _); [eapply F; reflexivity|]. eapply F; apply D; exact O.
  - destruct (negb _); [eapply F; reflexivity|]. cbv zeta in *. destruct (negb (is_ok _)); [eapply F; reflexivity|]. contradiction O. reflexivity.
  - unfold gives_key in *. cbv zeta in *. destruct (negb (is_ok _)); [eapply F; reflexivity|]. destruct (_ - 36 <? _); [eapply F; reflexivity|].
    destruct cap as [n|]; [|contradiction O; reflexivity]. destruct (n <? _); [|contradiction O; reflexivity]. repeat split. intros _. eauto.
  - unfold gives_key in *. cbv zeta in *. destruct (negb (is_ok _)); [eapply F; reflexivity|]. destruct (_ - 36 <? _); [eapply F; reflexivity|].
    destruct cap as [n|]; [|contradiction O; reflexivity]. destruct (n <? _); [eapply F; reflexivity|contradiction O; reflexivity].
  - cbv zeta in *. destruct (is_ok (o_rc (gives_blob GCM cb 2 40 cap resp))) eqn:K; [contradiction O; reflexivity|]. eapply F. apply B. exact O.
  - destruct (N.eqb _ GCM); [|eapply F; reflexivity]. eapply F. apply D. exact O.
Qed.
(** A key wrap call reports ABORTED, not the code, when the server could not
    take its lock: the cipher type is looked at before the code. *)
Theorem C87_lock_code_refuted : forall cb i client c e L mem Y o mem' Y',
  device -> typed c -> env32 e -> sendable DL C c -> l_send L = OK -> l_recv L = OK -> wraps c = true -> v_lock e <> OK ->
  call cb i client c e L mem Y = (o, mem', Y') -> o = fails ABORTED /\ mem' = mem /\ same Y Y'.
Proof.
  intros cb i client c e L mem Y o mem' Y' (BO & AC & GU & NZ & PB) T EN SE LS LR W LK H. unfold kcall_sys in H.
  rewrite call_locked in H; auto; [|apply EN]. injection H as <- <- <-. repeat (split; [reflexivity|]). apply put_back.
Qed.

(** ** C88 *)
Lemma reach_after evs Y : ok Y -> ok (after evs Y).
Proof.
  revert Y. induction evs as [|ev evs IH]; intros Y R; [exact R|]. unfold sys_after in *. cbn [sys_run]. destruct (step ev Y) as [a Y1] eqn:E.
  specialize (IH Y1 (reachable_step _ _ _ _ _ _ _ _ _ _ _ _ R E)). destruct (sys_run _ _ _ _ _ _ _ _ evs Y1) as [rs Y2]. exact IH.
Qed.
(** Success of a call: the server has done what it stands for. *)
Lemma call_done cb i client c e L mem Y o mem' Y' :
  device -> ok Y -> typed c -> env32 e -> (exports_wrapped c = true -> labels24 C (ks_of Y i)) ->
  call cb i client c e L mem Y = (o, mem', Y') -> o_rc o = OK ->
  exists r, step (SKey i client (seen_by c mem e) (meant DL c)) Y = (Some r, Y') /\ r_rc r = OK /\ o = told c r /\ mem' = memory c r mem.
Proof.
  intros (BO & AC & GU & NZ & PB) R T EN LB H O. destruct (reachable_ok _ _ _ _ _ _ _ _ _ R i) as [W G]. unfold kcall_sys in H.
  destruct (kcall_ks _ _ _ _ _ _ _ _ _ cb client c e L mem (ks_of Y i)) as [[o0 m0] S0] eqn:E. injection H as <- <- <-.
  destruct (call_ok DL C crypt pub ots gcm_enc gcm_dec she_count BO AC GCM cb GU PB _ _ _ _ _ _ _ _ _ W G LB T EN E O) as (r & ST & RO & -> & -> & _).
  exists r. cbn [sys_step]. rewrite ST. auto.
Qed.
Lemma label_same l : padded (firstn 24 (firstn 24 (firstn 24 l ++ repeat 0%N 24))) = padded (firstn 24 l).
Proof.
  rewrite firstn_firstn. cbn [Nat.min]. change (firstn 24 (firstn 24 l ++ repeat 0%N 24)) with (exactly 24 (firstn 24 l)).
  rewrite exactly_padded. rewrite firstn_firstn. cbn [Nat.min]. assert (L : length (padded (firstn 24 l)) = 24) by (unfold padded; rewrite app_length, repeat_length, firstn_length; lia).
  unfold padded at 1. rewrite L. cbn [Nat.sub repeat]. apply app_nil_r.
Qed.
Lemma asked_flags k fl lb d : has fl F_NONEXPORTABLE = false ->
  has (m_flags (asked_meta k fl lb d)) F_NONEXPORTABLE = false /\ has (m_flags (asked_meta k fl lb d)) F_TRUSTED = false.
Proof.
  intros H. cbn [asked_meta m_flags]. split; [|apply has_clear_self]. change F_NONEXPORTABLE with (2 ^ 2)%N in *. rewrite has_pow2 in *.
  rewrite N.ldiff_spec, N.land_spec, H. reflexivity.
Qed.
(** An export of a key the server sees. *)
Lemma export_gives cb i client id e L mem Y k fl lb d lcap cap :
  device -> ok Y -> u16 id -> id <> 0%N -> env32 e -> v_lock e = OK -> l_send L = OK -> l_recv L = OK ->
  key_of client id = k -> d <> [] -> length d <= DL - 36 -> length d <= cap -> has fl F_NONEXPORTABLE = false ->
  fst (step (SKey i client (seen_by (CExport id lcap (Some cap)) mem e) (KExport id)) Y) = Some (mkKr OK 0 (Some (asked_meta k fl (firstn 24 lb) d)) d) ->
  exists Y', call cb i client (CExport id lcap (Some cap)) e L mem Y = (exported d lb lcap, mem, Y').
Proof.
  intros D R U NZ EN LK LS LR KO ND L1 L2 FL H.
  destruct (step (SKey i client (seen_by (CExport id lcap (Some cap)) mem e) (KExport id)) Y) as [r0 Y'] eqn:E. cbn [fst] in H. subst r0. exists Y'.
  rewrite (C87_call cb i client (CExport id lcap (Some cap)) e L mem Y (mkKr OK 0 (Some (asked_meta k fl (firstn 24 lb) d)) d) Y' D R U EN NZ LS LR); [|discriminate|discriminate|exact E].
  unfold told, memory, exported, label_of. cbn [r_rc r_data r_meta asked_meta m_label]. change (Z.eqb OK OK) with true. cbn [negb].
  destruct (Nat.ltb_spec cap (length d)); [lia|]. rewrite label_same. reflexivity.
Qed.

(** A key cached by one call is exported by another, byte for byte and with its
    label, whatever happens in between that does not replace, change or evict
    it; the two clients may have different byte orders. *)
Theorem C88_cached_then_exported : forall cb i client c e L mem Y o mem1 Y1 id fl lb d,
  device -> ok Y -> typed c -> env32 e -> asked c mem e = Some (id, fl, lb, d) ->
  (1 <= client <= 15)%N -> kid_type (key_of client id) = KT_CRYPTO ->
  call cb i client c e L mem Y = (o, mem1, Y1) -> o_rc o = OK ->
  exists id', o_num o = Some id' /\ mem1 = mem /\ (kid_id (key_of client id) <> 0%N -> key_of client id' = key_of client id) /\
  forall evs cb2 client2 id2 e2 L2 mem2 lcap cap,
    Forall (leaves_cached_key C i (key_of client id')) evs -> key_of client2 id2 = key_of client id' ->
    u16 id2 -> id2 <> 0%N -> env32 e2 -> v_lock e2 = OK -> l_send L2 = OK -> l_recv L2 = OK ->
    d <> [] -> length d <= DL - 36 -> length d <= cap -> has fl F_NONEXPORTABLE = false ->
    exists Y', call cb2 i client2 (CExport id2 lcap (Some cap)) e2 L2 mem2 (after evs Y1) = (exported d lb lcap, mem2, Y').
Proof.
  intros cb i client c e L mem Y o mem1 Y1 id fl lb d D R T EN AS HC KT H O.
  destruct (call_done _ _ _ _ _ _ _ _ _ _ _ D R T EN ltac:(destruct c; discriminate) H O) as (r & ST & RO & -> & ->).
  assert (PI : put_id (meant DL c) = Some id) by (destruct c; try discriminate; cbn [asked] in AS; injection AS as <- _ _ _; reflexivity).
  pose proof (C24_cached_key_stays C crypt pub ots gcm_enc gcm_dec she_count mx Y i client _ _ _ _ _ R ST RO PI HC KT) as X. cbv zeta in X.
  destruct X as (KT' & NZ' & _ & SAME & KEEP).
  exists (r_id r). split; [unfold told; rewrite RO; change (Z.eqb OK OK) with true; destruct c; try discriminate; reflexivity|].
  split; [destruct c; try discriminate; reflexivity|]. split; [exact SAME|].
  intros evs cb2 client2 id2 e2 L2 mem2 lcap cap FE KO U NZ EN2 LK LS LR ND L1 L2' FL.
  assert (AK : asked_key (seen_by c mem e) (meant DL c) (key_of client (r_id r)) = Some (asked_meta (key_of client (r_id r)) fl (firstn 24 lb) d, d)).
  { destruct c; try discriminate; cbn [asked meant asked_key seen_by place_of] in *; injection AS as <- <- <- <-; auto.
    destruct T as (_ & _ & T3 & _). unfold u16 in T3. replace (sz <? 65536)%N with true by (symmetry; apply N.ltb_lt; exact T3). reflexivity. }
  pose proof (KEEP _ _ evs AK FE) as KN.
  assert (R2 : ok (after evs Y1)) by (apply reach_after; eapply reachable_step; eauto).
  destruct (asked_flags (key_of client (r_id r)) fl (firstn 24 lb) d FL) as [F1 F2].
  pose proof D as ((_ & _ & EM & _) & _).
  apply (export_gives cb2 i client2 id2 e2 L2 mem2 _ (key_of client (r_id r)) fl lb d); auto.
  eapply C24_seen_is_exported; eauto. rewrite EM. lia.
Qed.
(** Once committed it survives restarts as well. *)
Theorem C88_committed_then_exported : forall cb i client c e L mem Y o mem1 Y1 id fl lb d,
  device -> ok Y -> typed c -> env32 e -> asked c mem e = Some (id, fl, lb, d) ->
  (1 <= client <= 15)%N -> kid_type (key_of client id) = KT_CRYPTO ->
  call cb i client c e L mem Y = (o, mem1, Y1) -> o_rc o = OK ->
  exists id', o_num o = Some id' /\
  forall evs1 cb2 client2 id2 e2 L2 mem2 o2 mem3 Y2,
    Forall (leaves_cached_key C i (key_of client id')) evs1 -> key_of client2 id2 = key_of client id' -> u16 id2 -> env32 e2 ->
    call cb2 i client2 (CCommit id2) e2 L2 mem2 (after evs1 Y1) = (o2, mem3, Y2) -> o_rc o2 = OK ->
  forall evs2 cb3 client3 id3 e3 L3 mem4 lcap cap,
    Forall (leaves_key C i (key_of client id')) evs2 -> key_of client3 id3 = key_of client id' ->
    u16 id3 -> id3 <> 0%N -> env32 e3 -> v_lock e3 = OK -> l_send L3 = OK -> l_recv L3 = OK ->
    d <> [] -> length d <= DL - 36 -> length d <= cap -> has fl F_NONEXPORTABLE = false ->
    exists Y', call cb3 i client3 (CExport id3 lcap (Some cap)) e3 L3 mem4 (after evs2 Y2) = (exported d lb lcap, mem4, Y').
Proof.
  intros cb i client c e L mem Y o mem1 Y1 id fl lb d D R T EN AS HC KT H O.
  destruct (call_done _ _ _ _ _ _ _ _ _ _ _ D R T EN ltac:(destruct c; discriminate) H O) as (r & ST & RO & -> & ->).
  assert (PI : put_id (meant DL c) = Some id) by (destruct c; try discriminate; cbn [asked] in AS; injection AS as <- _ _ _; reflexivity).
  pose proof (C24_cached_key_stays C crypt pub ots gcm_enc gcm_dec she_count mx Y i client _ _ _ _ _ R ST RO PI HC KT) as X. cbv zeta in X.
  destruct X as (KT' & NZ' & _ & _ & KEEP).
  exists (r_id r). split; [unfold told; rewrite RO; change (Z.eqb OK OK) with true; destruct c; try discriminate; reflexivity|].
  assert (AK : asked_key (seen_by c mem e) (meant DL c) (key_of client (r_id r)) = Some (asked_meta (key_of client (r_id r)) fl (firstn 24 lb) d, d)).
  { destruct c; try discriminate; cbn [asked meant asked_key seen_by place_of] in *; injection AS as <- <- <- <-; auto.
    destruct T as (_ & _ & T3 & _). unfold u16 in T3. replace (sz <? 65536)%N with true by (symmetry; apply N.ltb_lt; exact T3). reflexivity. }
  intros evs1 cb2 client2 id2 e2 L2 mem2 o2 mem3 Y2 FE1 KO2 U2 EN2 H2 O2.
  pose proof (KEEP _ _ evs1 AK FE1) as KN.
  assert (R1 : ok (after evs1 Y1)) by (apply reach_after; eapply reachable_step; eauto).
  destruct (call_done cb2 i client2 (CCommit id2) _ _ _ _ _ _ _ D R1 U2 EN2 (fun X => ltac:(discriminate X)) H2 O2) as (r2 & ST2 & RO2 & _ & _). cbn [meant] in ST2.
  intros evs2 cb3 client3 id3 e3 L3 mem4 lcap cap FE2 KO3 U3 NZ3 EN3 LK3 LS LR ND L1 L2' FL.
  assert (R2 : ok (after evs2 Y2)) by (apply reach_after; eapply reachable_step; eauto).
  destruct (asked_flags (key_of client (r_id r)) fl (firstn 24 lb) d FL) as [F1 F2].
  pose proof D as ((_ & _ & EM & _) & _).
  apply (export_gives cb3 i client3 id3 e3 L3 mem4 _ (key_of client (r_id r)) fl lb d); auto.
  eapply C23_committed_key_readable; [exact R1|exact ST2|exact RO2|rewrite KO2; auto|rewrite KO2; auto|rewrite KO2; exact KN|congruence|auto|auto| |auto|auto].
  rewrite EM. lia.
Qed.
Ltac lock E e := unfold ks_step in E; destruct (is_ok (v_lock e)) eqn:?LK; cbn [negb] in E;
  [|exfalso; injection E as <- _; cbn [rrc r_rc] in *; match goal with X : is_ok (v_lock e) = false |- _ => apply is_ok_false in X; contradiction end].
Ltac refuse E := exfalso; injection E as <- _; cbn [rrc r_rc] in *; (discriminate || congruence).
(** Whatever a successful export hands out, to the output buffer or by DMA to
    client memory, is the key the server holds under that id at that time; a
    DMA export writes exactly its bytes at the address given, no more than the
    size given, and nothing else. *)
Lemma export_read client id e Y i r Y' : ok Y -> step (SKey i client e (KExport id)) Y = (Some r, Y') -> r_rc r = OK ->
  kid_type (key_of client id) = KT_CRYPTO -> exists m, r_meta r = Some m /\ key_now Y i (key_of client id) = Some (m, r_data r).
Proof.
  intros R H O KT. cbn [sys_step] in H. destruct (ks_step _ _ _ _ _ _ _ e client _ (ks_of Y i)) as [r0 S1] eqn:E. injection H as <- _.
  destruct (reachable_ok _ _ _ _ _ _ _ _ _ R i) as [W [GS GV]]. lock E e. unfold h_export in E.
  destruct (read_key_checked C (ks_of Y i) _ (exp_max C)) as [[[rc S2] m] d] eqn:RK. destruct (is_ok rc) eqn:K.
  2:{ exfalso. injection E as <- _. apply is_ok_false in K. contradiction. }
  injection E as <- _. apply is_ok_iff in K. subst rc. exists m. split; [reflexivity|]. cbn [r_data].
  change (from_client (kc C) KT_CRYPTO client id) with (key_of client id) in RK. set (k := key_of client id) in *. rewrite now_seen. unfold seen.
  unfold read_key_checked in RK. destruct (is_ok (check_ks C OpExport (ks_of Y i) k)) eqn:K1; [|exfalso; injection RK as X _ _ _; apply is_ok_false in K1; contradiction].
  unfold read_key in RK. destruct (kid_unassigned k) eqn:UA; [discriminate|]. destruct (hwkey C k); [discriminate|].
  assert (NZ : k <> 0%N) by (intros Z; rewrite Z in UA; discriminate).
  destruct (find_cache C (ks_of Y i) k) as [s|] eqn:V; [destruct (_ <? _)%N; [discriminate|]; injection RK as _ <- <-; auto|].
  destruct (kid_wrapped k); [discriminate|]. destruct (sp_find (k_st (ks_of Y i)) k) as [[m0 d0]|] eqn:F.
  - destruct (_ <? _)%N; [discriminate|]. rewrite (read_whole _ _ _ _ GS NZ F) in RK. destruct (0 <? length d0); [|discriminate].
    change (negb (is_ok OK)) with false in RK. cbv iota in RK. destruct (_ && _); [injection RK as _ <- <-; auto|]. destruct (cache_key C false _ m0 d0) as [rc1 S3]. injection RK as _ <- <-. auto.
  - rewrite KT in RK. change (N.eqb KT_CRYPTO KT_SHE) with false in RK. rewrite andb_false_r in RK. discriminate.
Qed.
Lemma export_dma_read client id sz e Y i r Y' : ok Y -> step (SKey i client e (KExportDma id sz)) Y = (Some r, Y') -> r_rc r = OK ->
  exists m, r_meta r = Some m /\ key_now Y i (key_of client id) = Some (m, r_data r) /\ (N.of_nat (length (r_data r)) <= sz)%N.
Proof.
  intros R H O. cbn [sys_step] in H. destruct (ks_step _ _ _ _ _ _ _ e client _ (ks_of Y i)) as [r0 S1] eqn:E. injection H as <- _.
  destruct (reachable_ok _ _ _ _ _ _ _ _ _ R i) as [W G]. lock E e. unfold h_export_dma in E. cbv zeta in E.
  destruct (is_ok (check_ks _ _ _ _)) eqn:K1; cbn [negb] in E; [|exfalso; injection E as <- _; apply is_ok_false in K1; contradiction].
  change (from_client (kc C) KT_CRYPTO client id) with (key_of client id) in E. set (k := key_of client id) in *.
  destruct (freshen C (ks_of Y i) k) as [rc S2] eqn:F. destruct (is_ok rc) eqn:K; cbn [negb] in E; [|exfalso; injection E as <- _; apply is_ok_false in K; contradiction].
  apply is_ok_iff in K. subst rc. destruct (freshen_eff _ _ _ _ _ W G F) as (W1 & T1 & FR & OKF & _). destruct (OKF eq_refl) as (U & _ & CASES).
  assert (NZ : k <> 0%N) by (intros Z; rewrite Z in U; discriminate). rewrite now_seen. unfold seen.
  destruct (find_cache C S2 k) as [s|] eqn:V; [|refuse E]. destruct (N.ltb_spec sz (m_len (sl_meta s))); [refuse E|].
  destruct (is_ok (v_dma e)) eqn:K2; cbn [negb] in E; [|exfalso; injection E as <- _; apply is_ok_false in K2; contradiction].
  injection E as <- _. exists (sl_meta s). cbn [r_meta r_data].
  assert (G1 : good C S2) by (apply (fr_good C (ks_of Y i) S2); auto).
  split; [reflexivity|]. split; [|rewrite <- (proj2 G1 k s NZ V); auto].
  destruct CASES as [(s0 & V0 & ->)|(V0 & _ & m & d & NV & _ & V1)].
  - unfold find_cache in *. rewrite V0 in *. congruence.
  - rewrite V0. rewrite NV. injection V1 as ->. reflexivity.
Qed.
Theorem C88_exported_is_held : forall cb i client id lcap cap e L mem Y o mem' Y',
  device -> ok Y -> u16 id -> env32 e -> kid_type (key_of client id) = KT_CRYPTO ->
  call cb i client (CExport id lcap (Some cap)) e L mem Y = (o, mem', Y') -> o_rc o = OK ->
  exists m d, key_now Y i (key_of client id) = Some (m, d) /\ o = exported d (m_label m) lcap /\ mem' = mem.
Proof.
  intros cb i client id lcap cap e L mem Y o mem' Y' D R U EN KT H O.
  destruct (call_done cb i client (CExport id lcap (Some cap)) _ _ _ _ _ _ _ D R U EN (fun X => ltac:(discriminate X)) H O) as (r & ST & RO & EO & ->). cbn [meant] in ST.
  destruct (export_read _ _ _ _ _ _ _ R ST RO KT) as (m & EM & KN). exists m, (r_data r). split; [exact KN|]. split; [|reflexivity]. rewrite EO in *.
  unfold told in *. rewrite RO in *. change (Z.eqb OK OK) with true in *. cbn [negb] in *. destruct (_ <? _); [discriminate|].
  unfold exported, label_of. rewrite EM. reflexivity.
Qed.
Theorem C88_exported_by_dma : forall cb i client id addr sz lcap e L mem Y o mem' Y',
  device -> ok Y -> typed (CExportDma id addr sz lcap) -> env32 e ->
  call cb i client (CExportDma id addr sz lcap) e L mem Y = (o, mem', Y') -> o_rc o = OK ->
  exists m d, key_now Y i (key_of client id) = Some (m, d) /\ (N.of_nat (length d) <= sz)%N /\ o_num o = Some (N.of_nat (length d)) /\
    o_label o = firstn (Nat.min lcap 24) (padded (firstn 24 (m_label m))) /\
    mem' = firstn (N.to_nat addr) mem ++ d ++ skipn (N.to_nat addr + length d) mem.
Proof.
  intros cb i client id addr sz lcap e L mem Y o mem' Y' D R T EN H O.
  destruct (call_done cb i client (CExportDma id addr sz lcap) _ _ _ _ _ _ _ D R T EN (fun X => ltac:(discriminate X)) H O) as (r & ST & RO & -> & ->). cbn [meant] in ST.
  destruct (export_dma_read _ _ _ _ _ _ _ _ R ST RO) as (m & EM & KN & LE). exists m, (r_data r). split; [exact KN|]. split; [exact LE|].
  unfold told, memory, label_of. rewrite RO, EM. change (Z.eqb OK OK) with true. cbn [negb o_num o_label]. auto.
Qed.

(** ** C89 *)
Lemma bytes_given c cap r : r_rc r = OK -> (negb (Z.eqb (r_rc r) OK) = false -> told c r = bytes_to cap r) -> o_rc (told c r) = OK ->
  told c r = mkKo OK (Some (N.of_nat (length (r_data r)))) (Some (r_data r)) [] (r_meta r).
Proof. intros RO E. rewrite E by (rewrite RO; reflexivity). unfold bytes_to. destruct (cap <? length (r_data r)); [discriminate|auto]. Qed.
(** A key wrapped by one call comes back from the unwrap calls, with its
    metadata, to a client of any byte order on a server that holds the same
    key-encryption key. *)
Theorem C89_wrapped_then_unwrapped : forall cb i client kek key m cap e L mem Y o mem1 Y1 blob,
  device -> aead_contract gcm_enc gcm_dec -> ok Y -> typed (CWrap kek key m cap) -> bytes_ok (m_label m) -> env32 e ->
  call cb i client (CWrap kek key m cap) e L mem Y = (o, mem1, Y1) -> o_rc o = OK -> o_data o = Some blob ->
  length blob = 60 + length key /\
  exists kb, kek_bytes Y i e (key_of client kek) kb /\
  forall cb2 i2 client2 kek2 e2 L2 mem2 Y2 o2 mem3 Y3, ok Y2 -> u16 kek2 -> env32 e2 -> kek_bytes Y2 i2 e2 (key_of client2 kek2) kb ->
    (forall cap2, call cb2 i2 client2 (CUnwrapExport kek2 blob cap2) e2 L2 mem2 Y2 = (o2, mem3, Y3) -> o_rc o2 = OK ->
       o2 = mkKo OK (Some (N.of_nat (length key))) (Some key) [] (Some m)) /\
    (call cb2 i2 client2 (CUnwrapCache kek2 blob) e2 L2 mem2 Y2 = (o2, mem3, Y3) -> o_rc o2 = OK ->
       cached Y3 i2 (m_id m) = Some (mkSlot (with_flags m (clear (m_flags m) F_TRUSTED)) key false)).
Proof.
  intros cb i client kek key m cap e L mem Y o mem1 Y1 blob D AC R T LB EN H O DB.
  destruct (call_done cb i client (CWrap kek key m cap) _ _ _ _ _ _ _ D R T EN (fun X => ltac:(discriminate X)) H O) as (r & ST & RO & EO & _). cbn [meant] in ST.
  assert (RB : r_data r = blob).
  { subst o. unfold told, bytes_to in *. rewrite RO in *. change (Z.eqb OK OK) with true in *. cbn [negb] in *. destruct (_ <? _); [discriminate|]. cbn [o_data] in DB. congruence. }
  assert (MO : meta_ok m).
  { destruct T as (_ & _ & M1 & M2 & M3 & M4 & M5). unfold u16 in *. repeat split; auto. }
  destruct (wrap_blob _ _ _ _ _ _ _ _ _ _ _ _ _ _ _ _ _ R ST RO) as (KT & LM & LR & kb & iv & ct & KB & LI & GE & EB).
  destruct (opens_wrap crypt pub ots gcm_enc gcm_dec she_count _ _ _ _ _ AC MO LI GE) as [_ LB2].
  assert (BL : length blob = 60 + length key) by (rewrite <- RB, EB; exact LB2).
  split; [exact BL|].
  destruct (C31_wrap_then_unwrap C crypt pub ots gcm_enc gcm_dec she_count mx _ _ _ _ _ _ _ _ _ AC R MO ST RO) as (kb' & KB' & BACK). exists kb'. split; [exact KB'|].
  intros cb2 i2 client2 kek2 e2 L2 mem2 Y2 o2 mem3 Y3 R2 U2 EN2 KB2.
  assert (TB : u16 (N.of_nat (length blob))).
  { destruct D as ((D0 & D1 & _ & KR & _) & _). unfold u16. rewrite BL. rewrite KR in LR. lia. }
  rewrite <- RB in *. split.
  - intros cap2 H2 O2. destruct (call_done cb2 i2 client2 (CUnwrapExport kek2 (r_data r) cap2) _ _ _ _ _ _ _ D R2 (conj U2 TB) EN2 (fun X => ltac:(discriminate X)) H2 O2) as (r2 & ST2 & RO2 & EO2 & _).
    cbn [meant] in ST2. destruct (proj1 (BACK _ _ _ (seen_by (CUnwrapExport kek2 (r_data r) cap2) mem2 e2) _ _ _ R2 KB2) ST2 RO2) as [E1 E2]. subst o2.
    rewrite (bytes_given (CUnwrapExport kek2 (r_data r) cap2) cap2 r2 RO2); [|intros X; unfold told; rewrite X; reflexivity|exact O2]. rewrite E1, E2. reflexivity.
  - intros H2 O2. destruct (call_done cb2 i2 client2 (CUnwrapCache kek2 (r_data r)) _ _ _ _ _ _ _ D R2 (conj U2 TB) EN2 (fun X => ltac:(discriminate X)) H2 O2) as (r2 & ST2 & RO2 & EO2 & _).
    cbn [meant] in ST2. exact (proj2 (BACK _ _ _ (seen_by (CUnwrapCache kek2 (r_data r)) mem2 e2) _ _ _ R2 KB2) ST2 RO2).
Qed.
(** The unwrap succeeds for the owner as long as the blob, not just the key, is
    no longer than the longest key the build wraps. *)
Theorem C89_unwrap_succeeds_partial : forall cb i client kek key m cap e L mem Y o mem1 Y1 blob,
  device -> aead_contract gcm_enc gcm_dec -> ok Y -> typed (CWrap kek key m cap) -> bytes_ok (m_label m) -> env32 e ->
  call cb i client (CWrap kek key m cap) e L mem Y = (o, mem1, Y1) -> o_rc o = OK -> o_data o = Some blob ->
  kid_id (m_id m) <> 0%N -> has (m_flags m) F_NONEXPORTABLE = false -> kid_user (m_id m) = client ->
  ~ hardware_key C (key_of client kek) -> kid_id (key_of client kek) <> 0%N ->
  (N.of_nat (60 + length key) <= kw_max C)%N ->
  forall cb2 i2 e2 L2 mem2 Y2 s cap2, ok Y2 -> env32 e2 -> v_lock e2 = OK -> l_send L2 = OK -> l_recv L2 = OK ->
    cached Y2 i2 (key_of client kek) = Some s -> kek_bytes Y i e (key_of client kek) (sl_buf s) -> has (m_flags (sl_meta s)) F_USAGE_WRAP = true ->
    length key <= cap2 ->
    exists Y3, call cb2 i2 client (CUnwrapExport kek blob cap2) e2 L2 mem2 Y2 = (mkKo OK (Some (N.of_nat (length key))) (Some key) [] (Some m), mem2, Y3).
Proof.
  intros cb i client kek key m cap e L mem Y o mem1 Y1 blob D AC R T LB EN H O DB NI NX US NH NK KW cb2 i2 e2 L2 mem2 Y2 s cap2 R2 EN2 LK2 LS LR CA KB WR CP.
  destruct (C89_wrapped_then_unwrapped _ _ _ _ _ _ _ _ _ _ _ _ _ _ _ D AC R T LB EN H O DB) as (BL & _).
  destruct (call_done cb i client (CWrap kek key m cap) _ _ _ _ _ _ _ D R T EN (fun X => ltac:(discriminate X)) H O) as (r & ST & RO & EO & _). cbn [meant] in ST.
  assert (RB : r_data r = blob).
  { subst o. unfold told, bytes_to in *. rewrite RO in *. change (Z.eqb OK OK) with true in *. cbn [negb] in *. destruct (_ <? _); [discriminate|]. cbn [o_data] in DB. congruence. }
  assert (MO : meta_ok m).
  { destruct T as (_ & _ & M1 & M2 & M3 & M4 & M5). unfold u16 in *. repeat split; auto. }
  destruct (wrap_blob _ _ _ _ _ _ _ _ _ _ _ _ _ _ _ _ _ R ST RO) as (_ & _ & LRR & _).
  assert (SE : sendable DL C (CUnwrapExport kek blob cap2)).
  { cbn [sendable]. pose proof D as ((D0 & D1 & _ & KR & _) & _). rewrite BL. rewrite KR in LRR. lia. }
  assert (TY : typed (CUnwrapExport kek blob cap2)).
  { pose proof D as ((D0 & D1 & _ & KR & _) & _). split; [apply T|]. unfold u16. destruct SE. lia. }
  destruct (C31_unwrap_succeeds C crypt pub ots gcm_enc gcm_dec she_count mx _ _ _ _ _ _ _ _ _ Y2 i2 (seen_by (CUnwrapExport kek blob cap2) mem2 e2) s AC R MO ST RO NI NX US R2 NH NK CA KB WR LK2) as [Y3 ST2].
  rewrite RB in ST2. exists Y3.
  rewrite (C87_call cb2 i2 client (CUnwrapExport kek blob cap2) e2 L2 mem2 Y2 _ Y3 D R2 TY EN2 SE LS LR ltac:(discriminate) (fun _ => LK2) ST2).
  unfold told, bytes_to, memory. cbn [r_rc r_data r_meta]. change (Z.eqb OK OK) with true. cbn [negb]. destruct (Nat.ltb_spec cap2 (length key)); [lia|]. reflexivity.
Qed.
(** A longer key is wrapped, but its blob is refused by the unwrap calls. *)
Theorem C89_long_key_refuted : forall cb i client kek key m cap e L mem Y o mem1 Y1 blob,
  device -> aead_contract gcm_enc gcm_dec -> ok Y -> typed (CWrap kek key m cap) -> bytes_ok (m_label m) -> env32 e ->
  call cb i client (CWrap kek key m cap) e L mem Y = (o, mem1, Y1) -> o_rc o = OK -> o_data o = Some blob ->
  (kw_max C < N.of_nat (60 + length key))%N ->
  forall cb2 i2 client2 kek2 cap2 e2 L2 mem2 Y2 c2 o2 mem3 Y3, c2 = CUnwrapExport kek2 blob cap2 \/ c2 = CUnwrapCache kek2 blob ->
    call cb2 i2 client2 c2 e2 L2 mem2 Y2 = (o2, mem3, Y3) -> o2 = fails BADARGS.
Proof.
  intros cb i client kek key m cap e L mem Y o mem1 Y1 blob D AC R T LB EN H O DB KW cb2 i2 client2 kek2 cap2 e2 L2 mem2 Y2 c2 o2 mem3 Y3 CC H2.
  destruct (C89_wrapped_then_unwrapped _ _ _ _ _ _ _ _ _ _ _ _ _ _ _ D AC R T LB EN H O DB) as (BL & _).
  eapply C87_refused; [|exact H2]. destruct CC as [-> | ->]; cbn [sendable]; rewrite BL; lia.
Qed.

(** Data: the same without metadata. *)
Lemma data_blob Y i client e kek d r Y' : ok Y -> step (SKey i client e (KDataWrap kek d)) Y = (Some r, Y') -> r_rc r = OK ->
  (N.of_nat (length d) <= kwd_max C)%N /\ (28 + N.of_nat (length d) <= kwd_resp C)%N /\
  exists kb iv ct, kek_bytes Y i e (key_of client kek) kb /\ length iv = 12 /\ gcm_enc kb iv AAD_DATA d = Some ct /\ r_data r = iv ++ ct.
Proof.
  intros R H O. cbn [sys_step] in H. destruct (ks_step _ _ _ _ _ _ _ e client _ (ks_of Y i)) as [r0 S1] eqn:E. injection H as <- _.
  lock E e. unfold h_data_wrap in E. cbv zeta in E. destruct (N.ltb_spec (kwd_max C) (N.of_nat (length d))); [refuse E|].
  destruct (N.ltb_spec (kwd_resp C) (28 + N.of_nat (length d))); [refuse E|].
  change (from_client (kc C) KT_CRYPTO client kek) with (key_of client kek) in E.
  destruct (resolve_kek C false e (ks_of Y i) _) as [[rc S2] k] eqn:RK. destruct (is_ok rc) eqn:K; cbn [negb] in E; [|exfalso; injection E as <- _; apply is_ok_false in K; contradiction].
  apply is_ok_iff in K. destruct (kek_of C crypt pub ots gcm_enc gcm_dec she_count mx _ _ _ _ _ _ _ _ R RK K) as (KB & _).
  unfold gcm_wrap in E. destruct (is_ok (v_rng e)) eqn:KR; cbn [negb] in E; [|exfalso; injection E as <- _; apply is_ok_false in KR; contradiction].
  destruct (gcm_enc k (exactly IV_SZ (v_rngd e)) AAD_DATA d) as [ct|] eqn:GE; [|refuse E]. injection E as <- _.
  split; [auto|]. split; [auto|]. exists k, (exactly IV_SZ (v_rngd e)), ct. repeat (split; [auto; apply exactly_len|]). reflexivity.
Qed.
Lemma data_unwrap_of Y i client e kek b r Y' : ok Y -> step (SKey i client e (KDataUnwrap kek b)) Y = (Some r, Y') -> r_rc r = OK ->
  exists kb, kek_bytes Y i e (key_of client kek) kb /\ gcm_dec kb (firstn 12 b) AAD_DATA (skipn 12 b) = Some (r_data r) /\ r_meta r = None.
Proof.
  intros R H O. cbn [sys_step] in H. destruct (ks_step _ _ _ _ _ _ _ e client _ (ks_of Y i)) as [r0 S1] eqn:E. injection H as <- _.
  lock E e. unfold h_data_unwrap in E. cbv zeta in E. destruct (_ <? _)%nat; [refuse E|]. destruct (_ <? _)%N; [refuse E|].
  change (from_client (kc C) KT_CRYPTO client kek) with (key_of client kek) in E.
  destruct (resolve_kek C false e (ks_of Y i) _) as [[rc S2] k] eqn:RK. destruct (is_ok rc) eqn:K; cbn [negb] in E; [|exfalso; injection E as <- _; apply is_ok_false in K; contradiction].
  apply is_ok_iff in K. destruct (kek_of C crypt pub ots gcm_enc gcm_dec she_count mx _ _ _ _ _ _ _ _ R RK K) as (KB & _).
  destruct (_ <? _)%N; [refuse E|]. unfold gcm_unwrap in E. destruct (gcm_dec k (firstn IV_SZ b) AAD_DATA (skipn IV_SZ b)) as [pt|] eqn:GD; [|refuse E].
  injection E as <- _. exists k. auto.
Qed.
Theorem C89_data_then_back : forall cb i client kek d cap e L mem Y o mem1 Y1 blob,
  device -> aead_contract gcm_enc gcm_dec -> ok Y -> typed (CDataWrap kek d cap) -> env32 e ->
  call cb i client (CDataWrap kek d cap) e L mem Y = (o, mem1, Y1) -> o_rc o = OK -> o_data o = Some blob ->
  length blob = 28 + length d /\
  exists kb, kek_bytes Y i e (key_of client kek) kb /\
  forall cb2 i2 client2 kek2 cap2 e2 L2 mem2 Y2 o2 mem3 Y3, ok Y2 -> u16 kek2 -> env32 e2 -> kek_bytes Y2 i2 e2 (key_of client2 kek2) kb ->
    call cb2 i2 client2 (CDataUnwrap kek2 blob cap2) e2 L2 mem2 Y2 = (o2, mem3, Y3) -> o_rc o2 = OK ->
    o2 = mkKo OK (Some (N.of_nat (length d))) (Some d) [] None.
Proof.
  intros cb i client kek d cap e L mem Y o mem1 Y1 blob D AC R T EN H O DB.
  destruct (call_done cb i client (CDataWrap kek d cap) _ _ _ _ _ _ _ D R T EN (fun X => ltac:(discriminate X)) H O) as (r & ST & RO & EO & _). cbn [meant] in ST.
  assert (RB : r_data r = blob).
  { subst o. unfold told, bytes_to in *. rewrite RO in *. change (Z.eqb OK OK) with true in *. cbn [negb] in *. destruct (_ <? _); [discriminate|]. cbn [o_data] in DB. congruence. }
  destruct (data_blob _ _ _ _ _ _ _ _ R ST RO) as (LM & LR & kb & iv & ct & KB & LI & GE & EB).
  destruct (proj1 AC _ _ _ _ _ GE) as [GD LC].
  assert (BL : length blob = 28 + length d) by (rewrite <- RB, EB, app_length, LI, LC; lia).
  split; [exact BL|]. exists kb. split; [exact KB|].
  intros cb2 i2 client2 kek2 cap2 e2 L2 mem2 Y2 o2 mem3 Y3 R2 U2 EN2 KB2 H2 O2.
  assert (TB : (N.of_nat (length blob) < 4294967296)%N).
  { destruct D as ((D0 & D1 & _ & _ & KR) & _). rewrite BL. rewrite KR in LR. lia. }
  destruct (call_done cb2 i2 client2 (CDataUnwrap kek2 blob cap2) _ _ _ _ _ _ _ D R2 (conj U2 TB) EN2 (fun X => ltac:(discriminate X)) H2 O2) as (r2 & ST2 & RO2 & EO2 & _).
  cbn [meant] in ST2. destruct (data_unwrap_of _ _ _ _ _ _ _ _ R2 ST2 RO2) as (kb2 & KB3 & GD2 & RM).
  rewrite <- (kek_same _ _ _ _ _ _ _ KB2 KB3) in GD2. rewrite <- RB, EB in GD2. rewrite first_app, skip_app in GD2 by auto. rewrite GD in GD2. injection GD2 as GD2.
  subst o2. rewrite (bytes_given (CDataUnwrap kek2 blob cap2) cap2 r2 RO2); [|intros X; unfold told; rewrite X; reflexivity|exact O2]. rewrite RM, <- GD2. reflexivity.
Qed.
Theorem C89_long_data_refuted : forall cb i client kek d cap e L mem Y o mem1 Y1 blob,
  device -> aead_contract gcm_enc gcm_dec -> ok Y -> typed (CDataWrap kek d cap) -> env32 e ->
  call cb i client (CDataWrap kek d cap) e L mem Y = (o, mem1, Y1) -> o_rc o = OK -> o_data o = Some blob ->
  (kwd_max C < N.of_nat (28 + length d))%N ->
  forall cb2 i2 client2 kek2 cap2 e2 L2 mem2 Y2 o2 mem3 Y3,
    call cb2 i2 client2 (CDataUnwrap kek2 blob cap2) e2 L2 mem2 Y2 = (o2, mem3, Y3) -> o2 = fails BADARGS.
Proof.
  intros cb i client kek d cap e L mem Y o mem1 Y1 blob D AC R T EN H O DB KW cb2 i2 client2 kek2 cap2 e2 L2 mem2 Y2 o2 mem3 Y3 H2.
  destruct (C89_data_then_back _ _ _ _ _ _ _ _ _ _ _ _ _ _ D AC R T EN H O DB) as (BL & _).
  eapply C87_refused; [|exact H2]. cbn [sendable]. rewrite BL. lia.
Qed.
End Props.

Print Assumptions C87_call.
Print Assumptions C87_refused.
Print Assumptions C87_unsent.
Print Assumptions C87_unheard.
Print Assumptions C87_failed.
Print Assumptions C87_lock_code_refuted.
Print Assumptions C88_cached_then_exported.
Print Assumptions C88_committed_then_exported.
Print Assumptions C88_exported_is_held.
Print Assumptions C88_exported_by_dma.
Print Assumptions C89_wrapped_then_unwrapped.
Print Assumptions C89_unwrap_succeeds_partial.
Print Assumptions C89_long_key_refuted.
Print Assumptions C89_data_then_back.
Print Assumptions C89_long_data_refuted.

(** ** Concrete cases *)
Module KycExamples.
Import KeyExamples WrapExamples.
Open Scope N_scope.
(** Packets of 200 bytes; keys and data of up to 100 bytes are wrapped. The toy
    cipher of PropertiesWrap.v, restricted to bytes. *)
Definition DLx : nat := 200.
Definition cx : kscfg := mkKs_cfg (mkKcfg true true true) 8 32 true true false 164 100 100 192 188.
Definition all_bytes (l : list N) : bool := forallb (fun b => b <? 256) l.
Definition encx (k iv : list N) (a : N) (pt : list N) : option (list N) :=
  if all_bytes pt then Some (repeat a 16 ++ pt) else None.
Definition decx (k iv : list N) (a : N) (b : list N) : option (list N) :=
  match toy_dec' k iv a b with Some pt => if all_bytes pt then Some pt else None | None => None end.
Definition gx : N := 3.
Definition Yx : sys := fresh_sys [(kek_meta, [4; 5])] 4 1.
Lemma bytes_iff l : all_bytes l = true -> bytes_ok l.
Proof. intros H. apply Forall_forall. intros x I. unfold all_bytes in H. rewrite forallb_forall in H. apply N.ltb_lt. auto. Qed.
Example ex_device : device DLx cx toy_pub encx decx gx.
Proof.
  split; [|split; [|split; [reflexivity|split; [discriminate|]]]].
  - unfold build_ok, DLx. repeat split; try reflexivity. lia.
  - split.
    + intros k iv a pt ct. unfold encx. destruct (all_bytes pt); [|discriminate]. intros E.
      assert (EC : ct = repeat a 16 ++ pt) by congruence. subst ct. rewrite app_length, repeat_length. reflexivity.
    + intros k iv a ct pt. unfold decx. destruct (toy_dec' k iv a ct) as [p|] eqn:T; [|discriminate]. destruct (all_bytes p) eqn:B; [|discriminate].
      intros E. injection E as <-. split; [|apply bytes_iff; auto]. exact (proj2 ex_contract _ _ _ _ _ T).
  - intros a d. unfold i32, toy_pub. cbn [fst]. unfold OK. lia.
Qed.
Example ex_aead : aead_contract encx decx.
Proof.
  split.
  - intros k iv a pt ct. unfold encx. destruct (all_bytes pt) eqn:B; [|discriminate]. intros E.
    assert (E2 : toy_enc k iv a pt = Some ct) by exact E. destruct (proj1 ex_contract _ _ _ _ _ E2) as [D L]. split; [|exact L].
    unfold decx. rewrite D, B. reflexivity.
  - intros k iv a ct pt. unfold decx. destruct (toy_dec' k iv a ct) as [p|] eqn:T; [|discriminate]. destruct (all_bytes p); [|discriminate].
    intros E. injection E as <-. exact (proj2 ex_contract _ _ _ _ _ T).
Qed.
Notation okx := (reachable cx toy_crypt toy_pub toy_ots encx decx toy_count 100).
Example ex_reachable : okx Yx.
Proof.
  exists [(kek_meta, [4; 5])], 4%nat, 1%nat, []. split; [|reflexivity]. intros id m d _.
  unfold sp_find. cbn [find]. destruct (N.eqb _ _); [|discriminate]. intros E. injection E as <- <-. reflexivity.
Qed.
Example ex_env : env32 env.
Proof. unfold env32, i32. cbn. unfold OK. lia. Qed.
Definition Lx : klink := mkKl OK OK (repeat 170 200) (repeat 85 200).
Definition memx : list N := [0; 1; 2; 3; 4; 5; 6; 7; 8; 9].
Definition callx cb client c Y := kcall_sys DLx cx toy_crypt toy_pub toy_ots encx decx toy_count gx cb 0%nat client c env Lx memx Y.
Definition out (x : kout * list N * sys) : kout := fst (fst x).
Definition mem_of (x : kout * list N * sys) : list N := snd (fst x).
Definition sys_of (x : kout * list N * sys) : sys := snd x.
Definition cached1 := callx true 1 (CCache 0 [65; 66] [1; 2; 3] 7) Yx.

(** C87: a big endian client caches a key: the call does what the request does;
    an empty key is refused; a key that does not fit its packet is refused. *)
Example ex_C87 :
  typed (CCache 0 [65; 66] [1; 2; 3] 7) /\ sendable DLx cx (CCache 0 [65; 66] [1; 2; 3] 7) /\
  out cached1 = mkKo OK (Some 7) None [] None /\
  key_now cx (sys_of cached1) 0 (key 1 7) = Some (asked_meta (key 1 7) 0 [65; 66] [1; 2; 3], [1; 2; 3]) /\
  ~ sendable DLx cx (CCache 0 [] (repeat 1 161) 7) /\ out (callx false 1 (CCache 0 [] (repeat 1 161) 7) Yx) = fails BADARGS.
Proof.
  split; [vm_compute; repeat split|]. split; [cbn; lia|]. split; [vm_compute; reflexivity|]. split; [vm_compute; reflexivity|].
  split; [cbn; lia|vm_compute; reflexivity].
Qed.
(** A small key buffer: wh_Client_KeyExport fails, yet the label is there. *)
Example ex_C87_label :
  out (callx true 1 (CExport 7 24 (Some 2%nat)) (sys_of cached1)) = mkKo ABORTED None None (65 :: 66 :: repeat 0 22) None /\
  out (callx true 1 (CExportPublic 7 1 24 (Some 0%nat)) (sys_of cached1)) = fails ABORTED.
Proof. split; vm_compute; reflexivity. Qed.
(** The server cannot take its lock: the caller is told ABORTED by the wrap
    calls and the code itself by the others. *)
Definition locked : kenv := mkKenv LOCKED OK OK [7; 7; 7; 7] OK [5; 6; 7; 8] OK [] 100 (v_nvme env).
Example ex_C87_lock :
  out (kcall_sys DLx cx toy_crypt toy_pub toy_ots encx decx toy_count gx true 0 1 (CDataWrap 4 [1; 2] 100) locked Lx memx Yx) = fails ABORTED /\
  out (kcall_sys DLx cx toy_crypt toy_pub toy_ots encx decx toy_count gx true 0 1 (CExport 7 24 None) locked Lx memx (sys_of cached1)) = fails LOCKED.
Proof. split; vm_compute; reflexivity. Qed.
(** C88: exported by a little endian client of the same number; by DMA from and
    to client memory; committed, then exported after a restart. *)
Example ex_C88 :
  kid_type (KsSpec.key_of cx 1 7) = KT_CRYPTO /\
  Forall (leaves_cached_key cx 0 (KsSpec.key_of cx 1 7)) [req 0 1 (KCache 8 0 [] [9])] /\
  out (callx false 1 (CExport 7 24 (Some 3%nat)) (sys_of cached1)) = exported [1; 2; 3] [65; 66] 24 /\
  (let Y1 := sys_of (callx true 1 (CCacheDma 0 [67] 4 3 7) Yx) in
   out (callx false 1 (CExport 7 24 (Some 3%nat)) Y1) = exported [4; 5; 6] [67] 24 /\
   mem_of (callx false 1 (CExportDma 7 1 3 24) Y1) = [0; 4; 5; 6; 4; 5; 6; 7; 8; 9]) /\
  (let Y2 := sys_of (callx true 1 (CCommit 7) (sys_of cached1)) in
   out (callx true 1 (CCommit 7) (sys_of cached1)) = mkKo OK None None [] None /\
   out (callx false 1 (CExport 7 24 (Some 3%nat)) (sys_after cx toy_crypt toy_pub toy_ots encx decx toy_count 100 [SReset] Y2)) = exported [1; 2; 3] [65; 66] 24).
Proof.
  split; [reflexivity|]. split; [repeat constructor; try (intros X; vm_compute in X; try discriminate X; contradiction)|].
  split; [vm_compute; reflexivity|]. cbv zeta. repeat split; vm_compute; reflexivity.
Qed.
(** C89: a short key is wrapped and comes back; a key of 50 bytes is wrapped and
    refused by the unwrap call; the same for data of 80 bytes. *)
Definition wrapped := callx true 1 (CWrap 4 [1; 2; 3] wm 192) Yx.
Definition bytes_of_out (o : kout) : list N := match o_data o with Some b => b | None => [] end.
Definition wide : meta := mkMeta (mk_keyid KT_WRAPPED 1 9) 0 F_USAGE_ENCRYPT 50 (repeat 0 24).
Example ex_C89 :
  typed (CWrap 4 [1; 2; 3] wm 192) /\ o_rc (out wrapped) = OK /\
  out (callx false 1 (CUnwrapExport 4 (bytes_of_out (out wrapped)) 3) Yx) = mkKo OK (Some 3) (Some [1; 2; 3]) [] (Some wm) /\
  out (callx false 1 (CUnwrapCache 4 (bytes_of_out (out wrapped))) Yx) = mkKo OK (Some (to_client (kc cx) (m_id wm))) None [] None /\
  (let b := bytes_of_out (out (callx false 1 (CDataWrap 4 [8; 9] 100) Yx)) in
   out (callx true 1 (CDataUnwrap 4 b 2) Yx) = mkKo OK (Some 2) (Some [8; 9]) [] None) /\
  (let b := bytes_of_out (out (callx false 1 (CWrap 4 (repeat 1 50) wide 192) Yx)) in
   length b = 110%nat /\ out (callx false 1 (CUnwrapExport 4 b 100) Yx) = fails BADARGS /\ out (callx false 1 (CUnwrapCache 4 b) Yx) = fails BADARGS) /\
  (let b := bytes_of_out (out (callx false 1 (CDataWrap 4 (repeat 1 80) 192) Yx)) in
   length b = 108%nat /\ out (callx false 1 (CDataUnwrap 4 b 100) Yx) = fails BADARGS).
Proof.
  split; [vm_compute; repeat split; repeat constructor|]. cbv zeta. repeat split; vm_compute; reflexivity.
Qed.
(** The premises of the succeeding unwrap: the key-encryption key is cached,
    may wrap, and is the one that wrapped. *)
Example ex_C89_premises :
  ~ hardware_key cx (KsSpec.key_of cx 1 4) /\ kid_id (m_id wm) <> 0 /\ kid_user (m_id wm) = 1 /\ has (m_flags wm) F_NONEXPORTABLE = false /\
  N.of_nat (60 + length [1; 2; 3]) <= kw_max cx /\
  (exists s, cached cx (sys_of wrapped) 0 (KsSpec.key_of cx 1 4) = Some s /\ has (m_flags (sl_meta s)) F_USAGE_WRAP = true /\ kek_bytes cx Yx 0 env (KsSpec.key_of cx 1 4) (sl_buf s)).
Proof.
  assert (NH : ~ hardware_key cx (KsSpec.key_of cx 1 4)) by (unfold hardware_key; vm_compute; intros [X Z]; discriminate).
  split; [exact NH|]. repeat (split; [vm_compute; discriminate || reflexivity|]).
  eexists. split; [vm_compute; reflexivity|]. split; [reflexivity|]. right. split; [exact NH|]. eexists. vm_compute. reflexivity.
Qed.
End KycExamples.
(** wh_Client_KeyExport with a key buffer that is too small fails, and has
    written the label. *)
Theorem C87_label_on_failure_refuted : exists DL C crypt pub enc dec ots count GCM cb i client id lcap cap e L mem Y o mem' Y',
  device DL C pub enc dec GCM /\ reachable C crypt pub ots enc dec count 100 Y /\ env32 e /\ u16 id /\ l_send L = OK /\ l_recv L = OK /\
  kcall_sys DL C crypt pub ots enc dec count GCM cb i client (CExport id lcap (Some cap)) e L mem Y = (o, mem', Y') /\
  o_rc o <> OK /\ o_label o <> [].
Proof.
  exists KycExamples.DLx, KycExamples.cx, KeyExamples.toy_crypt, KeyExamples.toy_pub, KycExamples.encx, KycExamples.decx, KeyExamples.toy_ots, KeyExamples.toy_count, KycExamples.gx.
  exists true, 0%nat, 1%N, 7%N, 24%nat, 1%nat, KeyExamples.env, KycExamples.Lx, KycExamples.memx.
  set (Y := snd (sys_step KycExamples.cx KeyExamples.toy_crypt KeyExamples.toy_pub KeyExamples.toy_ots KycExamples.encx KycExamples.decx KeyExamples.toy_count 100
    (SKey 0 1 KeyExamples.env (KCache 7 0 [65%N; 66%N] [1%N; 2%N; 3%N])) KycExamples.Yx)).
  exists Y. do 3 eexists. split; [exact KycExamples.ex_device|].
  split; [eapply reachable_step; [exact KycExamples.ex_reachable|unfold Y; apply surjective_pairing]|].
  split; [exact KycExamples.ex_env|]. split; [reflexivity|]. split; [reflexivity|]. split; [reflexivity|].
  split; [vm_compute; reflexivity|]. split; discriminate.
Qed.
Print Assumptions C87_label_on_failure_refuted.
