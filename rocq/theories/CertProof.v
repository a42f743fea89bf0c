(** The verify cache over any history. *)
From Verif Require Import Base NvmSpec Flags Store NvmReqModel NvmReqProof CertModel CertSpec.

Definition vc_all (P : slot -> Prop) (C : vcache) : Prop := forall sl, In (Some sl) (vc_slots C) -> P sl.

Lemma in_put {A} (x y : A) : forall l i, In y (put i x l) -> y = x \/ In y l.
Proof.
  induction l as [|a l IH]; intros i; cbn [put]; [destruct i; intros []|].
  destruct i; cbn [In]; intros [H|H]; auto. apply IH in H. tauto.
Qed.
Lemma put_len {A} (x : A) : forall l i, length (put i x l) = length l.
Proof. induction l; intros [|i]; cbn [put length]; auto. Qed.

Lemma bytes_eqb_eq a b : bytes_eqb a b = true -> a = b.
Proof. unfold bytes_eqb. destruct (list_eq_dec N.eq_dec a b); auto. discriminate. Qed.
Lemma subset_incl a b : subset a b = true -> incl a b.
Proof.
  unfold subset. intros H x Hx. apply (proj1 (forallb_forall _ _) H) in Hx.
  apply existsb_exists in Hx as (y & Hy & E). apply N.eqb_eq in E. subst. exact Hy.
Qed.

Lemma lookup_hit r roots h C : is_ok (vc_lookup r roots h C) = true ->
  vc_on C = true /\ exists sl, In (Some sl) (vc_slots C) /\ sl_hash sl = h /\ incl (sl_roots sl) roots.
Proof.
  unfold vc_lookup. destruct (length roots =? 0); [discriminate|].
  destruct (is_ok r) eqn:R; cbn [negb]; [|congruence]. destruct (vc_on C); cbn [negb]; [|discriminate].
  destruct (existsb (slot_hit roots h) (vc_slots C)) eqn:E; [|discriminate]. intros _. split; auto.
  apply existsb_exists in E as ([sl|] & I & H); cbn [slot_hit] in H; [|discriminate].
  apply andb_prop in H as [H1 H2]. exists sl. repeat split; auto using bytes_eqb_eq, subset_incl.
Qed.

Lemma all_insert P mx r roots h C : vc_all P C -> P (mkSlot h roots) -> vc_all P (vc_insert mx r roots h C).
Proof.
  intros A B. unfold vc_insert.
  destruct ((length roots =? 0) || _); auto. destruct (negb (is_ok r)); auto. destruct (negb (vc_on C)); auto.
  destruct (existsb (slot_same roots h) (vc_slots C)); auto.
  intros sl I. cbn [vc_slots] in I. apply in_put in I as [I|I]; auto. injection I as ->. exact B.
Qed.
Lemma clear_none C : no_slots (vc_clear C).
Proof. unfold no_slots, vc_clear. cbn [vc_slots]. apply Forall_forall. intros x I. apply in_map_iff in I as (y & E & _). auto. Qed.
Lemma all_none P C : no_slots C -> vc_all P C.
Proof. unfold no_slots, vc_all. intros H sl I. eapply Forall_forall in H; eauto. discriminate. Qed.
Lemma all_clear P C : vc_all P (vc_clear C).
Proof. apply all_none, clear_none. Qed.
Lemma all_enable P b C : vc_all P C -> vc_all P (vc_enable b C).
Proof. intros H. unfold vc_enable. destruct b; intros sl I; cbn [vc_slots] in I; auto. revert I. apply all_clear. Qed.
Lemma all_disabled P C : vc_all P (vc_enable false C).
Proof. unfold vc_enable. intros sl I. cbn [vc_slots] in I. revert I. apply all_clear. Qed.
Lemma all_evict P id C : vc_all P C -> vc_all (fun sl => P sl /\ ~ In id (sl_roots sl)) (vc_evict id C).
Proof.
  intros H sl I. unfold vc_evict in I. cbn [vc_slots] in I. apply in_map_iff in I as ([s|] & E & I); [|discriminate].
  destruct (existsb (N.eqb id) (sl_roots s)) eqn:X; [discriminate|]. injection E as ->. split; auto.
  intros Y. assert (existsb (N.eqb id) (sl_roots sl) = true) by (apply existsb_exists; exists id; split; auto; apply N.eqb_refl).
  congruence.
Qed.
Lemma all_impl (P Q : slot -> Prop) C : (forall sl, P sl -> Q sl) -> vc_all P C -> vc_all Q C.
Proof. unfold vc_all. auto. Qed.

Section Wolf.
Variable max_roots : nat.
Variable World : Type.
Variable vrfy load : World -> list bytes -> bytes -> Z.
Variable parse : bytes -> Z * bool.
Variable der : bytes -> Z + (nat * nat).
Variable digest : bytes -> bytes.
Variable global : bool.
Variable max_cert max_resp max_read : nat.
Variable have_stateful : bool.
Notation cenv := (cenv World).
Notation check_one := (check_one World vrfy digest global).
Notation walk := (walk max_roots World vrfy load parse der digest global).
Notation cert_verify := (cert_verify max_roots World vrfy load parse der digest global max_cert).
Notation cert_handle := (cert_handle max_roots World vrfy load parse der digest global max_cert max_resp max_read have_stateful).
Notation cert_run := (cert_run max_roots World vrfy load parse der digest global max_cert max_resp max_read have_stateful).
Notation others := (others World global).
Variable strict : bool.
Notation vb := (verified_before digest strict).
Notation ev := (cenv * nat * creq)%type.
Notation cache_of := (cache_of global).

(** ** An invariant of a walk from one of its steps *)
Definition closed_ops (k : nat) (I : vcache * list litem -> Prop) : Prop :=
  (forall C l, I (C, l) -> I (vc_clear C, LFlush k :: l)) /\
  (forall b C l, I (C, l) -> I (vc_enable b C, toggle_log k (TEnable b) ++ l)).

Lemma others_inv k I e i p x : closed_ops k I -> I x -> I (others e k i p x).
Proof.
  intros [C1 C2] H. unfold CertModel.others. destruct global; auto. unfold toggles.
  revert x H. induction (ce_mid World e i p) as [|t ts IH]; intros [C l] H; cbn [fold_left]; auto. apply IH.
  cbn [fst snd]. destruct t as [|b]; cbn [vc_toggle]; [apply C1; auto|apply C2; auto].
Qed.

(** ** The log *)
Definition benign (j : nat) (it : litem) : Prop :=
  match it with LRoot k _ => k <> j | LFlush k => strict = true -> k <> j | LBoot => False | _ => True end.
Lemma vb_cons k h ids it l : benign k it -> vb k h ids l -> vb k h ids (it :: l).
Proof.
  intros B (n & c & i0 & o & -> & D & I & N). exists (it :: n), c, i0, o. repeat split; auto.
  constructor; auto. destruct it; cbn [benign] in B; auto. intros [? _]. auto.
Qed.
Lemma vb_root k h ids id l : ~ In id ids -> vb k h ids l -> vb k h ids (LRoot k id :: l).
Proof.
  intros B (n & c & i0 & o & -> & D & I & N). exists (LRoot k id :: n), c, i0, o. repeat split; auto.
  constructor; auto. intros [_ X]. apply B, I, X.
Qed.
Lemma vb_incl k h a b l : incl a b -> vb k h a l -> vb k h b l.
Proof. intros S (n & c & i0 & o & E & D & I & N). exists n, c, i0, o. repeat split; auto. eapply incl_tran; eauto. Qed.
Lemma vb_new k c ids l : vb k (digest c) ids (LVer k c ids :: l).
Proof. exists [], c, ids, l. repeat split; auto using incl_refl. constructor. Qed.

Definition hits_ok (l : list litem) : Prop :=
  forall newer k c ids older, l = newer ++ LHit k c ids :: older -> vb k (digest c) ids older.
Lemma hits_cons it l : hits_ok l -> match it with LHit k c ids => vb k (digest c) ids l | _ => True end ->
  hits_ok (it :: l).
Proof.
  intros H B [|y n] k c ids o E; cbn [app] in E; injection E as -> ->; auto. eapply H; reflexivity.
Qed.

Definition Slots (k : nat) (x : vcache * list litem) : Prop :=
  vc_all (fun sl => vb k (sl_hash sl) (sl_roots sl) (snd x)) (fst x).
(** What a walk of cache [k] started with log [l0] keeps. *)
Definition keeps (k : nat) (l0 : list litem) (x : vcache * list litem) : Prop :=
  Slots k x /\ hits_ok (snd x) /\ (forall j h ids, j <> k -> vb j h ids l0 -> vb j h ids (snd x)).

Lemma slots_cons k C it l : benign k it -> Slots k (C, l) -> Slots k (C, it :: l).
Proof. intros B H sl I. cbn [snd]. apply vb_cons; auto. Qed.

Lemma keeps_closed k l0 : closed_ops k (keeps k l0).
Proof.
  assert (F : forall C C' l, vc_all (fun _ => False) C' -> keeps k l0 (C, l) -> keeps k l0 (C', LFlush k :: l)).
  { intros C C' l N (S1 & H & O). split; [|split].
    - intros sl I. destruct (N sl I).
    - apply hits_cons; auto.
    - intros j h ids NE B. cbn [snd]. apply vb_cons; [cbn [benign]; congruence|apply O; auto]. }
  split; intros.
  - eapply F; eauto. apply all_clear.
  - destruct b; cbn [toggle_log app]; [|eapply F; eauto; apply all_disabled].
    destruct H as (S1 & H & O). split; [|split]; auto.
Qed.

Section W.
Variable e : cenv.
Variable k : nat.
Variable mem : view.
Variable roots : list N.
Variable leaf : bool.
Hypothesis ST : forall i p, mem i p = mem 0 0.
Hypothesis QU : strict = true -> global = true -> forall i p, ce_mid World e i p = [].

Lemma vb_others h ids i p x : vb k h ids (snd x) -> vb k h ids (snd (others e k i p x)).
Proof.
  intros V. unfold CertModel.others. destruct global eqn:G; auto. destruct (Bool.bool_dec strict true) as [SR|SR].
  - rewrite QU by auto. exact V.
  - unfold toggles. revert x V. induction (ce_mid World e i p) as [|t ts IH]; intros [C l] V; cbn [fold_left]; auto.
    apply IH. cbn [fst snd] in *. destruct t as [|[|]]; cbn [toggle_log app]; auto;
      (apply vb_cons; [cbn [benign]; congruence|exact V]).
Qed.

Lemma check_keeps l0 i cm c x res x' : keeps k l0 x ->
  check_one e k roots i cm c c x = (res, x') ->
  keeps k l0 x' /\ (res = inr (SUCCESS, true) -> vb k (digest c) roots (snd x')).
Proof.
  intros K H. unfold CertModel.check_one in H. cbv zeta in H.
  assert (PL : forall hs y, keeps k l0 y ->
    let r := (inr (vrfy (ce_world World e i) cm c, hs), (fst y, if Z.eqb (vrfy (ce_world World e i) cm c) SUCCESS then LVer k c roots :: snd y else snd y)) in
    r = (res, x') -> keeps k l0 x' /\ (res = inr (SUCCESS, true) -> vb k (digest c) roots (snd x'))).
  { intros hs [C l] (S1 & HO & O) r E. unfold r in E. cbn [fst snd] in *. injection E as <- <-.
    destruct (Z.eqb_spec (vrfy (ce_world World e i) cm c) SUCCESS) as [E|E]; cbn [snd].
    - split; [|intros; apply vb_new]. split; [|split].
      + apply slots_cons; auto. exact I.
      + apply hits_cons; auto.
      + intros j h ids NE B. apply vb_cons; [exact I|]. apply O; auto.
    - split; [|intros; congruence]. split; [|split]; auto. }
  pose proof (others_inv k _ e i 0 x (keeps_closed k l0) K) as K1.
  destruct (is_ok (ce_snap World e i) && vc_on (fst (others e k i 0 x))).
  2:{ eapply PL; eauto. }
  destruct (is_ok (ce_hash World e i)) eqn:HH; cbn [negb] in H.
  2:{ injection H as <- <-. split; auto. discriminate. }
  pose proof (others_inv k _ e i 1 _ (keeps_closed k l0) K1) as K2.
  destruct (is_ok (vc_lookup _ _ _ _)) eqn:L.
  2:{ eapply PL; eauto. }
  injection H as <- <-. apply lookup_hit in L as (_ & sl & SI & SH & SR).
  destruct (others e k i 1 (others e k i 0 x)) as [C l]. cbn [fst snd] in *. destruct K2 as (S1 & HO & O).
  assert (V : vb k (digest c) roots l) by (rewrite <- SH; eapply vb_incl; [exact SR|apply (S1 sl SI)]).
  split; [split; [|split]|]; cbn [fst snd].
  - apply slots_cons; auto. exact I.
  - apply hits_cons; auto.
  - intros j h ids NE B. apply vb_cons; [exact I|]. apply O; auto.
  - intros _. apply vb_cons; auto. exact I.
Qed.

Lemma walk_keeps l0 : forall fuel i pos rem cm x rc x', keeps k l0 x ->
  walk e k mem roots leaf fuel i pos rem cm x = (rc, x') -> keeps k l0 x'.
Proof.
  induction fuel as [|fuel IH]; intros i pos rem cm x rc x' K H; cbn [CertModel.walk] in H;
    [injection H as <- <-; auto|].
  destruct (rem =? 0); [injection H as <- <-; auto|].
  destruct (der _) as [r|[h len]]; [injection H as <- <-; auto|].
  destruct (rem <? 2 + h + len); [injection H as <- <-; auto|].
  rewrite (ST i 1), (ST i 2), (ST i 3), (ST i 4) in H. set (c := firstn (2 + h + len) (skipn pos (mem 0 0))) in *.
  destruct (check_one e k roots i cm c c x) as [[r1|[rc1 hashed]] x1] eqn:C1; apply check_keeps with (l0 := l0) in C1 as [K1 V1]; auto.
  { injection H as <- <-; auto. }
  destruct (Z.eqb_spec rc1 SUCCESS) as [E1|E1]; cbn [negb] in H; [|injection H as <- <-; auto].
  destruct (parse c) as [prc ca]. destruct (negb (Z.eqb prc 0)); [injection H as <- <-; auto|].
  destruct ca.
  - destruct (negb (Z.eqb (load _ cm c) SUCCESS)); [injection H as <- <-; auto|].
    eapply IH; [|exact H]. destruct hashed; auto.
    rewrite E1 in V1. specialize (V1 eq_refl).
    assert (K2 : keeps k l0 (others e k i 2 x1)) by (apply others_inv; auto using keeps_closed).
    pose proof (vb_others _ _ i 2 x1 V1) as V2. cbv zeta. destruct (others e k i 2 x1) as [C l]. cbn [fst snd] in *.
    destruct K2 as (S1 & HO & O). split; [|split]; auto. apply all_insert; auto.
  - destruct (leaf && _); [injection H as <- <-; auto|]. eapply IH; eauto.
Qed.
End W.

Definition Inv (s : csys) : Prop := hits_ok (cs_log s) /\ forall j, Slots j (cs_vc s j, cs_log s).

(** A step that touches only cache [k]. *)
Lemma inv_set s nv k x : Inv s -> keeps k (cs_log s) x -> Inv (vc_set (set_nv s nv) k x).
Proof.
  intros [H S0] (K1 & K2 & K3). split; [exact K2|]. intros j. unfold Slots. cbn [vc_set cs_vc cs_log fst snd set_nv].
  destruct (Nat.eqb_spec j k) as [->|NE]; [exact K1|]. intros sl I. apply K3; auto. apply (S0 j sl I).
Qed.
Lemma keeps_start s k : Inv s -> keeps k (cs_log s) (cs_vc s k, cs_log s).
Proof. intros [H S0]. split; [apply S0|split]; auto. Qed.
Lemma vc_set_same s k : forall j, cs_vc (vc_set s k (cs_vc s k, cs_log s)) j = cs_vc s j.
Proof. intros j. cbn [vc_set cs_vc fst]. destruct (Nat.eqb_spec j k); subst; auto. Qed.

Lemma verify_keeps e k s mem len roots leaf x l0 rc x' :
  (forall i p, mem i p = mem 0 0) -> (strict = true -> global = true -> forall i p, ce_mid World e i p = []) ->
  keeps k l0 x -> cert_verify e k s mem len roots leaf x = (rc, x') -> keeps k l0 x'.
Proof.
  intros ST QU K H. unfold CertModel.cert_verify in H.
  destruct ((len =? 0) || _ || _); [injection H as <- <-; auto|].
  destruct (negb (ce_new World e)); [injection H as <- <-; auto|].
  destruct (load_roots _ _ _ _ _ _ _ _) as [[r got] cm].
  destruct (negb (is_ok r)); [injection H as <- <-; auto|].
  destruct (length got =? 0); [injection H as <- <-; auto|].
  destruct (walk _ _ _ _ _ _ _ _ _ _ _) as [r2 x2] eqn:W. injection H as <- <-.
  eapply walk_keeps; eauto.
Qed.

Lemma root_keeps e k id r s rc s' : ce_evict World e = OK -> Inv s ->
  root_changed World e k id r s = (rc, s') -> Inv s'.
Proof.
  intros EV I H. unfold root_changed in H. destruct r as [r nv].
  destruct (is_ok r); cbn [negb] in H; [|injection H as <- <-; exact I].
  rewrite EV in H. change (is_ok OK) with true in H. cbn [negb] in H. injection H as <- <-.
  apply inv_set; auto. destruct I as [H S0]. split; [|split].
  - pose proof (all_evict _ id _ (S0 k)) as A. intros sl SI. apply A in SI as [V NI]. cbn [snd] in *. apply vb_root; auto.
  - apply hits_cons; auto.
  - intros j h ids NE V. cbn [snd]. apply vb_cons; auto. cbn [benign]. auto.
Qed.

Lemma flush_keeps k (b : option bool) s :
  Inv s -> Inv (vc_set s k (match b with None => vc_clear (cs_vc s k) | Some b => vc_enable b (cs_vc s k) end,
                       toggle_log k (match b with None => TClear | Some b => TEnable b end) ++ cs_log s)).
Proof.
  intros I. destruct s as [nv vc lg].
  apply (inv_set (mkCs nv vc lg) nv k); auto. apply keeps_start with (k := k) in I. destruct (keeps_closed k lg) as [C1 C2].
  cbn [cs_vc cs_log] in *. destruct b as [b|]; [apply C2; auto|apply C1; auto].
Qed.

Lemma handle_keeps e c q s rc b s' : steady q ->
  (strict = true -> global = true -> forall i p, ce_mid World e i p = []) ->
  (forall id, cert_writes q id -> ce_evict World e = OK) ->
  Inv s -> cert_handle e c q s = (rc, b, s') -> Inv s'.
Proof.
  intros ST QU EV I H. unfold CertModel.cert_handle in H. cbv zeta in H.
  assert (FL : forall (t : option bool) y, (if is_ok (ce_evict World e) then
      (OK, vc_set s (cache_of c) (match t with None => vc_clear (cs_vc s (cache_of c)) | Some b => vc_enable b (cs_vc s (cache_of c)) end,
                       toggle_log (cache_of c) (match t with None => TClear | Some b => TEnable b end) ++ cs_log s))
    else (ce_evict World e, s)) = y -> Inv (snd y)).
  { intros t y <-. destruct (is_ok (ce_evict World e)); cbn [snd]; auto. apply flush_keeps; auto. }
  destruct q.
  - destruct global; [injection H as <- <- <-; auto|]. injection H as _ _ <-. eapply (FL None); eauto.
  - destruct (dma && _); [injection H as <- <- <-; auto|]. destruct (is_ok (ce_lock World e)); [|injection H as <- <- <-; auto].
    destruct (root_changed _ _ _ _ _ _) as [r s1] eqn:R. injection H as <- <- <-.
    eapply root_keeps in R; eauto. eapply EV. reflexivity.
  - destruct (is_ok (ce_lock World e)); [|injection H as <- <- <-; auto].
    destruct (root_changed _ _ _ _ _ _) as [r s1] eqn:R. injection H as <- <- <-.
    eapply root_keeps in R; eauto. eapply EV. reflexivity.
  - destruct (is_ok (ce_lock World e)); [|injection H as <- <- <-; auto].
    destruct (nv_meta _ _) as [r m]. destruct (negb (is_ok r)); [injection H as <- <- <-; auto|].
    destruct (has _ _); [injection H as <- <- <-; auto|].
    destruct (cert_read _ _ _ _) as [r2 b2]. injection H as <- <- <-; auto.
  - destruct (true && _); [injection H as <- <- <-; auto|]. destruct (is_ok (ce_lock World e)); [|injection H as <- <- <-; auto].
    destruct (nv_meta _ _) as [r m]. destruct (negb (is_ok r)); [injection H as <- <- <-; auto|].
    destruct (has _ _); [injection H as <- <- <-; auto|].
    destruct (cert_read _ _ _ _) as [r2 b2]. injection H as <- <- <-; auto.
  - destruct (dma && _); [injection H as <- <- <-; auto|]. destruct (is_ok (ce_lock World e)); [|injection H as <- <- <-; auto].
    destruct (cert_verify _ _ _ _ _ _ _ _) as [r x] eqn:V. injection H as <- <- <-.
    destruct s as [nv vc lg]. apply (inv_set (mkCs nv vc lg) nv); auto.
    eapply verify_keeps; [| exact QU | |exact V].
    + destruct dma; auto.
    + apply keeps_start; auto.
  - destruct global; [injection H as _ _ <-; eapply (FL None); eauto|].
    destruct (is_ok (ce_lock World e)); [|injection H as <- <- <-; auto]. injection H as _ _ <-. eapply (FL None); eauto.
  - destruct global; [injection H as _ _ <-; eapply (FL (Some b0)); eauto|].
    destruct (is_ok (ce_lock World e)); [|injection H as <- <- <-; auto]. injection H as _ _ <-. eapply (FL (Some b0)); eauto.
  - destruct (nvm_handle _ _ _ _ _) as [a nv]. injection H as <- <- <-. exact I.
  - injection H as <- <- <-. exact I.
  - injection H as <- <- <-. destruct I as [HO S0]. split; cbn [cs_log]; [apply hits_cons; auto|].
    intros j. cbn [cs_vc cs_log]. unfold Slots. cbn [fst]. apply all_enable, all_clear.
Qed.

Theorem run_keeps : forall evs s rs s',
  steady_run World evs -> (strict = true -> quiet World global evs) -> evict_works World evs ->
  Inv s -> cert_run evs s = (rs, s') -> Inv s'.
Proof.
  induction evs as [|[[e c] q] evs IH]; intros s rs s' ST QU EV I H; cbn [CertModel.cert_run] in H;
    [injection H as <- <-; auto|].
  destruct (cert_handle e c q s) as [[rc b] s1] eqn:E1. destruct (cert_run evs s1) as [rs2 s2] eqn:E2.
  injection H as <- <-. inversion ST; inversion EV; subst. eapply IH; [| | | |exact E2]; auto.
  - intros SR. apply QU in SR. inversion SR; auto.
  - eapply handle_keeps; [| | | |exact E1]; auto. intros SR. apply QU in SR. inversion SR; auto.
Qed.

Lemma inv_fresh s : (forall j, no_slots (cs_vc s j)) -> cs_log s = [] -> Inv s.
Proof.
  intros H E. split; [rewrite E; intros [|] ? ? ? ?; discriminate|]. intros j. apply all_none. apply H.
Qed.
End Wolf.
