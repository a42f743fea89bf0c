(** Every certificate accepted is anchored in the roots as they are now. *)
From Verif Require Import Base NvmSpec Flags Store NvmReqModel NvmReqProof CertModel CertSpec CertProof.

Lemma roots_now_mono s a b : incl a b -> incl (roots_now s a) (roots_now s b).
Proof.
  intros H x I. unfold roots_now in *. apply in_flat_map in I as (id & I1 & I2). apply in_flat_map. exists id. auto.
Qed.
Lemma roots_now_ext s s' ids : (forall id, In id ids -> sp_find s' id = sp_find s id) -> roots_now s' ids = roots_now s ids.
Proof.
  induction ids as [|i ids IH]; intros H; cbn [roots_now flat_map]; auto.
  fold (roots_now s' ids) (roots_now s ids). rewrite IH by (intros; apply H; right; auto).
  unfold root_now. rewrite H by (left; auto). reflexivity.
Qed.

Lemma skip_more {A} a : forall b (l : list A), skipn a (skipn b l) = skipn (b + a) l.
Proof. induction b as [|b IH]; intros [|x l]; cbn [skipn Nat.add]; auto. destruct a; auto. Qed.

(** ** Which objects a request can change *)
Lemma nvm_frame mx st ne q s a s' id : nvm_handle mx st ne q s = (a, s') -> ~ other_writes (CNvm ne q) id ->
  sp_find s' id = sp_find s id.
Proof.
  intros H NW. destruct q; cbn [nvm_handle other_writes] in *;
    try (destruct (is_ok (e_lock ne))); try (injection H as <- <-; reflexivity).
  - destruct (nv_list s start). injection H as <- <-; reflexivity.
  - destruct (nv_meta s id0). injection H as <- <-; reflexivity.
  - destruct (N.eqb _ _); [|injection H as <- <-; reflexivity].
    destruct (st && _); [injection H as <- <-; reflexivity|].
    unfold add_checked in H. destruct (fatal _); [injection H as <- <-; reflexivity|].
    destruct (nv_add _ _ _ _) as [r s1] eqn:E. injection H as <- <-. apply nv_add_find with (id := id) in E.
    cbn [m_id with_flags] in E. destruct (N.eqb_spec id (m_id m)); [congruence|]. rewrite Bool.andb_false_r in E. exact E.
  - destruct (N.eqb _ _); [|injection H as <- <-; reflexivity]. destruct (st && _); injection H as <- <-; reflexivity.
  - destruct (count <=? 19); [|injection H as <- <-; reflexivity].
    unfold destroy_checked in H. destruct (is_ok (destroy_policy _ _)); [|injection H as <- <-; reflexivity].
    destruct (nv_destroy _ _ _) as [r s1] eqn:E. injection H as <- <-. apply nv_destroy_find with (id := id) in E.
    destruct (existsb (N.eqb id) (firstn count ids)) eqn:X; [|rewrite Bool.andb_false_r in E; exact E].
    destruct NW. apply existsb_exists in X as (y & I & Y). apply N.eqb_eq in Y. subst. exact I.
  - destruct (count <=? 19); injection H as <- <-; reflexivity.
  - destruct (handle_read _ _ _ _ _). injection H as <- <-; reflexivity.
  - destruct (negb _); [injection H as <- <-; reflexivity|]. destruct (negb _); [injection H as <- <-; reflexivity|].
    destruct (st && _); [injection H as <- <-; reflexivity|].
    unfold add_checked in H. destruct (fatal _); [injection H as <- <-; reflexivity|].
    destruct (nv_add _ _ _ _) as [r s1] eqn:E. injection H as <- <-. apply nv_add_find with (id := id) in E.
    cbn [m_id with_flags] in E. destruct (N.eqb_spec id (m_id m2)); [congruence|]. rewrite Bool.andb_false_r in E. exact E.
  - destruct (negb _); [injection H as <- <-; reflexivity|]. destruct (negb _); [injection H as <- <-; reflexivity|].
    destruct (st && _); injection H as <- <-; reflexivity.
  - destruct (nv_meta s id0) as [r m]. destruct (negb _); [injection H as <- <-; reflexivity|].
    destruct (_ <=? _); [injection H as <- <-; reflexivity|]. destruct (negb _); [injection H as <- <-; reflexivity|].
    destruct (read_checked _ _ _ _). injection H as <- <-; reflexivity.
Qed.
Lemma set_obj_frame i o s id : i <> id -> sp_find (set_obj i o s) id = sp_find s id.
Proof.
  intros NE. assert (D : sp_find (sp_destroy [i] s) id = sp_find s id).
  { rewrite find_destroy. cbn [existsb]. destruct (N.eqb_spec id i); [congruence|]. reflexivity. }
  destruct o as [[m d]|]; cbn [set_obj]; auto. rewrite find_app, D. cbn [oid fst m_id]. unfold oid. cbn [fst m_id].
  destruct (N.eqb_spec i id); [congruence|]. destruct (sp_find s id); auto.
Qed.
Lemma cert_add_frame r i acc fl lb ct s rc s' id : cert_add r i acc fl lb ct s = (rc, s') ->
  sp_find s' id = sp_find s id \/ (i = id /\ rc = OK).
Proof.
  unfold cert_add. destruct (length ct =? 0); [intros E; injection E as <- <-; auto|]. cbv zeta. unfold add_checked.
  destruct (fatal _); [intros E; injection E as <- <-; auto|]. intros E. apply nv_add_find with (id := id) in E.
  cbn [m_id with_flags] in E. destruct (is_ok rc) eqn:R; cbn [andb] in E; auto.
  destruct (N.eqb_spec id i) as [->|]; auto. right. split; auto. apply is_ok_iff, R.
Qed.
Lemma cert_erase_frame r i s rc s' id : cert_erase r i s = (rc, s') ->
  sp_find s' id = sp_find s id \/ (i = id /\ rc = OK).
Proof.
  unfold cert_erase. destruct (nv_meta s i) as [r0 m]. destruct (is_ok r0 && _); [intros E; injection E as <- <-; auto|].
  destruct (fatal r0); [intros E; injection E as <- <-; auto|]. intros E. apply nv_destroy_find with (id := id) in E.
  cbn [existsb] in E. destruct (is_ok rc) eqn:R; cbn [andb] in E; auto.
  destruct (N.eqb_spec id i) as [->|]; auto. right. split; auto. apply is_ok_iff, R.
Qed.

Section Wolf.
Variable max_roots : nat.
Variable World : Type.
Variable vrfy load : World -> list bytes -> bytes -> Z.
Variable parse : bytes -> Z * bool.
Variable der : bytes -> Z + (nat * nat).
Variable digest : bytes -> bytes.
Variable global : bool.
Variable max_cert max_resp max_read : nat.
Variable have_stateful : bool.
Notation cenv := (cenv World).
Notation check_one := (check_one World vrfy digest global).
Notation walk := (walk max_roots World vrfy load parse der digest global).
Notation cert_verify := (cert_verify max_roots World vrfy load parse der digest global max_cert).
Notation cert_handle := (cert_handle max_roots World vrfy load parse der digest global max_cert max_resp max_read have_stateful).
Notation cert_run := (cert_run max_roots World vrfy load parse der digest global max_cert max_resp max_read have_stateful).
Notation others := (others World global).
Notation ev := (cenv * nat * creq)%type.
Notation cache_of := (cache_of global).
Notation anchored := (anchored World vrfy parse).
Notation is_ca := (is_ca parse).
Notation splits := (splits der).
Variable P : World -> Prop.
Hypothesis WC : wolf_codes World vrfy der load.
Hypothesis INJ : forall a b, digest a = digest b -> a = b.

Lemma anchored_mono R R' : incl R R' -> forall c, anchored P R c -> anchored P R' c.
Proof.
  intros S0. fix IH 2. intros c [w T c' Pw HT V]. apply (anchored_intro _ _ _ _ _ w T); auto.
  intros t It. destruct (HT t It) as [X|[X Y]]; [left; apply S0, X|right; split; auto].
Qed.

(** ** Slots *)
Definition sound (nv : store) (seen : list N) (sl : slot) : Prop :=
  incl (sl_roots sl) seen /\
  exists c, digest c = sl_hash sl /\ is_ca c /\ anchored P (roots_now nv (sl_roots sl)) c.
Notation all_sound nv seen := (vc_all (sound nv seen)).

Lemma sound_closed nv seen k : closed_ops k (fun x => all_sound nv seen (fst x)).
Proof. split; intros; cbn [fst]; [apply all_clear|apply all_enable; auto]. Qed.
Lemma sound_seen nv seen seen' sl : incl seen seen' -> sound nv seen sl -> sound nv seen' sl.
Proof. intros I [A B]. split; auto. eapply incl_tran; eauto. Qed.
Lemma sound_nv nv nv' seen sl : (forall id, In id (sl_roots sl) -> sp_find nv' id = sp_find nv id) ->
  sound nv seen sl -> sound nv' seen sl.
Proof. intros E [A (c & B & D & F)]. split; auto. exists c. rewrite (roots_now_ext nv nv' _ E). auto. Qed.

Section W.
Variable e : cenv.
Variable k : nat.
Variable mem : view.
Variable roots : list N.
Variable leaf : bool.
Variable nv : store.
Variable seen : list N.
Hypothesis ST : forall i p, mem i p = mem 0 0.
Hypothesis PW : forall i, P (ce_world World e i).
Hypothesis RS : incl roots seen.
Let R := roots_now nv roots.

Definition cm_ok (cm : list bytes) : Prop := forall t, In t cm -> In t R \/ (anchored P R t /\ is_ca t).

Lemma check_anchored i cm c x res x' : cm_ok cm -> all_sound nv seen (fst x) ->
  check_one e k roots i cm c c x = (res, x') ->
  all_sound nv seen (fst x') /\ (forall hs, res = inr (SUCCESS, hs) -> anchored P R c) /\
  res <> inl OK /\ (forall hs, res <> inr (OK, hs)).
Proof.
  intros CM K H. unfold CertModel.check_one in H. cbv zeta in H.
  assert (PL : forall hs y, all_sound nv seen (fst y) ->
    let r := (inr (vrfy (ce_world World e i) cm c, hs), (fst y, if Z.eqb (vrfy (ce_world World e i) cm c) SUCCESS then LVer k c roots :: snd y else snd y)) in
    r = (res, x') -> all_sound nv seen (fst x') /\ (forall hs, res = inr (SUCCESS, hs) -> anchored P R c) /\
    res <> inl OK /\ (forall hs, res <> inr (OK, hs))).
  { intros hs [C l] S1 r E. unfold r in E. cbn [fst snd] in *. injection E as <- <-. split; auto.
    split; [|split; [discriminate|intros h2 V; injection V as V _; exact (proj1 (proj1 WC _ _ _) V)]].
    intros h2 V. injection V as V _. apply (anchored_intro _ _ _ _ _ (ce_world World e i) cm); auto. }
  pose proof (others_inv World global k _ e i 0 x (sound_closed nv seen k) K) as K1. cbv beta in K1.
  destruct (is_ok (ce_snap World e i) && vc_on (fst (others e k i 0 x))).
  2:{ eapply PL; eauto. }
  destruct (is_ok (ce_hash World e i)) eqn:HH; cbn [negb] in H.
  2:{ injection H as <- <-. split; [exact K1|]. split; [discriminate|split; [|discriminate]].
      intros X. injection X as X. rewrite X in HH. discriminate. }
  pose proof (others_inv World global k _ e i 1 _ (sound_closed nv seen k) K1) as K2. cbv beta in K2.
  destruct (is_ok (vc_lookup _ _ _ _)) eqn:L.
  2:{ eapply PL; eauto. }
  injection H as <- <-. apply lookup_hit in L as (_ & sl & SI & SH & SR). cbn [fst]. split; [exact K2|]. split; [|split; discriminate].
  intros _ _. destruct (K2 sl SI) as (_ & c' & D & _ & A). rewrite SH in D. apply INJ in D. subst c'.
  eapply anchored_mono; [|exact A]. apply roots_now_mono. exact SR.
Qed.

Lemma walk_anchored : forall fuel i pos rem cm x rc x', cm_ok cm -> all_sound nv seen (fst x) ->
  rem <= fuel -> pos + rem = length (mem 0 0) ->
  walk e k mem roots leaf fuel i pos rem cm x = (rc, x') ->
  all_sound nv seen (fst x') /\
  (rc = OK -> exists cs, splits (skipn pos (mem 0 0)) cs /\ Forall (anchored P R) cs).
Proof.
  induction fuel as [|fuel IH]; intros i pos rem cm x rc x' CM K LE LN H; cbn [CertModel.walk] in H.
  { injection H as <- <-. split; auto. intros _. exists []. split; auto.
    rewrite skipn_all2 by lia. constructor. }
  destruct (Nat.eqb_spec rem 0) as [->|NZ].
  { injection H as <- <-. split; auto. intros _. exists []. split; auto.
    rewrite skipn_all2 by lia. constructor. }
  assert (LS : length (skipn pos (mem 0 0)) = rem) by (rewrite skipn_length; lia).
  rewrite (ST i 1), (ST i 2), (ST i 3), (ST i 4), (ST i 0) in H.
  rewrite firstn_all2 in H by lia.
  destruct (der (skipn pos (mem 0 0))) as [r|[h len]] eqn:D.
  { injection H as <- <-. split; auto. intros ->. apply (proj2 WC) in D. discriminate. }
  destruct (rem <? 2 + h + len) eqn:LT; [injection H as <- <-; split; auto; discriminate|].
  apply Nat.ltb_ge in LT. set (c := firstn (2 + h + len) (skipn pos (mem 0 0))) in *.
  destruct (check_one e k roots i cm c c x) as [[r1|[rc1 hashed]] x1] eqn:C1; apply check_anchored with (1 := CM) in C1 as (K1 & A1 & N1 & N2); auto.
  { injection H as <- <-. split; auto. intros ->. destruct (N1 eq_refl). }
  destruct (Z.eqb_spec rc1 SUCCESS) as [E1|E1]; cbn [negb] in H.
  2:{ injection H as <- <-. split; auto. intros ->. destruct (N2 _ eq_refl). }
  subst rc1. specialize (A1 _ eq_refl).
  destruct (parse c) as [prc ca] eqn:PA. destruct (Z.eqb_spec prc 0) as [->|NP]; cbn [negb] in H.
  2:{ injection H as <- <-. split; auto. intros ->. destruct (NP eq_refl). }
  assert (NEXT : forall cm2 x2, cm_ok cm2 -> all_sound nv seen (fst x2) ->
    walk e k mem roots leaf fuel (S i) (pos + (2 + h + len)) (rem - (2 + h + len)) cm2 x2 = (rc, x') ->
    all_sound nv seen (fst x') /\ (rc = OK -> exists cs, splits (skipn pos (mem 0 0)) cs /\ Forall (anchored P R) cs)).
  { intros cm2 x2 CM2 K2 H2. eapply IH in H2 as [HA HB]; eauto; try lia. split; auto.
    intros E. destruct (HB E) as (cs & S1 & S2). exists (c :: cs). split; [|constructor; auto].
    apply splits_cons; auto; [lia|]. rewrite skip_more. exact S1. }
  destruct ca.
  - destruct (Z.eqb_spec (load (ce_world World e i) cm c) SUCCESS) as [EL|EL]; cbn [negb] in H.
    2:{ injection H as <- <-. split; auto. intros E. destruct (proj2 (proj1 WC _ _ _) E). }
    eapply NEXT; [| |exact H].
    + intros t [<-|It]; [right; split; auto|apply CM; auto].
    + destruct hashed; auto. cbv zeta. cbn [fst]. apply all_insert.
      * apply (others_inv World global k _ e i 2 x1 (sound_closed nv seen k) K1).
      * split; [exact RS|]. exists c. repeat split; auto.
  - destruct (leaf && negb (is_ok (ce_leaf World e i))) eqn:LF.
    + injection H as <- <-. split; auto. intros E. apply andb_prop in LF as [_ LF]. rewrite E in LF. discriminate.
    + eapply NEXT; eauto.
Qed.
End W.

Lemma cert_read_now s id cap b : cert_read max_cert s id cap = (OK, b) -> root_now s id = [b].
Proof.
  unfold cert_read, root_now, nv_meta, sp_read. destruct (max_cert <? cap); [discriminate|].
  destruct (sp_find s id) as [[m d]|]; [|discriminate]. change (is_ok OK) with true. cbn [negb].
  destruct (cap <? N.to_nat (m_len m)); [discriminate|]. destruct (_ && _); [|discriminate].
  intros E. injection E as <-. reflexivity.
Qed.
Lemma load_roots_got w s : forall ids got cm rc got' cm',
  load_roots World load max_cert w s ids got cm = (rc, got', cm') ->
  incl cm (roots_now s got) -> incl got' (got ++ ids) /\ incl cm' (roots_now s got').
Proof.
  induction ids as [|id ids IH]; intros got cm rc got' cm' H I; cbn [load_roots] in H.
  { injection H as <- <- <-. split; auto. rewrite app_nil_r. apply incl_refl. }
  assert (STOP : incl got (got ++ id :: ids)) by (apply incl_appl, incl_refl).
  assert (SKIP : incl got' (got ++ ids) -> incl got' (got ++ id :: ids)).
  { intros X. eapply incl_tran; [exact X|]. apply incl_app; [apply incl_appl, incl_refl|apply incl_appr, incl_tl, incl_refl]. }
  destruct (existsb (N.eqb id) got); [apply IH in H as [A B]; auto|].
  destruct (cert_read max_cert s id max_cert) as [r b] eqn:CR.
  destruct (Z.eqb r NOTFOUND); [apply IH in H as [A B]; auto|].
  destruct (is_ok r) eqn:R; cbn [negb] in H; [|injection H as <- <- <-; auto].
  destruct (negb (Z.eqb _ SUCCESS)); [injection H as <- <- <-; auto|].
  apply is_ok_iff in R. subst r. apply cert_read_now in CR.
  apply IH in H as [A B].
  - split; auto. rewrite <- app_assoc in A. exact A.
  - intros x [<-|X].
    + apply in_flat_map. exists id. split; [apply in_or_app; right; left; auto|]. rewrite CR. left; auto.
    + eapply roots_now_mono; [|apply I, X]. apply incl_appl, incl_refl.
Qed.

Lemma verify_anchored e k nv mem roots leaf x seen rc x' :
  (forall i p, mem i p = mem 0 0) -> (forall i, P (ce_world World e i)) -> incl roots seen ->
  all_sound nv seen (fst x) -> cert_verify e k nv mem (length (mem 0 0)) roots leaf x = (rc, x') ->
  all_sound nv seen (fst x') /\
  (rc = OK -> exists cs, cs <> [] /\ splits (mem 0 0) cs /\ Forall (anchored P (roots_now nv roots)) cs).
Proof.
  intros ST PW RS K H. unfold CertModel.cert_verify in H.
  destruct ((length (mem 0 0) =? 0) || _ || _) eqn:B0; [injection H as <- <-; split; auto; discriminate|].
  destruct (negb (ce_new World e)); [injection H as <- <-; split; auto; discriminate|].
  destruct (load_roots _ _ _ _ _ _ _ _) as [[r got] cm] eqn:LR.
  destruct (is_ok r) eqn:R; cbn [negb] in H.
  2:{ injection H as <- <-; split; auto. intros ->. discriminate. }
  destruct (length got =? 0); [injection H as <- <-; split; auto; discriminate|].
  destruct (walk _ _ _ _ _ _ _ _ _ _ _) as [r2 x2] eqn:W. injection H as <- <-.
  apply load_roots_got in LR as [G1 G2]; [|intros ? []]. cbn [app] in G1.
  eapply walk_anchored with (nv := nv) (seen := seen) in W as [A B]; eauto.
  - split; auto. destruct (is_ok r2) eqn:R2; [|discriminate]. intros _. apply is_ok_iff in R2.
    destruct (B R2) as (cs & S1 & S2). cbn [skipn] in S1. exists cs. split; [|split; auto].
    + intros ->. inversion S1 as [E|]. rewrite <- E in B0. discriminate.
    + eapply Forall_impl; [|exact S2]. intros c. apply anchored_mono. apply roots_now_mono. exact G1.
  - eapply incl_tran; eauto.
  - intros t It. left. apply G2, It.
Qed.

Definition next_seen (k c : nat) (q : creq) (seen : list N) : list N :=
  match q with CVerify _ _ ids _ => if cache_of c =? k then ids ++ seen else seen | _ => seen end.

Lemma root_anchored e k c id r s seen rc s' :
  (forall i, sp_find (snd r) i = sp_find (cs_nv s) i \/ (id = i /\ fst r = OK)) ->
  (In id seen -> cache_of c = k /\ ce_evict World e = OK) ->
  all_sound (cs_nv s) seen (cs_vc s k) ->
  root_changed World e (cache_of c) id r s = (rc, s') -> all_sound (cs_nv s') seen (cs_vc s' k).
Proof.
  intros FR OKC K H. destruct r as [r nv]. cbn [fst snd] in FR. unfold root_changed in H.
  assert (SAME : ~ In id seen -> all_sound nv seen (cs_vc s k)).
  { intros NI sl SI. pose proof (K sl SI) as [A B]. apply (sound_nv (cs_nv s)); [|split; auto].
    intros i Ii. destruct (FR i) as [->|[-> _]]; auto. destruct NI. apply A, Ii. }
  assert (EV : all_sound nv seen (vc_evict id (cs_vc s k))).
  { pose proof (all_evict _ id _ K) as KE. intros sl SI. apply KE in SI as [S1 NI].
    apply (sound_nv (cs_nv s)); auto. intros i Ii. destruct (FR i) as [->|[-> _]]; auto. destruct (NI Ii). }
  assert (DEC : In id seen \/ ~ In id seen) by (destruct (in_dec N.eq_dec id seen); auto).
  destruct (is_ok r) eqn:R; cbn [negb] in H.
  2:{ injection H as <- <-. cbn [set_nv cs_nv cs_vc]. intros sl SI. apply (sound_nv (cs_nv s)); [|apply K, SI].
      intros i Ii. destruct (FR i) as [->|[_ E]]; auto. rewrite E in R. discriminate. }
  destruct (is_ok (ce_evict World e)) eqn:V; cbn [negb] in H; injection H as <- <-; cbn [vc_set set_nv cs_nv cs_vc fst].
  - destruct (Nat.eqb_spec k (cache_of c)) as [<-|NE]; auto.
    apply SAME. intros X. apply OKC in X as [X _]. congruence.
  - apply SAME. intros X. apply OKC in X as [_ X]. rewrite X in V. discriminate.
Qed.

Lemma handle_anchored e c q s k seen rc b s' : steady q -> (forall i, P (ce_world World e i)) ->
  (forall id, In id seen -> ~ other_writes q id) ->
  (forall id, In id seen -> cert_writes q id -> cache_of c = k /\ ce_evict World e = OK) ->
  all_sound (cs_nv s) seen (cs_vc s k) -> cert_handle e c q s = (rc, b, s') ->
  all_sound (cs_nv s') (next_seen k c q seen) (cs_vc s' k) /\
  (rc = OK -> cache_of c = k -> forall dma mem ids leaf, q = CVerify dma mem ids leaf ->
   exists cs, cs <> [] /\ splits (mem 0 0) cs /\ Forall (anchored P (roots_now (cs_nv s) ids)) cs).
Proof.
  intros ST PW OW CW K H. unfold CertModel.cert_handle in H. cbv zeta in H.
  assert (REF : forall v d, (v, d, s) = (rc, b, s') -> all_sound (cs_nv s') seen (cs_vc s' k)).
  { intros v d E. injection E as <- <- <-. exact K. }
  assert (FL : forall (t : option bool) y, (if is_ok (ce_evict World e) then
      (OK, vc_set s (cache_of c) (match t with None => vc_clear (cs_vc s (cache_of c)) | Some b => vc_enable b (cs_vc s (cache_of c)) end,
                       toggle_log (cache_of c) (match t with None => TClear | Some b => TEnable b end) ++ cs_log s))
    else (ce_evict World e, s)) = y -> all_sound (cs_nv (snd y)) seen (cs_vc (snd y) k)).
  { intros t y <-. destruct (is_ok (ce_evict World e)); cbn [snd]; auto. cbn [vc_set cs_nv cs_vc fst].
    destruct (Nat.eqb_spec k (cache_of c)) as [<-|]; auto. destruct t; [apply all_enable; auto|apply all_clear]. }
  destruct q; cbn [next_seen]; (split; [|try (intros _ _ ? ? ? ?; discriminate)]).
  - destruct global; [eapply REF; eauto|]. injection H as _ _ <-. eapply (FL None); eauto.
  - destruct (dma && _); [eapply REF; eauto|]. destruct (is_ok (ce_lock World e)); [|eapply REF; eauto].
    destruct (root_changed _ _ _ _ _ _) as [r s1] eqn:RC. injection H as <- <- <-.
    destruct (cert_add _ _ _ _ _ _ _) as [rr nn] eqn:CA.
    eapply root_anchored in RC; eauto; cbn [fst snd]; [intros i; eapply cert_add_frame; eauto|].
    intros X. apply (CW id X). reflexivity.
  - destruct (is_ok (ce_lock World e)); [|eapply REF; eauto].
    destruct (root_changed _ _ _ _ _ _) as [r s1] eqn:RC. injection H as <- <- <-.
    destruct (cert_erase _ _ _) as [rr nn] eqn:CA.
    eapply root_anchored in RC; eauto; cbn [fst snd]; [intros i; eapply cert_erase_frame; eauto|].
    intros X. apply (CW id X). reflexivity.
  - destruct (is_ok (ce_lock World e)); [|eapply REF; eauto].
    destruct (nv_meta _ _) as [r m]. destruct (negb (is_ok r)); [eapply REF; eauto|].
    destruct (has _ _); [eapply REF; eauto|]. destruct (cert_read _ _ _ _) as [r2 b2]. eapply REF; eauto.
  - destruct (true && _); [eapply REF; eauto|]. destruct (is_ok (ce_lock World e)); [|eapply REF; eauto].
    destruct (nv_meta _ _) as [r m]. destruct (negb (is_ok r)); [eapply REF; eauto|].
    destruct (has _ _); [eapply REF; eauto|]. destruct (cert_read _ _ _ _) as [r2 b2]. eapply REF; eauto.
  - assert (K2 : all_sound (cs_nv s) (if cache_of c =? k then roots ++ seen else seen) (cs_vc s k)).
    { destruct (cache_of c =? k); auto. intros sl SI. eapply sound_seen; [|apply K, SI]. apply incl_appr, incl_refl. }
    destruct (dma && _); [injection H as <- <- <-; exact K2|].
    destruct (is_ok (ce_lock World e)); [|injection H as <- <- <-; exact K2].
    destruct (cert_verify _ _ _ _ _ _ _ _) as [r x] eqn:V. injection H as <- <- <-. cbn [vc_set cs_nv cs_vc].
    destruct (Nat.eqb_spec k (cache_of c)) as [->|NE]; [|exact K2]. rewrite Nat.eqb_refl in *.
    replace (length (mem 0 0)) with (length ((if dma then mem else fun _ _ => mem 0 0) 0 0)) in V by (destruct dma; reflexivity).
    eapply verify_anchored in V as [A B]; [exact A| | | |].
    + destruct dma; auto.
    + exact PW.
    + apply incl_appl, incl_refl.
    + exact K2.
  - intros -> <- d0 m0 i0 l0 EQ. injection EQ as <- <- <- <-.
    destruct (dma && negb (is_ok (ce_dma World e))) eqn:DM.
    { injection H as H _ _. apply andb_prop in DM as [_ DM]. rewrite H in DM. discriminate. }
    destruct (is_ok (ce_lock World e)) eqn:LK.
    2:{ injection H as H _ _. rewrite H in LK. discriminate. }
    destruct (cert_verify _ _ _ _ _ _ _ _) as [r x] eqn:V. injection H as -> <- <-.
    replace (length (mem 0 0)) with (length ((if dma then mem else fun _ _ => mem 0 0) 0 0)) in V by (destruct dma; reflexivity).
    eapply verify_anchored with (seen := roots ++ seen) in V as [A B]; [| | | |].
    + replace ((if dma then mem else fun _ _ => mem 0 0) 0 0) with (mem 0 0) in B by (destruct dma; reflexivity). auto.
    + destruct dma; auto.
    + exact PW.
    + apply incl_appl, incl_refl.
    + intros sl SI. eapply sound_seen; [|apply K, SI]. apply incl_appr, incl_refl.
  - destruct global; [injection H as _ _ <-; eapply (FL None); eauto|].
    destruct (is_ok (ce_lock World e)); [|eapply REF; eauto]. injection H as _ _ <-. eapply (FL None); eauto.
  - destruct global; [injection H as _ _ <-; eapply (FL (Some b0)); eauto|].
    destruct (is_ok (ce_lock World e)); [|eapply REF; eauto]. injection H as _ _ <-. eapply (FL (Some b0)); eauto.
  - destruct (nvm_handle _ _ _ _ _) as [a nv] eqn:NH. injection H as <- <- <-. cbn [set_nv cs_nv cs_vc].
    intros sl SI. apply (sound_nv (cs_nv s)); [|apply K, SI]. intros i Ii. eapply nvm_frame; eauto.
    apply OW. apply (K sl SI), Ii.
  - injection H as <- <- <-. cbn [set_nv cs_nv cs_vc].
    intros sl SI. apply (sound_nv (cs_nv s)); [|apply K, SI]. intros i Ii. apply set_obj_frame.
    intros ->. apply (OW i); [apply (K sl SI), Ii|reflexivity].
  - injection H as <- <- <-. cbn [cs_nv cs_vc]. apply all_enable, all_clear.
Qed.

Theorem run_anchored : forall evs s k seen rs s' e c dma mem ids leaf b s2,
  steady_run World evs -> steady (CVerify dma mem ids leaf) ->
  (forall x, In x evs -> forall i, P (ce_world World (fst (fst x)) i)) -> (forall i, P (ce_world World e i)) ->
  undisturbed World global k seen evs -> all_sound (cs_nv s) seen (cs_vc s k) ->
  cert_run evs s = (rs, s') -> cache_of c = k ->
  cert_handle e c (CVerify dma mem ids leaf) s' = (OK, b, s2) ->
  exists cs, cs <> [] /\ splits (mem 0 0) cs /\ Forall (anchored P (roots_now (cs_nv s') ids)) cs.
Proof.
  induction evs as [|[[e0 c0] q0] evs IH]; intros s k seen rs s' e c dma mem ids leaf b s2 ST ST2 PW PE U K H HC HV;
    cbn [CertModel.cert_run] in H.
  - injection H as <- <-. eapply handle_anchored with (k := k) (seen := seen) in HV as [_ HV]; eauto; intros ? ? [].
  - destruct (cert_handle e0 c0 q0 s) as [[rc0 b0] s1] eqn:E1. destruct (cert_run evs s1) as [rs2 s3] eqn:E2.
    injection H as <- <-. inversion ST; subst. cbn [undisturbed] in U. destruct U as (U1 & U2 & U3).
    eapply handle_anchored with (k := cache_of c) (seen := seen) in E1 as [K1 _]; eauto.
    + eapply IH; [| | | |exact U3|exact K1|exact E2|reflexivity|exact HV]; auto. intros x Ix. apply PW. right; auto.
    + apply (PW (e0, c0, q0)). left; auto.
Qed.
End Wolf.
