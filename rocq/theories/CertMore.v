(** Protected objects under certificate requests; the cache against plain
    verification. *)
From Verif Require Import Base NvmSpec Flags Store NvmReqModel NvmReqProof CertModel CertSpec CertProof CertAnchor.

(** A request of a client, not a change the server makes on its own, with no
    race on the metadata of a DMA add. *)
Definition client_request (q : creq) : Prop :=
  match q with CNvm _ q => race_free q | COther _ _ => False | _ => True end.

Section Wolf.
Variable max_roots : nat.
Variable World : Type.
Variable vrfy load : World -> list bytes -> bytes -> Z.
Variable parse : bytes -> Z * bool.
Variable der : bytes -> Z + (nat * nat).
Variable digest : bytes -> bytes.
Variable global : bool.
Variable max_cert max_resp max_read : nat.
Variable have_stateful : bool.
Notation cenv := (cenv World).
Notation check_one := (check_one World vrfy digest global).
Notation walk := (walk max_roots World vrfy load parse der digest global).
Notation cert_verify := (cert_verify max_roots World vrfy load parse der digest global max_cert).
Notation cert_handle := (cert_handle max_roots World vrfy load parse der digest global max_cert max_resp max_read have_stateful).
Notation cert_run := (cert_run max_roots World vrfy load parse der digest global max_cert max_resp max_read have_stateful).
Notation others := (others World global).
Notation ev := (cenv * nat * creq)%type.

(** ** Protection *)
Lemma root_nv e k id r s rc s' : root_changed World e k id r s = (rc, s') -> cs_nv s' = snd r.
Proof.
  unfold root_changed. destruct r as [r nv]. destruct (negb (is_ok r)); [intros E; injection E as <- <-; reflexivity|].
  destruct (negb (is_ok (ce_evict World e))); intros E; injection E as <- <-; reflexivity.
Qed.

Lemma cert_change e c q s rc b s' id : client_request q -> cert_handle e c q s = (rc, b, s') ->
  change (cs_nv s) (cs_nv s') id \/
  (q = CErase id /\ sp_find (cs_nv s') id = None /\
   forall m0 d0, sp_find (cs_nv s) id = Some (m0, d0) ->
     has (m_flags m0) F_TRUSTED = false /\ has (m_flags m0) F_NONDESTROYABLE = false).
Proof.
  intros CR H. unfold CertModel.cert_handle in H. cbv zeta in H.
  assert (REF : forall v d, (v, d, s) = (rc, b, s') -> change (cs_nv s) (cs_nv s') id).
  { intros v d E. injection E as <- <- <-. apply ch_same; reflexivity. }
  assert (FL : forall (t : option bool) y, (if is_ok (ce_evict World e) then
      (OK, vc_set s (cache_of global c) (match t with None => vc_clear (cs_vc s (cache_of global c)) | Some b => vc_enable b (cs_vc s (cache_of global c)) end,
                       toggle_log (cache_of global c) (match t with None => TClear | Some b => TEnable b end) ++ cs_log s))
    else (ce_evict World e, s)) = y -> change (cs_nv s) (cs_nv (snd y)) id).
  { intros t y <-. destruct (is_ok (ce_evict World e)); apply ch_same; reflexivity. }
  destruct q.
  - left. destruct global; [eapply REF; eauto|]. injection H as _ _ <-. eapply (FL None); eauto.
  - left. destruct (dma && _); [eapply REF; eauto|]. destruct (is_ok (ce_lock World e)); [|eapply REF; eauto].
    destruct (root_changed _ _ _ _ _ _) as [r s1] eqn:RC. injection H as <- <- <-.
    apply root_nv in RC. cbn [snd]. rewrite RC. destruct (cert_add _ _ _ _ _ _ _) as [rr nn] eqn:CA. cbn [snd].
    unfold cert_add in CA. destruct (length cert =? 0); [injection CA as <- <-; apply ch_same; reflexivity|].
    cbv zeta in CA. eapply add_change; [|exact CA]. reflexivity.
  - destruct (is_ok (ce_lock World e)); [|left; eapply REF; eauto].
    destruct (root_changed _ _ _ _ _ _) as [r s1] eqn:RC. injection H as <- <- <-.
    apply root_nv in RC. cbn [snd]. rewrite RC. destruct (cert_erase _ _ _) as [rr nn] eqn:CA. cbn [snd].
    unfold cert_erase in CA. rewrite nv_meta_find in CA.
    destruct (is_ok (fst (match sp_find (cs_nv s) id0 with Some o => (OK, fst o) | None => (NOTFOUND, meta_zero) end)) &&
              has (m_flags (snd (match sp_find (cs_nv s) id0 with Some o => (OK, fst o) | None => (NOTFOUND, meta_zero) end))) (N.lor F_SERVER_ONLY F_NONDESTROYABLE)) eqn:B.
    { destruct (sp_find (cs_nv s) id0) as [[m d]|]; cbn [fst snd] in *; [|discriminate].
      rewrite B in CA. injection CA as <- <-. left. apply ch_same; reflexivity. }
    assert (D : nv_destroy (ce_nvm World e) [id0] (cs_nv s) = (rr, nn)).
    { destruct (sp_find (cs_nv s) id0) as [[m d]|]; cbn [fst snd] in *; [rewrite B in CA|]; exact CA. }
    apply nv_destroy_find with (id := id) in D. cbn [existsb] in D.
    destruct (N.eqb_spec id id0) as [->|NE]; [|left; apply ch_same; rewrite Bool.andb_false_r in D; exact D].
    destruct (is_ok rr); [|left; apply ch_same; exact D]. right. split; auto. split; [exact D|].
    intros m0 d0 F. rewrite F in B. cbn [fst snd] in B. change (is_ok OK) with true in B. cbn [andb] in B.
    rewrite has_lor in B. apply Bool.orb_false_elim in B as [B1 B2]. auto.
  - left. destruct (is_ok (ce_lock World e)); [|eapply REF; eauto].
    destruct (nv_meta _ _) as [r m]. destruct (negb (is_ok r)); [eapply REF; eauto|].
    destruct (has _ _); [eapply REF; eauto|]. destruct (cert_read _ _ _ _) as [r2 b2]. eapply REF; eauto.
  - left. destruct (true && _); [eapply REF; eauto|]. destruct (is_ok (ce_lock World e)); [|eapply REF; eauto].
    destruct (nv_meta _ _) as [r m]. destruct (negb (is_ok r)); [eapply REF; eauto|].
    destruct (has _ _); [eapply REF; eauto|]. destruct (cert_read _ _ _ _) as [r2 b2]. eapply REF; eauto.
  - left. destruct (dma && _); [eapply REF; eauto|]. destruct (is_ok (ce_lock World e)); [|eapply REF; eauto].
    destruct (cert_verify _ _ _ _ _ _ _ _) as [r x] eqn:V. injection H as <- <- <-. apply ch_same; reflexivity.
  - left. destruct global; [injection H as _ _ <-; eapply (FL None); eauto|].
    destruct (is_ok (ce_lock World e)); [|eapply REF; eauto]. injection H as _ _ <-. eapply (FL None); eauto.
  - left. destruct global; [injection H as _ _ <-; eapply (FL (Some b0)); eauto|].
    destruct (is_ok (ce_lock World e)); [|eapply REF; eauto]. injection H as _ _ <-. eapply (FL (Some b0)); eauto.
  - left. destruct (nvm_handle _ _ _ _ _) as [a nv] eqn:NH. injection H as <- <- <-. cbn [set_nv cs_nv].
    eapply handle_change; eauto.
  - destruct CR.
  - left. injection H as <- <- <-. apply ch_same; reflexivity.
Qed.

Lemma run_ind (Q : ev -> Prop) (P : store -> Prop) :
  (forall e c q s rc b s', Q (e, c, q) -> P (cs_nv s) -> cert_handle e c q s = (rc, b, s') -> P (cs_nv s')) ->
  forall evs s rs s', Forall Q evs -> P (cs_nv s) -> cert_run evs s = (rs, s') -> P (cs_nv s').
Proof.
  intros HP. induction evs as [|[[e c] q] evs IH]; intros s rs s' F H0 H; cbn [CertModel.cert_run] in H;
    [injection H as <- <-; auto|].
  destruct (cert_handle e c q s) as [[rc b] s1] eqn:E1. destruct (cert_run evs s1) as [rs2 s2] eqn:E2.
  injection H as <- <-. inversion F; subst. eapply IH; [| |exact E2]; auto. eapply HP; eauto.
Qed.

(** Does a request name the object [id] to be written? *)
Definition adds (q : creq) (id : N) : Prop :=
  match q with
  | CAdd _ i _ _ _ _ => i = id
  | CNvm _ (QAdd m _) => m_id m = id
  | CNvm _ (QAddDma m _ _ _) => m_id m = id
  | _ => False
  end.
Lemma adds_only e c q s rc b s' id o : client_request q -> cert_handle e c q s = (rc, b, s') -> ~ adds q id ->
  sp_find (cs_nv s') id = Some o -> sp_find (cs_nv s) id = Some o.
Proof.
  intros CR H NA F. 
  assert (W : forall nv nn, sp_find nv id = sp_find (cs_nv s) id -> nn = nv -> sp_find nn id = Some o -> sp_find (cs_nv s) id = Some o) by congruence.
  destruct q; try (unfold CertModel.cert_handle in H; cbv zeta in H).
  - destruct global; [|destruct (is_ok (ce_evict World e))]; injection H as <- <- <-; exact F.
  - destruct (dma && _); [injection H as <- <- <-; exact F|]. destruct (is_ok (ce_lock World e)); [|injection H as <- <- <-; exact F].
    destruct (root_changed _ _ _ _ _ _) as [r s1] eqn:RC. injection H as <- <- <-.
    apply root_nv in RC. cbn [snd] in F. rewrite RC in F. destruct (cert_add _ _ _ _ _ _ _) as [rr nn] eqn:CA. cbn [snd] in F.
    destruct (cert_add_frame _ _ _ _ _ _ _ _ _ id CA) as [X|[X _]]; [congruence|]. destruct NA. exact X.
  - destruct (is_ok (ce_lock World e)); [|injection H as <- <- <-; exact F].
    destruct (root_changed _ _ _ _ _ _) as [r s1] eqn:RC. injection H as <- <- <-.
    apply root_nv in RC. cbn [snd] in F. rewrite RC in F. unfold cert_erase in F. destruct (nv_meta _ _) as [r0 m].
    destruct (is_ok r0 && _); [exact F|]. destruct (fatal r0); [exact F|].
    destruct (nv_destroy _ _ _) as [rr nn] eqn:D. apply nv_destroy_find with (id := id) in D. cbn [snd] in F.
    destruct (is_ok rr && _); congruence.
  - destruct (is_ok (ce_lock World e)); [|injection H as <- <- <-; exact F].
    destruct (nv_meta _ _) as [r m]. destruct (negb (is_ok r)); [injection H as <- <- <-; exact F|].
    destruct (has _ _); [injection H as <- <- <-; exact F|]. destruct (cert_read _ _ _ _) as [r2 b2]. injection H as <- <- <-; exact F.
  - destruct (true && _); [injection H as <- <- <-; exact F|]. destruct (is_ok (ce_lock World e)); [|injection H as <- <- <-; exact F].
    destruct (nv_meta _ _) as [r m]. destruct (negb (is_ok r)); [injection H as <- <- <-; exact F|].
    destruct (has _ _); [injection H as <- <- <-; exact F|]. destruct (cert_read _ _ _ _) as [r2 b2]. injection H as <- <- <-; exact F.
  - destruct (dma && _); [injection H as <- <- <-; exact F|]. destruct (is_ok (ce_lock World e)); [|injection H as <- <- <-; exact F].
    destruct (cert_verify _ _ _ _ _ _ _ _) as [r x] eqn:V. injection H as <- <- <-. exact F.
  - destruct global; [|destruct (is_ok (ce_lock World e))]; try destruct (is_ok (ce_evict World e)); injection H as <- <- <-; exact F.
  - destruct global; [|destruct (is_ok (ce_lock World e))]; try destruct (is_ok (ce_evict World e)); injection H as <- <- <-; exact F.
  - destruct (nvm_handle _ _ _ _ _) as [a nv] eqn:NH. injection H as <- <- <-. cbn [set_nv cs_nv] in F.
    destruct q; try (rewrite (nvm_frame _ _ _ _ _ _ _ id NH) in F; [exact F|]; cbn [other_writes adds client_request race_free] in *; congruence).
    cbn [nvm_handle] in NH. destruct (count <=? 19); [|injection NH as <- <-; exact F].
    destruct (is_ok (e_lock ne)); [|injection NH as <- <-; exact F].
    destruct (destroy_checked _ _ _) as [r2 s2] eqn:D. injection NH as <- <-. eapply destroy_no_new; eauto.
  - destruct CR.
  - injection H as <- <- <-; exact F.
Qed.

(** Trusted objects never appear, change or disappear. *)
Theorem cert_trusted evs s rs s' id : Forall (fun x : ev => client_request (snd x)) evs ->
  cert_run evs s = (rs, s') -> forall m d, has (m_flags m) F_TRUSTED = true ->
  (sp_find (cs_nv s') id = Some (m, d) <-> sp_find (cs_nv s) id = Some (m, d)).
Proof.
  intros F H m d HT.
  refine (run_ind (fun x => client_request (snd x)) (fun nv => sp_find nv id = Some (m, d) <-> sp_find (cs_nv s) id = Some (m, d)) _ evs s rs s' F _ H); [|tauto].
  intros e c q s0 rc b s1 CR IH HH. cbn [snd] in CR. rewrite <- IH.
  destruct (cert_change _ _ _ _ _ _ _ id CR HH) as [[E|m1 d1 E1 E2 E3|E1 E2]|(_ & E1 & E2)].
  - rewrite E. tauto.
  - rewrite E1. split; intros X; [congruence|]. destruct (E3 _ _ X); congruence.
  - rewrite E1. split; intros X; [congruence|]. destruct (E2 _ _ X); congruence.
  - rewrite E1. split; intros X; [congruence|]. destruct (E2 _ _ X); congruence.
Qed.

Theorem cert_nonmodifiable evs s rs s' id m d :
  Forall (fun x : ev => client_request (snd x) /\ snd x <> CErase id) evs ->
  sp_find (cs_nv s) id = Some (m, d) -> has (m_flags m) F_NONMODIFIABLE = true ->
  cert_run evs s = (rs, s') -> sp_find (cs_nv s') id = Some (m, d).
Proof.
  intros F HF HM H.
  refine (run_ind (fun x => client_request (snd x) /\ snd x <> CErase id) (fun nv => sp_find nv id = Some (m, d)) _ evs s rs s' F HF H).
  intros e c q s0 rc b s1 [CR NE] IH HH. cbn [snd] in *.
  destruct (cert_change _ _ _ _ _ _ _ id CR HH) as [[E|m1 d1 E1 E2 E3|E1 E2]|(E0 & E1 & E2)].
  - congruence.
  - destruct (E3 _ _ IH); congruence.
  - destruct (E2 _ _ IH) as (? & ? & ?); congruence.
  - congruence.
Qed.

Theorem cert_nondestroyable evs s rs s' id m d :
  Forall (fun x : ev => client_request (snd x) /\ ~ adds (snd x) id) evs ->
  sp_find (cs_nv s) id = Some (m, d) -> has (m_flags m) F_NONDESTROYABLE = true ->
  cert_run evs s = (rs, s') -> sp_find (cs_nv s') id = Some (m, d).
Proof.
  intros F HF HM H.
  refine (run_ind (fun x => client_request (snd x) /\ ~ adds (snd x) id) (fun nv => sp_find nv id = Some (m, d)) _ evs s rs s' F HF H).
  intros e c q s0 rc b s1 [CR NE] IH HH. cbn [snd] in *.
  destruct (cert_change _ _ _ _ _ _ _ id CR HH) as [[E|m1 d1 E1 E2 E3|E1 E2]|(E0 & E1 & E2)].
  - congruence.
  - pose proof (adds_only _ _ _ _ _ _ _ _ _ CR HH NE E1) as X. congruence.
  - destruct (E2 _ _ IH) as (? & ? & ?); congruence.
  - destruct (E2 _ _ IH); congruence.
Qed.

Theorem cert_read_exportable e c q s id cap rc b s' : q = CRead id \/ q = CReadDma id cap ->
  cert_handle e c q s = (rc, b, s') -> b <> [] ->
  exists m d, sp_find (cs_nv s) id = Some (m, d) /\ has (m_flags m) F_NONEXPORTABLE = false /\
    has (m_flags m) F_TRUSTED = false /\ rc = OK /\ b = firstn (N.to_nat (m_len m)) d.
Proof.
  intros Q H NE.
  assert (X : forall cap, (let '(rc, m) := nv_meta (cs_nv s) id in
              if negb (is_ok rc) then (rc, [], s) else
              if has (m_flags m) (N.lor F_NONEXPORTABLE F_SERVER_ONLY) then (ACCESS, [], s) else
              let '(rc, b) := cert_read max_cert (cs_nv s) id cap in (rc, b, s)) = (rc, b, s') ->
     exists m d, sp_find (cs_nv s) id = Some (m, d) /\ has (m_flags m) F_NONEXPORTABLE = false /\
    has (m_flags m) F_TRUSTED = false /\ rc = OK /\ b = firstn (N.to_nat (m_len m)) d).
  { intros cp. rewrite nv_meta_find. destruct (sp_find (cs_nv s) id) as [[m d]|] eqn:F; [|intros E; injection E; congruence].
    change (is_ok OK) with true. cbn [negb fst]. rewrite has_lor.
    destruct (has (m_flags m) F_NONEXPORTABLE || has (m_flags m) F_SERVER_ONLY) eqn:B; [intros E; injection E; congruence|].
    apply Bool.orb_false_elim in B as [B1 B2]. unfold cert_read, nv_meta, sp_read. rewrite F.
    destruct (max_cert <? cp); [intros E; injection E; congruence|]. change (is_ok OK) with true. cbn [negb].
    destruct (cp <? N.to_nat (m_len m)); [intros E; injection E; congruence|].
    destruct (_ && _); [|intros E; injection E; congruence]. intros E. injection E as <- <- <-.
    exists m, d. repeat split; auto. }
  unfold CertModel.cert_handle in H. cbv zeta in H. destruct Q as [-> | ->].
  - destruct (is_ok (ce_lock World e)); [|injection H as _ E _; congruence]. eapply X; eauto.
  - destruct (true && _); [injection H as _ E _; congruence|].
    destruct (is_ok (ce_lock World e)); [|injection H as _ E _; congruence]. eapply X; eauto.
Qed.

(** ** The cache against verification without it *)
(** The same request in a server whose cache cannot be used. *)
Definition no_cache (e : cenv) : cenv :=
  mkCenv World (ce_lock World e) (ce_nvm World e) (ce_dma World e) (ce_evict World e) (ce_new World e) (ce_world World e)
    (fun _ => ABORTED) (ce_look World e) (ce_ins World e) (ce_hash World e) (ce_leaf World e) (ce_mid World e).

Lemma plain_check e k roots i cm hx vx x : exists x',
  check_one (no_cache e) k roots i cm hx vx x = (inr (vrfy (ce_world World e i) cm vx, false), x').
Proof. unfold CertModel.check_one. cbv zeta. cbn [no_cache ce_snap ce_world]. change (is_ok ABORTED) with false. cbn [andb]. eauto. Qed.

Section T.
Variable e : cenv.
Variable mem : view.
Variable leaf : bool.
Hypothesis WC : wolf_codes World vrfy der load.
Hypothesis HO : forall i, ce_hash World e i = OK.

Lemma cached_check k roots i cm hx vx x : exists rc hashed x',
  check_one e k roots i cm hx vx x = (inr (rc, hashed), x') /\ (rc = SUCCESS \/ rc = vrfy (ce_world World e i) cm vx).
Proof.
  unfold CertModel.check_one. cbv zeta. destruct (is_ok (ce_snap World e i) && _); [|eauto 6].
  rewrite HO. change (is_ok OK) with true. cbn [negb]. destruct (is_ok (vc_lookup _ _ _ _)); eauto 6.
Qed.

Lemma walk_more k roots : forall fuel i pos rem cm x0 x x0' ,
  walk (no_cache e) k mem roots leaf fuel i pos rem cm x0 = (OK, x0') ->
  exists x', walk e k mem roots leaf fuel i pos rem cm x = (OK, x').
Proof.
  induction fuel as [|fuel IH]; intros i pos rem cm x0 x x0' H; cbn [CertModel.walk] in *; [eauto|].
  destruct (rem =? 0); [eauto|]. destruct (der _) as [r|[h len]]; [injection H as -> _; eauto|].
  destruct (rem <? 2 + h + len); [discriminate|].
  destruct (plain_check e k roots i cm (firstn (2 + h + len) (skipn pos (mem i 1))) (firstn (2 + h + len) (skipn pos (mem i 2))) x0) as [x1 E1].
  rewrite E1 in H. clear E1.
  destruct (Z.eqb_spec (vrfy (ce_world World e i) cm (firstn (2 + h + len) (skipn pos (mem i 2)))) SUCCESS) as [V|V]; cbn [negb] in H.
  2:{ injection H as H _. destruct (proj1 (proj1 WC _ _ _) H). }
  destruct (cached_check k roots i cm (firstn (2 + h + len) (skipn pos (mem i 1))) (firstn (2 + h + len) (skipn pos (mem i 2))) x)
    as (rc & hashed & x2 & E2 & RC). rewrite E2.
  assert (rc = SUCCESS) as -> by (destruct RC as [->| ->]; auto). rewrite Z.eqb_refl. cbn [negb].
  destruct (parse _) as [prc ca]. destruct (negb (Z.eqb prc 0)); [injection H as -> _; eauto|].
  destruct ca.
  - cbn [no_cache ce_world] in H. destruct (negb _); [apply (f_equal fst) in H; cbn [fst] in H; rewrite H; eauto|].
    eapply IH. exact H.
  - cbn [no_cache ce_leaf] in H. destruct (leaf && _); [apply (f_equal fst) in H; cbn [fst] in H; rewrite H; eauto|]. eapply IH. exact H.
Qed.
End T.

(** Whatever the cache holds, it refuses no chain that verifies without it. *)
Theorem cache_refuses_nothing e c dma mem ids leaf s s0 b s1 :
  wolf_codes World vrfy der load -> (forall i, ce_hash World e i = OK) -> cs_nv s0 = cs_nv s ->
  cert_handle (no_cache e) c (CVerify dma mem ids leaf) s0 = (OK, b, s1) ->
  exists s2, cert_handle e c (CVerify dma mem ids leaf) s = (OK, b, s2).
Proof.
  intros WC HO NV H. unfold CertModel.cert_handle in *. cbv zeta in *. rewrite NV in H. cbn [no_cache ce_dma ce_lock] in H.
  destruct (dma && _); [injection H as -> <- _; eauto|]. destruct (is_ok (ce_lock World e)); [|injection H as -> <- _; eauto].
  unfold CertModel.cert_verify in *. cbn [no_cache ce_new ce_world] in H.
  destruct (_ || _ || _); [discriminate|]. destruct (negb _); [discriminate|].
  destruct (load_roots _ _ _ _ _ _ _ _) as [[r got] cm]. destruct (negb (is_ok r)); [injection H as -> <- _; eauto|].
  destruct (length got =? 0); [discriminate|].
  destruct (CertModel.walk _ _ _ _ _ _ _ _ (no_cache e) _ _ _ _ _ _ _ _ _ _) as [r2 x2] eqn:W.
  destruct (is_ok r2) eqn:R2; [|discriminate]. apply is_ok_iff in R2. subst r2. injection H as <- _.
  eapply walk_more with (x := (cs_vc s (cache_of global c), cs_log s)) in W as [x' ->]; auto.
  change (is_ok OK) with true. cbv iota. eauto.
Qed.

(** A disabled cache plays no part. *)
Lemma walk_off e k mem leaf roots : (global = true -> forall i p, ce_mid World e i p = []) ->
  forall fuel i pos rem cm x y, vc_on (fst x) = false ->
  fst (walk e k mem roots leaf fuel i pos rem cm x) = fst (walk (no_cache e) k mem roots leaf fuel i pos rem cm y) /\
  fst (snd (walk e k mem roots leaf fuel i pos rem cm x)) = fst x.
Proof.
  intros QU. assert (OT : forall i p x, others e k i p x = x).
  { intros i p x. unfold CertModel.others. destruct global; auto. rewrite QU by auto. reflexivity. }
  induction fuel as [|fuel IH]; intros i pos rem cm x y OFF; cbn [CertModel.walk]; [auto|].
  destruct (rem =? 0); [auto|]. destruct (der _) as [r|[h len]]; [auto|].
  destruct (rem <? 2 + h + len); [auto|].
  destruct (plain_check e k roots i cm (firstn (2 + h + len) (skipn pos (mem i 1))) (firstn (2 + h + len) (skipn pos (mem i 2))) y) as [y1 E1].
  rewrite E1. clear E1.
  unfold CertModel.check_one. cbv zeta. rewrite OT, OFF, Bool.andb_false_r. cbv iota.
  destruct (negb (Z.eqb _ SUCCESS)); [auto|].
  destruct (parse _) as [prc ca]. destruct (negb (Z.eqb prc 0)); [auto|]. cbn [no_cache ce_world ce_leaf].
  destruct ca.
  - destruct (negb _); [auto|]. edestruct IH as [A B]; [|split; [exact A|rewrite B; reflexivity]]. exact OFF.
  - destruct (leaf && _); [auto|]. edestruct IH as [A B]; [|split; [exact A|rewrite B; reflexivity]]. exact OFF.
Qed.
Theorem cache_off e c dma mem ids leaf s :
  (global = true -> forall i p, ce_mid World e i p = []) ->
  vc_on (cs_vc s (cache_of global c)) = false ->
  fst (fst (cert_handle e c (CVerify dma mem ids leaf) s)) =
  fst (fst (cert_handle (no_cache e) c (CVerify dma mem ids leaf) s)).
Proof.
  intros QU OFF. unfold CertModel.cert_handle. cbv zeta. cbn [no_cache ce_dma ce_lock].
  destruct (dma && _); [auto|]. destruct (is_ok (ce_lock World e)); [|auto].
  unfold CertModel.cert_verify. cbn [no_cache ce_new ce_world].
  destruct (_ || _ || _); [auto|]. destruct (negb _); [auto|].
  destruct (load_roots _ _ _ _ _ _ _ _) as [[r got] cm]. destruct (negb (is_ok r)); [auto|].
  destruct (length got =? 0); [auto|].
  pose proof (walk_off e (cache_of global c) (if dma then mem else fun _ _ => mem 0 0) leaf got QU (length (mem 0 0)) 0 0 (length (mem 0 0)) cm
    (cs_vc s (cache_of global c), cs_log s) (cs_vc s (cache_of global c), cs_log s) OFF) as [A _].
  destruct (walk e _ _ _ _ _ _ _ _ _ _) as [r1 x1]. destruct (walk (no_cache e) _ _ _ _ _ _ _ _ _ _) as [r2 x2].
  cbn [fst] in *. rewrite A. reflexivity.
Qed.
End Wolf.
