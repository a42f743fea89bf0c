(** Proofs about the NVM calls on bytes (NvcModel.v). *)
From Verif Require Import Base BaseLemmas NvmSpec Flags Store NvmReqModel EndianModel EndianProof KdfModel KsReq AuthCodec.
From Verif Require Import NvcModel NvcSpec.

Ltac inv H := inversion H; subst; clear H.
Ltac conjs := repeat match goal with |- _ /\ _ => split end.

(** ** Fields *)
Lemma enc_length be w v : length (enc be w v) = w.
Proof. unfold enc. destruct be; rewrite ?rev_length; apply le_enc_length. Qed.
Lemma wire_length be fs : length (wire be fs) = sum (map fst fs).
Proof. induction fs as [|[w v] fs IH]; cbn [wire flat_map map sum fold_right]; auto. rewrite app_length, enc_length. fold (wire be fs). rewrite IH. reflexivity. Qed.
Definition fit (f : nat * N) : Prop := wide (fst f) /\ (snd f < 256 ^ N.of_nat (fst f))%N.

Lemma take_wire sb cb : forall fs rest, Forall fit fs -> take sb cb (map fst fs) (wire cb fs ++ rest) = map snd fs.
Proof.
  induction fs as [|[w v] fs IH]; intros rest H; cbn [map take fst snd]; auto. inv H. destruct H2 as [A B]. cbn [fst snd] in *.
  cbn [wire flat_map]. fold (wire cb fs). cbn [fst snd]. rewrite <- app_assoc.
  rewrite first_exact, skip_exact by apply enc_length. rewrite IH by auto. f_equal. unfold magic. apply field_agree; auto.
Qed.
Lemma unwire_give sb cb : forall fs rest, Forall fit fs -> unwire cb (map fst fs) (give sb cb fs ++ rest) = map snd fs.
Proof.
  induction fs as [|[w v] fs IH]; intros rest H; cbn [map unwire fst snd]; auto. inv H. destruct H2 as [A B]. cbn [fst snd] in *.
  unfold give. cbn [map wire flat_map fst snd]. rewrite <- app_assoc.
  rewrite first_exact, skip_exact by apply enc_length. f_equal; [unfold magic; apply field_reply; auto|]. apply (IH rest). auto.
Qed.
Lemma give_length sb cb fs : length (give sb cb fs) = sum (map fst fs).
Proof. unfold give. rewrite wire_length, map_map. reflexivity. Qed.
Lemma unwire_wire be : forall fs rest, Forall (fun f => (snd f < 256 ^ N.of_nat (fst f))%N) fs -> unwire be (map fst fs) (wire be fs ++ rest) = map snd fs.
Proof.
  induction fs as [|[w v] fs IH]; intros rest H; cbn [map unwire fst snd]; auto. inv H. cbn [fst snd] in *.
  cbn [wire flat_map]. fold (wire be fs). cbn [fst snd]. rewrite <- app_assoc.
  rewrite first_exact, skip_exact by apply enc_length. f_equal; auto. rewrite dec_enc by auto. rewrite Bool.eqb_reflx. reflexivity.
Qed.

(** ** Codes *)
Lemma rc_round z : i32 z -> n_rc (rc_n z) = z.
Proof.
  unfold i32, n_rc, rc_n. intros H. rewrite Z2N.id by (apply Z.mod_pos_bound; lia).
  destruct (Z.ltb_spec (z mod 4294967296) 2147483648) as [L|L].
  - destruct (Z.neg_nonneg_cases z) as [G|G]; [|apply Z.mod_small; lia].
    rewrite <- (Z.mod_add z 1) in L by lia. rewrite Z.mod_small in L by lia. lia.
  - destruct (Z.neg_nonneg_cases z) as [G|G]; [|rewrite Z.mod_small in L by lia; lia].
    rewrite <- (Z.mod_add z 1) by lia. rewrite Z.mod_small by lia. lia.
Qed.
Lemma rc_fits z : (rc_n z < 4294967296)%N.
Proof. unfold rc_n. pose proof (Z.mod_pos_bound z 4294967296). lia. Qed.
Lemma fit4 v : (v < 4294967296)%N -> fit (4, v).
Proof. intros H. split; cbn; [unfold wide; auto|exact H]. Qed.
Lemma fit2 v : (v < 65536)%N -> fit (2, v).
Proof. intros H. split; cbn; [unfold wide; auto|exact H]. Qed.
Lemma fit8 v : (v < 2 ^ 64)%N -> fit (8, v).
Proof. intros H. split; cbn [fst snd]; [unfold wide; auto|exact H]. Qed.
Ltac fits := repeat (first [apply Forall_nil | apply Forall_cons]); try (first [apply fit4 | apply fit2 | apply fit8]); auto using rc_fits; try reflexivity; try lia.

Lemma i32_const : i32 OK /\ i32 ABORTED /\ i32 ACCESS /\ i32 BADARGS /\ i32 NOTFOUND.
Proof. unfold i32, OK, ABORTED, ACCESS, BADARGS, NOTFOUND. lia. Qed.

(** ** Policy *)
Lemma has_two f a b : has f (N.lor a b) = has f a || has f b.
Proof.
  unfold has. rewrite N.land_lor_distr_r. destruct (N.eqb_spec (N.land f a) 0) as [E|E], (N.eqb_spec (N.land f b) 0) as [E'|E']; cbn [negb orb].
  - rewrite E, E'. reflexivity.
  - rewrite E, N.lor_0_l. apply N.eqb_neq in E'. rewrite E'. reflexivity.
  - destruct (N.eqb_spec (N.lor (N.land f a) (N.land f b)) 0) as [G|]; auto. apply N.lor_eq_0_iff in G. tauto.
  - destruct (N.eqb_spec (N.lor (N.land f a) (N.land f b)) 0) as [G|]; auto. apply N.lor_eq_0_iff in G. tauto.
Qed.
Lemma forbids_has s id fl : forbids s id fl = match sp_find s id with Some (m, _) => has (m_flags m) fl | None => false end.
Proof. reflexivity. Qed.

Lemma policy_add s id : fatal (check_policy NvAdd s id) = forbids s id NO_WRITE /\
  (forbids s id NO_WRITE = true -> check_policy NvAdd s id = ACCESS).
Proof.
  unfold check_policy, nv_meta. rewrite forbids_has. change NO_WRITE with (N.lor F_TRUSTED F_NONMODIFIABLE).
  destruct (sp_find s id) as [[m d]|]; cbn -[N.lor has]; [|split; auto; discriminate].
  rewrite has_two. destruct (has _ F_TRUSTED); cbn; auto. destruct (has _ F_NONMODIFIABLE); cbn; auto. split; auto. discriminate.
Qed.
Lemma policy_destroy s id : fatal (check_policy NvDestroy s id) = forbids s id NO_DESTROY /\
  (forbids s id NO_DESTROY = true -> check_policy NvDestroy s id = ACCESS).
Proof.
  unfold check_policy, nv_meta. rewrite forbids_has. change NO_DESTROY with (N.lor F_TRUSTED (N.lor F_NONMODIFIABLE F_NONDESTROYABLE)).
  destruct (sp_find s id) as [[m d]|]; cbn -[N.lor has]; [|split; auto; discriminate].
  rewrite (has_two _ F_TRUSTED). destruct (has _ F_TRUSTED); cbn -[N.lor has]; auto. destruct (has _ _); cbn; auto. split; auto. discriminate.
Qed.
Lemma policy_read s id m d : sp_find s id = Some (m, d) ->
  check_policy NvRead s id = if forbids s id NO_READ then ACCESS else OK.
Proof.
  intros E. unfold check_policy, nv_meta. rewrite forbids_has, E. change NO_READ with (N.lor F_TRUSTED F_NONEXPORTABLE). cbn -[N.lor has].
  rewrite has_two. destruct (has _ F_TRUSTED); cbn; auto.
Qed.
Lemma policy_list s ids : destroy_policy s ids = if existsb (fun id => forbids s id NO_DESTROY) ids then ACCESS else OK.
Proof.
  induction ids as [|id ids IH]; cbn [destroy_policy existsb]; auto. destruct (policy_destroy s id) as [A B].
  rewrite A. destruct (forbids s id NO_DESTROY); cbn [orb]; auto.
Qed.

Lemma neg_ok z : negb (Z.eqb z OK) = negb (is_ok z). Proof. reflexivity. Qed.

(** ** The operations on the store *)
Lemma blob_key hs sb d : blob hs sb d = one_time_key hs sb d.
Proof.
  unfold blob, one_time_key, rd. cbn [skipn].
  replace (negb (length d <? 12)) with (Nat.leb 12 (length d)); [reflexivity|].
  destruct (Nat.ltb_spec (length d) 12), (Nat.leb_spec 12 (length d)); auto; lia.
Qed.

Lemma store_eq hs sb e m d s mr :
  (if blob hs sb d then (resp_rc ACCESS, s) else
   if is_ok (e_lock e) then let '(rc, s') := add_checked (e_nvm e) m m d s in (resp_rc rc, s') else (resp_rc (e_lock e), s))
  = let '(rc, s') := store_it hs sb e (with_len m mr) d s in (resp_rc rc, s').
Proof.
  unfold store_it. rewrite blob_key. destruct (one_time_key hs sb d); auto. rewrite !neg_ok.
  destruct (is_ok (e_lock e)); cbn [negb]; auto. unfold add_checked. cbn [m_id with_len].
  destruct (policy_add s (m_id m)) as [A B]. rewrite A. destruct (forbids s (m_id m) NO_WRITE); [rewrite B; auto|].
  unfold nv_add. destruct (is_ok (e_nvm e)) eqn:K; cbn [negb]; auto.
Qed.

Lemma find_ok s id m d : store_ok s -> sp_find s id = Some (m, d) -> object_ok (m, d) /\ m_id m = id.
Proof.
  intros H E. split; [|apply (find_id _ _ _ E)].
  assert (I : In (m, d) s).
  { revert E. clear H. induction s as [|o s IH]; cbn [sp_find]; [discriminate|]. destruct (N.eqb (oid o) id); intros E; [injection E as ->; left; auto|right; auto]. }
  exact (proj1 (Forall_forall _ _) H _ I).
Qed.

Lemma sp_read_all s id m d off k : sp_find s id = Some (m, d) -> off < length d -> k <= length d - off ->
  sp_read s id off k = (OK, firstn k (skipn off d)).
Proof.
  intros E A B. unfold sp_read. rewrite E. apply Nat.ltb_lt in A. apply Nat.leb_le in B. rewrite A, B. reflexivity.
Qed.

Lemma read_eq s id off len : store_ok s ->
  (let '(rc, m) := nv_meta s id in
   if negb (is_ok rc) then (rc, []) else
   if N.to_nat (m_len m) <=? off then (BADARGS, []) else
   read_checked s id off (Nat.min len (N.to_nat (m_len m) - off))) = bytes_of s id off len.
Proof.
  intros H. unfold nv_meta, bytes_of. destruct (sp_find s id) as [[m d]|] eqn:E; [|reflexivity].
  destruct (find_ok _ _ _ _ H E) as [[_ HL] _]. cbn [fst snd] in HL. rewrite HL, Nat2N.id. change (negb (is_ok OK)) with false. cbv iota.
  destruct (Nat.leb_spec (length d) off) as [L|L]; auto.
  unfold read_checked. rewrite (policy_read s id m d E). destruct (forbids s id NO_READ); [reflexivity|].
  change (is_ok OK) with true. cbv iota. rewrite (sp_read_all s id m d) by (auto; lia).
  f_equal. destruct (Nat.le_gt_cases len (length d - off)) as [G|G].
  - rewrite Nat.min_l by auto. reflexivity.
  - rewrite Nat.min_r by lia. rewrite !firstn_all2; rewrite ?skipn_length; auto; lia.
Qed.

(** ** Calls *)
Section Calls.
Variables (DL : nat) (hs sb : bool) (sid : N) (cb : bool) (cid : N).

(** A call that goes through: what the server makes of its packet. *)
Lemma call_goes c e L mem s p : request DL cb cid c = Some p -> k_send L = OK -> k_recv L = OK ->
  call DL hs sb sid cb cid c e L mem s =
  let '(resp, mem', s') := serve DL hs sb sid cb (action c) (length p) (p ++ skipn (length p) (k_old L)) mem e s in
  (response DL cb c resp, mem', s').
Proof. intros E H1 H2. unfold call. rewrite E, H1, H2. reflexivity. Qed.

Lemma exact_give fs extra k rest : Forall fit fs -> length rest = extra ->
  exact cb (map fst fs) extra (give sb cb fs ++ rest) k = k (map snd fs).
Proof.
  intros F E. unfold exact. rewrite app_length, give_length, E, Nat.eqb_refl, unwire_give by auto. reflexivity.
Qed.
Lemma exact_give0 fs k : Forall fit fs -> exact cb (map fst fs) 0 (give sb cb fs) k = k (map snd fs).
Proof. intros F. rewrite <- (app_nil_r (give sb cb fs)). apply exact_give; auto. Qed.

(** The simple response. *)
Lemma simple rc : i32 rc -> exact cb [4] 0 (give sb cb [(4, rc_n rc)]) (fun v => Answered (n_rc (fld 0 v)) [] []) = Answered rc [] [].
Proof.
  intros H. change [4] with (map fst [(4, rc_n rc)]). rewrite exact_give0 by fits. cbn [map snd fld nth]. rewrite rc_round by auto. reflexivity.
Qed.

Lemma lock_i32 e : env_ok e -> i32 (e_lock e) /\ i32 (e_nvm e). Proof. intros (A & B & _). auto. Qed.

Lemma store_i32 e m d s : env_ok e -> i32 (fst (store_it hs sb e m d s)).
Proof.
  intros H. destruct (lock_i32 e H) as [A B]. destruct i32_const as (I1 & I2 & I3 & I4 & I5). unfold store_it.
  destruct (one_time_key hs sb d); auto. destruct (Z.eqb (e_lock e) OK); cbn [negb]; auto.
  destruct (forbids s (m_id m) NO_WRITE); auto. destruct (Z.eqb (e_nvm e) OK); cbn [negb fst]; auto.
Qed.

Lemma exactly_pad label : length label <= 24 -> exactly 24 label = padded label.
Proof.
  intros H. unfold exactly, padded. rewrite firstn_app. rewrite firstn_all2 by lia. f_equal.
  replace 24 with ((24 - length label) + length label) at 2 by lia. rewrite repeat_app. apply first_exact. apply repeat_length.
Qed.

Lemma call_add id ac fl label data e L mem s : env_ok e -> length label <= 24 -> length data <= DL - 32 ->
  args_ok sid cid (NAdd id ac fl label data) -> k_send L = OK -> k_recv L = OK ->
  call DL hs sb sid cb cid (NAdd id ac fl label data) e L mem s =
  let '(rc, s') := store_it hs sb e (mkMeta id ac fl 0 (padded label)) data s in (Answered rc [] [], mem, s').
Proof.
  intros He HL HD (A & B & C & D & E) H1 H2. erewrite call_goes; eauto.
  2:{ cbn [request]. destruct (Nat.ltb_spec 24 (length label)); [lia|]. destruct (Nat.ltb_spec (DL - 32) (length data)); [lia|]. reflexivity. }
  rewrite exactly_pad by auto.
  set (fs := [(2, id); (2, ac); (2, fl); (2, N.of_nat (length data))]).
  assert (F : Forall fit fs) by fits.
  assert (LW : length (wire cb fs) = 8) by (rewrite wire_length; reflexivity).
  assert (LP : length (padded label) = 24) by (unfold padded; rewrite app_length, repeat_length; lia).
  set (p := wire cb fs ++ padded label ++ data).
  assert (LL : length p = 32 + length data) by (unfold p; rewrite !app_length, LW, LP; lia).
  set (buf := p ++ skipn (length p) (k_old L)).
  assert (T : take sb cb W_ADD buf = [id; ac; fl; N.of_nat (length data)]).
  { unfold buf, p. rewrite <- app_assoc. exact (take_wire sb cb fs _ F). }
  assert (RL : rd 8 24 buf = padded label).
  { unfold rd, buf, p. rewrite <- !app_assoc, skip_exact by auto. apply first_exact. auto. }
  assert (RD : rd 32 (length p - 32) buf = data).
  { rewrite LL. replace (32 + length data - 32) with (length data) by lia. unfold rd, buf, p. rewrite <- !app_assoc, (app_assoc (wire cb fs)).
    rewrite (skip_exact 32) by (rewrite app_length, LW, LP; reflexivity). apply first_exact. reflexivity. }
  assert (P : parse sb cb AAdd (length p) buf mem = QAdd (mkMeta id ac fl (N.of_nat (length data)) (padded label)) data).
  { cbn [parse]. rewrite LL at 1. destruct (Nat.ltb_spec (32 + length data) 32); [lia|]. rewrite T, RL, RD. reflexivity. }
  unfold serve, early. cbn [action]. rewrite P. cbn [m_len nvm_handle]. rewrite N.eqb_refl. cbn [andb].
  match goal with |- context [match (match (if blob hs sb data then _ else _) with Some rc => _ | None => ?x end) with (r, s') => _ end] =>
    replace (match (if blob hs sb data then Some ACCESS else None) with Some rc => (resp_rc rc, s) | None => x end)
      with (if blob hs sb data then (resp_rc ACCESS, s) else x) by (destruct (blob hs sb data); reflexivity) end.
  rewrite (store_eq hs sb e _ data s 0%N).
  change (with_len (mkMeta id ac fl (N.of_nat (length data)) (padded label)) 0) with (mkMeta id ac fl 0 (padded label)).
  pose proof (store_i32 e (mkMeta id ac fl 0 (padded label)) data s He) as HI.
  destruct (store_it hs sb e (mkMeta id ac fl 0 (padded label)) data s) as [rc s']. cbn [fst] in HI.
  cbn [reply response resp_rc rs_rc].
  rewrite simple by auto. reflexivity.
Qed.

Lemma pick {A} (b : bool) (x y : A) z : b = z -> (if b then x else y) = if z then x else y.
Proof. intros ->. reflexivity. Qed.

Lemma exactly_take ids n : length ids <= n -> firstn (length ids) (exactly n ids) = ids /\ length (exactly n ids) = n.
Proof.
  intros H. unfold exactly. rewrite firstn_firstn, Nat.min_l, first_exact by auto. split; auto.
  rewrite firstn_length, app_length, repeat_length. lia.
Qed.

Lemma map_const {A B} (c : B) (l : list A) : map (fun _ => c) l = repeat c (length l).
Proof. induction l; cbn; congruence. Qed.

Lemma call_destroy ids e L mem s : env_ok e -> length ids <= 19 ->
  args_ok sid cid (NDestroy ids) -> k_send L = OK -> k_recv L = OK ->
  call DL hs sb sid cb cid (NDestroy ids) e L mem s =
  let '(rc, _, _, s') := does DL hs sb sid cid (NDestroy ids) e s in (Answered rc [] [], mem, s').
Proof.
  intros He HL HA H1 H2. cbn [args_ok] in HA. erewrite call_goes; eauto.
  2:{ cbn [request]. destruct (Nat.ltb_spec 19 (length ids)); [lia|]. reflexivity. }
  destruct (exactly_take ids 19 HL) as [E1 E2].
  set (fs := (2, N.of_nat (length ids)) :: map (pair 2) (exactly 19 ids)).
  assert (F : Forall fit fs).
  { constructor; [apply fit2; lia|]. apply Forall_map. apply Forall_forall. intros x I. apply fit2.
    unfold exactly in I. assert (I2 : In x (ids ++ repeat 0%N 19)) by (rewrite <- (firstn_skipn 19); apply in_or_app; left; exact I).
    apply in_app_or in I2. destruct I2 as [I2|I2]; [exact (proj1 (Forall_forall _ _) HA x I2)|apply repeat_spec in I2; subst; lia]. }
  assert (M : map fst fs = W_DESTROY).
  { unfold fs, W_DESTROY. cbn [map fst]. f_equal. rewrite map_map. cbn [fst]. rewrite map_const, E2. reflexivity. }
  set (p := wire cb fs).
  assert (LL : length p = 40) by (unfold p; rewrite wire_length, M; reflexivity).
  set (buf := p ++ skipn (length p) (k_old L)).
  assert (T : take sb cb W_DESTROY buf = N.of_nat (length ids) :: exactly 19 ids).
  { rewrite <- M. unfold buf, p. rewrite take_wire by auto. unfold fs. cbn [map snd]. f_equal. rewrite map_map. apply map_id. }
  assert (P : parse sb cb ADestroy (length p) buf mem = QDestroy (length ids) (exactly 19 ids)).
  { cbn [parse]. rewrite LL, T. cbn [Nat.eqb fld nth skipn]. rewrite Nat2N.id. reflexivity. }
  unfold serve, early. cbn [action]. rewrite P. cbn [nvm_handle]. rewrite E1.
  destruct (Nat.leb_spec (length ids) 19); [|lia]. destruct (lock_i32 e He) as [A B]. destruct i32_const as (I1 & I2 & I3 & I4 & I5).
  cbn [does]. rewrite !neg_ok. destruct (is_ok (e_lock e)); cbn [negb].
  2:{ cbn [reply response resp_rc rs_rc]. rewrite simple by auto. reflexivity. }
  unfold destroy_checked. rewrite policy_list.
  destruct (existsb (fun id => forbids s id NO_DESTROY) ids).
  { change (is_ok ACCESS) with false. cbv iota. cbn [reply response resp_rc rs_rc]. rewrite simple by auto. reflexivity. }
  change (is_ok OK) with true. cbv iota. unfold nv_destroy. destruct (is_ok (e_nvm e)); cbn [negb];
    cbn [reply response resp_rc rs_rc]; rewrite simple by auto; reflexivity.
Qed.

Lemma call_init e L mem s : args_ok sid cid NInit -> k_send L = OK -> k_recv L = OK ->
  call DL hs sb sid cb cid NInit e L mem s = (Answered OK [cid; sid] [], mem, s).
Proof.
  intros [A B] H1 H2. erewrite call_goes; eauto; [|reflexivity]. rewrite wire_length. cbn [map fst sum fold_right Nat.add action].
  unfold serve, early. cbn [parse Nat.eqb nvm_handle reply resp_rc rs_rc].
  change W_INIT with (map fst [(4, cid)]). rewrite take_wire by fits. cbn [map snd fld nth response].
  change R_INIT with (map fst [(4, rc_n OK); (4, sid); (4, cid)]). rewrite exact_give0 by fits. reflexivity.
Qed.
Lemma call_cleanup e L mem s : k_send L = OK -> k_recv L = OK ->
  call DL hs sb sid cb cid NCleanup e L mem s = (Answered OK [] [], mem, s).
Proof.
  intros H1 H2. erewrite call_goes; eauto; [|reflexivity]. cbn [length action].
  unfold serve, early. cbn [parse Nat.eqb nvm_handle reply resp_rc rs_rc response].
  rewrite simple; auto. apply i32_const.
Qed.
Lemma call_avail e L mem s : env_ok e -> k_send L = OK -> k_recv L = OK ->
  call DL hs sb sid cb cid NAvail e L mem s =
  let '(rc, nums, data, s') := does DL hs sb sid cid NAvail e s in (Answered rc nums data, mem, s').
Proof.
  intros He H1 H2. destruct (lock_i32 e He) as [A B]. destruct He as (_ & _ & _ & _ & a & ao & r & ro & E & B1 & B2 & B3 & B4).
  erewrite call_goes; eauto; [|reflexivity]. cbn [length action].
  unfold serve, early. cbn [parse Nat.eqb nvm_handle does]. rewrite neg_ok. destruct (is_ok (e_lock e)); cbn [negb].
  - rewrite E. cbn [reply rs_rc rs_nums fld nth response].
    change R_AVAIL with (map fst [(4, rc_n OK); (4, a); (4, r); (2, ao); (2, ro)]). rewrite exact_give0 by fits. reflexivity.
  - cbn [reply resp_rc rs_rc rs_nums response fld nth].
    change R_AVAIL with (map fst [(4, rc_n (e_lock e)); (4, 0%N); (4, 0%N); (2, 0%N); (2, 0%N)]). rewrite exact_give0 by fits.
    cbn [map snd fld nth]. rewrite rc_round by auto. reflexivity.
Qed.

Lemma after_length s id : length (sp_after s id) <= length s.
Proof. induction s as [|o s IH]; cbn [sp_after length]; auto. destruct (N.eqb (oid o) id); lia. Qed.
Lemma after_in s id o : In o (sp_after s id) -> In o s.
Proof. induction s as [|x s IH]; cbn [sp_after]; auto. destruct (N.eqb (oid x) id); [right; auto|intros H; right; auto]. Qed.

Lemma call_list ac fl start e L mem s : env_ok e -> store_ok s -> args_ok sid cid (NList ac fl start) -> listable (NList ac fl start) s -> k_send L = OK -> k_recv L = OK ->
  call DL hs sb sid cb cid (NList ac fl start) e L mem s =
  let '(rc, nums, data, s') := does DL hs sb sid cid (NList ac fl start) e s in (Answered rc nums data, mem, s').
Proof.
  intros He HS (A & B & C) (Z0 & Len) H1 H2. destruct (lock_i32 e He) as [HA HB].
  erewrite call_goes; eauto; [|reflexivity]. rewrite wire_length. cbn [map fst sum fold_right Nat.add action].
  unfold serve, early. cbn [parse Nat.eqb].
  change W_LIST with (map fst [(2, ac); (2, fl); (2, start)]). rewrite take_wire by fits. cbn [map snd fld nth].
  cbn [nvm_handle does]. rewrite neg_ok. destruct (is_ok (e_lock e)); cbn [negb].
  2:{ cbn [reply resp_rc rs_rc rs_nums response fld nth].
      change R_LIST with (map fst [(4, rc_n (e_lock e)); (2, (0 mod 65536)%N); (2, 0%N)]). rewrite exact_give0 by fits.
      cbn [map snd fld nth]. rewrite rc_round by auto. reflexivity. }
  assert (E : nv_list s start = let rest := if N.eqb start 0 then s else sp_after s start in
     (length rest, match rest with o :: _ => m_id (fst o) | [] => 0%N end)).
  { unfold nv_list, sp_list. destruct (N.eqb_spec start 0) as [->|N0].
    - destruct s as [|o s]; auto. cbn [sp_find] in Z0. destruct (N.eqb (oid o) 0) eqn:K; [discriminate|]. reflexivity.
    - destruct (sp_after s start); reflexivity. }
  rewrite E. cbv zeta. set (rest := if N.eqb start 0 then s else sp_after s start).
  assert (LR : (N.of_nat (length rest) < 65536)%N).
  { unfold rest. destruct (N.eqb start 0); auto. pose proof (after_length s start). lia. }
  assert (IR : (match rest with o :: _ => m_id (fst o) | [] => 0 end < 65536)%N).
  { destruct rest as [|o r] eqn:R; [lia|]. assert (I : In o s).
    { unfold rest in R. destruct (N.eqb start 0); [rewrite R; left; auto|]. apply (after_in s start). rewrite R. left; auto. }
    pose proof (proj1 (Forall_forall _ _) HS o I) as [[Q _] _]. tauto. }
  clearbody rest. cbn [reply rs_rc rs_nums fld nth response]. rewrite N.mod_small by auto.
  change R_LIST with (map fst [(4, rc_n OK); (2, N.of_nat (length rest)); (2, match rest with o :: _ => m_id (fst o) | [] => 0%N end)]).
  rewrite exact_give0 by fits. reflexivity.
Qed.

Lemma call_meta id ll e L mem s : env_ok e -> store_ok s -> args_ok sid cid (NMeta id ll) -> k_send L = OK -> k_recv L = OK ->
  call DL hs sb sid cb cid (NMeta id ll) e L mem s =
  let '(rc, nums, data, s') := does DL hs sb sid cid (NMeta id ll) e s in (Answered rc nums data, mem, s').
Proof.
  intros He HS HI H1 H2. cbn [args_ok] in HI. destruct (lock_i32 e He) as [HA HB].
  erewrite call_goes; eauto; [|reflexivity]. rewrite wire_length. cbn [map fst sum fold_right Nat.add action].
  unfold serve, early. cbn [parse Nat.eqb].
  change W_META with (map fst [(2, id)]). rewrite take_wire by fits. cbn [map snd fld nth].
  cbn [nvm_handle does].
  assert (G : forall rc m, i32 rc -> meta_ok m ->
    response DL cb (NMeta id ll) (give sb cb [(4, rc_n rc); (2, m_id m); (2, m_access m); (2, m_flags m); (2, m_len m)] ++ m_label m)
    = Answered rc [m_id m; m_access m; m_flags m; m_len m] (firstn (Nat.min ll 24) (m_label m))).
  { intros rc m Hr ((M1 & M2 & M3 & M4) & M5 & M6). cbn [response].
    set (fs := [(4, rc_n rc); (2, m_id m); (2, m_access m); (2, m_flags m); (2, m_len m)]).
    change R_META with (map fst fs). rewrite exact_give by (auto; unfold fs; fits).
    unfold fs at 1 2 3 4 5. cbn [map snd fld nth]. rewrite rc_round by auto. f_equal.
    unfold rd. rewrite skip_exact; auto. rewrite give_length. reflexivity. }
  assert (Zm : meta_ok meta_zero).
  { unfold meta_ok, meta_zero; cbn. conjs; try lia. repeat constructor. }
  assert (Zl : firstn (Nat.min ll 24) (m_label meta_zero) = repeat 0%N (Nat.min ll 24)).
  { cbn [m_label meta_zero]. replace 24 with (Nat.min ll 24 + (24 - Nat.min ll 24)) at 2 by lia. rewrite repeat_app. apply first_exact, repeat_length. }
  destruct i32_const as (I1 & I2 & I3 & I4 & I5).
  rewrite neg_ok. destruct (is_ok (e_lock e)); cbn [negb].
  2:{ cbn [reply resp_rc rs_rc rs_meta]. rewrite G by auto. rewrite Zl. reflexivity. }
  unfold nv_meta. destruct (sp_find s id) as [[m d]|] eqn:E.
  - change (is_ok OK) with true. cbn [reply rs_rc rs_meta]. destruct (find_ok _ _ _ _ HS E) as [[Mo Ml] Mi]. cbn [fst snd] in *.
    rewrite G by auto. rewrite Mi, Ml. f_equal. f_equal. f_equal. destruct Mo as (_ & M5 & _).
    destruct (Nat.le_gt_cases ll 24); [rewrite Nat.min_l by auto; auto|]. rewrite Nat.min_r, !firstn_all2 by lia. reflexivity.
  - change (is_ok NOTFOUND) with false. cbn [reply rs_rc rs_meta]. rewrite G by auto. rewrite Zl. reflexivity.
Qed.

Lemma bytes_i32 s id off len : i32 (fst (bytes_of s id off len)) /\ length (snd (bytes_of s id off len)) <= len.
Proof.
  destruct i32_const as (I1 & I2 & I3 & I4 & I5). unfold bytes_of. destruct (sp_find s id) as [[m d]|]; cbn; [|split; auto; lia].
  destruct (length d <=? off); cbn; [split; auto; lia|]. destruct (forbids s id NO_READ); cbn; [split; auto; lia|]. split; auto.
  rewrite firstn_length. lia.
Qed.

Lemma call_read id off len e L mem s : 4 <= DL -> env_ok e -> store_ok s -> args_ok sid cid (NRead id off len) -> k_send L = OK -> k_recv L = OK ->
  call DL hs sb sid cb cid (NRead id off len) e L mem s =
  let '(rc, nums, data, s') := does DL hs sb sid cid (NRead id off len) e s in (Answered rc nums data, mem, s').
Proof.
  intros HD He HS (A & B & C) H1 H2. destruct (lock_i32 e He) as [HA HB].
  erewrite call_goes; eauto; [|reflexivity]. rewrite wire_length. cbn [map fst sum fold_right Nat.add action].
  unfold serve, early. cbn [parse Nat.eqb].
  change W_READ with (map fst [(2, id); (2, N.of_nat off); (2, N.of_nat len)]). rewrite take_wire by fits. cbn [map snd fld nth]. rewrite !Nat2N.id.
  cbn [nvm_handle does].
  assert (G : forall rc bs, i32 rc -> length bs <= DL - 4 ->
    response DL cb (NRead id off len) (give sb cb [(4, rc_n rc)] ++ bs) = Answered rc [N.of_nat (length bs)] bs).
  { intros rc bs Hr Hb. cbn [response]. rewrite app_length, give_length. cbn [map fst sum fold_right Nat.add].
    destruct (Nat.ltb_spec (S (S (S (S (length bs))))) 4); [lia|]. destruct (Nat.ltb_spec DL (S (S (S (S (length bs)))))); [lia|].
    replace (S (S (S (S (length bs)))) - 4) with (length bs) by lia. destruct (Nat.ltb_spec (DL - 4) (length bs)); [lia|]. cbn [orb].
    change [4] with (map fst [(4, rc_n rc)]) at 1. rewrite unwire_give by fits. cbn [map snd fld nth]. rewrite rc_round by auto. f_equal.
    unfold rd. rewrite skip_exact by (rewrite give_length; reflexivity). apply firstn_all. }
  rewrite neg_ok. destruct (is_ok (e_lock e)); cbn [negb].
  2:{ cbn [reply resp_rc rs_rc rs_data]. rewrite G by (auto; cbn; lia). reflexivity. }
  unfold handle_read. destruct (Nat.ltb_spec (DL - 4) len) as [K|K].
  { cbn [reply rs_rc rs_data]. rewrite G by (auto; cbn; try lia; apply i32_const). reflexivity. }
  rewrite read_eq by auto. destruct (bytes_i32 s id off len) as [J1 J2]. destruct (bytes_of s id off len) as [rc bs]. cbn [fst snd] in *.
  cbn [reply rs_rc rs_data]. rewrite G by (auto; lia). reflexivity.
Qed.

Theorem call_does c e L mem s : 4 <= DL -> by_packet c -> ~ too_big DL c -> args_ok sid cid c -> listable c s -> env_ok e -> store_ok s ->
  k_send L = OK -> k_recv L = OK ->
  call DL hs sb sid cb cid c e L mem s =
  let '(rc, nums, data, s') := does DL hs sb sid cid c e s in (Answered rc nums data, mem, s').
Proof.
  intros HD HP HT HA HL He HS H1 H2. destruct c; cbn [by_packet too_big] in *; try contradiction.
  - apply call_init; auto.
  - apply call_cleanup; auto.
  - apply call_avail; auto.
  - rewrite call_add by (auto; lia). cbn [does]. destruct (store_it _ _ _ _ _ _); reflexivity.
  - apply call_list; auto.
  - apply call_meta; auto.
  - rewrite call_destroy by (auto; lia). cbn [does]. destruct (negb _); auto. destruct (existsb _ _); auto. destruct (negb _); auto.
  - apply call_read; auto.
Qed.
End Calls.

(** ** Stores stay well formed *)
Lemma ldiff_16 a b : (a < 65536)%N -> (N.ldiff a b < 65536)%N.
Proof.
  intros H. replace (N.ldiff a b) with (N.ldiff a b mod 2 ^ 16)%N; [apply N.mod_lt; discriminate|].
  apply N.bits_inj. intros n. destruct (N.lt_ge_cases n 16) as [G|G]; [apply N.mod_pow2_bits_low; auto|].
  rewrite N.mod_pow2_bits_high by auto. rewrite N.ldiff_spec. replace a with (a mod 2 ^ 16)%N by (apply N.mod_small; exact H).
  rewrite N.mod_pow2_bits_high by auto. reflexivity.
Qed.
Lemma destroy_ok ids s : store_ok s -> store_ok (sp_destroy ids s).
Proof. intros H. apply Forall_forall. intros o I. apply filter_In in I. exact (proj1 (Forall_forall _ _) H o (proj1 I)). Qed.
Lemma add_ok m d s : store_ok s -> (m_id m < 65536)%N -> (m_access m < 65536)%N -> (m_flags m < 65536)%N ->
  length (m_label m) = 24 -> bytes_ok (m_label m) -> (N.of_nat (length d) < 65536)%N ->
  store_ok (sp_destroy [m_id m] s ++
            [(mkMeta (m_id m) (m_access m) (N.ldiff (m_flags m) F_SERVER_ONLY) (N.of_nat (length d)) (m_label m), d)]).
Proof.
  intros HS A B C D E F. apply Forall_app. split; [apply destroy_ok; auto|]. constructor; [|constructor].
  unfold object_ok, meta_ok; cbn. conjs; auto using ldiff_16.
Qed.
Lemma store_it_ok hs sb e m d s : store_ok s -> (m_id m < 65536)%N -> (m_access m < 65536)%N -> (m_flags m < 65536)%N ->
  length (m_label m) = 24 -> bytes_ok (m_label m) -> (N.of_nat (length d) < 65536)%N -> store_ok (snd (store_it hs sb e m d s)).
Proof.
  intros HS A B C D E F. unfold store_it. destruct (one_time_key hs sb d); auto. destruct (negb _); auto.
  destruct (forbids s (m_id m) NO_WRITE); auto. destruct (negb _); auto. apply add_ok; auto.
Qed.
Lemma store_it_find hs sb e m d s id : m_id m <> id -> sp_find (snd (store_it hs sb e m d s)) id = sp_find s id.
Proof.
  intros H. unfold store_it. destruct (one_time_key hs sb d); auto. destruct (negb _); auto.
  destruct (forbids s (m_id m) NO_WRITE); auto. destruct (negb _); auto. cbn [snd].
  change [(mkMeta (m_id m) (m_access m) (N.ldiff (m_flags m) F_SERVER_ONLY) (N.of_nat (length d)) (m_label m), d)]
    with [(with_len (with_flags m (N.ldiff (m_flags m) F_SERVER_ONLY)) (N.of_nat (length d)), d)].
  change (m_id m) with (m_id (with_flags m (N.ldiff (m_flags m) F_SERVER_ONLY))).
  fold (sp_add (with_flags m (N.ldiff (m_flags m) F_SERVER_ONLY)) d s). rewrite find_add.
  destruct (N.eqb_spec id (m_id (with_flags m (N.ldiff (m_flags m) F_SERVER_ONLY)))) as [E|]; auto. cbn in E. congruence.
Qed.
Lemma store_it_found hs sb e m d s s' : store_it hs sb e m d s = (OK, s') ->
  (e_lock e = OK -> e_nvm e = OK -> sp_find s' (m_id m) =
     Some (mkMeta (m_id m) (m_access m) (N.ldiff (m_flags m) F_SERVER_ONLY) (N.of_nat (length d)) (m_label m), d)) /\
  e_lock e = OK /\ e_nvm e = OK.
Proof.
  unfold store_it. destruct (one_time_key hs sb d); [discriminate|].
  destruct (Z.eqb_spec (e_lock e) OK) as [K|K]; cbn [negb]; [|intros H; injection H as H _; congruence].
  destruct (forbids s (m_id m) NO_WRITE); [discriminate|].
  destruct (Z.eqb_spec (e_nvm e) OK) as [K2|K2]; cbn [negb]; [|intros H; injection H as H _; congruence].
  intros H. injection H as <-. split; [intros _ _|auto].
  change [(mkMeta (m_id m) (m_access m) (N.ldiff (m_flags m) F_SERVER_ONLY) (N.of_nat (length d)) (m_label m), d)]
    with [(with_len (with_flags m (N.ldiff (m_flags m) F_SERVER_ONLY)) (N.of_nat (length d)), d)].
  change (m_id m) with (m_id (with_flags m (N.ldiff (m_flags m) F_SERVER_ONLY))) at 1 2.
  fold (sp_add (with_flags m (N.ldiff (m_flags m) F_SERVER_ONLY)) d s). rewrite find_add, N.eqb_refl. reflexivity.
Qed.

(** ** The DMA add *)
Section Dma.
Variables (DL : nat) (hs sb : bool) (sid : N) (cb : bool) (cid : N).

Definition add_dma_spec (e : nvm_env) (mp : nat) (m : meta) (d : list N) (s : store) : Z * store :=
  if negb (Z.eqb (e_dma1 e) OK) then (e_dma1 e, s)
  else if negb (Z.eqb (e_dma2 e) OK) then (e_dma2 e, s)
  else if mp =? 0 then (BADARGS, s)
  else store_it hs sb e m d s.

Lemma call_add_dma mp dp len e L mem s : env_ok e -> args_ok sid cid (NAddDma mp dp len) -> k_send L = OK -> k_recv L = OK ->
  call DL hs sb sid cb cid (NAddDma mp dp len) e L mem s =
  let '(rc, s') := add_dma_spec e mp (meta_at sb mp mem) (rd dp len mem) s in (Answered rc [] [], mem, s').
Proof.
  intros He (A & B & C) H1 H2. erewrite call_goes; eauto; [|reflexivity].
  set (fs := [(8, N.of_nat mp); (8, N.of_nat dp); (2, N.of_nat len)]).
  assert (F : Forall fit fs) by (unfold fs; repeat constructor; try (cbn [fst]; unfold wide; auto); cbn [fst snd]; auto).
  set (p := wire cb fs ++ repeat 0%N 6).
  assert (LP : length p = 24) by (unfold p; rewrite app_length, wire_length, repeat_length; reflexivity).
  set (buf := p ++ skipn (length p) (k_old L)).
  assert (T : take sb cb W_ADDDMA buf = [N.of_nat mp; N.of_nat dp; N.of_nat len]).
  { unfold buf, p. rewrite <- app_assoc. exact (take_wire sb cb fs _ F). }
  set (m := meta_at sb mp mem). set (d := rd dp len mem).
  assert (P : parse sb cb AAddDma (length p) buf mem = QAddDma m m d d).
  { cbn [parse]. rewrite LP, T. cbn [Nat.eqb fld nth]. rewrite !Nat2N.id. reflexivity. }
  unfold serve, early. cbn [action]. rewrite P, T. cbn [fld nth nvm_handle]. rewrite Nat2N.id.
  unfold add_dma_spec. rewrite !neg_ok.
  assert (He2 := He). destruct He2 as (_ & _ & D1 & D2 & _). destruct i32_const as (I1 & I2 & I3 & I4 & I5).
  destruct (is_ok (e_dma1 e)) eqn:K1; cbn [negb andb].
  2:{ cbn [reply response resp_rc rs_rc]. rewrite simple by auto. reflexivity. }
  destruct (is_ok (e_dma2 e)) eqn:K2; cbn [negb].
  2:{ cbn [reply response resp_rc rs_rc]. rewrite simple by auto. reflexivity. }
  unfold NULLP. destruct (mp =? 0).
  { cbn [reply response resp_rc rs_rc]. rewrite simple by auto. reflexivity. }
  match goal with |- context [match (match (if blob hs sb d then _ else _) with Some rc => _ | None => ?x end) with (r, s') => _ end] =>
    replace (match (if blob hs sb d then Some ACCESS else None) with Some rc => (resp_rc rc, s) | None => x end)
      with (if blob hs sb d then (resp_rc ACCESS, s) else x) by (destruct (blob hs sb d); reflexivity) end.
  rewrite (store_eq hs sb e m d s (m_len m)). replace (with_len m (m_len m)) with m by (destruct m; reflexivity).
  pose proof (store_i32 hs sb e m d s He) as HI. destruct (store_it hs sb e m d s) as [rc s']. cbn [fst] in HI.
  cbn [reply response resp_rc rs_rc]. rewrite simple by auto. reflexivity.
Qed.

Lemma call_read_dma id off len dp e L mem s : env_ok e -> store_ok s -> args_ok sid cid (NReadDma id off len dp) -> k_send L = OK -> k_recv L = OK ->
  call DL hs sb sid cb cid (NReadDma id off len dp) e L mem s =
  let '(rc, bs) :=
    if negb (Z.eqb (e_lock e) OK) then (e_lock e, []) else
    match sp_find s id with
    | None => (NOTFOUND, [])
    | Some (_, d) => if length d <=? off then (BADARGS, [])
                     else if negb (Z.eqb (e_dma1 e) OK) then (e_dma1 e, []) else bytes_of s id off len
    end in
  (Answered rc [] [], wr dp bs mem, s).
Proof.
  intros He HS (A & B & C & D) H1 H2. erewrite call_goes; eauto; [|reflexivity].
  set (fs := [(8, N.of_nat dp); (2, id); (2, N.of_nat off); (2, N.of_nat len)]).
  assert (F : Forall fit fs) by (unfold fs; repeat constructor; try (cbn [fst]; unfold wide; auto); cbn [fst snd]; auto).
  set (p := wire cb fs ++ repeat 0%N 2).
  assert (LP : length p = 16) by (unfold p; rewrite app_length, wire_length, repeat_length; reflexivity).
  set (buf := p ++ skipn (length p) (k_old L)).
  assert (T : take sb cb W_READDMA buf = [N.of_nat dp; id; N.of_nat off; N.of_nat len]).
  { unfold buf, p. rewrite <- app_assoc. exact (take_wire sb cb fs _ F). }
  assert (P : parse sb cb AReadDma (length p) buf mem = QReadDma id off len).
  { cbn [parse]. rewrite LP, T. cbn [Nat.eqb fld nth]. rewrite !Nat2N.id. reflexivity. }
  unfold serve, early. cbn [action]. rewrite P, T. cbn [fld nth nvm_handle]. rewrite Nat2N.id.
  destruct (lock_i32 e He) as [J1 J2].
  assert (He2 := He). destruct He2 as (_ & _ & D1 & D2 & _). destruct i32_const as (I1 & I2 & I3 & I4 & I5).
  rewrite !neg_ok. destruct (is_ok (e_lock e)); cbn [negb].
  2:{ cbn [reply response resp_rc rs_rc rs_data]. rewrite simple by auto. reflexivity. }
  pose proof (read_eq s id off len HS) as R. unfold nv_meta in *. destruct (sp_find s id) as [[m d]|] eqn:E.
  2:{ cbn [reply response resp_rc rs_rc rs_data]. change (is_ok NOTFOUND) with false. cbn [negb reply response resp_rc rs_rc rs_data]. rewrite simple by auto. reflexivity. }
  change (is_ok OK) with true in *. cbn [negb] in *.
  destruct (find_ok _ _ _ _ HS E) as [[_ ML] _]. cbn [fst snd] in ML.
  replace (N.to_nat (m_len m)) with (length d) in * by lia.
  destruct (length d <=? off).
  { cbn [reply response resp_rc rs_rc rs_data]. rewrite simple by auto. reflexivity. }
  destruct (is_ok (e_dma1 e)); cbn [negb].
  2:{ cbn [reply response resp_rc rs_rc rs_data]. rewrite simple by auto. reflexivity. }
  rewrite R. destruct (bytes_i32 s id off len) as [B1 B2]. destruct (bytes_of s id off len) as [rc bs]. cbn [fst snd] in *.
  cbn [reply response resp_rc rs_rc rs_data]. rewrite simple by auto. reflexivity.
Qed.
End Dma.

(** ** Failures of the link *)
Section Link.
Variables (DL : nat) (hs sb : bool) (sid : N) (cb : bool) (cid : N).
Lemma call_refused c e L mem s : too_big DL c -> call DL hs sb sid cb cid c e L mem s = (Failed BADARGS, mem, s).
Proof.
  intros H. unfold call. destruct c; cbn [too_big] in H; try contradiction; cbn [request].
  - destruct (Nat.ltb_spec 24 (length label)); [reflexivity|]. destruct (Nat.ltb_spec (DL - 32) (length data)); [reflexivity|lia].
  - destruct (Nat.ltb_spec 19 (length ids)); [reflexivity|lia].
Qed.
Lemma not_refused c : ~ too_big DL c -> exists p, request DL cb cid c = Some p.
Proof.
  intros H. destruct c; cbn [too_big] in H; cbn [request]; eauto.
  - destruct (Nat.ltb_spec 24 (length label)); [lia|]. destruct (Nat.ltb_spec (DL - 32) (length data)); [lia|]. cbn [orb]. eauto.
  - destruct (Nat.ltb_spec 19 (length ids)); [lia|]. eauto.
Qed.
Lemma call_unsent c e L mem s : ~ too_big DL c -> k_send L <> OK -> call DL hs sb sid cb cid c e L mem s = (Failed (k_send L), mem, s).
Proof.
  intros H K. destruct (not_refused c H) as [p E]. unfold call. rewrite E. apply Z.eqb_neq in K. unfold is_ok. rewrite K. reflexivity.
Qed.
Lemma call_unheard c e L mem s o mem' s' : ~ too_big DL c -> k_send L = OK -> k_recv L <> OK ->
  call DL hs sb sid cb cid c e (mkNl OK OK (k_old L)) mem s = (o, mem', s') ->
  call DL hs sb sid cb cid c e L mem s = (Failed (k_recv L), mem', s').
Proof.
  intros H K1 K2. destruct (not_refused c H) as [p E]. unfold call. rewrite E, K1. cbn [k_send k_recv k_old].
  change (negb (is_ok OK)) with false. cbv iota. apply Z.eqb_neq in K2. unfold is_ok at 2. rewrite K2.
  destruct (serve _ _ _ _ _ _ _ _ _ _ _) as [[r mm] ss]. intros G. injection G as _ <- <-. reflexivity.
Qed.

(** What a call does to the store does not depend on the reply. *)
Lemma call_store c e L mem s :
  snd (call DL hs sb sid cb cid c e L mem s) = s \/
  (~ too_big DL c /\ snd (call DL hs sb sid cb cid c e L mem s) = snd (call DL hs sb sid cb cid c e (mkNl OK OK (k_old L)) mem s)).
Proof.
  destruct (request DL cb cid c) as [p|] eqn:E.
  2:{ left. unfold call. rewrite E. reflexivity. }
  assert (NT : ~ too_big DL c).
  { intros T. destruct c; cbn [too_big] in T; try contradiction; cbn [request] in E.
    - destruct (Nat.ltb_spec 24 (length label)); [discriminate|]. destruct (Nat.ltb_spec (DL - 32) (length data)); [discriminate|]. lia.
    - destruct (Nat.ltb_spec 19 (length ids)); [discriminate|]. lia. }
  destruct (Z.eq_dec (k_send L) OK) as [K|K]; [|left; rewrite call_unsent by auto; reflexivity].
  right. split; auto. unfold call. rewrite E, K. cbn [k_send k_recv k_old]. change (negb (is_ok OK)) with false. cbv iota.
  destruct (serve _ _ _ _ _ _ _ _ _ _ _) as [[r mm] ss]. reflexivity.
Qed.

Lemma serve_readonly a n buf mem e s : a = AList \/ a = AMeta \/ a = ARead \/ a = AInit \/ a = ACleanup \/ a = AAvail \/ a = AReadDma ->
  snd (serve DL hs sb sid cb a n buf mem e s) = s.
Proof.
  intros H. unfold serve, early.
  destruct H as [H|[H|[H|[H|[H|[H|H]]]]]]; subst a; cbn [parse]; destruct (n =? _); try reflexivity; cbn [nvm_handle];
    destruct (is_ok (e_lock e)); try reflexivity.
  - destruct (nv_list _ _); reflexivity.
  - destruct (nv_meta _ _); reflexivity.
  - destruct (handle_read _ _ _ _); reflexivity.
  - destruct (nv_meta _ _) as [rc m]. destruct (negb (is_ok rc)); try reflexivity. destruct (_ <=? _); try reflexivity.
    destruct (negb _); try reflexivity. destruct (read_checked _ _ _ _); reflexivity.
Qed.

Lemma call_readonly c e L mem s : match c with NAdd _ _ _ _ _ | NDestroy _ | NAddDma _ _ _ => False | _ => True end ->
  snd (call DL hs sb sid cb cid c e L mem s) = s.
Proof.
  intros H. unfold call. destruct (request DL cb cid c) as [p|]; auto. destruct (negb _); auto.
  pose proof (serve_readonly (action c) (length p) (p ++ skipn (length p) (k_old L)) mem e s) as R.
  destruct (serve _ _ _ _ _ _ _ _ _ _ _) as [[r mm] ss]. cbn [snd] in *. apply R. destruct c; cbn [action]; try contradiction; tauto.
Qed.
End Link.

(** ** Histories *)
Lemma meta_at_ok sb mp mem : mp + 32 <= length mem -> bytes_ok mem ->
  (m_id (meta_at sb mp mem) < 65536)%N /\ (m_access (meta_at sb mp mem) < 65536)%N /\ (m_flags (meta_at sb mp mem) < 65536)%N /\
  length (m_label (meta_at sb mp mem)) = 24 /\ bytes_ok (m_label (meta_at sb mp mem)).
Proof.
  intros HL HB.
  assert (G : forall l, bytes_ok l -> (dec sb (firstn 2 l) < 65536)%N).
  { intros l Hl. unfold dec. assert (Q : bytes_ok (firstn 2 l)) by (apply Forall_forall; intros x I; apply (proj1 (Forall_forall _ _) Hl); rewrite <- (firstn_skipn 2 l); apply in_or_app; auto).
    set (l2 := if sb then rev (firstn 2 l) else firstn 2 l).
    assert (Q2 : bytes_ok l2) by (unfold l2; destruct sb; auto; apply Forall_rev; auto).
    assert (Q3 : length l2 <= 2) by (unfold l2; destruct sb; rewrite ?rev_length, firstn_length; lia).
    pose proof (le_dec_bound l2 Q2) as X. eapply N.lt_le_trans; [exact X|]. change 65536%N with (256 ^ 2)%N. apply N.pow_le_mono_r; lia. }
  assert (SK : forall n l, bytes_ok l -> bytes_ok (skipn n l)).
  { intros n l Hl. apply Forall_forall. intros x I. apply (proj1 (Forall_forall _ _) Hl). rewrite <- (firstn_skipn n l). apply in_or_app; auto. }
  unfold meta_at. cbn [unwire fld nth m_id m_access m_flags m_label]. conjs; auto 10.
  - unfold rd. rewrite firstn_length, skipn_length. lia.
  - unfold rd. apply Forall_forall. intros x I. apply (proj1 (Forall_forall _ _) (SK (mp + 8) mem HB)). rewrite <- (firstn_skipn 24). apply in_or_app; auto.
Qed.

Lemma event_step DL hs sb sid v s id : 4 <= DL -> event_ok sid v -> store_ok s ->
  let s' := snd (call DL hs sb sid (v_big v) (v_id v) (v_call v) (v_env v) (v_link v) (v_mem v) s) in
  store_ok s' /\ (~ names sb id v -> sp_find s' id = sp_find s id).
Proof.
  intros HD (HA & He & HM) HS. cbv zeta.
  destruct (call_store DL hs sb sid (v_big v) (v_id v) (v_call v) (v_env v) (v_link v) (v_mem v) s) as [->|[HT ->]]; [auto|].
  unfold names. destruct (v_call v) as [| | |i ac fl label data|ac fl st|i ll|ids|i off len|mp dp len|i off len dp] eqn:EC;
    try (rewrite call_readonly by exact I; auto; fail).
  - cbn [too_big] in HT. rewrite call_add by (auto; lia). destruct HA as (A & B & C & D & E).
    pose proof (store_it_ok hs sb (v_env v) (mkMeta i ac fl 0 (padded label)) data s HS) as G.
    pose proof (store_it_find hs sb (v_env v) (mkMeta i ac fl 0 (padded label)) data s id) as G2.
    cbn [m_id m_access m_flags m_label] in *. destruct (store_it _ _ _ _ _ _) as [rc s']. cbn [snd] in *. split; [|auto].
    apply G; auto.
    + unfold padded. rewrite app_length, repeat_length. lia.
    + unfold padded. apply Forall_app. split; auto. apply Forall_forall. intros x I. apply repeat_spec in I. subst. unfold byte_ok. lia.
  - cbn [too_big] in HT. rewrite call_destroy by (auto; lia). cbn [does]. destruct (negb _); cbn [snd]; auto.
    destruct (existsb _ _); cbn [snd]; auto. destruct (negb _); cbn [snd]; auto. split; [apply destroy_ok; auto|].
    intros NI. rewrite find_destroy. destruct (existsb (N.eqb id) ids) eqn:X; auto. apply existsb_exists in X as (y & Y1 & Y2).
    apply N.eqb_eq in Y2. subst y. contradiction.
  - rewrite call_add_dma by auto. destruct HA as (A & B & C). destruct HM as [M1 M2].
    destruct (meta_at_ok sb mp (v_mem v) M1 M2) as (X1 & X2 & X3 & X4 & X5). unfold add_dma_spec.
    destruct (negb _); cbn [snd]; auto. destruct (negb _); cbn [snd]; auto. destruct (mp =? 0); cbn [snd]; auto.
    pose proof (store_it_ok hs sb (v_env v) (meta_at sb mp (v_mem v)) (rd dp len (v_mem v)) s HS X1 X2 X3 X4 X5) as G.
    pose proof (store_it_find hs sb (v_env v) (meta_at sb mp (v_mem v)) (rd dp len (v_mem v)) s id) as G2.
    destruct (store_it _ _ _ _ _ _) as [rc s']. cbn [snd] in *. split.
    + apply G. unfold rd. rewrite firstn_length. lia.
    + intros NI. apply G2. exact NI.
Qed.

Lemma run_ok DL hs sb sid : forall vs s, 4 <= DL -> Forall (event_ok sid) vs -> store_ok s -> store_ok (run DL hs sb sid vs s).
Proof.
  induction vs as [|v vs IH]; intros s HD HF HS; cbn [run fold_left]; auto. inv HF.
  apply IH; auto. apply (event_step DL hs sb sid v s 0); auto.
Qed.
Lemma run_find DL hs sb sid id : forall vs s, 4 <= DL -> Forall (event_ok sid) vs -> Forall (fun v => ~ names sb id v) vs -> store_ok s ->
  sp_find (run DL hs sb sid vs s) id = sp_find s id.
Proof.
  induction vs as [|v vs IH]; intros s HD HF HN HS; cbn [run fold_left]; auto. inv HF. inv HN.
  destruct (event_step DL hs sb sid v s id HD H1 HS) as [A B]. fold (run DL hs sb sid vs (snd (call DL hs sb sid (v_big v) (v_id v) (v_call v) (v_env v) (v_link v) (v_mem v) s))).
  rewrite IH; auto.
Qed.

(** ** Any packets *)
From Verif Require Import NvmReqProof.

Lemma parse_race sb cb a n buf mem : race_free (parse sb cb a n buf mem).
Proof. destruct a; cbn [parse]; try (destruct (n =? _); exact I || reflexivity); try exact I. destruct (n <? 32); exact I. Qed.

Lemma serve_change DL hs sb sid cb a n buf mem e s id : change s (snd (serve DL hs sb sid cb a n buf mem e s)) id.
Proof.
  unfold serve. destruct (early hs sb cb a n buf mem e) as [rc|]; [apply ch_same; reflexivity|].
  destruct (nvm_handle (DL - 4) false e (parse sb cb a n buf mem) s) as [r s'] eqn:E. cbn [snd].
  eapply handle_change; [apply parse_race|exact E].
Qed.

Lemma serve_same DL hs sb sid cb a n buf mem e s1 s2 : same_public s1 s2 ->
  fst (serve DL hs sb sid cb a n buf mem e s1) = fst (serve DL hs sb sid cb a n buf mem e s2) /\
  same_public (snd (serve DL hs sb sid cb a n buf mem e s1)) (snd (serve DL hs sb sid cb a n buf mem e s2)).
Proof.
  intros H. unfold serve. destruct (early hs sb cb a n buf mem e) as [rc|]; [split; auto|].
  destruct (same_handle (DL - 4) false e (parse sb cb a n buf mem) s1 s2 H) as [A B].
  destruct (nvm_handle _ _ _ _ s1) as [r1 t1], (nvm_handle _ _ _ _ s2) as [r2 t2]. cbn [fst snd] in *. subst. split; auto.
Qed.

Lemma replies_same DL hs sb sid : forall ks s1 s2, same_public s1 s2 -> replies DL hs sb sid ks s1 = replies DL hs sb sid ks s2.
Proof.
  induction ks as [|k ks IH]; intros s1 s2 H; cbn [replies]; auto.
  destruct (serve_same DL hs sb sid (k_big k) (k_act k) (k_n k) (k_buf k) (k_mem k) (k_env k) s1 s2 H) as [A B].
  destruct (serve _ _ _ _ _ _ _ _ _ _ s1) as [[p1 m1] t1], (serve _ _ _ _ _ _ _ _ _ _ s2) as [[p2 m2] t2]. cbn [fst snd] in *.
  injection A as -> ->. f_equal. auto.
Qed.

Lemma receive_kept DL hs sb sid id m d : (has (m_flags m) F_TRUSTED = true \/ has (m_flags m) F_NONMODIFIABLE = true) ->
  forall ks s, sp_find s id = Some (m, d) -> sp_find (receive DL hs sb sid ks s) id = Some (m, d).
Proof.
  intros HP. induction ks as [|k ks IH]; intros s H; cbn [receive fold_left]; auto. apply IH.
  destruct (serve_change DL hs sb sid (k_big k) (k_act k) (k_n k) (k_buf k) (k_mem k) (k_env k) s id) as [E|m1 d1 E1 E2 E3|E1 E2].
  - congruence.
  - destruct (E3 _ _ H), HP; congruence.
  - destruct (E2 _ _ H) as (? & ? & ?), HP; congruence.
Qed.

(** Nothing comes to bear the trusted flag. *)
Lemma receive_no_trusted DL hs sb sid id m d : has (m_flags m) F_TRUSTED = true ->
  forall ks s, sp_find (receive DL hs sb sid ks s) id = Some (m, d) -> sp_find s id = Some (m, d).
Proof.
  intros HP. induction ks as [|k ks IH]; intros s H; cbn [receive fold_left] in H; auto. apply IH in H.
  destruct (serve_change DL hs sb sid (k_big k) (k_act k) (k_n k) (k_buf k) (k_mem k) (k_env k) s id) as [E|m1 d1 E1 E2 E3|E1 E2]; congruence.
Qed.

(** ** Reading back *)
Section Back.
Variables (DL : nat) (hs sb : bool) (sid : N).

Lemma flag_read fl : forall s id m d, sp_find s id = Some (m, d) -> m_flags m = N.ldiff fl F_SERVER_ONLY ->
  forbids s id NO_READ = negb (N.eqb (N.land fl F_NONEXPORTABLE) 0).
Proof.
  intros s id m d E F. rewrite forbids_has, E, F. change NO_READ with (N.lor F_TRUSTED F_NONEXPORTABLE). rewrite has_two. unfold has.
  replace (N.land (N.ldiff fl F_SERVER_ONLY) F_TRUSTED) with 0%N.
  2:{ symmetry. apply N.bits_inj. intros k. rewrite N.land_spec, N.ldiff_spec, N.bits_0. change F_SERVER_ONLY with F_TRUSTED.
      destruct (N.testbit F_TRUSTED k); rewrite ?Bool.andb_false_r; auto. }
  cbn [N.eqb negb orb]. f_equal. f_equal. apply N.bits_inj. intros k. rewrite !N.land_spec, N.ldiff_spec.
  destruct (N.testbit F_NONEXPORTABLE k) eqn:K; rewrite ?Bool.andb_false_r; auto. rewrite !Bool.andb_true_r.
  replace (N.testbit F_SERVER_ONLY k) with false; [apply Bool.andb_true_r|].
  destruct (N.eq_dec k 2) as [->|NE]; [reflexivity|]. exfalso. unfold F_NONEXPORTABLE in K. change 4%N with (2 ^ 2)%N in K.
  rewrite N.pow2_bits_false in K by auto. discriminate.
Qed.

Lemma add_found cb cid id ac fl label data e L mem s mem' s' : 4 <= DL -> env_ok e -> args_ok sid cid (NAdd id ac fl label data) ->
  call DL hs sb sid cb cid (NAdd id ac fl label data) e L mem s = (Answered OK [] [], mem', s') ->
  length label <= 24 /\ sp_find s' id = Some (mkMeta id ac (N.ldiff fl F_SERVER_ONLY) (N.of_nat (length data)) (padded label), data).
Proof.
  intros HD He HA H.
  destruct (le_lt_dec (length label) 24) as [L1|L1].
  2:{ rewrite call_refused in H by (left; auto). discriminate. }
  destruct (le_lt_dec (length data) (DL - 32)) as [L2|L2].
  2:{ rewrite call_refused in H by (right; auto). discriminate. }
  assert (NT : ~ too_big DL (NAdd id ac fl label data)) by (cbn [too_big]; lia).
  destruct (Z.eq_dec (k_send L) OK) as [K1|K1].
  2:{ rewrite call_unsent in H by auto. discriminate. }
  destruct (Z.eq_dec (k_recv L) OK) as [K2|K2].
  2:{ destruct (call DL hs sb sid cb cid (NAdd id ac fl label data) e (mkNl OK OK (k_old L)) mem s) as [[o m1] s1] eqn:E.
      rewrite (call_unheard _ _ _ _ _ _ _ _ _ _ _ _ _ _ NT K1 K2 E) in H. discriminate. }
  rewrite call_add in H by auto.
  destruct (store_it hs sb e (mkMeta id ac fl 0 (padded label)) data s) as [rc s1] eqn:E. injection H as -> <- <-.
  apply store_it_found in E. cbn [m_id m_access m_flags m_label] in E. destruct E as (E & A & B). auto.
Qed.

Lemma after_split a o r : ~ In (oid o) (map oid a) -> sp_after (a ++ o :: r) (oid o) = r.
Proof.
  induction a as [|x a IH]; cbn [app sp_after map]; intros H; [rewrite N.eqb_refl; auto|].
  destruct (N.eqb_spec (oid x) (oid o)) as [E|E]; [exfalso; apply H; left; auto|]. apply IH. intros I. apply H. right; auto.
Qed.

Lemma listing_all cb cid ac fl e L mem s : 4 <= DL -> env_ok e -> e_lock e = OK -> k_send L = OK -> k_recv L = OK -> store_ok s ->
  (ac < 65536)%N -> (fl < 65536)%N -> sp_find s 0 = None -> (N.of_nat (length s) < 65536)%N -> NoDup (map oid s) ->
  let ask start := fst (fst (call DL hs sb sid cb cid (NList ac fl start) e L mem s)) in
  forall fuel, length s < fuel -> listing ask fuel 0 = map oid s.
Proof.
  intros HD He HL H1 H2 HS HA HF HZ HN ND ask.
  assert (ASK : forall start, (start < 65536)%N -> ask start =
    Answered OK [N.of_nat (length (if N.eqb start 0 then s else sp_after s start)); match (if N.eqb start 0 then s else sp_after s start) with o :: _ => oid o | [] => 0%N end] []).
  { intros start B. unfold ask. rewrite call_list by (auto; cbn; auto). cbn [does]. rewrite HL. change (negb (Z.eqb OK OK)) with false. reflexivity. }
  assert (NZ : forall o, In o s -> oid o <> 0%N).
  { intros o I E. clear - HZ I E. induction s as [|x s IH]; [destruct I|]. cbn [sp_find] in HZ. destruct (N.eqb_spec (oid x) 0) as [X|X]; [discriminate|].
    destruct I as [->|I]; auto. }
  assert (B16 : forall o, In o s -> (oid o < 65536)%N).
  { intros o I. pose proof (proj1 (Forall_forall _ _) HS o I) as [[Q _] _]. unfold oid. tauto. }
  clearbody ask.
  assert (G : forall r a x, s = a ++ x :: r -> forall fuel, length r < fuel -> listing ask fuel (oid x) = map oid r).
  { induction r as [|y r IH]; intros a x E fuel HB; (destruct fuel as [|fuel]; [cbn [length] in HB; lia|]); cbn [listing].
    - rewrite ASK by (apply B16; rewrite E; apply in_or_app; right; left; auto).
      destruct (N.eqb_spec (oid x) 0) as [Z|Z]; [exfalso; apply (NZ x); auto; rewrite E; apply in_or_app; right; left; auto|].
      rewrite E, after_split; [reflexivity|]. rewrite E, map_app in ND. cbn [map] in ND. apply NoDup_remove_2 in ND. intros I. apply ND, in_or_app. auto.
    - rewrite ASK by (apply B16; rewrite E; apply in_or_app; right; left; auto).
      destruct (N.eqb_spec (oid x) 0) as [Z|Z]; [exfalso; apply (NZ x); auto; rewrite E; apply in_or_app; right; left; auto|].
      assert (AF : sp_after s (oid x) = y :: r).
      { rewrite E. apply after_split. rewrite E, map_app in ND. cbn [map] in ND. apply NoDup_remove_2 in ND. intros I. apply ND, in_or_app. auto. }
      rewrite AF. cbn [length]. destruct (N.eqb_spec (N.of_nat (S (length r))) 0); [lia|]. cbn [map]. f_equal.
      apply (IH (a ++ [x])); [rewrite <- app_assoc; exact E|]. cbn [length] in HB. lia. }
  intros fuel HB. destruct fuel as [|fuel]; [lia|]. cbn [listing]. rewrite ASK by lia. cbn [N.eqb].
  destruct s as [|x r] eqn:ES; [reflexivity|]. cbn [length] in *. destruct (N.eqb_spec (N.of_nat (S (length r))) 0); [lia|]. cbn [map]. f_equal.
  apply (G r [] x); auto. lia.
Qed.

Lemma pieces_all (d : list N) (ask : nat -> nat -> outcome) :
  forall ls off, (forall o n, In n ls -> o < length d -> exists k l, ask o n = Answered k l (firstn n (skipn o d))) ->
  Forall (fun n => 0 < n) ls ->
  off + sum ls = length d -> concat (pieces ask off ls) = skipn off d.
Proof.
  induction ls as [|n ls IH]; intros off HA HP HS; cbn [pieces concat].
  - cbn in HS. rewrite skipn_all2 by lia. reflexivity.
  - inv HP. cbn [sum fold_right] in HS. fold (sum ls) in HS. destruct (HA off n (or_introl eq_refl)) as (k & l & E); [lia|]. rewrite E.
    rewrite IH; auto; [|intros o m I; apply HA; right; auto|lia].
    assert (SS : forall (l : list N) a b, skipn (a + b) l = skipn b (skipn a l)).
    { clear. induction l as [|x l IH]; intros [|a] b; cbn [skipn Nat.add]; auto; try (rewrite ?skipn_nil; auto). }
    rewrite SS. apply firstn_skipn.
Qed.
End Back.

Lemma reply_fits DL hs sb sid cb a n buf mem e s : 36 <= DL -> store_ok s ->
  length (fst (fst (serve DL hs sb sid cb a n buf mem e s))) <= DL.
Proof.
  intros HD HS. unfold serve.
  assert (G : forall r, (a = AMeta -> match rs_meta r with Some m => length (m_label m) = 24 | None => True end) ->
    (a = ARead -> length (rs_data r) <= DL - 4) -> length (reply sb sid cb a n buf r) <= DL).
  { intros r HM HR. destruct a; cbn [reply]; rewrite ?app_length, ?give_length; cbn [map fst sum fold_right length]; try lia.
    - destruct (n =? 4); rewrite give_length; cbn [map fst sum fold_right]; lia.
    - specialize (HM eq_refl). destruct (rs_meta r); cbn [m_label meta_zero]; rewrite ?repeat_length; lia. }
  destruct (early hs sb cb a n buf mem e) as [rc|] eqn:EE.
  { cbn [fst]. apply G; cbn; auto. intros _. lia. }
  destruct (nvm_handle (DL - 4) false e (parse sb cb a n buf mem) s) as [r s'] eqn:E. cbn [fst]. apply G.
  - intros ->. cbn [parse] in E. destruct (n =? 2); [|injection E as <- _; exact I]. cbn [nvm_handle] in E.
    destruct (is_ok (e_lock e)); [|injection E as <- _; exact I]. unfold nv_meta in E.
    destruct (sp_find s _) as [[m d]|] eqn:F; injection E as <- _; cbn [rs_meta]; auto. change (is_ok OK) with true. cbv iota.
    destruct (find_ok _ _ _ _ HS F) as [[(_ & Q & _) _] _]. exact Q.
  - intros ->. cbn [parse] in E. destruct (n =? 6); [|injection E as <- _; cbn; lia]. cbn [nvm_handle] in E.
    destruct (is_ok (e_lock e)); [|injection E as <- _; cbn; lia]. unfold handle_read in E.
    destruct (Nat.ltb_spec (DL - 4) (N.to_nat (fld 2 (take sb cb W_READ buf)))); [injection E as <- _; cbn; lia|].
    rewrite read_eq in E by auto. match type of E with context [bytes_of ?a ?b ?c ?d] => pose proof (proj2 (bytes_i32 a b c d)) as X; destruct (bytes_of a b c d) end.
    injection E as <- _. cbn [rs_data snd] in *. lia.
Qed.
