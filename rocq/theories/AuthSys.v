(** Every event of the authentication model as one of a few transitions of the
    user table, the stored credentials and the sessions. *)
From Verif Require Import Base BaseLemmas NvmSpec Flags Store NvmReqModel NvmReqProof ServerModel AuthModel AuthCodec AuthRep AuthOps AuthEff.
Local Open Scope N_scope.
Local Arguments N.of_nat : simpl never.
Local Arguments N.eqb : simpl never.

Definition user (us : list urec) (i : nat) : urec := nth i us urec_zero.

(** The stored index names the users in RAM, or fewer. *)
Definition indexed (X U : list urec) : Prop :=
  forall i, (i < MAX_USERS)%nat -> core (user X i) = core (user U i) \/ user X i = urec_zero.

(** Requests as the wire can carry them. *)
Definition req_wf (q : areq) : Prop :=
  match q with
  | AAdd raw p _ _ => bytes_ok raw /\ perms_wf p
  | ASetPerm _ p => perms_wf p
  | _ => True
  end.
Definition ev_wf (ev : aev) : Prop :=
  match ev with EReq _ _ q => req_wf q | EAdd _ raw p _ _ => bytes_ok raw /\ perms_wf p | ENvm _ q => polite q | _ => True end.

Section Sys.
Variables (nvm crypto certs : bool) (sha : list N -> list N) (verify : list N -> list N -> bool).
Variables (max_read : nat) (have_st : bool).
Hypothesis sha_len : forall l, length (sha l) = 32%nat.
Notation Rep := (Rep nvm).
Notation blob_of := (blob_of crypto sha).
Notation method_ok := (method_ok crypto certs).
Notation accepts := (accepts crypto sha verify).
Notation auth_step := (auth_step nvm crypto certs sha verify max_read have_st).

Record Good (D : adb) (X : list urec) (C : cslots) : Prop := mkGood {
  g_wf : users_wf (a_users D); g_rep : Rep D X C; g_idx : indexed X (a_users D); g_agree : agree (a_users D) C }.

(** Requests that changed no user. *)
Definition not_done (ev : aev) (a : option aresp) : Prop :=
  match ev with
  | EReq _ _ (AGet _) | EReq _ _ (ALogout _) => True
  | EReq _ _ _ | EAdd _ _ _ _ _ => match a with Some r => ar_rc r <> OK | None => False end
  | EBoot => False
  | _ => True
  end.
(** A session may act in the auth group. *)
Definition gate (s : sess) (q : areq) : Prop := exists lock, check_request lock s GROUP_AUTH (areq_action q) = OK.

(** The stored index after a request that changed no user. *)
Definition kept (ev : aev) (X U X1 : list urec) : Prop :=
  X1 = X \/ exists c e uid, ev = EReq c e (ADelete uid) /\ (X1 = U \/
    exists i, (i < MAX_USERS)%nat /\ uid = N.of_nat (S i) /\ X1 = set_nth i urec_zero U /\ ae_w2 e <> OK /\ ae_w3 e <> OK).

Inductive did (ev : aev) (a : option aresp) (Y : asys) (X : list urec) (C : cslots) (Y1 : asys) (X1 : list urec) (C1 : cslots) : Prop :=
| d_same :
    not_done ev a -> (forall c, as_sess Y1 c = as_sess Y c) -> a_users (as_db Y1) = a_users (as_db Y) ->
    (forall j, (j < MAX_USERS)%nat -> b_id (user (a_users (as_db Y)) j) <> 0 -> C1 j = C j) ->
    kept ev X (a_users (as_db Y)) X1 -> did ev a Y X C Y1 X1 C1
| d_login c e m raw data i b :
    ev = EReq c e (ALogin m raw data) -> u_id (as_sess Y c) = 0 ->
    a = Some (mkAr OK (N.of_nat (S i)) perms_zero) -> (i < MAX_USERS)%nat ->
    let u := user (a_users (as_db Y)) i in
    b_id u = N.of_nat (S i) -> b_name u = uname raw -> b_active u = false -> C i = Some (m, b) -> accepts m b data ->
    a_users (as_db Y1) = set_nth i (with_active u true) (a_users (as_db Y)) ->
    (forall x, as_sess Y1 x = if Nat.eqb x c then mkSess (b_id u) (b_perm u) else as_sess Y x) -> C1 = C -> X1 = X ->
    did ev a Y X C Y1 X1 C1
| d_out c i :
    (i < MAX_USERS)%nat ->
    let u := user (a_users (as_db Y)) i in
    a_users (as_db Y1) = set_nth i (with_active u false) (a_users (as_db Y)) -> C1 = C -> X1 = X ->
    (u_id (as_sess Y c) = N.of_nat (S i) /\ not_done ev a /\
       (forall x, as_sess Y1 x = if Nat.eqb x c then no_sess else as_sess Y x) \/
     (exists e, ev = EReq c e (ALogout (N.of_nat (S i)))) /\ u_id (as_sess Y c) <> N.of_nat (S i) /\
       is_admin (b_perm (user_at (as_db Y) (u_id (as_sess Y c)))) = true /\
       (forall x, as_sess Y1 x = as_sess Y x)) ->
    did ev a Y X C Y1 X1 C1
| d_clear c :
    not_done ev a -> (forall x, as_sess Y1 x = if Nat.eqb x c then no_sess else as_sess Y x) ->
    a_users (as_db Y1) = a_users (as_db Y) -> C1 = C -> X1 = X -> did ev a Y X C Y1 X1 C1
| d_add c e raw p m cred i :
    ev = EReq c e (AAdd raw p m cred) /\ gate (as_sess Y c) (AAdd raw p m cred) /\ u_id (as_sess Y c) <> 0 /\
      (is_admin (u_perm (as_sess Y c)) = true \/ subset_ok (u_perm (as_sess Y c)) p = true /\ cred <> []) \/
    ev = EAdd e raw p m cred ->
    a = Some (mkAr OK (N.of_nat (S i)) perms_zero) -> (i < MAX_USERS)%nat ->
    user (a_users (as_db Y)) i = urec_zero ->
    (forall j, (j < MAX_USERS)%nat -> b_name (user (a_users (as_db Y)) j) <> uname raw) ->
    (cred = [] /\ a_users (as_db Y1) = set_nth i (new_user i (uname raw) p METHOD_NONE 0) (a_users (as_db Y)) /\ C1 = C \/
     cred <> [] /\ method_ok m /\
       a_users (as_db Y1) = set_nth i (new_user i (uname raw) p m (len_of (blob_of m cred))) (a_users (as_db Y)) /\
       C1 = cset C i (Some (m, blob_of m cred))) ->
    (forall x, as_sess Y1 x = as_sess Y x) -> X1 = a_users (as_db Y1) -> did ev a Y X C Y1 X1 C1
| d_del c e i :
    ev = EReq c e (ADelete (N.of_nat (S i))) -> gate (as_sess Y c) (ADelete (N.of_nat (S i))) -> u_id (as_sess Y c) <> 0 ->
    a = Some (arc OK) -> (i < MAX_USERS)%nat ->
    is_admin (b_perm (user_at (as_db Y) (u_id (as_sess Y c)))) = true ->
    b_id (user (a_users (as_db Y)) i) <> 0 ->
    a_users (as_db Y1) = set_nth i urec_zero (a_users (as_db Y)) ->
    (forall j, j <> i -> C1 j = C j) -> (0 < b_clen (user (a_users (as_db Y)) i) -> C1 i = None) ->
    (forall x, as_sess Y1 x = as_sess Y x) -> X1 = a_users (as_db Y1) -> did ev a Y X C Y1 X1 C1
| d_perm c e p i :
    ev = EReq c e (ASetPerm (N.of_nat (S i)) p) -> gate (as_sess Y c) (ASetPerm (N.of_nat (S i)) p) -> u_id (as_sess Y c) <> 0 ->
    a = Some (arc OK) -> (i < MAX_USERS)%nat ->
    is_admin (b_perm (user_at (as_db Y) (u_id (as_sess Y c)))) = true ->
    b_id (user (a_users (as_db Y)) i) <> 0 ->
    a_users (as_db Y1) = set_nth i (with_perm (user (a_users (as_db Y)) i) (clamp p)) (a_users (as_db Y)) ->
    C1 = C ->
    (forall x, as_sess Y1 x = if Nat.eqb x c && (u_id (as_sess Y c) =? N.of_nat (S i)) then mkSess (u_id (as_sess Y c)) p else as_sess Y x) ->
    X1 = a_users (as_db Y1) -> did ev a Y X C Y1 X1 C1
| d_cred c e m old new i :
    ev = EReq c e (ASetCred (N.of_nat (S i)) m old new) -> gate (as_sess Y c) (ASetCred (N.of_nat (S i)) m old new) -> u_id (as_sess Y c) <> 0 ->
    a = Some (arc OK) -> (i < MAX_USERS)%nat -> method_ok m ->
    (u_id (as_sess Y c) = N.of_nat (S i) \/ is_admin (b_perm (user_at (as_db Y) (u_id (as_sess Y c)))) = true) ->
    let u := user (a_users (as_db Y)) i in
    b_id u <> 0 ->
    (b_clen u = 0 /\ old = [] \/
     exists m0 b0, C i = Some (m0, b0) /\ b_method u = m0 /\ b_clen u = len_of b0 /\ blob_of m0 old = b0 /\ old <> []) ->
    let v := if len_of new =? 0 then None else Some (m, blob_of m new) in
    a_users (as_db Y1) = set_nth i (with_cred u (match v with None => METHOD_NONE | Some _ => m end)
                                        (match v with None => 0 | Some (_, b) => len_of b end)) (a_users (as_db Y)) ->
    (forall j, j <> i -> C1 j = C j) -> (C1 i = v \/ v = None /\ b_clen u = 0 /\ C1 i = C i) ->
    (forall x, as_sess Y1 x = as_sess Y x) -> X1 = X -> did ev a Y X C Y1 X1 C1
| d_boot :
    ev = EBoot -> a_users (as_db Y1) = boot_users nvm X C -> (forall x, as_sess Y1 x = no_sess) ->
    C1 = (if nvm then C else fun _ => None) -> X1 = (if nvm then X else users_zero) -> did ev a Y X C Y1 X1 C1.

Lemma set_sess_same f c x : set_sess f c (f c) x = f x.
Proof. unfold set_sess. destruct (Nat.eqb_spec x c) as [-> |]; reflexivity. Qed.

Lemma indexed_refl U : indexed U U.
Proof. intros i Hi. left. reflexivity. Qed.
Lemma indexed_set X U i u : indexed X U -> (i < length U)%nat -> core u = core (user U i) -> indexed X (set_nth i u U).
Proof.
  intros H HL E j Hj. unfold user in *. destruct (Nat.eq_dec i j) as [<-|Ne].
  - rewrite set_nth_same by auto. rewrite E. apply H. auto.
  - rewrite set_nth_other by auto. apply H. auto.
Qed.
Lemma agree_set U C i u : agree U C -> (i < length U)%nat -> b_id u = b_id (user U i) -> b_method u = b_method (user U i) ->
  b_clen u = b_clen (user U i) -> agree (set_nth i u U) C.
Proof.
  intros H HL E1 E2 E3 j Hj HN. unfold user in *. destruct (Nat.eq_dec i j) as [<-|Ne].
  - rewrite set_nth_same in * by auto. unfold cred_agrees. rewrite E2, E3. apply H; auto. congruence.
  - rewrite set_nth_other in * by auto. apply H; auto.
Qed.
Lemma agree_same U C C' : agree U C -> (forall j, (j < MAX_USERS)%nat -> b_id (user U j) <> 0 -> C' j = C j) -> agree U C'.
Proof. intros H E j Hj HN. rewrite E by auto. apply H; auto. Qed.

Lemma good_active D X C i b : Good D X C -> (i < MAX_USERS)%nat -> b = false \/ b_id (user (a_users D) i) <> 0 ->
  Good (mkDb (set_nth i (with_active (user (a_users D) i) b) (a_users D)) (a_ram D) (a_st D)) X C.
Proof.
  intros [HW HR HI HA] Hi Hb. assert (HL : length (a_users D) = MAX_USERS) by apply HW.
  assert (Hu : user_wf i (with_active (user (a_users D) i) b)).
  { destruct HW as [_ HW]. destruct (HW i Hi) as (A & B & B2 & [B3|B3]); fold (user (a_users D) i) in *.
    - destruct Hb as [-> |Hb]; [rewrite B3; apply zero_wf|]. rewrite B3 in Hb. contradiction Hb; reflexivity.
    - split; [exact A|]. split; [exact B|]. split; [exact B2|]. right. exact B3. }
  split; cbn [a_users].
  - now apply users_set.
  - exact (rep_users _ _ _ _ _ HR).
  - apply indexed_set; auto. lia.
  - apply agree_set; auto. lia.
Qed.

Lemma gate_user lock s q : check_request lock s GROUP_AUTH (areq_action q) = OK ->
  match q with ALogin _ _ _ => True | _ => u_id s <> 0 end.
Proof.
  intros H. destruct q; try exact I; intros Z; unfold check_request in H; rewrite Z in H;
    (destruct (negb (is_ok lock)) eqn:E; [rewrite H in E; discriminate|discriminate]).
Qed.

(** A request leaves the database good and is one of the transitions. *)
Lemma handle_did c e q Y X C a s1 D1 : Good (as_db Y) X C -> req_wf q -> gate (as_sess Y c) q ->
  auth_handle nvm crypto certs sha verify e q (as_sess Y c) (as_db Y) = (a, s1, D1) ->
  exists X1 C1, Good D1 X1 C1 /\ did (EReq c e q) (Some a) Y X C (mkAs true D1 (set_sess (as_sess Y) c s1)) X1 C1.
Proof.
  intros G HQ HG H. pose proof G as [HW HR HI HA]. set (D := as_db Y) in *. set (s := as_sess Y c) in *.
  assert (HL : length (a_users D) = MAX_USERS) by apply HW.
  assert (HS : forall x, set_sess (as_sess Y) c s x = as_sess Y x) by (intros x; apply set_sess_same).
  assert (HU0 : match q with ALogin _ _ _ => True | _ => u_id s <> 0 end).
  { destruct HG as [lock HG]. now apply gate_user in HG. }
  assert (same : forall X1 C1 D2, not_done (EReq c e q) (Some a) -> s1 = s -> D1 = D2 -> a_users D2 = a_users D ->
    Rep D2 X1 C1 -> indexed X1 (a_users D) -> (forall j, (j < MAX_USERS)%nat -> b_id (user (a_users D) j) <> 0 -> C1 j = C j) ->
    kept (EReq c e q) X (a_users D) X1 ->
    exists X1 C1, Good D1 X1 C1 /\ did (EReq c e q) (Some a) Y X C (mkAs true D1 (set_sess (as_sess Y) c s1)) X1 C1).
  { intros X1 C1 D2 ND -> -> HU R2 HI2 HC2 HK. exists X1, C1. split.
    - split; [now rewrite HU|exact R2|now rewrite HU|rewrite HU; apply (agree_same _ C); auto].
    - apply d_same; auto. }
  assert (same0 : forall (r : aresp), ar_rc r <> OK -> (r, s, D) = (a, s1, D1) ->
    exists X1 C1, Good D1 X1 C1 /\ did (EReq c e q) (Some a) Y X C (mkAs true D1 (set_sess (as_sess Y) c s1)) X1 C1).
  { intros r Hr E. injection E as <- <- <-. apply (same X C D); auto; [cbn [not_done]; destruct q; auto|left; reflexivity]. }
  destruct q as [m raw data|uid|raw p m cred|uid|raw|uid p|uid m old new]; cbn [auth_handle req_wf] in H, HQ.
  - (* login *)
    destruct (is_ok (ae_lock e)) eqn:El; cbn [negb] in H; [|apply is_ok_false in El; apply (same0 (arc (ae_lock e)) El H)].
    destruct (u_id s =? 0) eqn:Es; cbn [negb] in H; [|apply (same0 (arc LOGIN_FAILED)); [discriminate|exact H]].
    apply N.eqb_eq in Es.
    destruct (base_login nvm crypto certs sha verify e m (uname raw) data D) as [[rc D2] who] eqn:EB.
    destruct (eff_login nvm crypto certs sha verify e m (uname raw) data D X C rc D2 who HR HW HA EB)
      as [(-> & ->)|(-> & HM & i & Hi & A1 & A2 & A3 & -> & (b & A4 & A5) & ->)].
    + destruct (is_ok rc) eqn:Er; cbn [negb] in H; [apply (same0 (arc LOGIN_FAILED)); [discriminate|exact H]|].
      apply is_ok_false in Er. apply (same0 (arc rc) Er H).
    + change (negb (is_ok OK)) with false in H. cbv iota in H. injection H as <- <- <-.
      exists X, C. split.
      * apply good_active; auto. right. unfold user. rewrite A1. lia.
      * fold (user (a_users D) i) in *. rewrite A1. eapply (d_login _ _ _ _ _ _ _ _ c e m raw data i b); try reflexivity; auto.
        all: unfold user, set_sess; auto.
        intros x. cbn [as_sess]. unfold user in A1. fold D. rewrite A1. reflexivity.
  - (* logout *)
    unfold auth_logout in H. destruct (is_ok (ae_lock e)) eqn:El; cbn [negb] in H.
    2:{ injection H as <- <- <-. apply (same X C D); auto; first [exact I|left; reflexivity]. }
    unfold base_logout in H.
    assert (stay : forall rc, (arc rc, s, D) = (a, s1, D1) ->
      exists X1 C1, Good D1 X1 C1 /\ did (EReq c e (ALogout uid)) (Some a) Y X C (mkAs true D1 (set_sess (as_sess Y) c s1)) X1 C1).
    { intros rc E. injection E as <- <- <-. apply (same X C D); auto; first [exact I|left; reflexivity]. }
    destruct ((u_id s =? 0) || (uid =? 0)) eqn:E1; [exact (stay BADARGS H)|].
    destruct ((N.of_nat MAX_USERS <? u_id s) || (N.of_nat MAX_USERS <? uid)) eqn:E2; [exact (stay NOTFOUND H)|].
    destruct (negb (u_id s =? uid) && _) eqn:E3; [exact (stay ACCESS H)|].
    change (is_ok OK) with true in H. cbn [andb] in H.
    apply Bool.orb_false_elim in E1 as [E1 E1']. apply Bool.orb_false_elim in E2 as [E2 E2'].
    destruct (uid_slot uid) as (i & Hi & -> & _); [now rewrite E1', E2'|].
    injection H as <- <- <-. unfold set_user, user_at. rewrite slot_of_id.
    exists X, C. split; [apply (good_active D X C i false); auto|].
    apply (d_out _ _ _ _ _ _ _ _ c i Hi); auto.
    rewrite N.eqb_sym in E3. fold s. destruct (N.eqb_spec (N.of_nat (S i)) (u_id s)) as [Eq|Ne].
    + left. split; [auto|]. split; [exact I|]. intros x. reflexivity.
    + right. split; [exists e; reflexivity|]. split; [auto|]. cbn [negb andb] in E3. apply Bool.negb_false_iff in E3.
      split; [exact E3|]. intros x. apply HS.
  - (* add *)
    destruct (is_ok (ae_lock e)) eqn:El; cbn [negb] in H; [|apply is_ok_false in El; apply (same0 (arc (ae_lock e)) El H)].
    destruct (negb (is_admin (u_perm s)) && negb (subset_ok (u_perm s) p)) eqn:E1;
      [apply (same0 (arc PERMISSION_ERROR)); [discriminate|exact H]|].
    destruct (negb (is_admin (u_perm s)) && (len_of cred =? 0)) eqn:E2;
      [apply (same0 (arc PERMISSION_ERROR)); [discriminate|exact H]|].
    destruct (base_add nvm crypto certs sha e raw p m cred D) as [[rc D2] id] eqn:EB.
    injection H as <- <- <-. destruct HQ as [HQ1 HQ2].
    destruct (eff_add nvm crypto certs sha sha_len e raw p m cred D X C rc D2 id HR HW HQ1 HQ2 EB)
      as [(Hn & -> & HU & C' & R2 & HC2)|(-> & i & Hi & Hz & -> & HF & HE)].
    + apply (same X C' D2); auto. now left.
    + assert (HAD : is_admin (u_perm s) = true \/ subset_ok (u_perm s) p = true /\ cred <> []).
      { destruct (is_admin (u_perm s)); [auto|]. cbn [negb andb] in E1, E2. right.
        split; [now apply Bool.negb_false_iff in E1|]. intros ->. discriminate E2. }
      assert (HNM : forall j, (j < MAX_USERS)%nat -> b_name (user (a_users D) j) <> uname raw) by exact (find_user_none D (uname raw) HF).
      destruct HE as [(Hc & HU & R2)|(Hc & HM & HU & R2)].
      * exists (a_users D2), C. split.
        -- split; [rewrite HU; apply users_set; auto; now apply new_wf|exact R2|apply indexed_refl|].
           rewrite HU. intros j Hj HN. destruct (Nat.eq_dec i j) as [<-|Ne].
           ++ rewrite set_nth_same by lia. left. auto.
           ++ rewrite set_nth_other in * by auto. apply HA; auto.
        -- eapply (d_add _ _ _ _ _ _ _ _ c e raw p m cred i); auto.
      * exists (a_users D2), (cset C i (Some (m, blob_of m cred))). split.
        -- split; [rewrite HU; apply users_set; auto; now apply new_wf|exact R2|apply indexed_refl|].
           rewrite HU. intros j Hj HN. unfold cset. destruct (Nat.eqb_spec j i) as [-> |Ne].
           ++ rewrite set_nth_same by lia. right. exists m, (blob_of m cred). auto.
           ++ rewrite set_nth_other in * by auto. apply HA; auto.
        -- eapply (d_add _ _ _ _ _ _ _ _ c e raw p m cred i); auto.
  - (* delete *)
    destruct (is_ok (ae_lock e)) eqn:El; cbn [negb] in H; [|apply is_ok_false in El; apply (same0 (arc (ae_lock e)) El H)].
    destruct (base_delete nvm e (u_id s) uid D) as [rc D2] eqn:EB. injection H as <- <- <-.
    destruct (eff_delete nvm e (u_id s) uid D X C rc D2 HR HW EB)
      as [(Hn & HU & X' & R2 & HX)|(-> & HAD & i & Hi & -> & HN & HU & C' & R2 & HC1 & HC2)].
    + apply (same X' C D2); auto.
      2:{ destruct HX as [-> |[-> |(i & HX)]]; [now left|right; exists c, e, uid; auto|right; exists c, e, uid; split; [auto|]; right; now exists i]. }
      destruct HX as [-> |[-> |(i & Hi & _ & -> & _)]]; [auto|apply indexed_refl|].
      intros j Hj. unfold user. destruct (Nat.eq_dec i j) as [<-|Ne]; [right; apply set_nth_same; lia|left; now rewrite set_nth_other].
    + exists (a_users D2), C'. split.
      * split; [rewrite HU; apply users_set; auto using zero_wf|exact R2|apply indexed_refl|].
        rewrite HU. intros j Hj HNj. destruct (Nat.eq_dec i j) as [<-|Ne].
        -- rewrite set_nth_same in HNj by lia. contradiction HNj; reflexivity.
        -- rewrite set_nth_other in * by auto. rewrite HC1 by auto. apply HA; auto.
      * eapply (d_del _ _ _ _ _ _ _ _ c e i); auto.
  - (* get *)
    destruct (is_ok (ae_lock e)) eqn:El; cbn [negb] in H; [|apply is_ok_false in El; apply (same0 (arc (ae_lock e)) El H)].
    destruct (base_get (u_id s) (uname raw) D) as [[rc id] p] eqn:EB. injection H as <- <- <-.
    apply (same X C D); auto; first [exact I|left; reflexivity].
  - (* permissions *)
    destruct (is_ok (ae_lock e)) eqn:El; cbn [negb] in H; [|apply is_ok_false in El; apply (same0 (arc (ae_lock e)) El H)].
    destruct (base_set_perm nvm e (u_id s) uid p D) as [rc D2] eqn:EB. injection H as <- <- <-.
    destruct (eff_set_perm nvm e (u_id s) uid p D X C rc D2 HR HW HQ EB)
      as [(Hn & HU & R2)|(-> & HAD & i & Hi & -> & HN & HU & R2)].
    + apply (same X C D2); auto; [|now left]. assert (is_ok rc = false) as -> by now apply is_ok_false. reflexivity.
    + exists (a_users D2), C. split.
      * split; [rewrite HU; apply users_set; auto|exact R2|apply indexed_refl|].
        -- pose proof (wf_id (a_users D) i HW Hi HN) as EI. destruct HW as [_ HW]. destruct (HW i Hi) as (B1 & B2 & B3 & _).
           split; [exact B1|]. split; [now apply clamp_wf|]. split; [apply N.le_min_r|]. right. exact EI.
        -- rewrite HU. apply agree_set; auto. lia.
      * eapply (d_perm _ _ _ _ _ _ _ _ c e p i); auto.
        intros x. cbn [as_sess]. fold s. change (is_ok OK) with true. cbn [andb].
        assert (u_id s =? 0 = false) as -> by now apply N.eqb_neq. cbn [negb].
        rewrite Bool.andb_true_r. rewrite (N.eqb_sym (N.of_nat (S i))). unfold set_sess.
        destruct (Nat.eqb_spec x c) as [-> |]; cbn [andb]; [|reflexivity].
        destruct (u_id s =? N.of_nat (S i)); reflexivity.
  - (* credentials *)
    destruct (is_ok (ae_lock e)) eqn:El; cbn [negb] in H; [|apply is_ok_false in El; apply (same0 (arc (ae_lock e)) El H)].
    destruct (base_set_cred nvm crypto certs sha e (u_id s) uid m old new D) as [rc D2] eqn:EB. injection H as <- <- <-.
    destruct (eff_set_cred nvm crypto certs sha sha_len e (u_id s) uid m old new D X C rc D2 HR HW HA EB)
      as [(Hn & HU & R2)|(-> & HM & HAD & i & Hi & -> & HN & HO & HU & C' & R2 & HC1 & HC2)].
    + apply (same X C D2); auto. now left.
    + exists X, C'. split.
      * split; [rewrite HU; apply users_set; auto|exact R2|rewrite HU; apply indexed_set; auto; lia|].
        -- apply cred_wf; [apply HW; auto|]. now apply wf_id.
        -- rewrite HU. intros j Hj HNj. destruct (Nat.eq_dec i j) as [<-|Ne].
           ++ rewrite set_nth_same by lia. destruct (len_of new =? 0); [left; auto|].
              destruct HC2 as [HC2|(Z & _)]; [|discriminate Z]. right. exists m, (blob_of m new). auto.
           ++ rewrite set_nth_other in * by auto. rewrite HC1 by auto. apply HA; auto.
      * eapply (d_cred _ _ _ _ _ _ _ _ c e m old new i); auto.
Qed.

Lemma good_boot D X C rc D1 : Good D X C -> base_init nvm (a_st D) = (rc, D1) ->
  rc = OK /\ a_users D1 = boot_users nvm X C /\ Good D1 (if nvm then X else users_zero) (if nvm then C else fun _ => None).
Proof.
  intros [HW HR HI HA] H. destruct (boot_rep nvm D X C rc D1 HR H) as (-> & HU & _ & R1).
  split; [auto|]. split; [auto|]. assert (HX : users_wf X) by apply HR.
  assert (EN : nvm = true \/ nvm = false) by (destruct nvm; auto). destruct EN as [EN|EN].
  - assert (R1' : Rep D1 X (if nvm then C else fun _ => None)) by (rewrite EN in *; exact R1).
    replace (if nvm then X else users_zero) with X by now rewrite EN. split; [rewrite HU; now apply boot_wf|exact R1'| |]; rewrite EN in *.
    + rewrite HU. intros i Hi. left. unfold user. rewrite boot_nth by auto. unfold reloaded.
      destruct (_ =? 0); [reflexivity|]. destruct (C i) as [[? ?]|]; reflexivity.
    + rewrite HU. intros i Hi HN. rewrite boot_nth in * by auto. unfold reloaded in *.
      destruct (b_id (nth i X urec_zero) =? 0); [left; auto|]. destruct (C i) as [[m b]|]; [|left; auto].
      right. exists m, b. auto.
  - replace (if nvm then X else users_zero) with users_zero by now rewrite EN. assert (HU' : a_users D1 = users_zero) by (rewrite HU, EN; reflexivity). clear HU.
    split; [rewrite HU'; exact (boot_wf false X C HX)| |rewrite HU'; apply indexed_refl|]; rename HU' into HU.
    + rewrite EN in R1. unfold AuthRep.Rep in R1 |- *. rewrite EN. destruct R1 as (R1 & R2 & R3 & R4).
      split; [exact R1|]. split; [exact (boot_wf false X C HX)|]. split; [exact R3|exact R4].
    + rewrite HU. intros i Hi HN. unfold users_zero in HN. rewrite nth_repeat in HN. contradiction HN; reflexivity.
Qed.

Lemma end_did ev c l1 l2 Y X C s1 D1 fl : Good (as_db Y) X C -> not_done ev None ->
  end_session l1 l2 (as_sess Y c) (as_db Y) = (s1, D1) ->
  Good D1 X C /\ did ev None Y X C (mkAs true D1 (set_sess (as_sess Y) c (if fl : bool then auth_reset l2 s1 else s1))) X C.
Proof.
  intros G ND H. pose proof G as [HW HR HI HA]. unfold end_session in H.
  assert (RS : forall s0, auth_reset l2 s0 = no_sess \/ auth_reset l2 s0 = s0) by (intros s0; unfold auth_reset; destruct (is_ok l2); auto).
  assert (FIN : forall s0, (s0 = as_sess Y c \/ s0 = no_sess) ->
    (if fl then auth_reset l2 s0 else s0) = as_sess Y c \/ (if fl then auth_reset l2 s0 else s0) = no_sess).
  { intros s0 Hs. destruct fl; [|exact Hs]. destruct (RS s0) as [-> | ->]; auto. }
  assert (SAME : forall s0 D2, (s0 = as_sess Y c \/ s0 = no_sess) -> D2 = as_db Y ->
    Good D2 X C /\ did ev None Y X C (mkAs true D2 (set_sess (as_sess Y) c s0)) X C).
  { intros s0 D2 [-> | ->] ->; (split; [exact G|]).
    - apply d_same; auto; [intros x; apply set_sess_same|now left].
    - apply (d_clear _ _ _ _ _ _ _ _ c); auto. }
  destruct (N.eqb_spec (u_id (as_sess Y c)) 0) as [Z|NZ].
  { injection H as <- <-. apply SAME; auto. }
  unfold auth_logout in H. destruct (is_ok l1); cbn [negb] in H.
  2:{ injection H as <- <-. apply SAME; auto. apply FIN. destruct (RS (as_sess Y c)); auto. }
  unfold base_logout in H.
  destruct ((u_id (as_sess Y c) =? 0) || (u_id (as_sess Y c) =? 0)) eqn:E1.
  { injection H as <- <-. apply SAME; auto. apply FIN. cbn [andb is_ok Z.eqb BADARGS OK]. destruct (RS (as_sess Y c)); auto. }
  destruct ((N.of_nat MAX_USERS <? u_id (as_sess Y c)) || (N.of_nat MAX_USERS <? u_id (as_sess Y c))) eqn:E2.
  { injection H as <- <-. apply SAME; auto. apply FIN. cbn [andb is_ok Z.eqb NOTFOUND OK]. destruct (RS (as_sess Y c)); auto. }
  rewrite N.eqb_refl in H. cbn [negb andb] in H. change (is_ok OK) with true in H. cbn [andb] in H.
  apply Bool.orb_false_elim in E1 as [E1 _]. apply Bool.orb_false_elim in E2 as [E2 _].
  destruct (uid_slot (u_id (as_sess Y c))) as (i & Hi & EU & _); [now rewrite E1, E2|].
  injection H as <- <-. rewrite EU. unfold set_user, user_at. rewrite slot_of_id.
  split; [apply (good_active _ X C i false); auto|].
  apply (d_out _ _ _ _ _ _ _ _ c i Hi); auto. left. split; [auto|]. split; [auto|].
  intros x. cbn [as_sess]. unfold set_sess. destruct (Nat.eqb x c); [|reflexivity].
  destruct fl; destruct (RS no_sess) as [E|E]; rewrite ?E; reflexivity.
Qed.

Lemma step_did ev Y X C a Y1 : as_up Y = true -> Good (as_db Y) X C -> ev_wf ev -> auth_step ev Y = (a, Y1) ->
  as_up Y1 = true /\ exists X1 C1, Good (as_db Y1) X1 C1 /\ did ev a Y X C Y1 X1 C1.
Proof.
  intros HU G HE H. destruct ev as [c e q|e raw p m cred|c l1 l2|c l1 l2|e q|]; cbn [AuthModel.auth_step ev_wf] in H, HE.
  - rewrite HU in H. cbn [negb] in H. destruct (is_ok (check_request _ _ _ _)) eqn:EG; cbn [negb] in H.
    + destruct (auth_handle _ _ _ _ _ e q (as_sess Y c) (as_db Y)) as [[r s1] D1] eqn:EH. injection H as <- <-.
      split; [reflexivity|]. apply (handle_did c e q Y X C r s1 D1 G HE); auto.
      exists (ae_lock e). now apply is_ok_iff.
    + injection H as <- <-. split; [exact HU|]. exists X, C. split; [exact G|]. apply d_same; auto; [|now left].
      cbn [not_done]. destruct q; try exact I; discriminate.
  - rewrite HU in H. cbn [negb] in H. destruct (base_add nvm crypto certs sha e raw p m cred (as_db Y)) as [[rc D2] id] eqn:EB.
    injection H as <- <-. split; [reflexivity|]. destruct HE as [HQ1 HQ2]. pose proof G as [HW HR HI HA].
    assert (HL : length (a_users (as_db Y)) = MAX_USERS) by apply HW.
    destruct (eff_add nvm crypto certs sha sha_len e raw p m cred (as_db Y) X C rc D2 id HR HW HQ1 HQ2 EB)
      as [(Hn & -> & HU2 & C' & R2 & HC2)|(-> & i & Hi & Hz & -> & HF & HE)].
    + exists X, C'. cbn [as_db]. split.
      * split; [now rewrite HU2|exact R2|now rewrite HU2|rewrite HU2; apply (agree_same _ C); auto].
      * apply d_same; auto. now left.
    + assert (HNM : forall j, (j < MAX_USERS)%nat -> b_name (user (a_users (as_db Y)) j) <> uname raw)
        by exact (find_user_none (as_db Y) (uname raw) HF).
      destruct HE as [(Hc & HU2 & R2)|(Hc & HM & HU2 & R2)].
      * exists (a_users D2), C. cbn [as_db]. split.
        -- split; [rewrite HU2; apply users_set; auto; now apply new_wf|exact R2|apply indexed_refl|].
           rewrite HU2. intros j Hj HN. destruct (Nat.eq_dec i j) as [<-|Ne].
           ++ rewrite set_nth_same by lia. left. auto.
           ++ rewrite set_nth_other in * by auto. apply HA; auto.
        -- eapply (d_add _ _ _ _ _ _ _ _ 0%nat e raw p m cred i); auto.
      * exists (a_users D2), (cset C i (Some (m, blob_of m cred))). cbn [as_db]. split.
        -- split; [rewrite HU2; apply users_set; auto; now apply new_wf|exact R2|apply indexed_refl|].
           rewrite HU2. intros j Hj HN. unfold cset. destruct (Nat.eqb_spec j i) as [-> |Ne].
           ++ rewrite set_nth_same by lia. right. exists m, (blob_of m cred). auto.
           ++ rewrite set_nth_other in * by auto. apply HA; auto.
        -- eapply (d_add _ _ _ _ _ _ _ _ 0%nat e raw p m cred i); auto.
  - rewrite HU in H. cbn [negb] in H. destruct (end_session _ _ _ _) as [s1 D1] eqn:EE. injection H as <- <-.
    split; [reflexivity|]. exists X, C. exact (end_did (EDrop c l1 l2) c l1 l2 Y X C s1 D1 false G I EE).
  - rewrite HU in H. cbn [negb] in H. destruct (end_session _ _ _ _) as [s1 D1] eqn:EE. injection H as <- <-.
    split; [reflexivity|]. exists X, C. exact (end_did (EInit c l1 l2) c l1 l2 Y X C s1 D1 true G I EE).
  - destruct (nvm_handle max_read have_st e q (a_st (as_db Y))) as [r st1] eqn:EH. cbn [snd] in H. injection H as <- <-.
    split; [exact HU|]. exists X, C. cbn [as_db]. split.
    + destruct G as [HW HR HI HA]. split; auto. exact (rep_nvm nvm max_read have_st e q (as_db Y) X C r st1 HR HE EH).
    + apply d_same; auto; [exact I|now left].
  - destruct (base_init nvm (a_st (as_db Y))) as [rc D1] eqn:EB. injection H as <- <-.
    destruct (good_boot _ X C rc D1 G EB) as (-> & HB & G1). split; [reflexivity|].
    exists (if nvm then X else users_zero), (if nvm then C else fun _ => None). split; [exact G1|]. apply d_boot; auto.
Qed.
End Sys.
