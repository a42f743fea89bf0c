(** Proofs about the TLS transport. *)
From Verif Require Import TlsModel TlsSpec.

(** Split syntactic conjunctions only. *)
Ltac conjs := repeat match goal with |- _ /\ _ => split end.

Lemma zdel_none {A} fd (l : list (Z * A)) : zget fd l = None -> zdel fd l = l.
Proof.
  induction l as [|[j a] r IH]; intros H; [reflexivity|].
  cbn [zget zdel filter fst] in *. destruct (Z.eqb fd j) eqn:E; [discriminate|]. cbn [negb].
  f_equal. exact (IH H).
Qed.
Lemma zget_app {A} fd (a b : list (Z * A)) :
  zget fd (a ++ b) = match zget fd a with Some x => Some x | None => zget fd b end.
Proof.
  induction a as [|[j x] r IH]; [reflexivity|]. cbn [app zget].
  destruct (Z.eqb fd j); [reflexivity|exact IH].
Qed.
Lemma zdel_app {A} fd (a b : list (Z * A)) : zdel fd (a ++ b) = zdel fd a ++ zdel fd b.
Proof. apply filter_app. Qed.
Lemma ndel_none {A} i (l : list (nat * A)) : nget i l = None -> ndel i l = l.
Proof.
  induction l as [|[j a] r IH]; intros H; [reflexivity|].
  cbn [nget ndel filter fst] in *. destruct (Nat.eqb i j) eqn:E; [discriminate|]. cbn [negb].
  f_equal. exact (IH H).
Qed.

Section P.
Variable issued : N -> N -> bool.
Variable MTU FRAG : nat.
(** The rest of the world. *)
Variable O0 : list (Z * option peer).
Variable X0 : list (nat * tctx).
Variable S0 : list (nat * tssl).
Variable B0 : bool.
Variable L0 : list ev.
Variable n0 : nat.
Hypothesis Opos : forall fd p, zget fd O0 = Some p -> (0 <= fd)%Z.
Hypothesis Xid : forall i x, nget i X0 = Some x -> (i < n0)%nat.
Hypothesis Sid : forall i s, nget i S0 = Some s -> (i < n0)%nat.

Definition W op cx sl nx lg : world :=
  mkWorld (op ++ O0) (cx ++ X0) (sl ++ S0) nx B0 (L0 ++ lg).

Lemma Xfresh i : (n0 <= i)%nat -> nget i X0 = None.
Proof. intros H. destruct (nget i X0) eqn:E; [apply Xid in E; lia|reflexivity]. Qed.
Lemma Sfresh i : (n0 <= i)%nat -> nget i S0 = None.
Proof. intros H. destruct (nget i S0) eqn:E; [apply Sid in E; lia|reflexivity]. Qed.

Lemma say_W op cx sl nx lg e : w_say (W op cx sl nx lg) e = W op cx sl nx (lg ++ [e]).
Proof. unfold w_say, W; cbn. now rewrite <- app_assoc. Qed.

Lemma close_W fd p op cx sl nx lg : zget fd O0 = None ->
  os_close fd (W ((fd, p) :: op) cx sl nx lg) = W (zdel fd op) cx sl nx lg.
Proof.
  intros H. unfold os_close, W; cbn [w_open app zget]. rewrite Z.eqb_refl.
  unfold w_with_open; cbn. rewrite Z.eqb_refl. cbn. f_equal.
  fold (zdel fd (op ++ O0)). rewrite zdel_app, (zdel_none fd O0 H). reflexivity.
Qed.
Lemma close1_W fd p cx sl nx lg : zget fd O0 = None ->
  os_close fd (W [(fd, p)] cx sl nx lg) = W [] cx sl nx lg.
Proof. intros H. rewrite close_W by exact H. reflexivity. Qed.

Lemma ssl_free_W i s op cx nx lg : nget i S0 = None ->
  ssl_free i (W op cx [(i, s)] nx lg) = W op cx [] nx lg.
Proof.
  intros H. unfold ssl_free, W; cbn [w_ssl app nget]. rewrite Nat.eqb_refl.
  unfold w_with_ssl; cbn. rewrite Nat.eqb_refl. cbn. f_equal.
  fold (ndel i S0). now rewrite ndel_none.
Qed.
Lemma ctx_free_W i s op sl nx lg : nget i X0 = None ->
  ctx_free i (W op [(i, s)] sl nx lg) = W op [] sl nx lg.
Proof.
  intros H. unfold ctx_free, W; cbn [w_ctx app nget]. rewrite Nat.eqb_refl.
  unfold w_with_ctx; cbn. rewrite Nat.eqb_refl. cbn. f_equal.
  fold (ndel i X0). now rewrite ndel_none.
Qed.

Definition donec s := mkTssl (s_set s) (s_srv s) (s_fd s) true (s_left s) (s_pend s).

Lemma shake_W i s a op cx nx lg r w' :
  shake issued i a (W op cx [(i, s)] nx lg) = (r, w') ->
  exists s', w' = W op cx [(i, s')] nx lg /\
    (r = LOk -> s_done s' = true) /\
    (s' = s \/ (s' = donec s /\ r = LOk /\ exists p, end_of s (W op cx [(i, s)] nx lg) = Some p
                                        /\ lets_in issued (s_srv s) (s_set s) p = true)).
Proof.
  unfold shake. cbn [W w_ssl app nget]. rewrite Nat.eqb_refl.
  destruct (s_done s) eqn:D; intros H.
  - injection H as <- <-. exists s. auto.
  - destruct a.
    + destruct (end_of s _) as [p|] eqn:E.
      * destruct (lets_in issued (s_srv s) (s_set s) p) eqn:LI; injection H as <- <-.
        -- exists (donec s). split; [|split].
           ++ unfold w_with_ssl, W, donec; cbn. rewrite Nat.eqb_refl. reflexivity.
           ++ reflexivity.
           ++ right. repeat split; eauto.
        -- exists s. repeat split; auto; discriminate.
      * injection H as <- <-. exists s. repeat split; auto; discriminate.
    + injection H as <- <-. exists s. repeat split; auto; discriminate.
    + injection H as <- <-. exists s. repeat split; auto; discriminate.
    + injection H as <- <-. exists s. repeat split; auto; discriminate.
Qed.

(** Fields of an object that never change. *)
Definition same_ssl (s s' : tssl) : Prop :=
  s_set s' = s_set s /\ s_srv s' = s_srv s /\ s_fd s' = s_fd s.
Record becomes (op : list (Z * option peer)) (s s' : tssl) : Prop := mkBecomes {
  be_same : same_ssl s s';
  be_mono : s_done s = true -> s_done s' = true;
  be_in : s_done s' = true -> s_done s = true \/
     exists p, (exists fd, s_fd s = Some fd /\ zget fd (op ++ O0) = Some (Some p)) /\ lets_in issued (s_srv s) (s_set s) p = true }.

Lemma end_of_W s op cx sl nx lg p : end_of s (W op cx sl nx lg) = Some p ->
  exists fd, s_fd s = Some fd /\ zget fd (op ++ O0) = Some (Some p).
Proof.
  unfold end_of. cbn [W w_open]. destruct (s_fd s) as [fd|]; [|discriminate].
  destruct (zget fd (op ++ O0)) as [[q|]|] eqn:E; try discriminate.
  intros H; injection H as <-. eauto.
Qed.
Lemma end_of_W2 s op cx sl nx lg p fd : s_fd s = Some fd -> zget fd (op ++ O0) = Some (Some p) ->
  end_of s (W op cx sl nx lg) = Some p.
Proof. intros F Z. unfold end_of. cbn [W w_open]. now rewrite F, Z. Qed.

Lemma shake_becomes i s a op cx nx lg r w' :
  shake issued i a (W op cx [(i, s)] nx lg) = (r, w') ->
  exists s', w' = W op cx [(i, s')] nx lg /\ becomes op s s' /\ (r = LOk -> s_done s' = true)
    /\ s_left s' = s_left s /\ s_pend s' = s_pend s.
Proof.
  intros H. destruct (shake_W _ _ _ _ _ _ _ _ _ H) as (s' & -> & R & [->|(-> & -> & p & E & LI)]).
  - exists s. repeat split; auto.
  - exists (donec s). apply end_of_W in E. unfold donec; cbn.
    repeat split; auto. intros _. right. exists p. auto.
Qed.

Lemma becomes_step op s s1 s2 : becomes op s s1 -> same_ssl s1 s2 -> s_done s2 = s_done s1 -> becomes op s s2.
Proof.
  intros [(A & B & C) D E] (A' & B' & C') F.
  split; [repeat split; congruence| rewrite F; exact D | rewrite F; exact E].
Qed.

Lemma got_app a b : got (a ++ b) = got a ++ got b.  Proof. apply flat_map_app. Qed.
Lemma recs_in_app a b : recs_in (a ++ b) = recs_in a ++ recs_in b.  Proof. apply flat_map_app. Qed.
Lemma recs_out_app a b : recs_out (a ++ b) = recs_out a ++ recs_out b.  Proof. apply flat_map_app. Qed.
Lemma told_app a b : told (a ++ b) = told a ++ told b.  Proof. apply flat_map_app. Qed.

(** Reading. *)
Lemma read_W i s h a op cx nx lg r d w' :
  lib_read issued MTU i h a (W op cx [(i, s)] nx lg) = ((r, d), w') ->
  exists s' ex, w' = W op cx [(i, s')] nx (lg ++ ex) /\ becomes op s s' /\ s_pend s' = s_pend s /\
    (r = LOk -> s_done s' = true) /\ (r <> LOk -> ex = [] /\ s_left s' = s_left s) /\
    (forall e, In e ex -> exists x, e = RecIn i x) /\
    (r = LOk -> s_left s = [] -> Forall (fun x => (length x <= MTU)%nat) (recs_in ex) ->
       recs_in ex = [d] /\ s_left s' = []).
Proof.
  unfold lib_read. destruct (shake issued i h _) as [hr w1] eqn:E.
  destruct (shake_becomes _ _ _ _ _ _ _ _ _ E) as (s1 & -> & BE & D & SL & SP).
  assert (Z : lg ++ [] = lg) by apply app_nil_r.
  destruct hr; intros H;
    try (injection H as <- <- <-; exists s1, []; rewrite Z; split; [reflexivity|];
         conjs; auto; try (intros; discriminate); try (intros e [])).
  specialize (D eq_refl). cbn [W w_ssl app nget] in H. rewrite Nat.eqb_refl in H.
  destruct (s_left s1) as [|b rest] eqn:LF.
  - destruct a as [[|b r0]| |].
    + injection H as <- <- <-. exists s1, []. rewrite Z. split; [reflexivity|].
      conjs; auto; try (intros; discriminate); try (intros e []); try (intros _; split; congruence).
    + injection H as <- <- <-.
      set (s2 := mkTssl (s_set s1) (s_srv s1) (s_fd s1) (s_done s1) (skipn MTU (b :: r0)) (s_pend s1)).
      exists s2, [RecIn i (b :: r0)]. split.
      * unfold w_say, w_with_ssl, W; cbn [w_open w_ctx w_ssl w_next w_stray w_log app nset].
        rewrite Nat.eqb_refl. now rewrite <- app_assoc.
      * conjs.
        -- apply (becomes_step _ _ s1); [exact BE| repeat split | reflexivity].
        -- exact SP.
        -- intros _; exact D.
        -- intros C; congruence.
        -- intros e [<-|[]]; eauto.
        -- intros _ _ F. cbn [recs_in flat_map app] in *. inversion F; subst.
           rewrite firstn_all2 by assumption. split; [reflexivity|]. cbn [s_left s2].
           apply skipn_all2; assumption.
    + injection H as <- <- <-. exists s1, []. rewrite Z. split; [reflexivity|].
      conjs; auto; try (intros; discriminate); try (intros e []); try (intros _; split; congruence).
    + injection H as <- <- <-. exists s1, []. rewrite Z. split; [reflexivity|].
      conjs; auto; try (intros; discriminate); try (intros e []); try (intros _; split; congruence).
  - injection H as <- <- <-.
    set (s2 := mkTssl (s_set s1) (s_srv s1) (s_fd s1) (s_done s1) (skipn MTU (b :: rest)) (s_pend s1)).
    exists s2, []. rewrite Z. split.
    + unfold w_with_ssl, W; cbn [w_open w_ctx w_ssl w_next w_stray w_log app nset].
      rewrite Nat.eqb_refl. reflexivity.
    + conjs.
      * apply (becomes_step _ _ s1); [exact BE| repeat split | reflexivity].
      * exact SP.
      * intros _; exact D.
      * intros C; congruence.
      * intros e [].
      * intros _ C. rewrite C in SL. discriminate SL.
Qed.

(** Writing. *)
Lemma recs_W i rs : forall op cx sl nx lg,
  w_recs i rs (W op cx sl nx lg) = W op cx sl nx (lg ++ map (RecOut i) rs).
Proof.
  unfold w_recs. induction rs as [|r rs IH]; intros op cx sl nx lg; cbn [fold_left map].
  - now rewrite app_nil_r.
  - rewrite say_W, IH. f_equal. now rewrite <- app_assoc.
Qed.
Lemma frags_one d : (length d <= FRAG)%nat -> d <> [] -> frags FRAG (length d) d = [d].
Proof.
  intros L N. destruct d as [|b r]; [congruence|]. cbn [length frags].
  rewrite firstn_all2 by exact L. rewrite (skipn_all2 (n:=FRAG)) by exact L.
  destruct (length r); reflexivity.
Qed.

Definition outs (i : nat) (ex : list ev) : Prop := forall e, In e ex -> exists x, e = RecOut i x.
Lemma outs_map i rs : outs i (map (RecOut i) rs).
Proof. intros e H. apply in_map_iff in H. destruct H as (x & <- & _). eauto. Qed.
Lemma outs_recs i rs : recs_out (map (RecOut i) rs) = rs.
Proof. induction rs as [|r rs IH]; [reflexivity|]. cbn. f_equal. exact IH. Qed.

Lemma write_W i s h a d op cx nx lg r w' : d <> [] ->
  lib_write issued FRAG i h a d (W op cx [(i, s)] nx lg) = (r, w') ->
  exists s' ex, w' = W op cx [(i, s')] nx (lg ++ ex) /\ becomes op s s' /\ s_left s' = s_left s /\
    (r = LOk -> s_done s' = true) /\ outs i ex /\
    ((s_pend s = None \/ s_pend s = Some d) -> (length d <= FRAG)%nat ->
       recs_out ex = (match r with LOk => [d] | _ => [] end) /\
       match r with LOk => s_pend s' = None | _ => s_pend s' = None \/ s_pend s' = Some d end).
Proof.
  intros ND. unfold lib_write. destruct (shake issued i h _) as [hr w1] eqn:E.
  destruct (shake_becomes _ _ _ _ _ _ _ _ _ E) as (s1 & -> & BE & D & SL & SP).
  assert (Z : lg ++ [] = lg) by apply app_nil_r.
  assert (STAY : forall r0, r0 <> LOk ->
     exists s' ex, W op cx [(i, s1)] nx lg = W op cx [(i, s')] nx (lg ++ ex) /\ becomes op s s' /\ s_left s' = s_left s /\
       (r0 = LOk -> s_done s' = true) /\ outs i ex /\
       ((s_pend s = None \/ s_pend s = Some d) -> (length d <= FRAG)%nat ->
          recs_out ex = (match r0 with LOk => [d] | _ => [] end) /\
          match r0 with LOk => s_pend s' = None | _ => s_pend s' = None \/ s_pend s' = Some d end)).
  { intros r0 NR. exists s1, []. rewrite Z. split; [reflexivity|]. conjs;
      [exact BE | exact SL | intros C; congruence | intros e [] |].
    intros C _. rewrite SP. destruct r0; [congruence| | |]; split; auto. }
  destruct hr; intros H;
    try (injection H as <- <-; apply STAY; discriminate).
  specialize (D eq_refl). cbn [W w_ssl app nget] in H. rewrite Nat.eqb_refl in H.
  assert (UPD : forall p, w_with_ssl (W op cx [(i, s1)] nx lg)
      (nset i (mkTssl (s_set s1) (s_srv s1) (s_fd s1) (s_done s1) (s_left s1) p) (w_ssl (W op cx [(i, s1)] nx lg)))
      = W op cx [(i, mkTssl (s_set s1) (s_srv s1) (s_fd s1) (s_done s1) (s_left s1) p)] nx lg).
  { intros p. unfold w_with_ssl, W; cbn [w_open w_ctx w_ssl w_next w_stray w_log app nset].
    rewrite Nat.eqb_refl. reflexivity. }
  change (mkWorld (op ++ O0) (cx ++ X0) ((i, s1) :: S0) nx B0 (L0 ++ lg)) with (W op cx [(i, s1)] nx lg) in H.
  destruct (s_pend s1) as [e|] eqn:PD.
  - destruct a.
    + change ((i, s1) :: S0) with (w_ssl (W op cx [(i, s1)] nx lg)) in H.
      rewrite UPD, recs_W in H.
      exists (mkTssl (s_set s1) (s_srv s1) (s_fd s1) (s_done s1) (s_left s1) None), (map (RecOut i) (frags FRAG (length e) e)).
      split; [destruct (length d <? length e)%nat; injection H as <- <-; reflexivity|].
      conjs.
      * apply (becomes_step _ _ s1); [exact BE|repeat split|reflexivity].
      * exact SL.
      * intros _; exact D.
      * apply outs_map.
      * intros [C|C] LD; [congruence|]. assert (e = d) by congruence. subst e.
        rewrite Nat.ltb_irrefl in H. injection H as <- <-. rewrite outs_recs, frags_one by assumption.
        split; reflexivity.
    + injection H as <- <-. apply STAY; discriminate.
    + injection H as <- <-. apply STAY; discriminate.
  - destruct a.
    + rewrite recs_W in H. injection H as <- <-.
      exists s1, (map (RecOut i) (frags FRAG (length d) d)). split; [reflexivity|].
      conjs; auto.
      * apply outs_map.
      * intros _ LD. rewrite outs_recs, frags_one by assumption. split; auto.
    + change ((i, s1) :: S0) with (w_ssl (W op cx [(i, s1)] nx lg)) in H. rewrite UPD in H.
      injection H as <- <-.
      exists (mkTssl (s_set s1) (s_srv s1) (s_fd s1) (s_done s1) (s_left s1) (Some d)), [].
      rewrite Z. split; [reflexivity|]. conjs.
      * apply (becomes_step _ _ s1); [exact BE|repeat split|reflexivity].
      * exact SL.
      * discriminate.
      * intros e [].
      * intros _ _. split; [reflexivity|right; reflexivity].
    + injection H as <- <-. apply STAY; discriminate.
Qed.

(** * What a session keeps *)

Section Sess.
Variable T : tctx.   (* the context's settings *)
Variable srv : bool.

Definition lefts (sl : list (nat * tssl)) : list N :=
  match sl with (_, s) :: _ => s_left s | [] => [] end.
Definition pends (sl : list (nat * tssl)) : option (list N) :=
  match sl with (_, s) :: _ => s_pend s | [] => None end.

Definition live (fd1 : Z) (op : list (Z * option peer)) (sl : list (nat * tssl)) (cs : option nat) : Prop :=
  (cs = None /\ sl = []) \/
  (exists i s, cs = Some i /\ sl = [(i, s)] /\ nget i S0 = None /\ s_set s = T /\ s_srv s = srv
     /\ s_fd s = Some (fd1 - 1)%Z
     /\ (s_done s = true -> exists p, zget (fd1 - 1) (op ++ O0) = Some (Some p) /\ lets_in issued srv T p = true)).

Definition logs (op : list (Z * option peer)) (cx : list (nat * tctx)) (sl : list (nat * tssl)) (lg : list ev) : Prop :=
  (forall i p d, In (Got i p d) lg -> lets_in issued srv T p = true) /\
  exists q : option (nat * peer),
    (forall i p d, In (Got i p d) lg -> q = Some (i, p)) /\
    (forall i p, q = Some (i, p) ->
       cx = [] \/ exists s fd, sl = [(i, s)] /\ s_done s = true /\ s_fd s = Some fd
                               /\ zget fd (op ++ O0) = Some (Some p)).

Lemma live_becomes fd1 op i s s' : live fd1 op [(i, s)] (Some i) -> becomes op s s' -> live fd1 op [(i, s')] (Some i).
Proof.
  intros [[? _]|(j & t & E & F & N & A & B & C & D)] [(A' & B' & C') M I]; [congruence|].
  injection F as <- <-. right. exists i, s'. conjs; auto; try congruence.
  intros K. destruct (I K) as [K'|(p & (fd & K1 & K2) & K3)]; [auto|].
  exists p. rewrite C in K1. injection K1 as <-. rewrite A, B in K3. auto.
Qed.

Lemma logs_becomes op cx i s s' lg : logs op cx [(i, s)] lg -> becomes op s s' -> logs op cx [(i, s')] lg.
Proof.
  intros (A & q & B & C) [(A' & B' & C') M I]. split; [exact A|]. exists q. split; [exact B|].
  intros j p Q. destruct (C j p Q) as [K|(t & fd & K1 & K2 & K3 & K4)]; [auto|right].
  injection K1 as <- <-. exists s', fd. repeat split; auto. congruence.
Qed.

Lemma logs_more op cx sl lg ex : logs op cx sl lg -> got ex = [] -> logs op cx sl (lg ++ ex).
Proof.
  intros (A & q & B & C) H.
  assert (NG : forall i p d, In (Got i p d) (lg ++ ex) -> In (Got i p d) lg).
  { intros i p d K. apply in_app_or in K. destruct K as [K|K]; [exact K|exfalso].
    assert (In d (got ex)) by (unfold got; apply in_flat_map; exists (Got i p d); split; [exact K|left; reflexivity]).
    rewrite H in *. contradiction. }
  split; [eauto|]. exists q. split; [eauto|exact C].
Qed.

Lemma logs_got op cx i s lg p d fd1 : cx <> [] -> logs op cx [(i, s)] lg -> live fd1 op [(i, s)] (Some i) -> s_done s = true ->
  end_of s (W op cx [(i, s)] 0 lg) = Some p -> logs op cx [(i, s)] (lg ++ [Got i p d]).
Proof.
  intros CX (A & q & B & C) [[? _]|(j & t & E & F & N & ? & ? & FD & D)] DN EN; [congruence|].
  injection F as <- <-. apply end_of_W in EN. destruct EN as (fd & F1 & F2).
  rewrite FD in F1. injection F1 as <-.
  destruct (D DN) as (p' & P1 & P2). assert (p' = p) by congruence. subst p'.
  split.
  - intros j q' d' K. apply in_app_or in K. destruct K as [K|[K|[]]]; [eauto|]. injection K as <- <- <-. exact P2.
  - exists (Some (i, p)). split.
    + intros j q' d' K. apply in_app_or in K. destruct K as [K|[K|[]]].
      * destruct (C _ _ (B _ _ _ K)) as [K1|(s' & fd' & K1 & K2 & K3 & K4)]; [congruence|].
        injection K1 as <- <-. rewrite FD in K3. injection K3 as <-. congruence.
      * injection K as <- <- <-. reflexivity.
    + intros j q' K. injection K as <- <-. right. exists s, (fd1 - 1)%Z. auto.
Qed.
Lemma logs_nil op cx sl op' lg : logs op cx [] lg -> logs op' cx sl lg.
Proof.
  intros (A & q & B & C). split; [exact A|]. exists q. split; [exact B|].
  intros i p Q. destruct (C i p Q) as [K|(s & fd & K & _)]; [auto|discriminate].
Qed.
Lemma logs_shut op cx sl lg op' sl' : logs op cx sl lg -> logs op' [] sl' lg.
Proof. intros (A & q & B & C). split; [exact A|]. exists q. split; auto. Qed.

End Sess.

Section Client.
Variable cfg : tlscfg.
Definition cset : tctx := mkTctx (if g_noverify cfg then VNone else VPeer) (g_ca cfg) (g_psk cfg).

Record CI (c : cctx) op cx sl nx lg : Prop := mkCI {
  ci_n : (n0 <= nx)%nat;
  ci_op : (ct_fd1 c = 0%Z /\ op = []) \/
          (exists fd p, ct_fd1 c = (fd + 1)%Z /\ (0 <= fd)%Z /\ op = [(fd, Some p)] /\ zget fd O0 = None);
  ci_cx : (c_ctx c = None /\ cx = [] /\ c_ssl c = None) \/
          (exists x, c_ctx c = Some x /\ cx = [(x, cset)] /\ nget x X0 = None);
  ci_live : live cset false (ct_fd1 c) op sl (c_ssl c);
  ci_st : c_ssl c <> None -> ct_st c = TConn;
  ci_fd : (ct_st c = TUnconn \/ ct_st c = TDone) -> ct_fd1 c = 0%Z;
  ci_conn : c_conn c = true -> c_ssl c <> None;
  ci_cb : c_cb c = false;
  ci_log : logs cset false op cx sl lg }.

Lemma ci_none c op cx sl nx lg : CI c op cx sl nx lg -> c_ssl c = None -> sl = [].
Proof. intros I H. destruct (ci_live _ _ _ _ _ _ I) as [[_ E]|(i & s & E & _)]; [exact E|congruence]. Qed.

Lemma os_new_W fd p op cx sl nx lg w' : os_new fd p (W op cx sl nx lg) = Some w' ->
  w' = W ((fd, p) :: op) cx sl nx lg /\ (0 <= fd)%Z /\ zget fd op = None /\ zget fd O0 = None.
Proof.
  unfold os_new. destruct (Z.ltb fd 0) eqn:E; [discriminate|]. cbn [W w_open]. rewrite zget_app.
  destruct (zget fd op) eqn:E1; [discriminate|]. destruct (zget fd O0) eqn:E2; [discriminate|].
  intros H; injection H as <-. repeat split. lia.
Qed.

Lemma p1m1 fd : (fd + 1 - 1)%Z = fd. Proof. lia. Qed.
Lemma p1nz fd : (0 <= fd)%Z -> Z.eqb (fd + 1) 0 = false. Proof. lia. Qed.

(** A step that only concerns the TCP part, while there is no TLS object. *)
Lemma ci_move c op cx nx lg b st f op' : CI c op cx [] nx lg -> c_ssl c = None ->
  ((f = 0%Z /\ op' = []) \/ (exists fd p, f = (fd + 1)%Z /\ (0 <= fd)%Z /\ op' = [(fd, Some p)] /\ zget fd O0 = None)) ->
  ((st = TUnconn \/ st = TDone) -> f = 0%Z) ->
  CI (c_with_tcp c b st f) op' cx [] nx lg.
Proof.
  intros I NS P Q. constructor; cbn.
  - apply (ci_n _ _ _ _ _ _ I).
  - exact P.
  - apply (ci_cx _ _ _ _ _ _ I).
  - left. auto.
  - intros C; congruence.
  - exact Q.
  - apply (ci_conn _ _ _ _ _ _ I).
  - apply (ci_cb _ _ _ _ _ _ I).
  - apply (logs_nil _ _ op cx [] op'). apply (ci_log _ _ _ _ _ _ I).
Qed.

Lemma tcp_close_W c op cx sl nx lg :
  ((ct_fd1 c = 0%Z /\ op = []) \/ (exists fd p, ct_fd1 c = (fd + 1)%Z /\ (0 <= fd)%Z /\ op = [(fd, Some p)] /\ zget fd O0 = None)) ->
  tcp_close c (W op cx sl nx lg) = (c_with_tcp c (ct_cb c) (ct_st c) 0, W [] cx sl nx lg).
Proof.
  intros [[E ->]|(fd & p & E & G & -> & F)]; unfold tcp_close; rewrite E.
  - cbn [Z.eqb]. f_equal. destruct c; cbn in *; subst; reflexivity.
  - rewrite (p1nz _ G), p1m1, close1_W by exact F. reflexivity.
Qed.

Lemma hc_W y c op cx sl nx lg rc c' w' : CI c op cx sl nx lg ->
  handle_connect y c (W op cx sl nx lg) = (rc, c', w') ->
  exists op', w' = W op' cx sl nx lg /\ CI c' op' cx sl nx lg /\ c_ssl c' = c_ssl c /\ c_ctx c' = c_ctx c
    /\ c_conn c' = c_conn c /\ (rc = OK -> ct_st c' = TConn).
Proof.
  intros I H. pose proof (ci_op _ _ _ _ _ _ I) as OP.
  unfold handle_connect in H. destruct (ct_st c) eqn:ST.
  - (* unconnected *)
    assert (NS : c_ssl c = None).
    { destruct (c_ssl c) eqn:E; [|reflexivity]. pose proof (ci_st _ _ _ _ _ _ I) as K. rewrite E, ST in K.
      specialize (K ltac:(discriminate)). discriminate. }
    pose proof (ci_none _ _ _ _ _ _ I NS) as ->.
    assert (F0 : ct_fd1 c = 0%Z) by (apply (ci_fd _ _ _ _ _ _ I); auto).
    assert (op = []) as -> by (destruct OP as [[_ E]|(fd & p & E & G & _)]; [exact E|lia]).
    destruct (os_new _ _ _) as [w1|] eqn:NW.
    + apply os_new_W in NW. destruct NW as (-> & G & _ & F).
      destruct (Z.leb (y_sock y) 2) eqn:L2.
      * rewrite close1_W in H by exact F. injection H as <- <- <-. exists []. split; [reflexivity|].
        split; [apply (ci_move _ [] _ _ _ _ _ _ [] I NS); auto|]. repeat split; auto; discriminate.
      * set (c1 := c_with_tcp c (ct_cb c) TUnconn (y_sock y + 1)) in *.
        assert (OP1 : (ct_fd1 c1 = 0%Z /\ [(y_sock y, Some (y_peer y))] = []) \/
           (exists fd p, ct_fd1 c1 = (fd + 1)%Z /\ (0 <= fd)%Z /\ [(y_sock y, Some (y_peer y))] = [(fd, Some p)] /\ zget fd O0 = None)).
        { right. exists (y_sock y), (y_peer y). repeat split; auto. }
        destruct (y_nb y).
        -- destruct (y_conn y).
           ++ injection H as <- <- <-. eexists. split; [reflexivity|]. split.
              ** apply (ci_move c [] _ _ _ _ TConn (y_sock y + 1)%Z _ I NS).
                 --- right. exists (y_sock y), (y_peer y). repeat split; auto.
                 --- intros [?|?]; discriminate.
              ** repeat split; auto.
           ++ rewrite (tcp_close_W c1 _ _ _ _ _ OP1) in H. injection H as <- <- <-.
              exists []. split; [reflexivity|]. split; [apply (ci_move c [] _ _ _ _ TUnconn 0%Z [] I NS); auto|].
              repeat split; auto; discriminate.
           ++ injection H as <- <- <-. eexists. split; [reflexivity|]. split.
              ** apply (ci_move c [] _ _ _ _ TWait (y_sock y + 1)%Z _ I NS).
                 --- right. exists (y_sock y), (y_peer y). repeat split; auto.
                 --- intros [?|?]; discriminate.
              ** repeat split; auto; discriminate.
           ++ rewrite (tcp_close_W c1 _ _ _ _ _ OP1) in H. injection H as <- <- <-.
              exists []. split; [reflexivity|]. split; [apply (ci_move c [] _ _ _ _ TDone 0%Z [] I NS); auto|].
              repeat split; auto; discriminate.
        -- rewrite (tcp_close_W c1 _ _ _ _ _ OP1) in H. injection H as <- <- <-.
           exists []. split; [reflexivity|]. split; [apply (ci_move c [] _ _ _ _ TDone 0%Z [] I NS); auto|].
           repeat split; auto; discriminate.
    + injection H as <- <- <-. exists []. split; [reflexivity|].
      split; [apply (ci_move _ [] _ _ _ _ _ _ [] I NS); auto|]. repeat split; auto; discriminate.
  - (* waiting *)
    assert (NS : c_ssl c = None).
    { destruct (c_ssl c) eqn:E; [|reflexivity]. pose proof (ci_st _ _ _ _ _ _ I) as K. rewrite E, ST in K.
      specialize (K ltac:(discriminate)). discriminate. }
    pose proof (ci_none _ _ _ _ _ _ I NS) as ->.
    rewrite (tcp_close_W c _ _ _ _ _ OP) in H.
    destruct (y_poll y).
    + injection H as <- <- <-. exists []. split; [reflexivity|].
      split; [apply (ci_move c op _ _ _ _ TUnconn 0%Z [] I NS); auto|]. repeat split; auto; discriminate.
    + injection H as <- <- <-. exists []. split; [reflexivity|].
      split; [apply (ci_move c op _ _ _ _ TDone 0%Z [] I NS); auto|]. repeat split; auto; discriminate.
    + destruct (Z.eqb (ct_fd1 c) 0) eqn:FZ.
      * injection H as <- <- <-. exists op. repeat split; auto; try discriminate; apply I.
      * injection H as <- <- <-. exists op. split; [reflexivity|].
        split; [apply (ci_move c op _ _ _ _ TConn (ct_fd1 c) op I NS); [exact OP|intros [?|?]; discriminate]|].
        repeat split; auto.
    + injection H as <- <- <-. exists op. repeat split; auto; try discriminate; apply I.
    + injection H as <- <- <-. exists []. split; [reflexivity|].
      split; [apply (ci_move c op _ _ _ _ TDone 0%Z [] I NS); auto|]. repeat split; auto; discriminate.
  - injection H as <- <- <-. exists op. repeat split; auto; apply I.
  - injection H as <- <- <-. exists op. repeat split; auto; try discriminate; apply I.
Qed.

Lemma tcp_cleanup_W c op cx nx lg c' w' : CI c op cx [] nx lg -> c_ssl c = None ->
  tcp_cleanup_connect c (W op cx [] nx lg) = (c', w') ->
  exists ex, w' = W [] cx [] nx (lg ++ ex) /\ CI c' [] cx [] nx (lg ++ ex) /\ c_ssl c' = None
    /\ got ex = [] /\ recs_in ex = [] /\ recs_out ex = [].
Proof.
  intros I NS H. pose proof (ci_op _ _ _ _ _ _ I) as OP. unfold tcp_cleanup_connect in H.
  set (ex := if ct_cb c then [Told false] else []).
  assert (E : (if ct_cb c then w_say (W op cx [] nx lg) (Told false) else W op cx [] nx lg) = W op cx [] nx (lg ++ ex)).
  { unfold ex. destruct (ct_cb c); [apply say_W|now rewrite app_nil_r]. }
  rewrite E in H. clear E.
  assert (GX : got ex = [] /\ recs_in ex = [] /\ recs_out ex = []) by (unfold ex; destruct (ct_cb c); repeat split).
  assert (I2 : CI (c_with_tcp c (ct_cb c) (ct_st c) 0) [] cx [] nx (lg ++ ex)).
  { destruct (ci_move c op _ _ _ (ct_cb c) (ct_st c) 0%Z [] I NS) as [a1 a2 a3 a4 a5 a6 a7 a8 a9]; auto.
    constructor; auto. apply logs_more; [exact a9|apply GX]. }
  exists ex. destruct OP as [[E ->]|(fd & p & E & G & -> & F)]; rewrite E in H.
  - cbn [Z.eqb] in H. injection H as <- <-. split; [reflexivity|].
    replace c with (c_with_tcp c (ct_cb c) (ct_st c) 0) by (destruct c; cbn in *; subst; reflexivity).
    repeat split; try apply GX; auto; apply I2.
  - rewrite (p1nz _ G), p1m1, close1_W in H by exact F. injection H as <- <-.
    split; [reflexivity|]. repeat split; try apply GX; auto; apply I2.
Qed.

(** What a step adds to the session. *)
Definition sent_as (send : option (list N)) (rc : Z) (sl sl' : list (nat * tssl)) (ex : list ev) : Prop :=
  match send with
  | Some d => (pends sl = None \/ pends sl = Some d) -> (length d <= FRAG)%nat ->
      recs_out ex = (if is_ok rc then [d] else []) /\
      (if is_ok rc then pends sl' = None else pends sl' = None \/ pends sl' = Some d)
  | None => recs_out ex = [] /\ (pends sl' = None \/ pends sl' = pends sl)
  end.
Record DS (send : option (list N)) (r : Z * option (list N)) sl sl' ex : Prop := mkDS {
  ds_got : got ex = match snd r with Some d => [d] | None => [] end;
  ds_in : lefts sl = [] -> Forall (fun x => (length x <= MTU)%nat) (recs_in ex) ->
          recs_in ex = got ex /\ lefts sl' = [];
  ds_out : sent_as send (fst r) sl sl' ex }.

Lemma is_ok_ok : is_ok OK = true. Proof. reflexivity. Qed.
Lemma is_ok_nr : is_ok NOTREADY = false. Proof. reflexivity. Qed.
Lemma is_ok_ab : is_ok ABORTED = false. Proof. reflexivity. Qed.
Lemma is_ok_ba : is_ok BADARGS = false. Proof. reflexivity. Qed.

(** A step that does not touch the connection's data. *)
Lemma ds_quiet d rc sl sl' ex : is_ok rc = false -> got ex = [] -> recs_in ex = [] -> recs_out ex = [] ->
  (sl' = [] \/ (lefts sl' = lefts sl /\ pends sl' = pends sl) \/ (lefts sl' = [] /\ pends sl' = None)) ->
  DS (Some d) (rc, None) sl sl' ex.
Proof.
  intros R G I O [->|[[L P]|[L P]]]; constructor; cbn [snd fst]; auto.
  - intros _ _. rewrite I, G. auto.
  - cbn. rewrite R, O. intros _ _. auto.
  - intros A _. rewrite I, G, L. auto.
  - cbn. rewrite R, O, P. auto.
  - intros _ _. rewrite I, G, L. auto.
  - cbn. rewrite R, O, P. auto.
Qed.

Lemma got_outs i ex : outs i ex -> got ex = [].
Proof.
  induction ex as [|e ex IH]; intros H; [reflexivity|].
  destruct (H e (or_introl eq_refl)) as (x & ->). cbn. apply IH. intros e' K. apply H. right; exact K.
Qed.
Lemma in_outs i ex : outs i ex -> recs_in ex = [].
Proof.
  induction ex as [|e ex IH]; intros H; [reflexivity|].
  destruct (H e (or_introl eq_refl)) as (x & ->). cbn. apply IH. intros e' K. apply H. right; exact K.
Qed.
Lemma ins_got i ex : (forall e, In e ex -> exists x, e = RecIn i x) -> got ex = [] /\ recs_out ex = [].
Proof.
  induction ex as [|e ex IH]; intros H; [auto|].
  destruct (H e (or_introl eq_refl)) as (x & ->). cbn. apply IH. intros e' K. apply H. right; exact K.
Qed.

Lemma ci_ssl c op cx sl nx lg i : CI c op cx sl nx lg -> c_ssl c = Some i ->
  exists s x, sl = [(i, s)] /\ cx = [(x, cset)] /\ c_ctx c = Some x /\ ct_st c = TConn.
Proof.
  intros I E. destruct (ci_live _ _ _ _ _ _ I) as [[K _]|(j & s & K & -> & _)]; [congruence|].
  rewrite E in K. injection K as <-.
  destruct (ci_cx _ _ _ _ _ _ I) as [(K & _ & K2)|(x & K & -> & _)]; [congruence|].
  exists s, x. repeat split; auto. apply (ci_st _ _ _ _ _ _ I). congruence.
Qed.

(** The object changes as the library lets it, messages are logged. *)
Lemma ci_becomes c op cx nx lg i s s' ex : CI c op cx [(i, s)] nx lg -> c_ssl c = Some i -> becomes op s s' -> got ex = [] ->
  CI c op cx [(i, s')] nx (lg ++ ex).
Proof.
  intros I E B G. destruct I as [a1 a2 a3 a4 a5 a6 a7 a8 a9].
  constructor; auto.
  - rewrite E in *. apply (live_becomes _ _ _ _ _ s); assumption.
  - apply logs_more; [|exact G]. apply (logs_becomes _ _ _ _ _ s); assumption.
Qed.

Lemma ci_conn_set c op cx sl nx lg : CI c op cx sl nx lg -> c_ssl c <> None -> CI (c_with_conn c true) op cx sl nx lg.
Proof. intros [a1 a2 a3 a4 a5 a6 a7 a8 a9] H. constructor; auto. Qed.
Lemma ci_fd1_set c op cx sl nx lg f : CI c op cx sl nx lg -> CI (c_with_fd1 c f) op cx sl nx lg.
Proof. intros [a1 a2 a3 a4 a5 a6 a7 a8 a9]. constructor; auto. Qed.

(** The write at the end of SendRequest. *)
Lemma write_CI i s h a d c op cx nx lg r w' : d <> [] -> CI c op cx [(i, s)] nx lg -> c_ssl c = Some i ->
  lib_write issued FRAG i h a d (W op cx [(i, s)] nx lg) = (r, w') ->
  exists s' ex, w' = W op cx [(i, s')] nx (lg ++ ex) /\ CI c op cx [(i, s')] nx (lg ++ ex) /\
    forall rc, is_ok rc = (match r with LOk => true | _ => false end) -> DS (Some d) (rc, None) [(i, s)] [(i, s')] ex.
Proof.
  intros ND I E H. destruct (write_W _ _ _ _ _ _ _ _ _ _ _ ND H) as (s' & ex & -> & B & SL & _ & OU & OR).
  exists s', ex. split; [reflexivity|]. split.
  - apply (ci_becomes _ _ _ _ _ _ s); auto. apply (got_outs i); exact OU.
  - intros rc R. constructor; cbn [snd fst].
    + apply (got_outs i); exact OU.
    + cbn [lefts]. intros L _. rewrite (in_outs i ex OU), (got_outs i ex OU), SL. auto.
    + cbn [sent_as pends]. intros P LD. destruct (OR P LD) as [OR1 OR2]. rewrite R. destruct r; auto.
Qed.

Lemma lg_nil (lg : list ev) : lg ++ [] = lg. Proof. apply app_nil_r. Qed.

(** The read at the end of RecvRequest and RecvResponse. *)
Lemma recv_tail T srv fd1 {C} (c c' : C) i s h a op cx nx lg r w' : cx <> [] ->
  live T srv fd1 op [(i, s)] (Some i) -> logs T srv op cx [(i, s)] lg ->
  (match lib_read issued MTU i h a (W op cx [(i, s)] nx lg) with
   | ((LOk, d), w) =>
       match nget i (w_ssl w) with
       | Some s => match end_of s w with
                   | Some p => ((OK, Some d), c, w_say w (Got i p d))
                   | None => ((OK, Some d), c, w_strays w)
                   end
       | None => ((OK, Some d), c, w_strays w)
       end
   | ((LWant, _), w) => ((NOTREADY, None), c, w)
   | ((_, _), w) => ((ABORTED, None), c, w)
   end) = (r, c', w') ->
  c' = c /\ exists s' ex, w' = W op cx [(i, s')] nx (lg ++ ex) /\ live T srv fd1 op [(i, s')] (Some i) /\
    logs T srv op cx [(i, s')] (lg ++ ex) /\ DS None r [(i, s)] [(i, s')] ex /\ told ex = [] /\
    (s_done s = true -> s_done s' = true) /\ (snd r <> None -> fst r = OK).
Proof.
  intros CX LV LG H. destruct (lib_read issued MTU i h a _) as [[lr d] w1] eqn:RD.
  destruct (read_W _ _ _ _ _ _ _ _ _ _ _ RD) as (s' & ex & -> & BE & SP & DN & NOK & INS & DATA).
  destruct (ins_got i ex INS) as [G0 O0'].
  assert (T0 : told ex = []).
  { clear - INS. induction ex as [|e ex IH]; [reflexivity|].
    destruct (INS e (or_introl eq_refl)) as (x & ->). cbn. apply IH. intros e' K. apply INS. right; exact K. }
  pose proof (live_becomes _ _ _ _ _ _ _ LV BE) as LV'.
  pose proof (logs_becomes _ _ _ _ _ _ _ _ LG BE) as LG'.
  pose proof (logs_more _ _ _ _ _ _ ex LG' G0) as LG2.
  assert (FAILS : forall rc, lr <> LOk -> ((rc, None), c, W op cx [(i, s')] nx (lg ++ ex)) = (r, c', w') ->
    c' = c /\ exists s' ex, w' = W op cx [(i, s')] nx (lg ++ ex) /\ live T srv fd1 op [(i, s')] (Some i) /\
    logs T srv op cx [(i, s')] (lg ++ ex) /\ DS None r [(i, s)] [(i, s')] ex /\ told ex = [] /\
    (s_done s = true -> s_done s' = true) /\ (snd r <> None -> fst r = OK)).
  { intros rc NL K. injection K as <- <- <-. split; [reflexivity|]. exists s', ex.
    destruct (NOK NL) as [-> NL2].
    conjs; auto; [|apply (be_mono _ _ _ BE)|intros C0; now elim C0].
    constructor; cbn [snd fst].
    - reflexivity.
    - cbn [lefts]. rewrite NL2. auto.
    - cbn [sent_as pends]. rewrite SP. auto. }
  destruct lr; try (refine (FAILS _ _ H); discriminate).
  cbn [W w_ssl app nget] in H. rewrite Nat.eqb_refl in H.
  change (mkWorld (op ++ O0) (cx ++ X0) ((i, s') :: S0) nx B0 (L0 ++ lg ++ ex)) with (W op cx [(i, s')] nx (lg ++ ex)) in H.
  specialize (DN eq_refl).
  destruct (end_of s' _) as [p|] eqn:EN.
  - rewrite say_W in H. injection H as <- <- <-. split; [reflexivity|]. exists s', (ex ++ [Got i p d]).
    rewrite app_assoc. conjs; auto.
    + apply (logs_got _ _ _ _ _ _ _ _ _ fd1); auto.
    + constructor; cbn [snd fst].
      * rewrite got_app, G0. reflexivity.
      * cbn [lefts]. intros L F. rewrite recs_in_app in *. cbn [recs_in flat_map app] in *. rewrite app_nil_r in *.
        destruct (DATA eq_refl L F) as [D1 D2]. rewrite D1, got_app, G0. auto.
      * cbn [sent_as pends]. rewrite recs_out_app, O0', SP. auto.
    + rewrite told_app, T0. reflexivity.
  - exfalso. destruct LV' as [[K _]|(j & t & E & F & N & A & B & FD & D)]; [congruence|].
    injection F as <- <-. destruct (D DN) as (p & P1 & _).
    rewrite (end_of_W2 _ op cx [(i, s')] nx (lg ++ ex) p _ FD P1) in EN. discriminate.
Qed.

(** SendRequest. *)
Lemma send_CI y new setfd h a d c op cx sl nx lg rc c' w' : CI c op cx sl nx lg ->
  send_request issued FRAG y new setfd h a d c (W op cx sl nx lg) = (rc, c', w') ->
  exists op' sl' nx' ex, w' = W op' cx sl' nx' (lg ++ ex) /\ CI c' op' cx sl' nx' (lg ++ ex) /\
    DS (Some d) (rc, None) sl sl' ex.
Proof.
  intros I H. assert (Z : lg ++ [] = lg) by apply app_nil_r.
  unfold send_request in H. destruct (length d =? 0)%nat eqn:LD.
  { injection H as <- <- <-. exists op, sl, nx, []. rewrite Z. split; [reflexivity|]. split; [exact I|].
    apply ds_quiet; auto. }
  assert (ND : d <> []) by (intros ->; discriminate).
  destruct (c_conn c) eqn:CC.
  - (* connected *)
    destruct (c_ssl c) as [i|] eqn:SS; [|exfalso; apply (ci_conn _ _ _ _ _ _ I CC SS)].
    destruct (ci_ssl _ _ _ _ _ _ _ I SS) as (s & x & -> & -> & CX & ST).
    destruct (lib_write issued FRAG i h a d _) as [r w1] eqn:LW.
    destruct (write_CI _ _ _ _ _ _ _ _ _ _ _ _ ND I SS LW) as (s' & ex & -> & I' & D).
    exists op, [(i, s')], nx, ex.
    destruct r; injection H as <- <- <-; (split; [reflexivity|]; split; [exact I'|]; apply D; reflexivity).
  - (* not connected *)
    destruct (handle_connect y c _) as [[rc0 c1] w1] eqn:HC.
    destruct (hc_W _ _ _ _ _ _ _ _ _ _ I HC) as (op1 & -> & I1 & SS1 & CX1 & CC1 & OKC).
    destruct (is_ok rc0) eqn:R0; cbn [negb] in H.
    2:{ injection H as <- <- <-. exists op1, sl, nx, []. rewrite Z. split; [reflexivity|]. split; [exact I1|].
        apply ds_quiet; auto. }
    apply Z.eqb_eq in R0. specialize (OKC R0). clear HC I.
    destruct (c_ssl c1) as [i|] eqn:SS.
    + (* the object exists *)
      destruct (ci_ssl _ _ _ _ _ _ _ I1 SS) as (s & x & -> & -> & CX & ST).
      rewrite SS in H.
      destruct (shake issued i h _) as [hr w2] eqn:SH.
      destruct (shake_becomes _ _ _ _ _ _ _ _ _ SH) as (s1 & -> & BE & DN & SL & SP).
      pose proof (ci_becomes _ _ _ _ _ _ _ _ [] I1 SS BE eq_refl) as I2. rewrite Z in I2.
      destruct hr.
      * assert (I3 : CI (c_with_conn c1 true) op1 [(x, cset)] [(i, s1)] nx lg) by (apply ci_conn_set; [exact I2|congruence]).
        cbn [c_ssl c_with_conn] in H. rewrite SS in H.
        destruct (lib_write issued FRAG i h a d _) as [r w3] eqn:LW.
        destruct (write_CI _ _ _ _ _ _ _ _ _ _ _ _ ND I3 SS LW) as (s' & ex & -> & I' & D).
        assert (DD : forall rc1, is_ok rc1 = (match r with LOk => true | _ => false end) ->
                  DS (Some d) (rc1, None) [(i, s)] [(i, s')] ex).
        { intros rc1 K. destruct (D rc1 K) as [d1 d2 d3]. constructor; [exact d1| |].
          - cbn [lefts] in *. rewrite SL in d2. exact d2.
          - unfold sent_as in *. cbn [pends] in *. rewrite SP in d3. exact d3. }
        exists op1, [(i, s')], nx, ex.
        destruct r; injection H as <- <- <-; (split; [reflexivity|]; split; [exact I'|]; apply DD; reflexivity).
      * injection H as <- <- <-. exists op1, [(i, s1)], nx, []. rewrite Z. split; [reflexivity|]. split; [exact I2|].
        apply ds_quiet; auto.
      * (* socket error: start again *)
        destruct (ci_live _ _ _ _ _ _ I2) as [[K _]|(j & t & K & K2 & NF & _)]; [congruence|]. injection K2 as <- <-.
        rewrite ssl_free_W in H by exact NF.
        assert (I4 : CI (c_with_tcp (c_with_ssl c1 None) (ct_cb c1) TUnconn 0) [] [(x, cset)] [] nx lg).
        { assert (SD : s_done s1 = false).
          { destruct (shake_W _ _ _ _ _ _ _ _ _ SH) as (s2 & E2 & R2 & OR).
            injection E2 as <-.
            destruct (s_done s1) eqn:D1; [|reflexivity].
            destruct OR as [->|(-> & KK & _)]; [|discriminate].
            unfold shake in SH. cbn [W w_ssl app nget] in SH. rewrite Nat.eqb_refl, D1 in SH. discriminate. }
          destruct I2 as [a1 a2 a3 a4 a5 a6 a7 a8 a9]. constructor; cbn; auto.
          - destruct a3 as [(K3 & K4 & K5)|K3]; [congruence|]. right. exact K3.
          - left; auto.
          - intros C. congruence.
          - rewrite CC1, CC. discriminate.
          - destruct a9 as (A & q & B & C). split; [exact A|]. exists q. split; [exact B|].
            intros j p Q. destruct (C j p Q) as [K5|(t2 & fd & K5 & K6 & _)]; [auto|].
            injection K5 as <- <-. congruence. }
        assert (OPP := ci_op _ _ _ _ _ _ I2).
        assert (H' : (NOTREADY, c_with_tcp (c_with_fd1 (c_with_ssl c1 None) 0) (ct_cb c1) TUnconn 0, W [] [(x, cset)] [] nx lg) = (rc, c', w')).
        { cbn [ct_fd1 c_with_ssl ct_cb ct_st] in H. destruct OPP as [[E ->]|(fd & p & E & G & -> & F)].
          - rewrite E in H. cbn [Z.eqb] in H. rewrite <- H. cbn [ct_fd1 c_with_ssl ct_cb c_with_fd1 c_with_tcp].
            rewrite E. reflexivity.
          - rewrite E, (p1nz _ G), p1m1, close1_W in H by exact F. exact H. }
        injection H' as <- <- <-. exists [], [], nx, []. rewrite Z. split; [reflexivity|]. split.
        -- exact (ci_fd1_set _ _ _ _ _ _ 0%Z I4).
        -- apply ds_quiet; auto.
      * (* refused *)
        injection H as <- <- <-. rewrite (ci_cb _ _ _ _ _ _ I2).
        exists op1, [(i, s1)], nx, []. rewrite Z. split; [reflexivity|]. split; [exact I2|].
        apply ds_quiet; auto.
    + (* no object yet *)
      pose proof (ci_none _ _ _ _ _ _ I1 SS) as ->.
      unfold get_connect_fd in H. rewrite OKC in H.
      set (c2 := c_with_fd1 c1 (ct_fd1 c1 - 1 + 1)) in *.
      assert (I2 : CI c2 op1 cx [] nx lg) by (apply ci_fd1_set; exact I1).
      assert (SS2 : c_ssl c2 = None) by exact SS.
      assert (FAIL : forall c3 w3, tcp_cleanup_connect c2 (W op1 cx [] nx lg) = (c3, w3) ->
        exists op' sl' nx' ex, w3 = W op' cx sl' nx' (lg ++ ex) /\ CI c3 op' cx sl' nx' (lg ++ ex) /\
          DS (Some d) (ABORTED, None) [] sl' ex).
      { intros c3 w3 K. destruct (tcp_cleanup_W _ _ _ _ _ _ _ I2 SS2 K) as (ex & -> & I3 & S3 & g1 & g2 & g3).
        exists [], [], nx, ex. split; [reflexivity|]. split; [exact I3|]. apply ds_quiet; auto. }
      assert (FAIL2 : forall c3 w3, tcp_cleanup_connect c2 (W op1 cx [] (S nx) lg) = (c3, w3) ->
        exists op' sl' nx' ex, w3 = W op' cx sl' nx' (lg ++ ex) /\ CI c3 op' cx sl' nx' (lg ++ ex) /\
          DS (Some d) (ABORTED, None) [] sl' ex).
      { assert (I2' : CI c2 op1 cx [] (S nx) lg) by (destruct I2 as [a1 a2 a3 a4 a5 a6 a7 a8 a9]; constructor; auto).
        intros c3 w3 K. destruct (tcp_cleanup_W _ _ _ _ _ _ _ I2' SS2 K) as (ex & -> & I3 & S3 & g1 & g2 & g3).
        exists [], [], (S nx), ex. split; [reflexivity|]. split; [exact I3|]. apply ds_quiet; auto. }
      unfold ssl_new in H.
      destruct (ci_cx _ _ _ _ _ _ I2) as [(E1 & E2 & _)|(x & E1 & E2 & XF)]; rewrite E1 in H.
      * subst cx. destruct (tcp_cleanup_connect c2 _) as [c3 w3] eqn:K. injection H as <- <- <-. exact (FAIL _ _ eq_refl).
      * subst cx. cbn [W w_ctx app nget] in H. rewrite Nat.eqb_refl in H.
        change (mkWorld (op1 ++ O0) ((x, cset) :: X0) S0 nx B0 (L0 ++ lg)) with (W op1 [(x, cset)] [] nx lg) in H.
        destruct new.
        2:{ destruct (tcp_cleanup_connect c2 _) as [c3 w3] eqn:K. injection H as <- <- <-. exact (FAIL _ _ eq_refl). }
        assert (NN : nget nx S0 = None) by (apply Sfresh; apply (ci_n _ _ _ _ _ _ I2)).
        set (s0 := mkTssl cset false None false [] None) in *.
        change (w_tick _) with (W op1 [(x, cset)] [(nx, s0)] (S nx) lg) in H.
        destruct setfd; cbn [negb] in H.
        2:{ cbn [w_next W] in H. rewrite ssl_free_W in H by exact NN.
            destruct (tcp_cleanup_connect c2 _) as [c3 w3] eqn:K. injection H as <- <- <-. exact (FAIL2 _ _ eq_refl). }
        cbn [w_next W] in H.
        set (s1 := mkTssl cset false (Some (ct_fd1 c1 - 1)%Z) false [] None).
        assert (FDW : ssl_fd nx (ct_fd1 c1 - 1) (W op1 [(x, cset)] [(nx, s0)] (S nx) lg) = W op1 [(x, cset)] [(nx, s1)] (S nx) lg).
        { unfold ssl_fd. cbn [W w_ssl app nget]. rewrite Nat.eqb_refl. unfold w_with_ssl; cbn [w_ssl w_open w_ctx w_next w_stray w_log nset].
          rewrite Nat.eqb_refl. reflexivity. }
        rewrite FDW in H. clear FDW.
        set (c3 := c_with_ssl c2 (Some nx)) in *.
        assert (I3 : CI c3 op1 [(x, cset)] [(nx, s1)] (S nx) lg).
        { destruct I2 as [a1 a2 a3 a4 a5 a6 a7 a8 a9]. constructor; cbn; auto.
          - right. exists x. repeat split; auto.
          - right. exists nx, s1. repeat split; auto. discriminate.
          - discriminate.
          - apply (logs_nil _ _ op1 [(x, cset)]). exact a9. }
        cbn [c_ssl c3 c_with_ssl] in H.
        destruct (shake issued nx h _) as [hr w2] eqn:SH.
        destruct (shake_becomes _ _ _ _ _ _ _ _ _ SH) as (s2 & -> & BE & DN & SL & SP).
        pose proof (ci_becomes _ _ _ _ _ _ _ _ [] I3 eq_refl BE eq_refl) as I4. rewrite Z in I4.
        destruct hr.
        -- assert (I5 : CI (c_with_conn c3 true) op1 [(x, cset)] [(nx, s2)] (S nx) lg) by (apply ci_conn_set; [exact I4|discriminate]).
           change (c_ssl (c_with_conn c3 true)) with (Some nx) in H. cbn iota in H.
           destruct (lib_write issued FRAG nx h a d _) as [r w3] eqn:LW.
           destruct (write_CI _ _ _ _ _ _ _ _ _ _ _ _ ND I5 eq_refl LW) as (s' & ex & -> & I' & D).
           assert (DD : forall rc1, is_ok rc1 = (match r with LOk => true | _ => false end) ->
                     DS (Some d) (rc1, None) [] [(nx, s')] ex).
           { intros rc1 K. destruct (D rc1 K) as [d1 d2 d3]. constructor; [exact d1| |].
             - intros _. cbn [lefts] in d2. rewrite SL in d2. exact (d2 eq_refl).
             - unfold sent_as in *. cbn [pends] in *. rewrite SP in d3. exact d3. }
           exists op1, [(nx, s')], (S nx), ex.
           destruct r; injection H as <- <- <-; (split; [reflexivity|]; split; [exact I'|]; apply DD; reflexivity).
        -- injection H as <- <- <-. exists op1, [(nx, s2)], (S nx), []. rewrite Z. split; [reflexivity|]. split; [exact I4|].
           apply ds_quiet; auto.
        -- rewrite ssl_free_W in H by exact NN.
           assert (SD : s_done s2 = false).
           { destruct (shake_W _ _ _ _ _ _ _ _ _ SH) as (s3 & E3 & R3 & OR).
             injection E3 as <-. destruct OR as [->|(-> & KK & _)]; [reflexivity|discriminate]. }
           assert (I6 : CI (c_with_tcp (c_with_ssl c3 None) (ct_cb c3) TUnconn 0) [] [(x, cset)] [] (S nx) lg).
           { destruct I2 as [a1 a2 a3 a4 a5 a6 a7 a8 a9]. constructor; cbn; auto.
             - right. exists x. auto.
             - left; auto.
             - intros C. congruence.
             - cbn in a7. rewrite CC1, CC. discriminate.
             - apply (logs_nil _ _ op1 [(x, cset)]). exact a9. }
           assert (OPP := ci_op _ _ _ _ _ _ I2).
           assert (H' : (NOTREADY, c_with_tcp (c_with_fd1 (c_with_ssl c3 None) 0) (ct_cb c3) TUnconn 0, W [] [(x, cset)] [] (S nx) lg) = (rc, c', w')).
           { cbn [ct_fd1 c_with_ssl ct_cb ct_st c3 c2 c_with_fd1] in H. cbn [ct_fd1 c2 c_with_fd1] in OPP.
             destruct OPP as [[E ->]|(fd & p & E & G & -> & F)].
             - rewrite E in H. cbn [Z.eqb] in H. rewrite <- H. cbn [ct_fd1 c_with_ssl ct_cb c_with_fd1 c_with_tcp c3 c2].
               rewrite E. reflexivity.
             - rewrite E, (p1nz _ G), p1m1, close1_W in H by exact F. rewrite <- H. unfold c3, c2. rewrite E, p1m1. reflexivity. }
           injection H' as <- <- <-. exists [], [], (S nx), []. rewrite Z. split; [reflexivity|]. split.
           ++ exact (ci_fd1_set _ _ _ _ _ _ 0%Z I6).
           ++ apply ds_quiet; auto.
        -- injection H as <- <- <-.
           assert (CB : c_cb c1 = false) by (apply (ci_cb _ _ _ _ _ _ I1)).
           change (c_cb c3) with (c_cb c1). rewrite CB.
           exists op1, [(nx, s2)], (S nx), []. rewrite Z. split; [reflexivity|]. split; [exact I4|].
           apply ds_quiet; auto.
Qed.

Lemma recv_CI h a c op cx sl nx lg r c' w' : CI c op cx sl nx lg ->
  recv_response issued MTU h a c (W op cx sl nx lg) = (r, c', w') ->
  exists sl' ex, w' = W op cx sl' nx (lg ++ ex) /\ CI c' op cx sl' nx (lg ++ ex) /\ DS None r sl sl' ex
    /\ (snd r <> None -> fst r = OK).
Proof.
  intros I H. unfold recv_response in H. destruct (c_ssl c) as [i|] eqn:SS.
  - destruct (ci_ssl _ _ _ _ _ _ _ I SS) as (s & x & -> & -> & CX & ST).
    pose proof (ci_live _ _ _ _ _ _ I) as LV. rewrite SS in LV.
    assert (NX : [(x, cset)] <> []) by discriminate.
    destruct (recv_tail cset false (ct_fd1 c) _ _ _ _ _ _ _ _ _ _ _ _ NX LV (ci_log _ _ _ _ _ _ I) H)
      as (-> & s' & ex & -> & LV' & LG' & D & _ & _ & RO).
    exists [(i, s')], ex. conjs; auto.
    destruct I as [a1 a2 a3 a4 a5 a6 a7 a8 a9]. constructor; auto. rewrite SS. exact LV'.
  - injection H as <- <- <-. exists sl, []. rewrite lg_nil. conjs; auto.
    + constructor; cbn; auto.
    + intros C; now elim C.
Qed.

Lemma clean_CI c op cx sl nx lg r c' w' : CI c op cx sl nx lg ->
  cleanup_connect c (W op cx sl nx lg) = (r, c', w') ->
  exists ex, w' = W [] [] [] nx (lg ++ ex) /\ CI c' [] [] [] nx (lg ++ ex) /\ DS None (r, None) sl [] ex.
Proof.
  intros I H. unfold cleanup_connect in H.
  assert (E1 : (match c_ssl c with Some i => (c_with_ssl c None, ssl_free i (W op cx sl nx lg)) | None => (c, W op cx sl nx lg) end)
               = (c_with_ssl c None, W op cx [] nx lg)).
  { destruct (ci_live _ _ _ _ _ _ I) as [[K ->]|(i & s & K & -> & NF & _)]; rewrite K.
    - f_equal. destruct c; cbn in *; subst; reflexivity.
    - now rewrite ssl_free_W. }
  rewrite E1 in H. clear E1. cbn [c_ctx c_with_ssl] in H.
  assert (E2 : (match c_ctx c with Some x => (c_with_ctx (c_with_ssl c None) None, ctx_free x (W op cx [] nx lg)) | None => (c_with_ssl c None, W op cx [] nx lg) end)
               = (c_with_ctx (c_with_ssl c None) None, W op [] [] nx lg)).
  { destruct (ci_cx _ _ _ _ _ _ I) as [(K & -> & _)|(x & K & -> & NF)]; rewrite K.
    - f_equal. destruct c; cbn in *; subst; reflexivity.
    - now rewrite ctx_free_W. }
  rewrite E2 in H. clear E2.
  set (c1 := c_with_fd1 (c_with_conn (c_with_ctx (c_with_ssl c None) None) false) 0) in *.
  assert (I1 : CI c1 op [] [] nx lg).
  { destruct I as [a1 a2 a3 a4 a5 a6 a7 a8 a9]. constructor; cbn; auto.
    - left; auto.
    - intros C; congruence.
    - apply (logs_shut _ _ op cx sl). exact a9. }
  destruct (tcp_cleanup_connect c1 _) as [c2 w2] eqn:K.
  destruct (tcp_cleanup_W _ _ _ _ _ _ _ I1 eq_refl K) as (ex & -> & I2 & _ & g1 & g2 & g3).
  injection H as <- <- <-. exists ex. split; [reflexivity|]. split; [exact I2|].
  constructor; cbn; auto.
  intros _ _. rewrite g1, g2. auto.
Qed.

Definition c_msg (o : cop) : option (list N) := match o with CSend _ _ _ _ _ d => Some d | _ => None end.

Lemma step_CI o c op cx sl nx lg r c' w' : CI c op cx sl nx lg ->
  c_step issued MTU FRAG o c (W op cx sl nx lg) = (r, c', w') ->
  exists op' cx' sl' nx' ex, w' = W op' cx' sl' nx' (lg ++ ex) /\ CI c' op' cx' sl' nx' (lg ++ ex) /\
    DS (c_msg o) r sl sl' ex /\ (o = CClean -> op' = [] /\ cx' = [] /\ sl' = []).
Proof.
  intros I H. destruct o as [y n sf h a d|h a|]; cbn [c_step] in H.
  - destruct (send_request _ _ _ _ _ _ _ _ _ _) as [[rc c1] w1] eqn:K. injection H as <- <- <-.
    destruct (send_CI _ _ _ _ _ _ _ _ _ _ _ _ _ _ _ I K) as (op' & sl' & nx' & ex & -> & I' & D).
    exists op', cx, sl', nx', ex. conjs; auto; intros K0; discriminate K0.
  - destruct (recv_CI _ _ _ _ _ _ _ _ _ _ _ I H) as (sl' & ex & -> & I' & D & _).
    exists op, cx, sl', nx, ex. conjs; auto; intros K0; discriminate K0.
  - destruct (cleanup_connect _ _) as [[rc c1] w1] eqn:K. injection H as <- <- <-.
    destruct (clean_CI _ _ _ _ _ _ _ _ _ I K) as (ex & -> & I' & D).
    exists [], [], [], nx, ex. conjs; auto.
Qed.

Definition todo_ok (t : todo) (sl : list (nat * tssl)) : Prop :=
  match t with Free => pends sl = None | Again d => pends sl = None \/ pends sl = Some d | Stop => True end.

Lemma run_CI os : forall c op cx sl nx lg tr c' w', CI c op cx sl nx lg ->
  c_run issued MTU FRAG os c (W op cx sl nx lg) = (tr, c', w') ->
  exists op' cx' sl' nx' ex, w' = W op' cx' sl' nx' (lg ++ ex) /\ CI c' op' cx' sl' nx' (lg ++ ex) /\
    got ex = msgs tr /\
    (lefts sl = [] -> Forall (fun x => (length x <= MTU)%nat) (recs_in ex) -> recs_in ex = got ex) /\
    (forall t, todo_ok t sl -> c_sends_ok FRAG t tr -> recs_out ex = reqs_sent tr) /\
    (forall os0, os = os0 ++ [CClean] -> op' = [] /\ cx' = [] /\ sl' = []).
Proof.
  induction os as [|o os IH]; intros c op cx sl nx lg tr c' w' I H; cbn [c_run] in H.
  - injection H as <- <- <-. exists op, cx, sl, nx, []. rewrite lg_nil. conjs; auto.
    intros os0 K. destruct os0; discriminate.
  - destruct (c_step issued MTU FRAG o c _) as [[r c1] w1] eqn:ST.
    destruct (step_CI _ _ _ _ _ _ _ _ _ _ I ST) as (op1 & cx1 & sl1 & nx1 & ex1 & -> & I1 & [d1 d2 d3] & CL).
    destruct (c_run issued MTU FRAG os c1 _) as [[tr1 c2] w2] eqn:RN.
    destruct (IH _ _ _ _ _ _ _ _ _ I1 RN) as (op2 & cx2 & sl2 & nx2 & ex2 & -> & I2 & G2 & N2 & O2 & C2).
    injection H as <- <- <-.
    exists op2, cx2, sl2, nx2, (ex1 ++ ex2). rewrite app_assoc. conjs; auto.
    + rewrite got_app, G2, d1. reflexivity.
    + intros L F. rewrite recs_in_app, got_app in *. apply Forall_app in F. destruct F as [F1 F2].
      destruct (d2 L F1) as [E1 L1]. rewrite E1, (N2 L1 F2). reflexivity.
    + intros t TO SO. rewrite recs_out_app.
      destruct o as [y n sf h a d|h a|]; cbn [c_msg sent_as fst] in d3.
      * destruct r as [rc m]. cbn [c_sends_ok fst] in *. destruct SO as (M & LD & SO).
        assert (PD : pends sl = None \/ pends sl = Some d).
        { destruct t; cbn in M, TO; [auto| subst; auto| contradiction]. }
        destruct (d3 PD LD) as [E1 P1].
        rewrite E1. cbn [reqs_sent flat_map]. f_equal. apply (O2 (after rc d)); [|exact SO].
        unfold after, is_ok in *. destruct (Z.eqb rc OK); [exact P1|]. destruct (Z.eqb rc NOTREADY); [exact P1|exact Logic.I].
      * destruct r as [rc m]. cbn [c_sends_ok] in *. destruct d3 as [E1 P1]. rewrite E1. apply (O2 t); [|exact SO].
        destruct t; cbn in *; auto; destruct P1 as [P1|P1]; rewrite P1; auto.
      * destruct r as [rc m]. cbn [c_sends_ok] in *. destruct d3 as [E1 P1]. rewrite E1. apply (O2 t); [|exact SO].
        destruct t; cbn in *; auto; destruct P1 as [P1|P1]; rewrite P1; auto.
    + intros os0 K. destruct os0 as [|o' os0]; cbn in K.
      * injection K as -> ->. cbn [c_run] in RN. pose proof (f_equal snd RN) as RW. cbn [snd] in RW. destruct (CL eq_refl) as (-> & -> & ->).
        apply (f_equal w_open) in RW as W1. apply (f_equal w_ctx) in RW as W2. apply (f_equal w_ssl) in RW as W3.
        cbn [W w_open w_ctx w_ssl app] in W1, W2, W3.
        split; [apply (app_inv_tail O0)|split; [apply (app_inv_tail X0)|apply (app_inv_tail S0)]];
          cbn [app]; symmetry; assumption.
      * injection K as _ ->. exact (C2 os0 eq_refl).
Qed.

Lemma ci_init xnew certs y rc c w' : init_connect cfg xnew certs y (W [] [] [] n0 []) = (rc, c, w') ->
  exists op cx nx lg, w' = W op cx [] nx lg /\ CI c op cx [] nx lg /\ got lg = [] /\ recs_in lg = [] /\ recs_out lg = [] /\
    (rc <> OK -> op = [] /\ cx = []) /\ (rc = OK -> cx <> []).
Proof.
  unfold init_connect.
  assert (NOLOG : forall op cx, logs cset false op cx [] []).
  { intros op cx. split; [intros i p d []|]. exists None. split; [intros i p d []|]. discriminate. }
  destruct xnew; cbn [negb].
  2:{ intros H. injection H as <- <- <-. exists [], [], n0, []. conjs; auto; try discriminate.
      constructor; cbn; auto; try discriminate; try (left; auto; fail); intros C; congruence. }
  intros H. cbn [W w_next] in H.
  assert (XF : nget n0 X0 = None) by (apply Xfresh; lia).
  assert (SET : forall t t' op nx lg, set_ctx n0 t' (W op [(n0, t)] [] nx lg) = W op [(n0, t')] [] nx lg).
  { intros. unfold set_ctx, w_with_ctx, W; cbn [w_open w_ctx w_ssl w_next w_stray w_log app nset].
    rewrite Nat.eqb_refl. reflexivity. }
  change (w_tick _) with (W [] [(n0, tctx_new false)] [] (S n0) []) in H.
  destruct (load_certs certs cfg false (tctx_new false)) as [rc0 t] eqn:LC.
  rewrite SET in H. destruct (is_ok rc0) eqn:R0; cbn [negb] in H.
  2:{ rewrite ctx_free_W in H by exact XF. injection H as <- <- <-. exists [], [], (S n0), [].
      conjs; auto; try (intros ->; discriminate).
      constructor; cbn; auto; try discriminate; try (left; auto; fail); intros C; congruence. }
  rewrite SET in H.
  assert (TE : mkTctx (x_mode t) (x_ca t) (g_psk cfg) = cset).
  { unfold load_certs in LC. destruct certs; cbn [negb] in LC; injection LC as <- <-; [|discriminate].
    unfold cset, tctx_new; cbn. destruct (g_ca cfg), (g_noverify cfg); reflexivity. }
  rewrite TE in H.
  set (c1 := c_with_ctx cctx0 (Some n0)) in *.
  assert (I1 : CI c1 [] [(n0, cset)] [] (S n0) []).
  { constructor; cbn; auto; try discriminate; try (left; auto; fail); [|intros C; congruence].
    right. exists n0. auto. }
  unfold tcp_init_connect in H. change (c_with_tcp c1 false TUnconn 0) with c1 in H.
  destruct (g_ip_ok cfg); cbn [negb] in H.
  2:{ rewrite ctx_free_W in H by exact XF. injection H as <- <- <-. exists [], [], (S n0), [].
      conjs; auto; try discriminate.
      constructor; cbn; auto; try discriminate; try (left; auto; fail); intros C; congruence. }
  destruct (handle_connect y c1 _) as [[rc1 c2] w2] eqn:HC.
  pose proof (hc_W _ _ _ _ _ _ _ _ _ _ I1 HC) as (op & -> & I2 & SS & CX & CN & _).
  destruct (Z.eqb rc1 OK || Z.eqb rc1 NOTFOUND || Z.eqb rc1 NOTREADY) eqn:RR.
  - rewrite say_W in H. cbn [is_ok Z.eqb OK negb] in H. injection H as <- <- <-.
    pose proof (ci_cb _ _ _ _ _ _ I2) as CB. cbn [c_cb c_with_tcp]. rewrite CB.
    exists op, [(n0, cset)], (S n0), [Told true]. conjs; auto; try discriminate; try congruence.
    destruct I2 as [a1 a2 a3 a4 a5 a6 a7 a8 a9]. constructor; auto.
    apply (logs_more _ _ op _ _ [] [Told true]); auto.
  - assert (R1 : is_ok rc1 = false) by (unfold is_ok; destruct (Z.eqb rc1 OK); [discriminate|reflexivity]).
    rewrite R1 in H. cbn [negb] in H. rewrite ctx_free_W in H by exact XF. injection H as <- <- <-.
    assert (op = []) as ->.
    { clear -HC RR I1 I2. destruct (ci_op _ _ _ _ _ _ I2) as [[_ E]|(fd & p & E & G & -> & F)]; [exact E|exfalso].
      assert (ct_st c2 = TDone) as ST.
      { unfold handle_connect in HC. cbn [ct_st c1 c_with_ctx cctx0] in HC.
        destruct (os_new _ _ _); [|injection HC as <- <- _; reflexivity].
        destruct (Z.leb (y_sock y) 2); [injection HC as <- <- _; reflexivity|].
        destruct (y_nb y).
        - destruct (y_conn y).
          + injection HC as <- <- _. discriminate RR.
          + destruct (tcp_close _ _) as [c3 w3]. injection HC as <- <- _. discriminate RR.
          + injection HC as <- <- _. discriminate RR.
          + destruct (tcp_close _ _) as [c3 w3]. injection HC as <- <- _. reflexivity.
        - destruct (tcp_close _ _) as [c3 w3]. injection HC as <- <- _. reflexivity. }
      pose proof (ci_fd _ _ _ _ _ _ I2 (or_intror ST)). lia. }
    exists [], [], (S n0), []. conjs; auto.
    + destruct I2 as [a1 a2 a3 a4 a5 a6 a7 a8 a9]. constructor; cbn; auto.
    + intros ->. discriminate.
Qed.

End Client.

Section Server.
Variable cfg : tlscfg.
Definition sset : tctx := mkTctx (if g_noverify cfg then VNone else VPeerCert) (g_ca cfg) (g_psk cfg).

Record SI (c : sctx) (acc lis lk : list (Z * option peer)) op cx sl nx lg : Prop := mkSI {
  si_n : (n0 <= nx)%nat;
  si_op : op = acc ++ lis ++ lk;
  si_acc : (l_afd1 c = 0%Z /\ acc = [] /\ l_ssl c = None) \/
           (exists fd p i, l_afd1 c = (fd + 1)%Z /\ (0 <= fd)%Z /\ acc = [(fd, Some p)] /\ l_ssl c = Some i
              /\ zget fd (lis ++ lk) = None /\ zget fd O0 = None);
  si_lis : (lt_fd1 c = 0%Z /\ lis = []) \/
           (exists fd, lt_fd1 c = (fd + 1)%Z /\ (0 <= fd)%Z /\ lis = [(fd, None)] /\ zget fd lk = None /\ zget fd O0 = None);
  si_lk : (length lk <= 1)%nat /\ Forall (fun x => snd x <> None /\ zget (fst x) O0 = None) lk;
  si_ta : lt_afd1 c = 0%Z;
  si_cx : (l_ctx c = None /\ cx = [] /\ acc = []) \/
          (exists x, l_ctx c = Some x /\ cx = [(x, sset)] /\ nget x X0 = None /\ lk = [] /\ l_fd1 c = lt_fd1 c /\ lis <> []);
  si_live : live sset true (l_afd1 c) op sl (l_ssl c);
  si_log : logs sset true op cx sl lg }.

(** What a call adds: the callbacks. *)
Definition ups (l : list ev) : Prop := Forall (fun b => b = true) (told l).

Lemma si_none c acc lis lk op cx sl nx lg : SI c acc lis lk op cx sl nx lg -> l_ssl c = None -> sl = [].
Proof. intros I H. destruct (si_live _ _ _ _ _ _ _ _ _ I) as [[_ E]|(i & s & E & _)]; [exact E|congruence]. Qed.

Lemma si_ssl c acc lis lk op cx sl nx lg i : SI c acc lis lk op cx sl nx lg -> l_ssl c = Some i ->
  exists s, sl = [(i, s)] /\ cx <> [].
Proof.
  intros I E. destruct (si_live _ _ _ _ _ _ _ _ _ I) as [[K _]|(j & s & K & -> & _)]; [congruence|].
  rewrite E in K. injection K as <-. exists s. split; [reflexivity|].
  destruct (si_cx _ _ _ _ _ _ _ _ _ I) as [(_ & _ & K)|(x & _ & -> & _)]; [|discriminate].
  destruct (si_acc _ _ _ _ _ _ _ _ _ I) as [(_ & _ & K2)|(fd & p & j & _ & _ & K2 & _)]; congruence.
Qed.

Lemma si_same c acc lis lk op cx sl sl' nx lg lg' : SI c acc lis lk op cx sl nx lg ->
  live sset true (l_afd1 c) op sl' (l_ssl c) -> logs sset true op cx sl' lg' -> SI c acc lis lk op cx sl' nx lg'.
Proof. intros [a1 a2 a3 a4 a5 a6 a7 a8 a9] L G. constructor; auto. Qed.

(** The read at the end of RecvRequest. *)
Definition recv_end (h2 : lib) (a : rdans) (c : sctx) (w : world) : (Z * option (list N)) * sctx * world :=
  match l_ssl c with
  | None => ((ABORTED, None), c, w)
  | Some i =>
      match lib_read issued MTU i h2 a w with
      | ((LOk, d), w) =>
          match nget i (w_ssl w) with
          | Some s => match end_of s w with
                      | Some p => ((OK, Some d), c, w_say w (Got i p d))
                      | None => ((OK, Some d), c, w_strays w)
                      end
          | None => ((OK, Some d), c, w_strays w)
          end
      | ((LWant, _), w) => ((NOTREADY, None), c, w)
      | ((_, _), w) => ((ABORTED, None), c, w)
      end
  end.
Lemma recv_end_SI h2 a c acc lis lk op cx sl nx lg r c' w' : SI c acc lis lk op cx sl nx lg ->
  recv_end h2 a c (W op cx sl nx lg) = (r, c', w') ->
  c' = c /\ exists sl' ex, w' = W op cx sl' nx (lg ++ ex) /\ SI c' acc lis lk op cx sl' nx (lg ++ ex) /\ DS None r sl sl' ex
    /\ told ex = [] /\ (snd r <> None -> fst r = OK).
Proof.
  intros I H. unfold recv_end in H. destruct (l_ssl c) as [i|] eqn:SS.
  - destruct (si_ssl _ _ _ _ _ _ _ _ _ _ I SS) as (s & -> & CX).
    pose proof (si_live _ _ _ _ _ _ _ _ _ I) as LV. rewrite SS in LV.
    destruct (recv_tail sset true (l_afd1 c) _ _ _ _ _ _ _ _ _ _ _ _ CX LV (si_log _ _ _ _ _ _ _ _ _ I) H)
      as (-> & s' & ex & -> & LV' & LG' & D & TE & _ & RO).
    split; [reflexivity|]. exists [(i, s')], ex. conjs; auto.
    apply (si_same _ _ _ _ _ _ [(i, s)] _ _ lg); auto. rewrite SS. exact LV'.
  - injection H as <- <- <-. split; [reflexivity|]. exists sl, []. rewrite lg_nil. conjs; auto.
    + constructor; cbn; auto.
    + intros C; now elim C.
Qed.

Lemma ds_none r sl sl' ex : got ex = [] -> snd r = None -> recs_in ex = [] -> recs_out ex = [] ->
  (sl' = [] \/ (lefts sl' = [] /\ pends sl' = None)) -> DS None r sl sl' ex.
Proof.
  intros G R I O [->|[L P]]; constructor; rewrite ?R; auto.
  - intros _ _. rewrite I, G. auto.
  - cbn. auto.
  - intros _ _. rewrite I, G, L. auto.
  - cbn. auto.
Qed.

Lemma ds_pre r sl sl' sl'' ex : (sl = [] /\ lefts sl' = [] /\ pends sl' = None) -> forall ex0,
  got ex0 = [] -> recs_in ex0 = [] -> recs_out ex0 = [] ->
  DS None r sl' sl'' ex -> DS None r sl sl'' (ex0 ++ ex).
Proof.
  intros (-> & L & P) ex0 G I O [d1 d2 d3]. constructor.
  - rewrite got_app, G. exact d1.
  - intros _ F. rewrite recs_in_app, got_app, I, G in *. exact (d2 L F).
  - cbn [sent_as] in *. rewrite recs_out_app, O. destruct d3 as [E1 E2]. split; [exact E1|]. rewrite P in E2. tauto.
Qed.

Lemma recv_SI ac nb new setfd h h2 a c acc lis lk op cx sl nx lg r c' w' : SI c acc lis lk op cx sl nx lg ->
  recv_request issued MTU ac nb new setfd h h2 a c (W op cx sl nx lg) = (r, c', w') ->
  exists acc' op' sl' nx' ex, w' = W op' cx sl' nx' (lg ++ ex) /\ SI c' acc' lis lk op' cx sl' nx' (lg ++ ex) /\
    DS None r sl sl' ex /\ ups ex /\ (snd r <> None -> fst r = OK).
Proof.
  intros I H. unfold recv_request in H.
  fold (recv_end h2 a) in H.
  destruct (si_acc _ _ _ _ _ _ _ _ _ I) as [(AF & AC & SS)|(fd & p & i & AF & G & AC & SS & F1 & F2)].
  2:{ (* accepted before *)
    rewrite AF, (p1nz _ G) in H. cbn [negb] in H.
    destruct (recv_end_SI _ _ _ _ _ _ _ _ _ _ _ _ _ _ I H) as (-> & sl' & ex & -> & I' & D & TE & RO).
    exists acc, op, sl', nx, ex. conjs; auto. unfold ups. rewrite TE. constructor. }
  rewrite AF in H. cbn [Z.eqb negb] in H. pose proof (si_none _ _ _ _ _ _ _ _ _ I SS) as ->. subst acc.
  assert (STAY : forall rc nx', (n0 <= nx')%nat -> SI c [] lis lk op cx [] nx' lg -> (((rc, None), c, W op cx [] nx' lg) = (r, c', w')) ->
    exists acc' op' sl' nx' ex, w' = W op' cx sl' nx' (lg ++ ex) /\ SI c' acc' lis lk op' cx sl' nx' (lg ++ ex) /\
      DS None r [] sl' ex /\ ups ex /\ (snd r <> None -> fst r = OK)).
  { intros rc nx' _ I' K. injection K as <- <- <-. exists [], op, [], nx', []. rewrite lg_nil. conjs; auto.
    - apply ds_none; auto.
    - constructor.
    - intros C; now elim C. }
  assert (I1 : SI c [] lis lk op cx [] (S nx) lg) by (destruct I; constructor; auto).
  pose proof (si_n _ _ _ _ _ _ _ _ _ I) as NX.
  destruct (zget (l_fd1 c - 1) (w_open (W op cx [] nx lg))) as [lp|].
  2:{ exact (STAY _ nx NX I H). }
  destruct ac as [| |fd p]; try (exact (STAY _ nx NX I H)).
  destruct (os_new fd (Some p) _) as [w1|] eqn:NW; [|exact (STAY _ nx NX I H)].
  apply os_new_W in NW. destruct NW as (-> & G & F1 & F2).
  assert (CL : forall sl nx, os_close fd (W ((fd, Some p) :: op) cx sl nx lg) = W op cx sl nx lg).
  { intros sl nx1. rewrite close_W by exact F2. now rewrite zdel_none. }
  assert (CE : l_with_ssl (l_with_afd c 0) None = c) by (destruct c; cbn in *; subst; reflexivity).
  assert (CE2 : l_with_afd c 0 = c) by (destruct c; cbn in *; subst; reflexivity).
  destruct nb; cbn [negb] in H.
  2:{ rewrite CL, CE2 in H. exact (STAY _ nx NX I H). }
  unfold ssl_new in H.
  destruct (si_cx _ _ _ _ _ _ _ _ _ I) as [(E1 & E2 & _)|(x & E1 & E2 & XF & LK & LF & NL)]; rewrite E1 in H.
  { rewrite CL, CE in H. exact (STAY _ nx NX I H). }
  subst cx. cbn [W w_ctx app nget] in H. rewrite Nat.eqb_refl in H.
  change (mkWorld ((fd, Some p) :: op ++ O0) ((x, sset) :: X0) S0 nx B0 (L0 ++ lg)) with (W ((fd, Some p) :: op) [(x, sset)] [] nx lg) in H.
  destruct new.
  2:{ rewrite CL, CE in H. exact (STAY _ nx NX I H). }
  assert (NN : nget nx S0 = None) by (apply Sfresh; exact NX).
  set (s0 := mkTssl sset true None false [] None) in *.
  change (w_tick _) with (W ((fd, Some p) :: op) [(x, sset)] [(nx, s0)] (S nx) lg) in H.
  cbn [w_next W] in H.
  destruct setfd; cbn [negb] in H.
  2:{ rewrite ssl_free_W, CL, CE in H by exact NN. exact (STAY _ (S nx) (le_S _ _ NX) I1 H). }
  set (s1 := mkTssl sset true (Some fd) false [] None).
  assert (FDW : ssl_fd nx fd (W ((fd, Some p) :: op) [(x, sset)] [(nx, s0)] (S nx) lg) = W ((fd, Some p) :: op) [(x, sset)] [(nx, s1)] (S nx) lg).
  { unfold ssl_fd. cbn [W w_ssl app nget]. rewrite Nat.eqb_refl. unfold w_with_ssl; cbn [w_ssl w_open w_ctx w_next w_stray w_log nset].
    rewrite Nat.eqb_refl. reflexivity. }
  rewrite FDW in H. clear FDW.
  set (c2 := l_with_ssl (l_with_afd c (fd + 1)) (Some nx)) in *.
  assert (I2 : SI c2 [(fd, Some p)] lis lk ((fd, Some p) :: op) [(x, sset)] [(nx, s1)] (S nx) lg).
  { pose proof (si_op _ _ _ _ _ _ _ _ _ I) as OP. cbn [app] in OP.
    destruct I as [a1 a2 a3 a4 a5 a6 a7 a8 a9]. constructor; cbn; auto.
    - now rewrite OP.
    - right. exists fd, p, nx. conjs; auto. now rewrite <- OP.
    - right. exists x. conjs; auto.
    - right. exists nx, s1. conjs; auto; [cbn; now rewrite p1m1|discriminate].
    - apply (logs_nil _ _ op [(x, sset)]). exact a9. }
  destruct (shake issued nx h _) as [hr w2] eqn:SH.
  destruct (shake_becomes _ _ _ _ _ _ _ _ _ SH) as (s2 & -> & BE & DN & SL & SP).
  assert (I3 : SI c2 [(fd, Some p)] lis lk ((fd, Some p) :: op) [(x, sset)] [(nx, s2)] (S nx) lg).
  { apply (si_same _ _ _ _ _ _ [(nx, s1)] _ _ lg _ I2).
    - apply (live_becomes _ _ _ _ _ s1); [|exact BE]. exact (si_live _ _ _ _ _ _ _ _ _ I2).
    - apply (logs_becomes _ _ _ _ _ s1); [|exact BE]. exact (si_log _ _ _ _ _ _ _ _ _ I2). }
  destruct hr.
  - rewrite say_W in H.
    assert (I4 : SI c2 [(fd, Some p)] lis lk ((fd, Some p) :: op) [(x, sset)] [(nx, s2)] (S nx) (lg ++ [Told true])).
    { apply (si_same _ _ _ _ _ _ [(nx, s2)] _ _ lg _ I3); [exact (si_live _ _ _ _ _ _ _ _ _ I3)|].
      apply logs_more; [exact (si_log _ _ _ _ _ _ _ _ _ I3)|reflexivity]. }
    destruct (recv_end_SI _ _ _ _ _ _ _ _ _ _ _ _ _ _ I4 H) as (-> & sl' & ex & -> & I' & D & TE & RO).
    exists [(fd, Some p)], ((fd, Some p) :: op), sl', (S nx), ([Told true] ++ ex). rewrite app_assoc.
    conjs; auto.
    + apply (ds_pre _ [] [(nx, s2)]); auto.
    + unfold ups. rewrite told_app, TE. repeat constructor.
  - injection H as <- <- <-. exists [(fd, Some p)], ((fd, Some p) :: op), [(nx, s2)], (S nx), []. rewrite lg_nil.
    conjs; auto.
    + apply ds_none; auto.
    + constructor.
    + intros C; now elim C.
  - rewrite ssl_free_W, CL, CE in H by exact NN. exact (STAY _ (S nx) (le_S _ _ NX) I1 H).
  - rewrite ssl_free_W, CL, CE in H by exact NN. exact (STAY _ (S nx) (le_S _ _ NX) I1 H).
Qed.

Lemma send_SI h a d c acc lis lk op cx sl nx lg rc c' w' : SI c acc lis lk op cx sl nx lg ->
  send_response issued FRAG h a d c (W op cx sl nx lg) = (rc, c', w') ->
  exists sl' ex, w' = W op cx sl' nx (lg ++ ex) /\ SI c' acc lis lk op cx sl' nx (lg ++ ex) /\
    DS (Some d) (rc, None) sl sl' ex /\ told ex = [].
Proof.
  intros I H. unfold send_response in H. destruct (length d =? 0)%nat eqn:LD.
  { injection H as <- <- <-. exists sl, []. rewrite lg_nil. conjs; auto. apply ds_quiet; auto. }
  assert (ND : d <> []) by (intros ->; discriminate).
  destruct (l_ssl c) as [i|] eqn:SS.
  2:{ injection H as <- <- <-. exists sl, []. rewrite lg_nil. conjs; auto. apply ds_quiet; auto. }
  destruct (si_ssl _ _ _ _ _ _ _ _ _ _ I SS) as (s & -> & CX).
  destruct (lib_write issued FRAG i h a d _) as [r w1] eqn:LW.
  destruct (write_W _ _ _ _ _ _ _ _ _ _ _ ND LW) as (s' & ex & -> & B & SL & _ & OU & OR).
  assert (TE : told ex = []).
  { clear -OU. induction ex as [|e ex IH]; [reflexivity|].
    destruct (OU e (or_introl eq_refl)) as (x & ->). cbn. apply IH. intros e' K. apply OU. right; exact K. }
  assert (I' : SI c acc lis lk op cx [(i, s')] nx (lg ++ ex)).
  { apply (si_same _ _ _ _ _ _ [(i, s)] _ _ lg _ I).
    - pose proof (si_live _ _ _ _ _ _ _ _ _ I) as LV. rewrite SS in *. apply (live_becomes _ _ _ _ _ s); auto.
    - apply logs_more; [|apply (got_outs i); exact OU]. apply (logs_becomes _ _ _ _ _ s); auto.
      exact (si_log _ _ _ _ _ _ _ _ _ I). }
  assert (D : forall rc, is_ok rc = (match r with LOk => true | _ => false end) -> DS (Some d) (rc, None) [(i, s)] [(i, s')] ex).
  { intros rc0 R. constructor; cbn [snd fst].
    + apply (got_outs i); exact OU.
    + cbn [lefts]. intros L _. rewrite (in_outs i ex OU), (got_outs i ex OU), SL. auto.
    + cbn [sent_as pends]. intros P LD2. destruct (OR P LD2) as [OR1 OR2]. rewrite R. destruct r; auto. }
  exists [(i, s')], ex. destruct r; injection H as <- <- <-; conjs; auto; apply D; reflexivity.
Qed.

Lemma clean_SI c acc lis lk op cx sl nx lg rc c' w' : SI c acc lis lk op cx sl nx lg ->
  cleanup_listen c (W op cx sl nx lg) = (rc, c', w') ->
  exists lk' ex, w' = W lk' [] [] nx (lg ++ ex) /\ SI c' [] [] lk' lk' [] [] nx (lg ++ ex) /\ DS None (rc, None) sl [] ex
    /\ lk' = acc ++ lk.
Proof.
  intros I H. unfold cleanup_listen in H.
  assert (E1 : (match l_ssl c with Some i => (l_with_ssl c None, ssl_free i (W op cx sl nx lg)) | None => (c, W op cx sl nx lg) end)
               = (l_with_ssl c None, W op cx [] nx lg)).
  { destruct (si_live _ _ _ _ _ _ _ _ _ I) as [[K ->]|(i & s & K & -> & NF & _)]; rewrite K.
    - f_equal. destruct c; cbn in *; subst; reflexivity.
    - now rewrite ssl_free_W. }
  rewrite E1 in H. clear E1. cbn [l_ctx l_with_ssl] in H.
  assert (E2 : (match l_ctx c with Some x => (l_with_ctx (l_with_ssl c None) None, ctx_free x (W op cx [] nx lg)) | None => (l_with_ssl c None, W op cx [] nx lg) end)
               = (l_with_ctx (l_with_ssl c None) None, W op [] [] nx lg)).
  { destruct (si_cx _ _ _ _ _ _ _ _ _ I) as [(K & -> & _)|(x & K & -> & NF & _)]; rewrite K.
    - f_equal. destruct c; cbn in *; subst; reflexivity.
    - now rewrite ctx_free_W. }
  rewrite E2 in H. clear E2.
  unfold tcp_cleanup_listen in H.
  cbn [lt_cb lt_afd1 lt_fd1 l_with_ctx l_with_ssl l_with_tcp l_cb l_ctx l_ssl] in H.
  rewrite (si_ta _ _ _ _ _ _ _ _ _ I) in H. cbn [Z.eqb] in H.
  set (ex := if lt_cb c then [Told false] else []).
  assert (E3 : (if lt_cb c then w_say (W op [] [] nx lg) (Told false) else W op [] [] nx lg) = W op [] [] nx (lg ++ ex)).
  { unfold ex. destruct (lt_cb c); [apply say_W|now rewrite app_nil_r]. }
  rewrite E3 in H. clear E3.
  pose proof (si_op _ _ _ _ _ _ _ _ _ I) as OP.
  assert (E4 : (if Z.eqb (lt_fd1 c) 0 then W op [] [] nx (lg ++ ex) else os_close (lt_fd1 c - 1) (W op [] [] nx (lg ++ ex)))
               = W (acc ++ lk) [] [] nx (lg ++ ex)).
  { destruct (si_lis _ _ _ _ _ _ _ _ _ I) as [[K L]|(fd & K & G & L & F1 & F2)]; rewrite K.
    - cbn [Z.eqb]. rewrite OP, L. reflexivity.
    - rewrite (p1nz _ G), p1m1.
      assert (FA : zget fd acc = None).
      { destruct (si_acc _ _ _ _ _ _ _ _ _ I) as [(_ & -> & _)|(fa & p & i & _ & _ & -> & _ & N1 & _)]; [reflexivity|].
        rewrite zget_app, L in N1. cbn [zget] in *. destruct (Z.eqb fa fd) eqn:E; [discriminate|].
        rewrite Z.eqb_sym, E. reflexivity. }
      unfold os_close. cbn [W w_open]. rewrite OP, L, !zget_app, FA. cbn [zget]. rewrite Z.eqb_refl.
      unfold w_with_open, W; cbn [w_open w_ctx w_ssl w_next w_stray w_log]. f_equal.
      rewrite !zdel_app, (zdel_none fd acc FA), (zdel_none fd lk F1), (zdel_none fd O0 F2).
      cbn. rewrite Z.eqb_refl. cbn. reflexivity. }
  rewrite E4 in H. clear E4. injection H as <- <- <-.
  exists (acc ++ lk), ex. conjs; auto.
  - destruct (si_lk _ _ _ _ _ _ _ _ _ I) as [L1 L2]. constructor; cbn; auto.
    + apply (si_n _ _ _ _ _ _ _ _ _ I).
    + destruct (si_cx _ _ _ _ _ _ _ _ _ I) as [(_ & _ & ->)|(x & _ & _ & _ & -> & _)]; [split; auto|].
      rewrite app_nil_r.
      destruct (si_acc _ _ _ _ _ _ _ _ _ I) as [(_ & -> & _)|(fd & p & i & _ & _ & -> & _ & _ & FO)]; cbn; split; auto.
      constructor; [split; [discriminate|exact FO]|constructor].
    + left. auto.
    + apply logs_more; [|unfold ex; destruct (lt_cb c); reflexivity].
      apply (logs_shut _ _ op cx sl). exact (si_log _ _ _ _ _ _ _ _ _ I).
  - apply ds_none; auto; unfold ex; destruct (lt_cb c); reflexivity.
Qed.

Definition s_msg (o : sop) : option (list N) := match o with SSend _ _ d => Some d | _ => None end.

Lemma step_SI o c acc lis lk op cx sl nx lg r c' w' : SI c acc lis lk op cx sl nx lg ->
  s_step issued MTU FRAG o c (W op cx sl nx lg) = (r, c', w') ->
  exists acc' lis' lk' op' cx' sl' nx' ex, w' = W op' cx' sl' nx' (lg ++ ex) /\ SI c' acc' lis' lk' op' cx' sl' nx' (lg ++ ex) /\
    DS (s_msg o) r sl sl' ex /\ (o = SClean -> op' = lk' /\ cx' = [] /\ sl' = []) /\
    (o <> SClean -> ups ex /\ lis' = lis /\ cx' = cx).
Proof.
  intros I H. destruct o as [ac nb n sf h h2 a|h a d|]; cbn [s_step] in H.
  - destruct (recv_SI _ _ _ _ _ _ _ _ _ _ _ _ _ _ _ _ _ _ _ I H) as (acc' & op' & sl' & nx' & ex & -> & I' & D & U & _).
    exists acc', lis, lk, op', cx, sl', nx', ex. conjs; auto; intros K0; discriminate K0.
  - destruct (send_response _ _ _ _ _ _ _) as [[rc c1] w1] eqn:K. injection H as <- <- <-.
    destruct (send_SI _ _ _ _ _ _ _ _ _ _ _ _ _ _ _ I K) as (sl' & ex & -> & I' & D & TE).
    exists acc, lis, lk, op, cx, sl', nx, ex. conjs; auto; try (intros K0; discriminate K0).
    intros _. conjs; auto. unfold ups. rewrite TE. constructor.
  - destruct (cleanup_listen _ _) as [[rc c1] w1] eqn:K. injection H as <- <- <-.
    destruct (clean_SI _ _ _ _ _ _ _ _ _ _ _ _ I K) as (lk' & ex & -> & I' & D & _).
    exists [], [], lk', lk', [], [], nx, ex. conjs; auto. intros C; now elim C.
Qed.

Lemma run_SI os : forall c acc lis lk op cx sl nx lg tr c' w', SI c acc lis lk op cx sl nx lg ->
  s_run issued MTU FRAG os c (W op cx sl nx lg) = (tr, c', w') ->
  exists acc' lis' lk' op' cx' sl' nx' ex, w' = W op' cx' sl' nx' (lg ++ ex) /\ SI c' acc' lis' lk' op' cx' sl' nx' (lg ++ ex) /\
    got ex = msgs tr /\
    (lefts sl = [] -> Forall (fun x => (length x <= MTU)%nat) (recs_in ex) -> recs_in ex = got ex) /\
    (forall t, todo_ok t sl -> s_sends_ok FRAG t tr -> recs_out ex = resps_sent tr) /\
    (forall os0, os = os0 ++ [SClean] -> op' = lk' /\ cx' = [] /\ sl' = []) /\
    (~ In SClean os -> ups ex /\ lis' = lis /\ cx' = cx).
Proof.
  induction os as [|o os IH]; intros c acc lis lk op cx sl nx lg tr c' w' I H; cbn [s_run] in H.
  - injection H as <- <- <-. exists acc, lis, lk, op, cx, sl, nx, []. rewrite lg_nil. conjs; auto.
    + intros os0 K. destruct os0; discriminate.
    + intros _. conjs; auto. constructor.
  - destruct (s_step issued MTU FRAG o c _) as [[r c1] w1] eqn:ST.
    destruct (step_SI _ _ _ _ _ _ _ _ _ _ _ _ _ I ST) as (acc1 & lis1 & lk1 & op1 & cx1 & sl1 & nx1 & ex1 & -> & I1 & [d1 d2 d3] & CL & NC).
    destruct (s_run issued MTU FRAG os c1 _) as [[tr1 c2] w2] eqn:RN.
    destruct (IH _ _ _ _ _ _ _ _ _ _ _ _ I1 RN) as (acc2 & lis2 & lk2 & op2 & cx2 & sl2 & nx2 & ex2 & -> & I2 & G2 & N2 & O2 & C2 & U2).
    injection H as <- <- <-.
    destruct os as [|o1 os1].
    { cbn [s_run] in RN. clear IH.
      pose proof (f_equal (fun x => snd (fst x)) RN) as RC. cbn [fst snd] in RC. subst c2.
      pose proof (f_equal (fun x => fst (fst x)) RN) as RT. cbn [fst snd] in RT. subst tr1.
      exists acc1, lis1, lk1, op1, cx1, sl1, nx1, ex1.
      conjs; auto.
      - symmetry. exact (f_equal snd RN).
      - rewrite d1. cbn. now rewrite app_nil_r.
      - intros L F. apply (d2 L F).
      - intros t TO SO. destruct o as [ac nb n sf h h2 a|h a d|]; destruct r as [rc m]; cbn [s_msg sent_as fst s_sends_ok resps_sent flat_map app] in *.
        + apply d3.
        + destruct SO as (M & LD & _).
          assert (PD : pends sl = None \/ pends sl = Some d).
          { destruct t; cbn in M, TO; [auto| subst; auto| contradiction]. }
          destruct (d3 PD LD) as [E1 _]. rewrite E1. now rewrite app_nil_r.
        + apply d3.
      - intros os0 K. destruct os0 as [|o' os0]; cbn in K; [injection K as ->; auto|].
        injection K as _ K. destruct os0; discriminate.
      - intros NI. apply NC. intros ->. apply NI. left; reflexivity. }
    exists acc2, lis2, lk2, op2, cx2, sl2, nx2, (ex1 ++ ex2). rewrite app_assoc. conjs; auto.
    + rewrite got_app, G2, d1. reflexivity.
    + intros L F. rewrite recs_in_app, got_app in *. apply Forall_app in F. destruct F as [F1 F2].
      destruct (d2 L F1) as [E1 L1]. rewrite E1, (N2 L1 F2). reflexivity.
    + intros t TO SO. rewrite recs_out_app.
      destruct o as [ac nb n sf h h2 a|h a d|]; cbn [s_msg sent_as fst] in d3.
      * destruct r as [rc m]. cbn [s_sends_ok] in *. destruct d3 as [E1 P1]. rewrite E1. apply (O2 t); [|exact SO].
        destruct t; cbn in *; auto; destruct P1 as [P1|P1]; rewrite P1; auto.
      * destruct r as [rc m]. cbn [s_sends_ok fst] in *. destruct SO as (M & LD & SO).
        assert (PD : pends sl = None \/ pends sl = Some d).
        { destruct t; cbn in M, TO; [auto| subst; auto| contradiction]. }
        destruct (d3 PD LD) as [E1 P1].
        rewrite E1. cbn [resps_sent flat_map]. f_equal. apply (O2 (after rc d)); [|exact SO].
        unfold after, is_ok in *. destruct (Z.eqb rc OK); [exact P1|]. destruct (Z.eqb rc NOTREADY); [exact P1|exact Logic.I].
      * destruct r as [rc m]. cbn [s_sends_ok] in *. destruct d3 as [E1 P1]. rewrite E1. apply (O2 t); [|exact SO].
        destruct t; cbn in *; auto; destruct P1 as [P1|P1]; rewrite P1; auto.
    + intros os0 K. destruct os0 as [|o' os0]; cbn in K; [discriminate|].
      injection K as _ K. exact (C2 os0 K).
    + intros NI. destruct (U2 ltac:(intros K; apply NI; right; exact K)) as (U & -> & ->).
      destruct (NC ltac:(intros ->; apply NI; left; reflexivity)) as (U1 & -> & ->).
      conjs; auto. unfold ups in *. rewrite told_app. apply Forall_app; auto.
Qed.

Lemma si_init sock nb bnd lst xnew certs rc c w' : init_listen cfg sock nb bnd lst xnew certs (W [] [] [] n0 []) = (rc, c, w') ->
  exists lis cx nx lg, w' = W lis cx [] nx lg /\ SI c [] lis [] lis cx [] nx lg /\ got lg = [] /\ recs_in lg = [] /\ recs_out lg = [] /\
    (rc <> OK -> lis = [] /\ cx = []) /\ (rc = OK -> cx <> [] /\ ups lg).
Proof.
  unfold init_listen, tcp_init_listen. intros H.
  assert (NOLOG : forall op cx, logs sset true op cx [] []).
  { intros op cx. split; [intros i p d []|]. exists None. split; [intros i p d []|]. discriminate. }
  assert (NONE : forall c2 nx lg, (n0 <= nx)%nat -> lt_fd1 c2 = 0%Z -> lt_afd1 c2 = 0%Z -> l_afd1 c2 = 0%Z -> l_ssl c2 = None -> l_ctx c2 = None ->
     got lg = [] -> SI c2 [] [] [] [] [] [] nx lg).
  { intros c2 nx lg A B C D E F G. constructor; cbn; auto.
    - left; auto.
    - pose proof (logs_more _ _ [] [] [] [] lg (NOLOG [] []) G). exact H0. }
  destruct (g_ip_ok cfg); cbn [negb] in H.
  2:{ injection H as <- <- <-. exists [], [], n0, []. conjs; auto; try discriminate. }
  destruct (os_new sock None _) as [w1|] eqn:NW.
  2:{ injection H as <- <- <-. exists [], [], n0, []. conjs; auto; try discriminate. }
  apply os_new_W in NW. destruct NW as (-> & G & _ & F).
  destruct (Z.leb sock 2).
  { rewrite close1_W in H by exact F. injection H as <- <- <-. exists [], [], n0, []. conjs; auto; try discriminate. }
  destruct (negb nb || negb bnd || negb lst).
  { rewrite close1_W in H by exact F. injection H as <- <- <-. exists [], [], n0, []. conjs; auto; try discriminate. }
  rewrite say_W in H. cbn [app is_ok Z.eqb OK negb lt_fd1 lt_cb lt_afd1 l_with_tcp sctx0] in H.
  assert (CLN : forall c2 cx nx, lt_cb c2 = true -> lt_fd1 c2 = (sock + 1)%Z -> lt_afd1 c2 = 0%Z ->
     tcp_cleanup_listen c2 (W [(sock, None)] cx [] nx [Told true]) = (l_with_tcp c2 true 0 0, W [] cx [] nx [Told true; Told false])).
  { intros c2 cx nx K1 K2 K3. unfold tcp_cleanup_listen. rewrite K1, K2, K3, say_W. cbn [Z.eqb app].
    rewrite (p1nz _ G), p1m1, close1_W by exact F. reflexivity. }
  destruct xnew; cbn [negb] in H.
  2:{ rewrite CLN in H by reflexivity. injection H as <- <- <-. exists [], [], n0, [Told true; Told false].
      conjs; auto; try discriminate. }
  cbn [W w_next] in H.
  assert (XF : nget n0 X0 = None) by (apply Xfresh; lia).
  assert (SET : forall t t' op nx lg, set_ctx n0 t' (W op [(n0, t)] [] nx lg) = W op [(n0, t')] [] nx lg).
  { intros. unfold set_ctx, w_with_ctx, W; cbn [w_open w_ctx w_ssl w_next w_stray w_log app nset].
    rewrite Nat.eqb_refl. reflexivity. }
  change (w_tick _) with (W [(sock, None)] [(n0, tctx_new true)] [] (S n0) [Told true]) in H.
  destruct (load_certs certs cfg true (tctx_new true)) as [rc0 t] eqn:LC.
  rewrite SET in H. destruct (is_ok rc0) eqn:R0; cbn [negb] in H.
  2:{ rewrite ctx_free_W in H by exact XF. rewrite CLN in H by reflexivity. injection H as <- <- <-.
      exists [], [], (S n0), [Told true; Told false].
      conjs; auto; try (intros ->; discriminate). }
  rewrite SET, say_W in H.
  assert (TE : mkTctx (x_mode t) (x_ca t) (g_psk cfg) = sset).
  { unfold load_certs in LC. destruct certs; cbn [negb] in LC; injection LC as <- <-; [|discriminate].
    unfold sset, tctx_new; cbn. destruct (g_ca cfg), (g_noverify cfg); reflexivity. }
  rewrite TE in H. cbn [app] in H. injection H as <- <- <-.
  exists [(sock, None)], [(n0, sset)], (S n0), [Told true; Told true].
  conjs; auto; try discriminate; try congruence.
  - constructor; cbn; auto.
    + right. exists sock. auto.
    + right. exists n0. conjs; auto. discriminate.
    + left; auto.
    + pose proof (logs_more _ _ [(sock, None)] [(n0, sset)] [] [] [Told true; Told true] (NOLOG _ _) eq_refl). exact H.
  - intros _. split; [discriminate|]. repeat constructor.
Qed.

End Server.

End P.
