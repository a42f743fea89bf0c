(** C82 to C84: the TLS transport. *)
From Verif Require Import TcpModel.
From Verif Require Import TlsModel TlsSpec TlsProof.

Lemma world_W w : w = W (w_open w) (w_ctx w) (w_ssl w) (w_stray w) (w_log w) [] [] [] (w_next w) [].
Proof. destruct w; unfold W; cbn. now rewrite app_nil_r. Qed.
Lemma new_log_W w op cx sl nx lg : new_log w (W (w_open w) (w_ctx w) (w_ssl w) (w_stray w) (w_log w) op cx sl nx lg) = lg.
Proof. unfold new_log, W; cbn [w_log]. rewrite skipn_app, skipn_all, Nat.sub_diag. reflexivity. Qed.

Lemma fd_p1 fd : (fd + 1 - 1)%Z = fd. Proof. lia. Qed.
Lemma fd_nz fd : (0 <= fd)%Z -> Z.eqb (fd + 1) 0 = false. Proof. lia. Qed.

Section C.
Variable issued : N -> N -> bool.
Variable MTU FRAG : nat.

(** ** Sessions *)

(** A client session: Init, then any calls. *)
Definition c_session cfg xnew certs y os w : Z * list (cop * (Z * option (list N))) * cctx * world :=
  match init_connect cfg xnew certs y w with
  | (rc, c, w) => match c_run issued MTU FRAG os c w with (tr, c, w) => (rc, tr, c, w) end
  end.
Definition s_session cfg sock nb bnd lst xnew certs os w : Z * list (sop * (Z * option (list N))) * sctx * world :=
  match init_listen cfg sock nb bnd lst xnew certs w with
  | (rc, c, w) => match s_run issued MTU FRAG os c w with (tr, c, w) => (rc, tr, c, w) end
  end.

Lemma c_session_inv cfg xnew certs y os w rc tr c w' : ids_ok w -> c_session cfg xnew certs y os w = (rc, tr, c, w') ->
  exists op cx sl nx lg,
    w' = W (w_open w) (w_ctx w) (w_ssl w) (w_stray w) (w_log w) op cx sl nx lg /\
    CI issued (w_open w) (w_ctx w) (w_ssl w) (w_next w) cfg c op cx sl nx lg /\
    got lg = msgs tr /\
    (Forall (fun x => (length x <= MTU)%nat) (recs_in lg) -> recs_in lg = got lg) /\
    (c_sends_ok FRAG Free tr -> recs_out lg = reqs_sent tr) /\
    (forall os0, os = os0 ++ [CClean] -> op = [] /\ cx = [] /\ sl = []).
Proof.
  intros (H1 & H2 & H3) H. unfold c_session in H.
  destruct (init_connect cfg xnew certs y w) as [[rc0 c0] w0] eqn:IN.
  rewrite (world_W w) in IN.
  destruct (ci_init issued (w_open w) (w_ctx w) (w_ssl w) (w_stray w) (w_log w) (w_next w) H1 H2 H3 cfg xnew certs y rc0 c0 w0 IN)
    as (op & cx & nx & lg & -> & I & G & RI & RO & _ & _).
  destruct (c_run issued MTU FRAG os c0 _) as [[tr1 c1] w1] eqn:RN. injection H as <- <- <- <-.
  destruct (run_CI issued MTU FRAG (w_open w) (w_ctx w) (w_ssl w) (w_stray w) (w_log w) (w_next w) H1 H2 H3 cfg os _ _ _ _ _ _ _ _ _ I RN)
    as (op' & cx' & sl' & nx' & ex & -> & I' & G' & N' & O' & C').
  exists op', cx', sl', nx', (lg ++ ex). conjs; auto.
  - now rewrite got_app, G, G'.
  - rewrite recs_in_app, got_app, RI, G. cbn [app]. intros F. apply N'; auto.
  - intros S. rewrite recs_out_app, RO. apply (O' Free); [reflexivity|exact S].
Qed.

Lemma s_session_inv cfg sock nb bnd lst xnew certs os w rc tr c w' : ids_ok w ->
  s_session cfg sock nb bnd lst xnew certs os w = (rc, tr, c, w') ->
  exists acc lis lk op cx sl nx lg,
    w' = W (w_open w) (w_ctx w) (w_ssl w) (w_stray w) (w_log w) op cx sl nx lg /\
    SI issued (w_open w) (w_ctx w) (w_ssl w) (w_next w) cfg c acc lis lk op cx sl nx lg /\
    got lg = msgs tr /\
    (Forall (fun x => (length x <= MTU)%nat) (recs_in lg) -> recs_in lg = got lg) /\
    (s_sends_ok FRAG Free tr -> recs_out lg = resps_sent tr) /\
    (forall os0, os = os0 ++ [SClean] -> op = lk /\ cx = [] /\ sl = []) /\
    (~ In SClean os -> rc = OK -> ups lg /\ cx <> []).
Proof.
  intros (H1 & H2 & H3) H. unfold s_session in H.
  destruct (init_listen cfg sock nb bnd lst xnew certs w) as [[rc0 c0] w0] eqn:IN.
  rewrite (world_W w) in IN.
  destruct (si_init issued (w_open w) (w_ctx w) (w_ssl w) (w_stray w) (w_log w) (w_next w) H1 H2 H3 cfg sock nb bnd lst xnew certs rc0 c0 w0 IN)
    as (lis & cx & nx & lg & -> & I & G & RI & RO & _ & UP).
  destruct (s_run issued MTU FRAG os c0 _) as [[tr1 c1] w1] eqn:RN. injection H as <- <- <- <-.
  destruct (run_SI issued MTU FRAG (w_open w) (w_ctx w) (w_ssl w) (w_stray w) (w_log w) (w_next w) H1 H2 H3 cfg os _ _ _ _ _ _ _ _ _ _ _ _ I RN)
    as (acc' & lis' & lk' & op' & cx' & sl' & nx' & ex & -> & I' & G' & N' & O' & C' & U').
  exists acc', lis', lk', op', cx', sl', nx', (lg ++ ex). conjs; auto.
  - now rewrite got_app, G, G'.
  - rewrite recs_in_app, got_app, RI, G. cbn [app]. intros F. apply N'; auto.
  - intros S. rewrite recs_out_app, RO. apply (O' Free); [reflexivity|exact S].
  - intros NI E. destruct (U' NI) as (U1 & _ & ->). destruct (UP E) as [U2 U3]. split; [|exact U2].
    unfold ups in *. rewrite told_app. apply Forall_app; auto.
Qed.

(** ** C82: nothing is left behind *)

(** A client session that ends with Cleanup, whatever happened in it, leaves the
    descriptors, contexts and TLS objects of the process as they were, and closes, frees
    and uses nothing that is not its own. *)
Theorem C82_client cfg xnew certs y os w rc tr c w' : ids_ok w ->
  c_session cfg xnew certs y (os ++ [CClean]) w = (rc, tr, c, w') -> nothing_left w w'.
Proof.
  intros IW H. destruct (c_session_inv _ _ _ _ _ _ _ _ _ _ IW H) as (op & cx & sl & nx & lg & -> & _ & _ & _ & _ & CL).
  destruct (CL os eq_refl) as (-> & -> & ->). repeat split.
Qed.

(** An Init that fails leaves nothing to clean up. *)
Theorem C82_client_init_fails cfg xnew certs y w rc c w' : ids_ok w ->
  init_connect cfg xnew certs y w = (rc, c, w') -> rc <> OK -> nothing_left w w'.
Proof.
  intros (H1 & H2 & H3) IN NE. rewrite (world_W w) in IN.
  destruct (ci_init issued (w_open w) (w_ctx w) (w_ssl w) (w_stray w) (w_log w) (w_next w) H1 H2 H3 cfg xnew certs y rc c w' IN)
    as (op & cx & nx & lg & -> & _ & _ & _ & _ & E & _).
  destruct (E NE) as [-> ->]. repeat split.
Qed.

Theorem C82_server_init_fails cfg sock nb bnd lst xnew certs w rc c w' : ids_ok w ->
  init_listen cfg sock nb bnd lst xnew certs w = (rc, c, w') -> rc <> OK -> nothing_left w w'.
Proof.
  intros (H1 & H2 & H3) IN NE. rewrite (world_W w) in IN.
  destruct (si_init issued (w_open w) (w_ctx w) (w_ssl w) (w_stray w) (w_log w) (w_next w) H1 H2 H3 cfg sock nb bnd lst xnew certs rc c w' IN)
    as (lis & cx & nx & lg & -> & _ & _ & _ & _ & E & _).
  destruct (E NE) as [-> ->]. repeat split.
Qed.

(** A server session that ends with Cleanup leaves at most one descriptor, that of a
    connection it had accepted.  (Full claim: none; see C82_accepted_refuted.) *)
Theorem C82_server_partial cfg sock nb bnd lst xnew certs os w rc tr c w' : ids_ok w ->
  s_session cfg sock nb bnd lst xnew certs (os ++ [SClean]) w = (rc, tr, c, w') ->
  w_ctx w' = w_ctx w /\ w_ssl w' = w_ssl w /\ w_stray w' = w_stray w /\
  (w_open w' = w_open w \/ exists fd p, w_open w' = (fd, Some p) :: w_open w /\ zget fd (w_open w) = None).
Proof.
  intros IW H. destruct (s_session_inv _ _ _ _ _ _ _ _ _ _ _ _ _ IW H)
    as (acc & lis & lk & op & cx & sl & nx & lg & -> & I & _ & _ & _ & CL & _).
  destruct (CL os eq_refl) as (-> & -> & ->). cbn [W w_ctx w_ssl w_stray w_open app]. conjs; auto.
  destruct (si_lk _ _ _ _ _ _ _ _ _ _ _ _ _ _ _ I) as [L F].
  destruct lk as [|[fd [p|]] [|]]; [auto| |cbn in L; lia| |cbn in L; lia].
  - right. exists fd, p. split; [reflexivity|].
    inversion F as [|? ? [_ Z] _]; subst. exact Z.
  - inversion F as [|? ? [Z _] _]; subst. cbn in Z. congruence.
Qed.

(** While the server runs, what it holds is exactly what its descriptor calls say: the
    listening socket, and an accepted connection with its TLS object or neither.  In
    particular an attempt to connect that failed left nothing. *)
Theorem C82_fds cfg sock nb bnd lst xnew certs os w tr c w' : ids_ok w -> ~ In SClean os ->
  s_session cfg sock nb bnd lst xnew certs os w = (OK, tr, c, w') ->
  exists lfd, get_listen_fd c = (OK, Some lfd) /\ zget lfd (w_open w) = None /\
    ((get_accept_fd c = (NOTREADY, None) /\
      w_open w' = (lfd, None) :: w_open w /\ w_ssl w' = w_ssl w) \/
     (exists fd p i s, get_accept_fd c = (OK, Some fd) /\ fd <> lfd /\ zget fd (w_open w) = None /\
      w_open w' = (fd, Some p) :: (lfd, None) :: w_open w /\ w_ssl w' = (i, s) :: w_ssl w /\ nget i (w_ssl w) = None)).
Proof.
  intros IW NI H. destruct (s_session_inv _ _ _ _ _ _ _ _ _ _ _ _ _ IW H)
    as (acc & lis & lk & op & cx & sl & nx & lg & -> & I & _ & _ & _ & _ & U).
  destruct (U NI eq_refl) as [_ CX].
  destruct (si_cx _ _ _ _ _ _ _ _ _ _ _ _ _ _ _ I) as [(_ & K & _)|(x & _ & _ & _ & -> & E1 & NL)]; [congruence|].
  destruct (si_lis _ _ _ _ _ _ _ _ _ _ _ _ _ _ _ I) as [[_ K]|(lfd & E2 & P2 & -> & _ & F2)]; [congruence|].
  exists lfd. unfold get_listen_fd, get_accept_fd. rewrite E1, E2, fd_p1, (fd_nz lfd P2). cbn [negb].
  conjs; auto.
  pose proof (si_op _ _ _ _ _ _ _ _ _ _ _ _ _ _ _ I) as EO.
  destruct (si_acc _ _ _ _ _ _ _ _ _ _ _ _ _ _ _ I) as [(E3 & -> & LS)|(fd & p & i & E3 & P3 & -> & LS & F3 & F4)].
  - left. rewrite E3. subst op. cbn [Z.eqb negb]. assert (ES : sl = []) by (eapply si_none; [exact I|exact LS]). rewrite ES.
    repeat split.
  - right. destruct (si_live _ _ _ _ _ _ _ _ _ _ _ _ _ _ _ I) as [[K _]|(j & s & K & -> & NS & _)]; [congruence|].
    exists fd, p, j, s. rewrite E3, fd_p1, (fd_nz fd P3). subst op. cbn [negb]. conjs; auto.
    intros ->. cbn in F3. rewrite Z.eqb_refl in F3. discriminate.
Qed.

(** ** C83: who the messages come from, and what becomes of them *)

Lemma lets_in_authentic cfg srv m p : (m = VPeerCert \/ (m = VPeer /\ srv = false)) ->
  lets_in issued srv (mkTctx m (g_ca cfg) (g_psk cfg)) p = true -> authentic issued cfg p.
Proof.
  intros M H. unfold lets_in in H. cbn [x_psk x_mode] in H. apply orb_true_iff in H as [H|H].
  - apply andb_true_iff in H. right. exact H.
  - left. destruct M as [->|[-> ->]]; unfold cert_ok in H; cbn [x_ca] in H;
      destruct (g_ca cfg) as [a|]; try discriminate; destruct (p_cert p) as [b|]; try discriminate; exists a, b; auto.
Qed.
Lemma logs_one T srv O0 op cx sl lg : logs issued O0 T srv op cx sl lg -> one_source lg.
Proof.
  intros (_ & q & B & _) i p d j r e H1 H2. apply B in H1, H2. rewrite H1 in H2. injection H2 as -> ->. auto.
Qed.

(** With verification on, every message handed to the client was read from a peer whose
    certificate verifies against the configured CA, or which holds the pre-shared key; all
    of them come from one peer, over one TLS connection. *)
Theorem C83_client_authentic cfg xnew certs y os w rc tr c w' : ids_ok w -> g_noverify cfg = false ->
  c_session cfg xnew certs y os w = (rc, tr, c, w') ->
  got (new_log w w') = msgs tr /\ one_source (new_log w w') /\
  (forall i p d, In (Got i p d) (new_log w w') -> authentic issued cfg p).
Proof.
  intros IW V H. destruct (c_session_inv _ _ _ _ _ _ _ _ _ _ IW H) as (op & cx & sl & nx & lg & -> & I & G & _).
  rewrite new_log_W. pose proof (ci_log _ _ _ _ _ _ _ _ _ _ _ _ I) as L. conjs; [exact G|eapply logs_one; exact L|].
  intros i p d K. destruct L as [L _]. apply L in K. unfold cset in K. rewrite V in K.
  revert K. apply lets_in_authentic. auto.
Qed.
Theorem C83_server_authentic cfg sock nb bnd lst xnew certs os w rc tr c w' : ids_ok w -> g_noverify cfg = false ->
  s_session cfg sock nb bnd lst xnew certs os w = (rc, tr, c, w') ->
  got (new_log w w') = msgs tr /\ one_source (new_log w w') /\
  (forall i p d, In (Got i p d) (new_log w w') -> authentic issued cfg p).
Proof.
  intros IW V H. destruct (s_session_inv _ _ _ _ _ _ _ _ _ _ _ _ _ IW H)
    as (acc & lis & lk & op & cx & sl & nx & lg & -> & I & G & _).
  rewrite new_log_W. pose proof (si_log _ _ _ _ _ _ _ _ _ _ _ _ _ _ _ I) as L. conjs; [exact G|eapply logs_one; exact L|].
  intros i p d K. destruct L as [L _]. apply L in K. unfold sset in K. rewrite V in K.
  revert K. apply lets_in_authentic. auto.
Qed.


Lemma c_sends_mono m m' tr : (m <= m')%nat -> forall t, c_sends_ok m t tr -> c_sends_ok m' t tr.
Proof.
  intros L. induction tr as [|[o [rc x]] tr IH]; [auto|]. intros t H. destruct o; cbn [c_sends_ok] in *; auto.
  destruct H as (A & B & C). conjs; auto. lia.
Qed.
Lemma s_sends_mono m m' tr : (m <= m')%nat -> forall t, s_sends_ok m t tr -> s_sends_ok m' t tr.
Proof.
  intros L. induction tr as [|[o [rc x]] tr IH]; [auto|]. intros t H. destruct o; cbn [s_sends_ok] in *; auto.
  destruct H as (A & B & C). conjs; auto. lia.
Qed.
Lemma reqs_len m tr : forall t, c_sends_ok m t tr -> Forall (fun d => (length d <= m)%nat) (reqs_sent tr).
Proof.
  induction tr as [|[o [rc x]] tr IH]; [constructor|]. intros t H.
  change (reqs_sent ((o, (rc, x)) :: tr)) with
    ((match o with CSend _ _ _ _ _ d => if is_ok rc then [d] else [] | _ => [] end) ++ reqs_sent tr).
  destruct o; cbn [c_sends_ok] in H; cbn [app]; eauto. destruct H as (A & B & C).
  apply Forall_app. split; [destruct (is_ok rc); auto|eauto].
Qed.
Lemma resps_len m tr : forall t, s_sends_ok m t tr -> Forall (fun d => (length d <= m)%nat) (resps_sent tr).
Proof.
  induction tr as [|[o [rc x]] tr IH]; [constructor|]. intros t H.
  change (resps_sent ((o, (rc, x)) :: tr)) with
    ((match o with SSend _ _ d => if is_ok rc then [d] else [] | _ => [] end) ++ resps_sent tr).
  destruct o; cbn [s_sends_ok] in H; cbn [app]; eauto. destruct H as (A & B & C).
  apply Forall_app. split; [destruct (is_ok rc); auto|eauto].
Qed.
Lemma prefix_Forall {A} (P : A -> Prop) a b : prefix a b -> Forall P b -> Forall P a.
Proof. intros [r ->] H. apply Forall_app in H. tauto. Qed.

(** What the server is handed are the requests the client was told are sent, in order,
    none changed, cut, joined, lost or repeated, as long as the TLS channel is one (what
    the server reads is what the client wrote, so far), a request that was not ready is
    repeated with the same message and messages fit in one record. *)
Theorem C83_requests_intact ccfg cx1 cx2 y cos w1 rc1 ctr c w1' cfg sock nb bnd lst xnew certs sos w2 rc2 str s w2' :
  ids_ok w1 -> c_session ccfg cx1 cx2 y cos w1 = (rc1, ctr, c, w1') ->
  ids_ok w2 -> s_session cfg sock nb bnd lst xnew certs sos w2 = (rc2, str, s, w2') ->
  c_sends_ok (Nat.min MTU FRAG) Free ctr ->
  prefix (recs_in (new_log w2 w2')) (recs_out (new_log w1 w1')) ->
  prefix (msgs str) (reqs_sent ctr).
Proof.
  intros I1 H1 I2 H2 SO PF.
  destruct (c_session_inv _ _ _ _ _ _ _ _ _ _ I1 H1) as (op & cx & sl & nx & lg & -> & _ & _ & _ & O & _).
  destruct (s_session_inv _ _ _ _ _ _ _ _ _ _ _ _ _ I2 H2)
    as (acc & lis & lk & op2 & xx & sl2 & nx2 & lg2 & -> & _ & G & R & _).
  rewrite !new_log_W in PF. rewrite O in PF by (eapply c_sends_mono; [|exact SO]; lia).
  rewrite <- G, <- R; [exact PF|]. eapply prefix_Forall; [exact PF|].
  eapply Forall_impl; [|eapply reqs_len; exact SO]. cbn. intros. lia.
Qed.
Theorem C83_responses_intact ccfg cx1 cx2 y cos w1 rc1 ctr c w1' cfg sock nb bnd lst xnew certs sos w2 rc2 str s w2' :
  ids_ok w1 -> c_session ccfg cx1 cx2 y cos w1 = (rc1, ctr, c, w1') ->
  ids_ok w2 -> s_session cfg sock nb bnd lst xnew certs sos w2 = (rc2, str, s, w2') ->
  s_sends_ok (Nat.min MTU FRAG) Free str ->
  prefix (recs_in (new_log w1 w1')) (recs_out (new_log w2 w2')) ->
  prefix (msgs ctr) (resps_sent str).
Proof.
  intros I1 H1 I2 H2 SO PF.
  destruct (c_session_inv _ _ _ _ _ _ _ _ _ _ I1 H1) as (op & cx & sl & nx & lg & -> & _ & G & R & _ & _).
  destruct (s_session_inv _ _ _ _ _ _ _ _ _ _ _ _ _ I2 H2)
    as (acc & lis & lk & op2 & xx & sl2 & nx2 & lg2 & -> & _ & _ & _ & O & _).
  rewrite !new_log_W in PF. rewrite O in PF by (eapply s_sends_mono; [|exact SO]; lia).
  rewrite <- G, <- R; [exact PF|]. eapply prefix_Forall; [exact PF|].
  eapply Forall_impl; [|eapply resps_len; exact SO]. cbn. intros. lia.
Qed.

(** ** C84: when the peer is gone *)

(** The TLS transport of a server that is not cleaned up never tells that a client is
    gone, whatever the library reports: who was logged in stays logged in. *)
Theorem C84_tls_not_told cfg sock nb bnd lst xnew certs os w tr c w' out reset u : ids_ok w -> ~ In SClean os ->
  s_session cfg sock nb bnd lst xnew certs os w = (OK, tr, c, w') ->
  ~ In false (told (new_log w w')) /\ user_after (told (new_log w w')) out reset u = u.
Proof.
  intros IW NI H. destruct (s_session_inv _ _ _ _ _ _ _ _ _ _ _ _ _ IW H)
    as (acc & lis & lk & op & cx & sl & nx & lg & -> & _ & _ & _ & _ & _ & U).
  destruct (U NI eq_refl) as [UP _]. rewrite new_log_W. unfold ups in UP. split.
  - intros K. rewrite Forall_forall in UP. apply UP in K. discriminate.
  - unfold user_after. induction UP as [|b l E F IH]; [reflexivity|]. subst b. exact IH.
Qed.

(** Once a connection is accepted the server stays with it until it is cleaned up. *)
Lemma shake_open i a w r w' : shake issued i a w = (r, w') -> w_open w' = w_open w.
Proof.
  unfold shake. destruct (nget i (w_ssl w)) as [s|]; [|intros H; injection H as _ <-; reflexivity].
  destruct (s_done s); [intros H; injection H as _ <-; reflexivity|].
  destruct a; try (intros H; injection H as _ <-; reflexivity).
  destruct (end_of s w); [|intros H; injection H as _ <-; reflexivity].
  destruct (lets_in issued (s_srv s) (s_set s) p); intros H; injection H as _ <-; reflexivity.
Qed.
Lemma read_open i h a w r w' : lib_read issued MTU i h a w = (r, w') -> w_open w' = w_open w.
Proof.
  unfold lib_read. destruct (shake issued i h w) as [hr w0] eqn:E. apply shake_open in E.
  destruct hr; try (intros H; injection H as _ <-; exact E).
  destruct (nget i (w_ssl w0)) as [s|]; [|intros H; injection H as _ <-; exact E].
  destruct (s_left s); [|intros H; injection H as _ <-; exact E].
  destruct a as [[|x r0]| |]; intros H; injection H as _ <-; exact E.
Qed.
Lemma recs_open i rs : forall w, w_open (w_recs i rs w) = w_open w.
Proof. induction rs as [|r rs IH]; intros w; [reflexivity|]. cbn [w_recs fold_left]. apply (IH (w_say w (RecOut i r))). Qed.
Lemma write_open i h a d w r w' : lib_write issued FRAG i h a d w = (r, w') -> w_open w' = w_open w.
Proof.
  unfold lib_write. destruct (shake issued i h w) as [hr w0] eqn:E. apply shake_open in E.
  destruct hr; try (intros H; injection H as _ <-; exact E).
  destruct (nget i (w_ssl w0)) as [s|]; [|intros H; injection H as _ <-; exact E].
  destruct (s_pend s) as [e|], a; cbn zeta; try (intros H; injection H as _ <-; try rewrite recs_open; exact E).
  destruct (length d <? length e)%nat; intros H; injection H as _ <-; rewrite recs_open; exact E.
Qed.
Lemma s_step_stuck o c w r c' w' : o <> SClean -> l_afd1 c <> 0%Z -> s_step issued MTU FRAG o c w = (r, c', w') ->
  c' = c /\ w_open w' = w_open w.
Proof.
  intros NC NA. destruct o as [ac nb n st h h2 a|h a d|]; [| |congruence]; cbn [s_step].
  - unfold recv_request. apply Z.eqb_neq in NA. rewrite NA. cbn [negb].
    destruct (l_ssl c) as [i|]; [|intros H; injection H as <- <- <-; auto].
    destruct (lib_read issued MTU i h2 a w) as [[x d] w0] eqn:E. apply read_open in E.
    destruct x; try (intros H; injection H as <- <- <-; auto).
    destruct (nget i (w_ssl w0)) as [s|]; [destruct (end_of s w0)|]; intros H; injection H as <- <- <-; auto.
  - unfold send_response. destruct (length d =? 0)%nat; [intros H; injection H as <- <- <-; auto|].
    destruct (l_ssl c) as [i|]; [|intros H; injection H as <- <- <-; auto].
    destruct (lib_write issued FRAG i h a d w) as [x w0] eqn:E. apply write_open in E.
    destruct x; intros H; injection H as <- <- <-; auto.
Qed.
Theorem C84_stuck os : forall c w tr c' w' fd, ~ In SClean os -> get_accept_fd c = (OK, Some fd) ->
  s_run issued MTU FRAG os c w = (tr, c', w') -> get_accept_fd c' = (OK, Some fd) /\ w_open w' = w_open w.
Proof.
  induction os as [|o os IH]; intros c w tr c' w' fd NI A H; cbn [s_run] in H.
  - injection H as _ <- <-. auto.
  - destruct (s_step issued MTU FRAG o c w) as [[r c1] w1] eqn:E.
    destruct (s_run issued MTU FRAG os c1 w1) as [[tr1 c2] w2] eqn:R. injection H as _ <- <-.
    apply s_step_stuck in E as [-> E]; [| |].
    + destruct (IH _ _ _ _ _ fd (fun K => NI (or_intror K)) A R) as [A' O']. split; [exact A'|congruence].
    + intros ->. apply NI. now left.
    + intros K. unfold get_accept_fd in A. rewrite K in A. discriminate.
Qed.

(** Cleaning up tells, and the server logs out whoever was logged in, whatever the
    logout itself answers. *)
Lemma user_logged_out tl out u : user_after (tl ++ [false]) out OK u = None.
Proof.
  unfold user_after. rewrite fold_left_app. cbn [fold_left].
  set (v := fold_left _ tl u). destruct v; reflexivity.
Qed.
Lemma s_step_cb o c w r c' w' : s_step issued MTU FRAG o c w = (r, c', w') -> lt_cb c' = lt_cb c.
Proof.
  destruct o as [ac nb n st h h2 a|h a d|]; cbn [s_step].
  - unfold recv_request.
    match goal with |- match ?m with _ => _ end = _ -> _ => destruct m as [[o1 c1] w1] eqn:E end.
    assert (E1 : lt_cb c1 = lt_cb c).
    { revert E. destruct (negb (Z.eqb (l_afd1 c) 0)); [intros H; injection H as _ <- _; reflexivity|].
      destruct (zget (l_fd1 c - 1) (w_open w)); [|intros H; injection H as _ <- _; reflexivity].
      destruct ac as [| |fd p]; try (intros H; injection H as _ <- _; reflexivity).
      destruct (os_new fd (Some p) w) as [w2|]; [|intros H; injection H as _ <- _; reflexivity].
      destruct (negb nb); [intros H; injection H as _ <- _; reflexivity|].
      destruct (ssl_new (l_ctx c) true n w2) as [[i|] w3]; [|intros H; injection H as _ <- _; reflexivity].
      destruct (negb st); [intros H; injection H as _ <- _; reflexivity|].
      destruct (shake issued i h (ssl_fd i fd w3)) as [x w4].
      destruct x; intros H; injection H as _ <- _; reflexivity. }
    destruct o1 as [rc|]; [intros H; injection H as _ <- _; exact E1|].
    destruct (l_ssl c1) as [i|]; [|intros H; injection H as _ <- _; exact E1].
    destruct (lib_read issued MTU i h2 a w1) as [[x d] w2].
    destruct x; try (intros H; injection H as _ <- _; exact E1).
    destruct (nget i (w_ssl w2)) as [s|]; [destruct (end_of s w2)|]; intros H; injection H as _ <- _; exact E1.
  - unfold send_response. destruct (length d =? 0)%nat; [intros H; injection H as _ <- _; reflexivity|].
    destruct (l_ssl c) as [i|]; [|intros H; injection H as _ <- _; reflexivity].
    destruct (lib_write issued FRAG i h a d w) as [x w2]. destruct x; intros H; injection H as _ <- _; reflexivity.
  - unfold cleanup_listen, tcp_cleanup_listen.
    destruct c as [? ? ? [?|] [?|] ? ? ?]; cbn; intros H; injection H as _ <- _; reflexivity.
Qed.
Lemma s_run_cb os : forall c w tr c' w', s_run issued MTU FRAG os c w = (tr, c', w') -> lt_cb c' = lt_cb c.
Proof.
  induction os as [|o os IH]; intros c w tr c' w' H; cbn [s_run] in H; [injection H as _ <- _; reflexivity|].
  destruct (s_step issued MTU FRAG o c w) as [[r c1] w1] eqn:E.
  destruct (s_run issued MTU FRAG os c1 w1) as [[tr1 c2] w2] eqn:R. injection H as _ <- _.
  apply s_step_cb in E. apply IH in R. congruence.
Qed.
Lemma s_run_app a b : forall c w tr c' w', s_run issued MTU FRAG (a ++ b) c w = (tr, c', w') ->
  exists t1 c1 w1 t2, s_run issued MTU FRAG a c w = (t1, c1, w1) /\ s_run issued MTU FRAG b c1 w1 = (t2, c', w') /\ tr = t1 ++ t2.
Proof.
  induction a as [|o a IH]; intros c w tr c' w' H; cbn [app s_run] in *.
  - exists [], c, w, tr. auto.
  - destruct (s_step issued MTU FRAG o c w) as [[r c1] w1].
    destruct (s_run issued MTU FRAG (a ++ b) c1 w1) as [[tr1 c2] w2] eqn:R. injection H as <- <- <-.
    destruct (IH _ _ _ _ _ R) as (t1 & c3 & w3 & t2 & -> & R2 & ->). exists ((o, r) :: t1), c3, w3, t2. auto.
Qed.
Lemma init_cb cfg sock nb bnd lst xnew certs w c w' : init_listen cfg sock nb bnd lst xnew certs w = (OK, c, w') -> lt_cb c = true.
Proof.
  unfold init_listen. destruct (tcp_init_listen cfg sock nb bnd lst sctx0 w) as [[rc c0] w0] eqn:E.
  destruct (negb (is_ok rc)) eqn:K; [intros H; injection H as -> _ _; discriminate|].
  assert (E1 : lt_cb c0 = true).
  { revert E. unfold tcp_init_listen. destruct (negb (g_ip_ok cfg)); [intros H; injection H as <- _ _; discriminate|].
    destruct (os_new sock None w); [|intros H; injection H as <- _ _; discriminate].
    destruct (Z.leb sock 2); [intros H; injection H as <- _ _; discriminate|].
    destruct (negb nb || negb bnd || negb lst); intros H; injection H as <- <- _; [discriminate|reflexivity]. }
  destruct (negb xnew); [intros H; cbn in H; injection H as K2; discriminate|].
  destruct (load_certs certs cfg true (tctx_new true)) as [r t].
  destruct (negb (is_ok r)) eqn:K2; [intros H; cbn in H; injection H as -> _ _; discriminate|].
  intros H; injection H as <- _. exact E1.
Qed.
Theorem C84_cleanup_logs_out cfg sock nb bnd lst xnew certs os w tr c w' out u : ids_ok w ->
  s_session cfg sock nb bnd lst xnew certs (os ++ [SClean]) w = (OK, tr, c, w') ->
  (exists l, told (new_log w w') = l ++ [false]) /\ user_after (told (new_log w w')) out OK u = None.
Proof.
  intros IW H. unfold s_session in H.
  destruct (init_listen cfg sock nb bnd lst xnew certs w) as [[rc0 c0] w0] eqn:IN.
  destruct (s_run issued MTU FRAG (os ++ [SClean]) c0 w0) as [[tr1 c1] w1] eqn:R. injection H as -> _ _ <-.
  apply s_run_app in R as (t1 & c2 & w2 & t2 & R1 & R2 & _).
  pose proof (init_cb _ _ _ _ _ _ _ _ _ _ IN) as CB. pose proof (s_run_cb _ _ _ _ _ _ R1) as CB2. rewrite CB in CB2.
  assert (S2 : s_session cfg sock nb bnd lst xnew certs os w = (OK, t1, c2, w2)) by (unfold s_session; now rewrite IN, R1).
  destruct (s_session_inv _ _ _ _ _ _ _ _ _ _ _ _ _ IW S2)
    as (acc & lis & lk & op & cx & sl & nx & lg & E & _).
  assert (L : w_log w1 = w_log w2 ++ [Told false]).
  { revert R2. cbn [s_run s_step]. unfold cleanup_listen, tcp_cleanup_listen.
    destruct c2 as [a1 a2 a3 a4 a5 a6 a7 a8]; cbn [lt_cb] in CB2; subst a6. destruct a4, a5;
      cbn [l_with_ctx l_with_ssl l_with_tcp l_cb l_fd1 l_afd1 l_ctx l_ssl lt_cb lt_afd1 lt_fd1];
    destruct (Z.eqb a8 0), (Z.eqb a7 0); intros H; injection H as _ _ <-;
    unfold os_close, ctx_free, ssl_free;
    repeat (match goal with |- context [match ?m with _ => _ end] => destruct m end); reflexivity. }
  assert (N : told (new_log w w1) = told lg ++ [false]).
  { unfold new_log. rewrite L, E. cbn [W w_log]. rewrite <- app_assoc, skipn_app, skipn_all, Nat.sub_diag. cbn [app skipn].
    now rewrite told_app. }
  rewrite N. split; [now exists (told lg)|apply user_logged_out].
Qed.

End C.

Open Scope N_scope.

(** ** Scenarios *)

Definition iss (ca c : N) : bool := N.eqb ca 1 && N.eqb c 7.
Definition cfg1 : tlscfg := mkCfg true false (Some 1) false.
Definition alice : peer := mkPeer 1 (Some 7) false.
Definition mallory : peer := mkPeer 2 (Some 8) false.
Definition nobody : peer := mkPeer 3 None false.
Definition to (p : peer) : sysans := mkSys 5 true CnOk PoOut p.
Definition say (d : list N) : cop := CSend (to alice) true true LOk WrOk d.
Definition wait_for (p : peer) (a : rdans) : sop := SRecv (AcFd 9 p) true true true LOk LOk a.
Definition hear (a : rdans) : sop := SRecv AcAgain true true true LOk LOk a.
Definition busy_world : world := mkWorld [(3%Z, None); (4%Z, Some nobody)] [(0%nat, tctx_new true)] [] 1 false [].

Example busy_world_ok : ids_ok busy_world.
Proof.
  unfold ids_ok, busy_world. cbn [w_open w_ctx w_ssl w_next]. conjs.
  - intros fd p. cbn. destruct (Z.eqb_spec fd 3); [lia|]. destruct (Z.eqb_spec fd 4); [lia|discriminate].
  - intros i x. cbn. destruct (Nat.eqb_spec i 0); [lia|discriminate].
  - discriminate.
Qed.
Lemma world0_ok : ids_ok world0.
Proof. unfold ids_ok; cbn. conjs; discriminate. Qed.

(** A client that connects, talks, is answered, and is cleaned up. *)
Example C82_client_meets : let r := c_session iss 1288 4096 cfg1 true true (to alice)
    [say [1;2;3]; CRecv LOk (RdRec [9;9]); CRecv LOk RdFatal; CClean] busy_world in
  fst (fst r) = (OK, [(say [1;2;3], (OK, None)); (CRecv LOk (RdRec [9;9]), (OK, Some [9;9]));
                      (CRecv LOk RdFatal, (ABORTED, None)); (CClean, (OK, None))]) /\
  w_open (snd r) = w_open busy_world /\
  new_log busy_world (snd r) = [Told true; RecOut 2 [1;2;3]; RecIn 2 [9;9]; Got 2 alice [9;9]; Told false].
Proof. vm_compute. auto. Qed.
(** A peer with another certificate is not talked to. *)
Example C83_mallory : let r := c_session iss 1288 4096 cfg1 true true (to mallory)
    [CSend (to mallory) true true LOk WrOk [1;2;3]; CRecv LOk (RdRec [9;9]); CClean] busy_world in
  msgs (snd (fst (fst r))) = [] /\ recs_out (new_log busy_world (snd r)) = [] /\ w_open (snd r) = w_open busy_world.
Proof. vm_compute. auto. Qed.
Example C83_nobody : let r := s_session iss 1288 4096 cfg1 6 true true true true true
    [wait_for nobody (RdRec [1;2;3]); wait_for mallory (RdRec [1;2;3]); wait_for alice (RdRec [4])] busy_world in
  map snd (snd (fst (fst r))) = [(ABORTED, None); (ABORTED, None); (OK, Some [4])] /\
  w_open (snd r) = (9%Z, Some alice) :: (6%Z, None) :: w_open busy_world.
Proof. vm_compute. auto. Qed.
Example C82_init_fails_meets :
  (fst (fst (init_connect cfg1 true false (to alice) busy_world)) <> OK) /\
  (fst (fst (init_listen cfg1 6 true true true true false busy_world)) <> OK).
Proof. vm_compute. split; discriminate. Qed.
Example C83_intact_meets :
  let r := c_session iss 1288 4096 cfg1 true true (to alice)
    [CSend (to alice) true true LOk WrWant [1;2;3]; CSend (to alice) true true LOk WrOk [1;2;3]; say [4;5];
     CRecv LOk (RdRec [7])] world0 in
  let q := s_session iss 1288 4096 cfg1 6 true true true true true
    [wait_for alice (RdRec [1;2;3]); SSend LOk WrOk [7]; hear (RdRec [4;5])] world0 in
  reqs_sent (snd (fst (fst r))) = [[1;2;3]; [4;5]] /\ msgs (snd (fst (fst q))) = [[1;2;3]; [4;5]] /\
  resps_sent (snd (fst (fst q))) = [[7]] /\ msgs (snd (fst (fst r))) = [[7]] /\
  recs_in (new_log world0 (snd q)) = recs_out (new_log world0 (snd r)) /\
  recs_in (new_log world0 (snd r)) = recs_out (new_log world0 (snd q)) /\
  c_sends_ok (Nat.min 1288 4096) Free (snd (fst (fst r))) /\ s_sends_ok (Nat.min 1288 4096) Free (snd (fst (fst q))).
Proof.
  cbv zeta. conjs; try reflexivity.
  - assert (K : (Nat.leb 3 (Nat.min 1288 4096) = true)) by reflexivity. apply Nat.leb_le in K.
    remember (Nat.min 1288 4096) as m eqn:E. clear E. cbn. conjs; auto; lia.
  - assert (K : (Nat.leb 3 (Nat.min 1288 4096) = true)) by reflexivity. apply Nat.leb_le in K.
    remember (Nat.min 1288 4096) as m eqn:E. clear E. cbn. conjs; auto; lia.
Qed.

(** The full C82 for the server is false: the accepted socket stays open after Cleanup
    (the descriptor is in the TLS context, and Cleanup hands the TCP context, whose own
    field is 0, to the TCP clean-up), and so one descriptor is lost per session. *)
Theorem C82_accepted_refuted : exists issued cfg sock os w tr c w',
  ids_ok w /\ s_session issued 1288 4096 cfg sock true true true true true (os ++ [SClean]) w = (OK, tr, c, w') /\
  w_open w = [] /\ w_open w' = [(9%Z, Some alice)].
Proof.
  exists iss, cfg1, 6%Z, [wait_for alice (RdRec [1]); hear RdFatal], world0.
  eexists _, _, _. split; [exact world0_ok|]. split; [vm_compute; reflexivity|]. vm_compute. auto.
Qed.

(** After an InitListen that failed on the certificates, GetListenFd still answers with
    the descriptor that was closed. *)
Theorem C82_stale_fd_refuted : exists cfg sock w rc c w',
  ids_ok w /\ init_listen cfg sock true true true true false w = (rc, c, w') /\ rc <> OK /\
  get_listen_fd c = (OK, Some sock) /\ zget sock (w_open w') = None.
Proof.
  exists cfg1, 6%Z, world0. eexists _, _, _. split; [exact world0_ok|]. split; [vm_compute; reflexivity|].
  vm_compute. conjs; auto. discriminate.
Qed.

(** Without the rule for repeating, a request reported as sent may not be what is sent. *)
Theorem C83_not_repeated_refuted : exists issued cfg y os tr c w',
  c_session issued 1288 4096 cfg true true y os world0 = (OK, tr, c, w') /\
  reqs_sent tr = [[2;2]] /\ recs_out (new_log world0 w') = [[1;1]].
Proof.
  exists iss, cfg1, (to alice), [CSend (to alice) true true LOk WrWant [1;1]; say [2;2]].
  eexists _, _, _. split; [vm_compute; reflexivity|]. vm_compute. auto.
Qed.

(** With messages larger than the library's fragment, one request arrives as two. *)
Theorem C83_long_refuted : exists issued cfg y cos sos ctr c w1 str s w2,
  c_session issued 3 2 cfg true true y cos world0 = (OK, ctr, c, w1) /\
  s_session issued 3 2 cfg 6 true true true true true sos world0 = (OK, str, s, w2) /\
  recs_in (new_log world0 w2) = recs_out (new_log world0 w1) /\
  reqs_sent ctr = [[1;2;3]] /\ msgs str = [[1;2];[3]].
Proof.
  exists iss, cfg1, (to alice), [say [1;2;3]], [wait_for alice (RdRec [1;2]); hear (RdRec [3])].
  eexists _, _, _, _, _, _. split; [vm_compute; reflexivity|]. split; [vm_compute; reflexivity|]. vm_compute. auto.
Qed.

(** The connection breaks: RecvRequest fails again and again, nobody is told, the user
    stays logged in, and the client that comes back is not accepted. *)
Theorem C84_tls_drop_refuted : exists issued cfg os tr c w',
  s_session issued 1288 4096 cfg 6 true true true true true os world0 = (OK, tr, c, w') /\
  map snd tr = [(OK, Some [1]); (ABORTED, None); (ABORTED, None)] /\
  (forall out reset, user_after (told (new_log world0 w')) out reset (Some 5) = Some 5) /\
  w_open w' = [(9%Z, Some alice); (6%Z, None)].
Proof.
  exists iss, cfg1, [wait_for alice (RdRec [1]); hear RdFatal; wait_for (mkPeer 4 (Some 7) false) RdFatal].
  eexists _, _, _. split; [vm_compute; reflexivity|]. vm_compute. auto.
Qed.
Example C84_stuck_meets : let r := s_session iss 1288 4096 cfg1 6 true true true true true [wait_for alice (RdRec [1])] world0 in
  get_accept_fd (snd (fst r)) = (OK, Some 9%Z).
Proof. reflexivity. Qed.

(** TCP: when the client closes its end at a message boundary (or within a length), the
    server's RecvRequest answers NOTREADY for ever, and tells nobody. *)
Theorem C84_tcp_eof_refuted M acc k1 r2 cap c out reset u :
  TcpModel.up c = true -> TcpModel.busy c = false -> TcpModel.dead c = false ->
  (TcpModel.x_off c < 4)%nat -> length (TcpModel.x_buf c) = TcpModel.BUF M ->
  TcpModel.server_recv M acc (TcpModel.Upto k1) r2 cap [] c = Some (NOTREADY, c, [], None) /\
  user_after (tcp_tells NOTREADY) out reset u = u.
Proof.
  intros U B D O L. split; [|reflexivity]. unfold TcpModel.server_recv. rewrite U, B. cbn [orb negb].
  unfold TcpModel.sysd. rewrite D. unfold TcpModel.tcp_recv.
  assert (K : (4 <= TcpModel.BUF M)%nat) by (unfold TcpModel.BUF; lia).
  assert (E : (TcpModel.BUF M <? TcpModel.x_off c)%nat = false) by (apply Nat.ltb_ge; lia).
  rewrite E. assert (O' := O). apply Nat.ltb_lt in O'. rewrite O'. rewrite firstn_nil. cbv zeta.
  unfold TcpModel.blit. cbn [length]. rewrite !Nat.add_0_r.
  assert (E2 : (TcpModel.x_off c <=? length (TcpModel.x_buf c))%nat = true) by (apply Nat.leb_le; lia).
  rewrite E2. cbn [app skipn]. rewrite firstn_skipn. unfold TcpModel.tcp_recv2. rewrite O'.
  destruct c as [off buf b0 u0 d0]. cbn in *. subst. reflexivity.
Qed.

(** A connection reset is told, and logs out whoever was logged in. *)
Theorem C84_tcp_reset M acc r2 cap avail c out u :
  TcpModel.up c = true -> TcpModel.busy c = false -> (TcpModel.x_off c < 4)%nat ->
  exists rc c', TcpModel.server_recv M acc TcpModel.Fatal r2 cap avail c = Some (rc, c', avail, None) /\
    rc = ABORTED /\ user_after (tcp_tells rc) out OK u = None.
Proof.
  intros U B O. unfold TcpModel.server_recv. rewrite U, B. cbn [orb negb].
  assert (S1 : TcpModel.sysd c TcpModel.Fatal = TcpModel.Fatal) by (unfold TcpModel.sysd; destruct (TcpModel.dead c); reflexivity).
  rewrite S1. unfold TcpModel.tcp_recv.
  assert (K : (4 <= TcpModel.BUF M)%nat) by (unfold TcpModel.BUF; lia).
  assert (E : (TcpModel.BUF M <? TcpModel.x_off c)%nat = false) by (apply Nat.ltb_ge; lia).
  rewrite E. apply Nat.ltb_lt in O. rewrite O. cbn [Z.eqb ABORTED NOTREADY].
  eexists _, _. split; [reflexivity|]. split; [reflexivity|]. apply (user_logged_out []).
Qed.
Example C84_tcp_meets M : let c := TcpModel.mkX 0 (repeat 0%N (TcpModel.BUF M)) false true false in
  TcpModel.up c = true /\ TcpModel.busy c = false /\ TcpModel.dead c = false /\
  (TcpModel.x_off c < 4)%nat /\ length (TcpModel.x_buf c) = TcpModel.BUF M.
Proof. cbv zeta. cbn [TcpModel.up TcpModel.busy TcpModel.dead TcpModel.x_off TcpModel.x_buf]. conjs; try reflexivity; try lia; apply repeat_length. Qed.

Print Assumptions C82_client.
Print Assumptions C82_client_init_fails.
Print Assumptions C82_server_init_fails.
Print Assumptions C82_server_partial.
Print Assumptions C82_fds.
Print Assumptions C82_accepted_refuted.
Print Assumptions C82_stale_fd_refuted.
Print Assumptions C83_client_authentic.
Print Assumptions C83_server_authentic.
Print Assumptions C83_requests_intact.
Print Assumptions C83_responses_intact.
Print Assumptions C83_not_repeated_refuted.
Print Assumptions C83_long_refuted.
Print Assumptions C84_tls_not_told.
Print Assumptions C84_stuck.
Print Assumptions C84_cleanup_logs_out.
Print Assumptions C84_tls_drop_refuted.
Print Assumptions C84_tcp_eof_refuted.
Print Assumptions C84_tcp_reset.
