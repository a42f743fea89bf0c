(** Proofs about the server's request loop. *)
From Verif Require Import Base BaseLemmas EndianModel EndianProof TimeoutModel CommModel CommProof ServerModel.
Local Open Scope N_scope.
Ltac inj4 := let E := fresh in let E2 := fresh in let E3 := fresh in let E4 := fresh in
  intros E; apply pair_equal_spec in E as [E E4]; apply pair_equal_spec in E as [E E3];
  apply pair_equal_spec in E as [E E2]; subst.

Lemma translate16_invol magic v : v < 65536 -> translate 2 magic (translate 2 magic v) = v.
Proof.
  intros H. rewrite (translate_eq 2 magic v) by (unfold wide; auto).
  destruct (swaptest magic) eqn:E.
  - rewrite translate_eq by (unfold wide; auto). rewrite E. reflexivity.
  - rewrite translate_eq by (unfold wide; auto; apply bswap_lt). rewrite E. apply (bswap_invol 2 v H).
Qed.
Lemma translate32_invol magic v : v < 4294967296 -> translate 4 magic (translate 4 magic v) = v.
Proof.
  intros H. rewrite (translate_eq 4 magic v) by (unfold wide; auto).
  destruct (swaptest magic) eqn:E.
  - rewrite translate_eq by (unfold wide; auto). rewrite E. reflexivity.
  - rewrite translate_eq by (unfold wide; auto; apply bswap_lt). rewrite E. apply (bswap_invol 4 v H).
Qed.
Lemma translate32_lt magic v : v < 4294967296 -> translate 4 magic v < 4294967296.
Proof.
  intros H. rewrite (translate_eq 4 magic v) by (unfold wide; auto).
  destruct (swaptest magic); auto. apply (bswap_lt 4 v).
Qed.

Lemma le16 p : (2 <= length p)%nat -> bytes_ok p -> le_enc 2 (le_dec (firstn 2 p)) = firstn 2 p.
Proof.
  intros L B. replace 2%nat with (length (firstn 2 p)) at 1 by (rewrite firstn_length; lia).
  apply le_enc_dec. now apply bytes_ok_firstn.
Qed.
Lemma le16_lt p : (2 <= length p)%nat -> bytes_ok p -> le_dec (firstn 2 p) < 65536.
Proof.
  intros L B. pose proof (le_dec_bound (firstn 2 p) (bytes_ok_firstn 2 p B)) as H.
  rewrite firstn_length, Nat.min_l in H by lia. exact H.
Qed.

(** Writing the header that was read changes nothing. *)
Lemma put_hdr_same p q : (8 <= length p)%nat -> bytes_ok p -> firstn 8 q = firstn 8 p ->
  put_hdr (pk_magic p) (pk_kind p) (pk_seq p) q = q.
Proof.
  intros L B E. unfold put_hdr, pk_kind, pk_seq, pk_magic.
  do 8 (destruct p as [|? p]; [cbn in L; lia|]).
  unfold bytes_ok in B.
  repeat match goal with H : Forall byte_ok (_ :: _) |- _ => inversion H; clear H; subst end.
  cbn [firstn skipn] in *.
  do 8 (destruct q as [|? q]; [discriminate|]).
  cbn [firstn skipn] in E. injection E as -> -> -> -> -> -> -> ->.
  rewrite !translate16_invol by (apply (le16_lt [_;_]); [cbn; lia|repeat constructor; auto]).
  repeat match goal with |- context [le_enc 2 (le_dec [?a; ?b])] =>
    replace (le_enc 2 (le_dec [a; b])) with [a; b]
      by (symmetry; apply (le16 [a;b]); [cbn; lia|repeat constructor; auto]) end.
  reflexivity.
Qed.

Section P.
Variables (DL : nat) (St : Type) (global : bool) (logout : St -> St) (info : N -> list N) (flat : nat).
Notation handler := (handler St).
Notation sctx := (sctx St).
Notation dispatch := (dispatch St global logout info).
Notation handle_message := (handle_message DL St global logout info flat).

(** A handler that respects the buffer: the response fits and the buffer keeps
    its length. *)
Definition well (h : handler) : Prop :=
  forall magic action seq n buf s rc m buf' s',
    h magic action seq n buf s = (rc, m, buf', s') ->
    (n <= DL)%nat -> length buf = (PKT DL - 8)%nat -> (m <= DL)%nat /\ length buf' = length buf.

Lemma over_length d buf : (length d <= length buf)%nat -> length (over d buf) = length buf.
Proof. intros. unfold over. rewrite app_length, skipn_length. lia. Qed.
Lemma put32_length magic v : length (put32 magic v) = 4%nat.
Proof. unfold put32. apply le_enc_length. Qed.
Lemma DL_PKT : (DL <= PKT DL - 8)%nat.
Proof. pose proof (MTU_PKT DL). unfold MTU in *. lia. Qed.

Lemma well_comm : (8 <= DL)%nat -> (forall m, (length (info m) <= DL)%nat) -> well (h_comm St global logout info).
Proof.
  intros HD HI magic action seq n buf s rc m buf' s' E Hn Hb. pose proof DL_PKT as HP. revert E. unfold h_comm.
  destruct (action =? 1).
  { destruct (CLIENT_ID_MAX <? get32 magic 0 buf); [inj4; split; auto; lia|].
    destruct (global && (get32 magic 0 buf =? 0)); [inj4; split; auto; lia|].
    inj4. split; [lia|]. apply over_length. rewrite app_length, !put32_length. lia. }
  destruct (action =? 4).
  { inj4. split; [auto|]. apply over_length. specialize (HI magic). lia. }
  destruct (action =? 3); [inj4; split; auto; lia|].
  destruct (action =? 5); inj4; split; auto; lia.
Qed.
Lemma well_pkcs11 : well (h_pkcs11 St).
Proof. intros magic action seq n buf s rc m buf' s' [= <- <- <- <-] _ _. split; auto. lia. Qed.

Lemma swap_words_length w : forall n l, (w * n <= length l)%nat -> length (swap_words w n l) = (w * n)%nat.
Proof.
  induction n as [|n IH]; intros l H; cbn [swap_words length]; [lia|].
  rewrite app_length, rev_length, firstn_length, IH by (rewrite skipn_length; lia). lia.
Qed.
Lemma tr_cdata_length magic ty src dst : length src = CUSTOMCB_LEN -> length dst = CUSTOMCB_LEN ->
  length (tr_cdata magic ty src dst) = CUSTOMCB_LEN.
Proof.
  intros Hs Hd. unfold tr_cdata.
  assert (X : forall w, (w = 4 \/ w = 8)%nat ->
    length (if swaptest magic then firstn (4 * w) src else swap_words w 4 src) = (4 * w)%nat).
  { intros w Hw. destruct (swaptest magic).
    - rewrite firstn_length, Hs. unfold CUSTOMCB_LEN. lia.
    - rewrite swap_words_length; [lia|]. rewrite Hs. unfold CUSTOMCB_LEN. lia. }
  destruct (ty <? 8).
  - destruct (ty =? 1); [rewrite over_length; [auto|rewrite X by auto; rewrite Hd; unfold CUSTOMCB_LEN; lia]|].
    destruct (ty =? 2); [rewrite over_length; [auto|rewrite X by auto; rewrite Hd; unfold CUSTOMCB_LEN; lia]|auto].
  - rewrite over_length; auto. rewrite firstn_length. lia.
Qed.

(** Callbacks fill the whole data field of the response structure. *)
Definition cb_well (tbl : N -> option (customcb St)) : Prop :=
  forall a f id ty d s rc rty rd s', tbl a = Some f -> f id ty d s = (rc, rty, rd, s') -> length rd = CUSTOMCB_LEN.

Lemma well_custom tbl : (CRESP <= DL)%nat -> cb_well tbl -> well (h_custom St tbl).
Proof.
  intros HD HC magic action seq n buf s rc m buf' s' E Hn Hb. pose proof DL_PKT as HP. revert E. unfold h_custom.
  destruct (CUSTOMCB_COUNT <=? action); [inj4; auto|].
  destruct (negb (n =? CREQ)%nat); [inj4; auto|].
  destruct (match tbl action with Some _ => _ | None => _ end) as [[[[rc0 err] rty] rd] s0] eqn:E.
  inj4. split; [auto|]. apply over_length.
  assert (length rd = CUSTOMCB_LEN).
  { destruct (tbl action) as [f|] eqn:Et.
    - destruct (get32 magic 4 buf =? 0).
      + injection E as <- <- <- <- <-. reflexivity.
      + destruct (f _ _ _ s) as [[[a b] c] d] eqn:Ef. injection E as <- <- <- <- <-. eapply HC; eauto.
    - injection E as <- <- <- <- <-. reflexivity. }
  rewrite !app_length, !put32_length, tr_cdata_length; auto.
  - unfold CRESP in *. lia.
  - rewrite firstn_length, skipn_length. unfold CRESP in *. lia.
Qed.

(** What the loop does with a packet of acceptable size. *)
Definition packet_ok (size : nat) (buf : list N) : Prop :=
  (8 <= size <= MTU DL)%nat /\ length buf = PKT DL /\ bytes_ok buf.

Lemma send_loop_ok k rest : send_loop (repeat NOTREADY k ++ OK :: rest) = Some OK.
Proof. induction k as [|k IH]; cbn [repeat app send_loop]; [reflexivity|exact IH]. Qed.

Lemma answer_ok buf pkt m k rest ran s :
  (8 <= length buf)%nat -> bytes_ok buf -> firstn 8 pkt = firstn 8 buf -> (m <= DL)%nat ->
  answer DL St (pk_magic buf) (pk_kind buf) (pk_seq buf) m pkt (repeat NOTREADY k ++ OK :: rest) ran s
  = mkH St (Some OK) [firstn (8 + m) pkt] ran s.
Proof.
  intros L B E Hm. unfold answer, sv_send.
  replace (DL <? m)%nat with false by (symmetry; apply Nat.ltb_ge; lia).
  rewrite send_loop_ok. cbn [is_ok]. rewrite put_hdr_same by auto. reflexivity.
Qed.

Lemma handle_eq c size buf rcs s :
  s_connected St s = true -> packet_ok size buf ->
  handle_message c OK size buf rcs s =
    let magic := pk_magic buf in let kind := pk_kind buf in let seq := pk_seq buf in
    let group := msg_group kind in let action := msg_action kind in
    let data := skipn 8 buf in
    if negb (is_ok (match authz St c with None => OK | Some f => f group action s end)) then
      let '(m, data') := auth_err flat magic group action data in
      answer DL St magic kind seq m (firstn 8 buf ++ data') rcs [] s
    else match dispatch c group with
         | None => answer DL St magic kind seq 0 buf rcs [] s
         | Some h => let '(hrc, m, data', s') := h magic action seq (size - 8)%nat data s in
             answer DL St magic kind seq m (firstn 8 buf ++ data') rcs [group] s'
         end.
Proof.
  intros HC (HS & HL & HB). unfold ServerModel.handle_message. rewrite HC. cbn [negb].
  unfold sv_recv. cbn [is_ok].
  replace ((size <? 8) || (MTU DL <? size))%nat with false
    by (symmetry; apply orb_false_iff; split; apply Nat.ltb_ge; lia).
  replace (DL <? size - 8)%nat with false by (symmetry; apply Nat.ltb_ge; unfold MTU in *; lia).
  reflexivity.
Qed.

(** The answer. *)
Theorem answered c size buf k rest s :
  s_connected St s = true -> packet_ok size buf ->
  (forall h, dispatch c (msg_group (pk_kind buf)) = Some h -> well h) ->
  (auth_err_size flat (msg_group (pk_kind buf)) (msg_action (pk_kind buf)) <= DL)%nat ->
  let r := handle_message c OK size buf (repeat NOTREADY k ++ OK :: rest) s in
  hr_rc St r = Some OK /\
  exists p, hr_sent St r = [p] /\ firstn 8 p = firstn 8 buf /\ (8 <= length p <= MTU DL)%nat.
Proof.
  intros HC HP HW HA. assert (HP' := HP). destruct HP' as (HS & HL & HB).
  rewrite handle_eq by auto. cbn zeta.
  pose proof (MTU_PKT DL) as MP.
  assert (HM : (8 + DL = MTU DL)%nat) by reflexivity.
  assert (X : forall m d ran s', (m <= DL)%nat -> length d = (PKT DL - 8)%nat ->
    let r := answer DL St (pk_magic buf) (pk_kind buf) (pk_seq buf) m (firstn 8 buf ++ d)
               (repeat NOTREADY k ++ OK :: rest) ran s' in
    hr_rc St r = Some OK /\
    exists p, hr_sent St r = [p] /\ firstn 8 p = firstn 8 buf /\ (8 <= length p <= MTU DL)%nat).
  { intros m d ran s' Hm Hd. cbn zeta.
    assert (H8 : length (firstn 8 buf) = 8%nat) by (rewrite firstn_length; lia).
    rewrite answer_ok; auto; try lia.
    2: { rewrite firstn_app, H8, Nat.sub_diag, firstn_firstn, Nat.min_id. cbn [firstn]. now rewrite app_nil_r. }
    cbn [hr_rc hr_sent]. split; [reflexivity|]. eexists. split; [reflexivity|]. split.
    - rewrite firstn_firstn, Nat.min_l by lia.
      rewrite firstn_app, H8, Nat.sub_diag, firstn_firstn, Nat.min_id. cbn [firstn]. now rewrite app_nil_r.
    - rewrite firstn_length, app_length, H8, Hd. lia. }
  assert (HD : length (skipn 8 buf) = (PKT DL - 8)%nat) by (rewrite skipn_length; lia).
  pose proof DL_PKT as DP.
  destruct (negb (is_ok _)).
  - destruct (auth_err flat _ _ _ (skipn 8 buf)) as [m d] eqn:Ea. unfold auth_err in Ea.
    apply pair_equal_spec in Ea as [<- <-].
    apply X; [auto|]. rewrite over_length; auto.
    rewrite app_length, put32_length, repeat_length, HD.
    assert (4 <= auth_err_size flat (msg_group (pk_kind buf)) (msg_action (pk_kind buf)))%nat.
    { unfold auth_err_size. repeat match goal with |- context [if ?b then _ else _] => destruct b end; try lia. }
    lia.
  - destruct (dispatch c (msg_group (pk_kind buf))) as [h|] eqn:Ed.
    + destruct (h _ _ _ _ _ _) as [[[hrc m] d] s'] eqn:Eh.
      destruct (HW h eq_refl _ _ _ _ _ _ _ _ _ _ Eh ltac:(unfold MTU in *; lia) HD) as [W1 W2].
      apply X; [auto|]. rewrite W2; auto.
    + pose proof (X 0%nat (skipn 8 buf) [] s ltac:(lia) HD) as Y. rewrite firstn_skipn in Y. exact Y.
Qed.

(** Which handler runs. *)
Theorem one_handler c size buf rcs s :
  s_connected St s = true -> packet_ok size buf ->
  let r := handle_message c OK size buf rcs s in
  let g := msg_group (pk_kind buf) in
  let allowed := match authz St c with None => true | Some f => is_ok (f g (msg_action (pk_kind buf)) s) end in
  match (if allowed then dispatch c g else None) with
  | Some h => hr_ran St r = [g] /\
      hr_state St r = snd (h (pk_magic buf) (msg_action (pk_kind buf)) (pk_seq buf) (size - 8)%nat (skipn 8 buf) s)
  | None => hr_ran St r = [] /\ hr_state St r = s
  end.
Proof.
  intros HC HP. rewrite handle_eq by auto. cbn zeta.
  assert (X : forall magic kind seq m p ran s', hr_ran St (answer DL St magic kind seq m p rcs ran s') = ran /\
    hr_state St (answer DL St magic kind seq m p rcs ran s') = s').
  { intros. unfold answer, sv_send. destruct (DL <? m)%nat; [auto|]. destruct (send_loop rcs); auto. }
  replace (match authz St c with None => true | Some f => is_ok (f (msg_group (pk_kind buf)) (msg_action (pk_kind buf)) s) end)
    with (is_ok (match authz St c with None => OK | Some f => f (msg_group (pk_kind buf)) (msg_action (pk_kind buf)) s end))
    by (destruct (authz St c); reflexivity).
  destruct (is_ok _); cbn [negb].
  - destruct (dispatch c (msg_group (pk_kind buf))) as [h|].
    + destruct (h _ _ _ _ _ _) as [[[hrc m] d] s'] eqn:Eh. cbn [snd]. apply X.
    + apply X.
  - destruct (auth_err flat _ _ _ (skipn 8 buf)). apply X.
Qed.

(** A packet that is refused, or no packet: nothing is sent, no handler runs and
    the state is the same. *)
Theorem refused c trc size buf rcs s :
  trc <> OK \/ (size < 8)%nat \/ (MTU DL < size)%nat ->
  let r := handle_message c trc size buf rcs s in
  hr_sent St r = [] /\ hr_ran St r = [] /\ hr_state St r = s /\ hr_rc St r <> Some OK.
Proof.
  intros H. unfold ServerModel.handle_message.
  destruct (s_connected St s); cbn [negb]; [|repeat split; discriminate].
  assert (E : exists rc, sv_recv DL trc size buf DL DSelf = rfail rc /\ rc <> OK).
  { unfold sv_recv. destruct (is_ok trc) eqn:Et.
    - apply Z.eqb_eq in Et.
      replace ((size <? 8) || (MTU DL <? size))%nat with true; [exists ABORTED; split; [reflexivity|discriminate]|].
      symmetry. apply orb_true_iff. destruct H as [H|[H|H]]; [congruence|left|right]; now apply Nat.ltb_lt.
    - exists trc. split; [reflexivity|]. intros ->. discriminate. }
  destruct E as (rc & -> & N). cbn. repeat split. congruence.
Qed.

(** Custom callbacks. *)
Theorem custom_answer tbl magic action seq buf s :
  action < CUSTOMCB_COUNT -> (CRESP <= length buf)%nat -> bytes_ok buf ->
  exists buf' s', h_custom St tbl magic action seq CREQ buf s = (OK, CRESP, buf', s') /\
    get32 magic 0 buf' = get32 magic 0 buf /\
    (tbl action = None -> s' = s /\ get32 magic 12 buf' = u32 NOHANDLER) /\
    (forall f, tbl action = Some f -> get32 magic 12 buf' = u32 OK /\
       (get32 magic 4 buf = 0 -> s' = s /\ get32 magic 8 buf' = u32 OK) /\
       (get32 magic 4 buf <> 0 -> exists rc ty d,
          f (get32 magic 0 buf) (get32 magic 4 buf)
            (tr_cdata magic (get32 magic 4 buf) (firstn CUSTOMCB_LEN (skipn 8 buf)) (repeat 0 CUSTOMCB_LEN)) s = (rc, ty, d, s')
          /\ get32 magic 8 buf' = u32 rc)).
Proof.
  intros Ha Hl Hb. unfold h_custom.
  replace (CUSTOMCB_COUNT <=? action) with false by (symmetry; apply N.leb_gt; auto).
  rewrite Nat.eqb_refl. cbn [negb].
  destruct (match tbl action with Some _ => _ | None => _ end) as [[[[rc err] rty] rd] s0] eqn:E.
  do 2 eexists. split; [reflexivity|].
  assert (U : forall z, u32 z < 4294967296).
  { intros z. unfold u32. pose proof (Z.mod_pos_bound z 4294967296 ltac:(lia)). lia. }
  assert (G : forall v, v < 4294967296 -> forall a b, get32 magic (length a) (a ++ put32 magic v ++ b) = v).
  { intros v Hv a b. unfold get32, put32. rewrite skipn_app, skipn_all, Nat.sub_diag, skipn_O, app_nil_l.
    rewrite firstn_app, le_enc_length, Nat.sub_diag, firstn_O, app_nil_r, firstn_all2 by (rewrite le_enc_length; lia).
    rewrite le_dec_enc by (apply translate32_lt; auto). apply translate32_invol; auto. }
  set (out := put32 magic (get32 magic 0 buf) ++ put32 magic rty ++ put32 magic (u32 rc) ++ put32 magic (u32 err) ++ _).
  assert (I0 : get32 magic 0 buf < 4294967296).
  { unfold get32. apply translate32_lt. pose proof (le_dec_bound (firstn 4 (skipn 0 buf))
      (bytes_ok_firstn _ _ (bytes_ok_skipn _ _ Hb))) as X. rewrite firstn_length, skipn_length in X.
    rewrite Nat.min_l in X by (unfold CRESP, CUSTOMCB_LEN in *; lia). exact X. }
  assert (G0 : get32 magic 0 (over out buf) = get32 magic 0 buf).
  { unfold over, out. rewrite <- !app_assoc. apply (G _ I0 []). }
  assert (G8 : get32 magic 8 (over out buf) = u32 rc).
  { unfold over. generalize (skipn (length out) buf). intros t. unfold out. rewrite <- !app_assoc.
    rewrite (app_assoc (put32 magic (get32 magic 0 buf)) (put32 magic rty)).
    replace 8%nat with (length (put32 magic (get32 magic 0 buf) ++ put32 magic rty))
      by (rewrite app_length, !put32_length; reflexivity). apply G, U. }
  assert (G12 : get32 magic 12 (over out buf) = u32 err).
  { unfold over. generalize (skipn (length out) buf). intros t. unfold out. rewrite <- !app_assoc.
    rewrite (app_assoc (put32 magic (get32 magic 0 buf)) (put32 magic rty)).
    rewrite (app_assoc (put32 magic (get32 magic 0 buf) ++ put32 magic rty) (put32 magic (u32 rc))).
    replace 12%nat with (length ((put32 magic (get32 magic 0 buf) ++ put32 magic rty) ++ put32 magic (u32 rc)))
      by (rewrite !app_length, !put32_length; reflexivity). apply G, U. }
  split; [exact G0|]. rewrite G8, G12. destruct (tbl action) as [f|].
  - split; [discriminate|]. intros f' [= <-].
    destruct (get32 magic 4 buf =? 0) eqn:E4.
    + injection E as <- <- <- <- <-. apply N.eqb_eq in E4. split; [reflexivity|]. split; [auto|congruence].
    + apply N.eqb_neq in E4. destruct (f _ _ _ s) as [[[a b] c] d] eqn:Ef. injection E as <- <- <- <- <-.
      split; [reflexivity|]. split; [congruence|]. intros _. exists a, b, c. split; auto.
  - injection E as <- <- <- <- <-. split; [auto|discriminate].
Qed.

End P.
