(** The SHE extension: what its answers carry (C80), and the boot and management
    calls end to end (C81).  Vocabulary: ShcSpec.v, ShdSpec.v, SheSpec.v. *)
From Coq Require Import Lia.
From Verif Require Import Base BaseLemmas NvmSpec Flags KeyId Store NvmReqModel CounterModel KsModel KsReq KsSys KsSpec KsEff KsSysProof SheModel SheSys SheSpec SheEff SheBoot PropertiesShe KdfModel PropertiesKdf AesModel AesSpec ShdModel ShdSpec ShdProof ShcModel ShcSpec ShcProof.
Local Open Scope nat_scope.

Section Props.
Variable C : kscfg.
Variable crypt : cop -> list N -> list N -> Z * list N.
Variable pub : N -> list N -> Z * list N.
Variable ots : list N -> list N -> option (list N * list N).
Variable gcm_enc : list N -> list N -> N -> list N -> option (list N).
Variable gcm_dec : list N -> list N -> N -> list N -> option (list N).
Variable max_read : nat.
(** wolfCrypt: AES of a block, CBC, CMAC, the other operations; the sizes of their
    outputs. *)
Variable aes cbc_enc cbc_dec cmac : list N -> list N -> list N.
Variable use_op : sop -> list N -> list N -> option (list N).
Hypothesis aes16 : forall k b, length b = 16 -> length (aes k b) = 16.
Hypothesis cmac16 : forall k m, length (cmac k m) = 16.
Hypothesis cbc_len : forall k m, length (cbc_enc k m) = length m.
(** The size of the communication buffers. *)
Variable DL : nat.
Hypothesis DL_min : 64 <= DL.
Hypothesis DL_max : (N.of_nat DL < 65536)%N.
Notation step := (hstep C crypt pub ots gcm_enc gcm_dec max_read aes cbc_enc cbc_dec cmac use_op).
Notation after := (hafter C crypt pub ots gcm_enc gcm_dec max_read aes cbc_enc cbc_dec cmac use_op).
Notation served := (mserve C aes cbc_enc cbc_dec cmac use_op DL).
Notation image_sent := (image_sent C crypt pub ots gcm_enc gcm_dec max_read aes cbc_enc cbc_dec cmac use_op).
Notation booted := (booted C crypt pub ots gcm_enc gcm_dec max_read aes cbc_enc cbc_dec cmac use_op).
Notation boot := (boot_call C crypt pub ots gcm_enc gcm_dec max_read aes cbc_enc cbc_dec cmac use_op DL).
Notation loop := (boot_loop C crypt pub ots gcm_enc gcm_dec max_read aes cbc_enc cbc_dec cmac use_op DL).
Notation fin := (boot_finish C crypt pub ots gcm_enc gcm_dec max_read aes cbc_enc cbc_dec cmac use_op DL).
Notation ask := (ShcModel.ask C crypt pub ots gcm_enc gcm_dec max_read aes cbc_enc cbc_dec cmac use_op DL).
Notation do_call := (ShcModel.call C crypt pub ots gcm_enc gcm_dec max_read aes cbc_enc cbc_dec cmac use_op DL).

(** ** C80 *)
(** On every packet, whatever its bytes and size, on a device with any history, the
    server does what the command it decodes to does, and answers with that
    command's code and result; there is no answer only when the lock is not had.
    One code differs: a chunk of wrong size out of turn is answered as out of turn. *)
Theorem C80_server evs st r b i client c e x n buf : let Y := after evs (fresh_hsys st r b) in 12 <= length buf ->
  let '(resp, h1, S1) := served c e x client n buf (hy_she Y i) (ks_of (hy_ks Y) i) in
  exists a, step (HShe i client e (asked DL c n buf)) Y = (Some a, mkHsys (put_ks (hy_ks Y) i S1) (upd_she (hy_she Y) i h1)) /\
  ((resp = [] /\ sr_rc a = LOCKED /\ se_lock e = false) \/ delivers c a resp \/
   (c = CUpdate /\ asked DL c n buf = SBad ABootUpdate /\ length resp = 8 /\ get_rc resp = SEQUENCE_ERROR /\ sr_rc a = GENERAL_ERROR)).
Proof.
  intros Y LB. pose proof (uid_len C crypt pub ots gcm_enc gcm_dec max_read aes cbc_enc cbc_dec cmac use_op evs st r b i) as U. fold Y in U.
  pose proof (mserve_spec C crypt pub ots gcm_enc gcm_dec aes cbc_enc cbc_dec cmac use_op DL aes16 cmac16 cbc_len c e x client n buf (hy_she Y i) (ks_of (hy_ks Y) i) LB U) as M.
  destruct (served c e x client n buf (hy_she Y i) (ks_of (hy_ks Y) i)) as [[resp h1] S1].
  cbn [hstep]. destruct (she_step _ _ _ _ _ _ _ _ _ _ _) as [[a h2] S2]. destruct M as (<- & <- & M). exists a. split; [reflexivity|].
  destruct M as [(A & B & D & _)|[M|((A1 & A2) & M)]]; auto 10.
Qed.

Lemma rd_same o k n (buf buf' : list N) : firstn n buf = firstn n buf' -> o + k <= n -> rd o k buf = rd o k buf'.
Proof.
  intros H L. unfold rd. rewrite <- (firstn_skipn n buf), <- (firstn_skipn n buf'), H.
  destruct (le_lt_dec n (length buf)) as [A|A], (le_lt_dec n (length buf')) as [B|B].
  - rewrite !skipn_app, !firstn_app, !skipn_length, !firstn_length. replace (k - (Nat.min n (length buf') - o)) with 0 by lia. rewrite !firstn_O. reflexivity.
  - apply (f_equal (@length N)) in H. rewrite !firstn_length in H. lia.
  - apply (f_equal (@length N)) in H. rewrite !firstn_length in H. lia.
  - rewrite (skipn_all2 (n:=n) buf), (skipn_all2 (n:=n) buf') by lia. reflexivity.
Qed.
Lemma parse_same c n (buf buf' : list N) : firstn n buf = firstn n buf' -> parse DL c n buf = parse DL c n buf'.
Proof.
  intros H. unfold parse. cbv zeta. destruct c; try (destruct n; reflexivity);
    try (match goal with |- context[n <? ?k] => destruct (Nat.ltb_spec n k); [reflexivity|] end; f_equal; first [apply (rd_same _ _ n) | f_equal; apply (rd_same _ _ n)]; auto; lia).
  destruct (Nat.ltb_spec n 8); [reflexivity|]. unfold get32. rewrite (rd_same 0 4 n buf buf') by (auto; lia).
  destruct (_ <? _); [reflexivity|]. cbn [orb]. set (k := N.to_nat _). destruct (Nat.ltb_spec n (8 + k)); [reflexivity|]. f_equal. apply (rd_same _ _ n); auto.
Qed.
(** Nothing of an earlier message comes back: an answer depends on the bytes of its
    request only, except for the padding of the status answer (and of the answer to
    a SET_UID shorter than 8 bytes). *)
Theorem C80_from_request c e x client n buf buf' h S0 : firstn n buf = firstn n buf' ->
  c <> CStatus -> (c = CSetUid -> 8 <= n) ->
  served c e x client n buf h S0 = served c e x client n buf' h S0.
Proof.
  intros H NS SU. unfold mserve. cbv zeta. rewrite (parse_same c n buf buf' H).
  assert (T : gate_tail c e buf = gate_tail c e buf').
  { destruct c; try reflexivity; [|congruence]. cbn [gate_tail]. specialize (SU eq_refl). apply (rd_same _ _ n); [auto|lia]. }
  assert (T2 : forall rc w out h1, tail C aes cbc_enc cmac c e x client buf h S0 rc w out h1 = tail C aes cbc_enc cmac c e x client buf' h S0 rc w out h1).
  { intros. destruct c; try reflexivity; [|congruence]. cbn [tail]. specialize (SU eq_refl). apply (rd_same _ _ n); [auto|lia]. }
  rewrite T. destruct (refused _ h); [reflexivity|]. destruct (_ && _); [reflexivity|]. destruct (she_handle _ _ _ _ _ _ _ _ _ _ _) as [[[[rc0 w] out] h1] S1].
  rewrite T2. reflexivity.
Qed.

(** Nothing of the server's stack is in the answer to a command that is not
    refused; for FINISH if the stored MAC has 16 bytes. *)
Definition other_stack (e : senv) (s : list N) : senv := mkSenv (se_lock e) (se_rd e) (se_nvm e) (se_c1 e) (se_c2 e) s.
Definition seen (t : hres) : Z * N * list N * sbst := let '(rc, w, out, h, _) := t in (rc, w, out, h_sb h).
Theorem C80_no_stack c e x client n buf h S0 s : refused (asked DL c n buf) h = false ->
  (c = CFinish -> forall rc S1 m mac, she_read C (se_rd e 0) S0 (she_id C client SLOT_BOOT_MAC) = (rc, S1, m, mac) -> rc = OK -> length mac = 16) ->
  fst (fst (served c e x client n buf h S0)) = fst (fst (served c (other_stack e s) x client n buf h S0)).
Proof.
  intros RF MAC. unfold mserve. cbv zeta. rewrite parse_asked, RF. set (q := asked DL c n buf) in *.
  change (se_lock (other_stack e s)) with (se_lock e). destruct (locks (action_of q) && negb (se_lock e)) eqn:LK; [reflexivity|].
  assert (T : forall rc w out h1, tail C aes cbc_enc cmac c e x client buf h S0 rc w out h1 = tail C aes cbc_enc cmac c (other_stack e s) x client buf h S0 rc w out h1).
  { intros. destruct c; reflexivity. }
  assert (HD : seen (she_handle C aes cbc_enc cbc_dec cmac use_op e client q h S0) = seen (she_handle C aes cbc_enc cbc_dec cmac use_op (other_stack e s) client q h S0)).
  { unfold she_handle. change (se_lock (other_stack e s)) with (se_lock e). rewrite LK.
    assert (Q : action_of q = Some (kind c)) by apply asked_kind. clearbody q.
    destruct q; try reflexivity.
    - assert (CF : c = CFinish) by (destruct c; try discriminate Q; reflexivity). unfold do_boot_finish.
      destruct (negb (sb_eqb _ _)); [unfold err; auto|]. change (se_c1 (other_stack e s)) with (se_c1 e). destruct (negb (se_c1 e)); [unfold err; auto|].
      change (se_rd (other_stack e s)) with (se_rd e). destruct (she_read C (se_rd e 0) S0 _) as [[[rr S1] m] mac] eqn:RD.
      destruct (is_ok rr) eqn:K; cbn [negb]; [|unfold err; auto]. apply is_ok_eq in K.
      assert (L : length mac = 16) by (eapply MAC; eauto).
      assert (E1 : forall l, exactly 16 (mac ++ skipn (length mac) l) = mac).
      { intros l. unfold exactly. rewrite <- app_assoc. rewrite <- L at 1. apply first_app2. }
      rewrite !E1. destruct (list_eq_dec _ _ _); unfold err; auto.
    - clear MAC. unfold do_init_rnd. change (se_c1 (other_stack e s)) with (se_c1 e). change (se_c2 (other_stack e s)) with (se_c2 e). change (se_rd (other_stack e s)) with (se_rd e).
      destruct (h_rnd h); [unfold err; auto|]. destruct (she_read C (se_rd e 0) S0 (she_id C client SLOT_SECRET)) as [[[rr S1] m] sk]. destruct (negb (is_ok rr)); [unfold err; auto|].
      destruct (negb (se_c1 e)); [unfold err; auto|]. destruct (she_read C (se_rd e 1) S1 _) as [[[rs S2] m2] seed]. destruct (negb (is_ok rs)); [unfold err; auto|]. cbv zeta.
      unfold write_seed, nv_add. change (se_nvm (other_stack e s)) with (se_nvm e). destruct (is_ok (se_nvm e)) eqn:NV; cbn [negb]; [|rewrite NV; reflexivity].
      destruct (negb (se_c2 e)); reflexivity. }
  destruct (she_handle C aes cbc_enc cbc_dec cmac use_op e client q h S0) as [[[[r1 w1] o1] h1] S1].
  destruct (she_handle C aes cbc_enc cbc_dec cmac use_op (other_stack e s) client q h S0) as [[[[r2 w2] o2] h2] S2].
  cbn [seen] in HD. injection HD as <- <- <- SB. cbn [fst]. rewrite <- T. f_equal. destruct c; cbn [tail]; try reflexivity. rewrite SB. reflexivity.
Qed.

(** An answer with an error carries no result, as long as wolfCrypt and NVM work. *)
Definition in_order (e : senv) : Prop := se_lock e = true /\ se_c1 e = true /\ se_c2 e = true /\ forall n, se_rd e n = OK.
Lemma read_codes rd S0 id : rd = OK -> fst (fst (fst (she_read C rd S0 id))) <> GENERAL_ERROR.
Proof.
  intros RD. assert (X : fst (fst (fst (read_key C S0 id 16))) <> GENERAL_ERROR).
  { unfold read_key. destruct (kid_unassigned id); [discriminate|]. destruct (hwkey C id); [discriminate|].
    destruct (find_cache C S0 id); [destruct (N.ltb _ _); discriminate|]. destruct (kid_wrapped id); [discriminate|].
    destruct (sp_find (k_st S0) id) as [[m d]|] eqn:F; [|destruct (_ && _); discriminate]. destruct (N.ltb _ _); [discriminate|].
    unfold sp_read. rewrite F. destruct ((_ <? _)%nat && _)%bool; [|discriminate]. change (is_ok OK) with true. cbn [negb].
    destruct (_ && _); [discriminate|]. destruct (cache_key C false S0 m _). discriminate. }
  unfold she_read. rewrite RD. change (is_ok OK) with true. destruct (find_cache C S0 id); destruct (read_key C S0 id 16) as [[[rc S1] m] d]; exact X.
Qed.
Theorem C80_error_blank c e x client n buf h S0 resp h1 S1 : in_order e -> length (h_uid h) = 15 -> refused (asked DL c n buf) h = false ->
  served c e x client n buf h S0 = (resp, h1, S1) -> get_rc resp <> OK ->
  no_result c (h_uid h) buf (skipn 4 resp).
Proof.
  intros (LK & C1 & C2 & RD) U RF H NO. unfold mserve in H. cbv zeta in H. rewrite parse_asked, RF in H. set (q := asked DL c n buf) in *.
  rewrite LK, Bool.andb_false_r in H.
  destruct (she_handle C aes cbc_enc cbc_dec cmac use_op e client q h S0) as [[[[rc0 w] out] h2] S2] eqn:HD.
  set (rc := match c, q with CUpdate, SBad _ => _ | _, _ => _ end) in H.
  assert (HR : resp = put_rc (translate rc) ++ tail C aes cbc_enc cmac c e x client buf h S0 rc w out h2) by congruence. clear H. subst resp.
  rewrite skipn_app, put_rc_len, Nat.sub_diag, skipn_O, (skipn_all2 (n:=4) (put_rc _)), app_nil_l by (rewrite put_rc_len; lia).
  assert (RN : rc <> OK).
  { intros E. apply NO. rewrite rc_back by apply translate_range. rewrite E. reflexivity. }
  assert (NK : is_ok rc = false) by (destruct (is_ok rc) eqn:K; [apply is_ok_eq in K; contradiction|reflexivity]). clear NO.
  assert (Q : action_of q = Some (kind c)) by apply asked_kind.
  destruct c; cbn [tail no_result]; rewrite ?NK; try (eexists; split; [|reflexivity]; cbn; tauto); try reflexivity.
  - destruct (h_sb h), (h_sb h2); eexists; (split; [|reflexivity]); cbn; tauto.
  - assert (W0 : w = 0%N); [|rewrite W0; reflexivity].
    subst q. cbn [asked] in HD, rc. destruct n; cbn [she_handle action_of locks andb do_status] in HD; [|unfold err in HD; congruence].
    unfold do_status in HD. subst rc. exfalso. apply RN. congruence.
  - assert (NG : rc <> GENERAL_ERROR).
    { subst rc. revert HD. unfold she_handle. rewrite LK, Bool.andb_false_r. subst q. cbn [asked]. destruct (64 <=? n).
      2:{ unfold err. intros HD. injection HD as <- _ _ _ _. discriminate. }
      unfold do_load_key. cbv zeta. intros HD.
      match type of HD with context[she_read C (se_rd e 0) S0 ?i] => pose proof (read_codes (se_rd e 0) S0 i (RD 0)) as RC0; destruct (she_read C (se_rd e 0) S0 i) as [[[r0 s0] mm] ak] end.
      cbn [fst] in RC0. destruct (_ || _) in HD. { unfold err in HD. injection HD as <- _ _ _ _. discriminate. }
      destruct (negb (is_ok r0)) in HD. { unfold err in HD. injection HD as <- _ _ _ _. exact RC0. }
      rewrite C1 in HD. cbn [negb] in HD.
      destruct (negb (if list_eq_dec _ _ _ then true else false)) in HD. { unfold err in HD. injection HD as <- _ _ _ _. discriminate. }
      destruct (she_read C (se_rd e 1) _ _) as [[[rt s2] mo] old]. destruct (Z.eqb rt NOSPACE || _) in HD. { unfold err in HD. injection HD as <- _ _ _ _. discriminate. }
      destruct (negb (Z.eqb rt NOTFOUND) && N.testbit _ _) in HD. { unfold err in HD. injection HD as <- _ _ _ _. discriminate. }
      match type of HD with context[if (if list_eq_dec N.eq_dec ?a ?b then ?c else ?d) then _ else _] => destruct (if list_eq_dec N.eq_dec a b then c else d) end. { unfold err in HD. injection HD as <- _ _ _ _. discriminate. }
      destruct (negb (Z.eqb rt NOTFOUND) && N.leb _ _) in HD. { unfold err in HD. injection HD as <- _ _ _ _. discriminate. }
      destruct (if N.eqb _ _ then _ else _) as [[[rw s3] fm] fk]. destruct (negb (is_ok rw)) in HD. { unfold err in HD. injection HD as <- _ _ _ _. discriminate. }
      rewrite C2 in HD. cbn [negb] in HD. assert (rc0 = OK) by congruence. subst rc0. discriminate. }
    apply Z.eqb_neq in NG. rewrite NG, Bool.andb_false_r. reflexivity.
  - destruct (Z.eqb rc BUFFER_SIZE) eqn:BS; [left; reflexivity|]. unfold export_left. destruct (negb (h_plain h)) eqn:PL; [left; reflexivity|]. destruct (she_read C (se_rd e 0) S0 (she_id C client SLOT_SECRET)) as [[[r0 s0] mm] ak] eqn:R0.
    destruct (negb (is_ok r0) || negb (length ak =? 16)) eqn:B0; [left; reflexivity|]. rewrite C1. cbn [negb].
    destruct (she_read C (se_rd e 1) s0 (she_id C client SLOT_RAM)) as [[[rr s1] m1] key] eqn:R1.
    destruct (negb (is_ok rr) || negb (length key =? 16)) eqn:B1.
    + right. unfold m1_of. rewrite exact_id by (rewrite app_length, U; reflexivity). rewrite <- app_assoc. f_equal.
    + exfalso. apply RN. subst rc. revert HD. subst q. unfold she_handle. rewrite LK, Bool.andb_false_r. cbn [asked].
      destruct n; cbn [action_of]. 2:{ unfold err. intros HD. injection HD as <- _ _ _ _. discriminate BS. }
      unfold do_export_ram. cbv zeta. rewrite PL, R0, B0, C1. cbn [negb]. rewrite R1, B1, C2. cbn [negb]. intros HD. congruence.
Qed.

(** ** C81 *)
Lemma result_len m e client h S0 a h1 S1 : length (h_uid h) = 15 ->
  she_step C aes cbc_enc cbc_dec cmac use_op e client (wanted m) h S0 = (a, h1, S1) -> sr_rc a = OK -> length (result_of (cmd_of m) a) = given m.
Proof.
  intros U H O. unfold she_step in H. destruct (refused (wanted m) h). { injection H as <- _ _. discriminate O. }
  destruct (she_handle C aes cbc_enc cbc_dec cmac use_op e client (wanted m) h S0) as [[[[rc w] out] h2] S2] eqn:HD.
  injection H as <- _ _. cbn [sr_rc sr_out] in *.
  assert (K : rc = OK). { destruct (_ && _) in O; [exact O|]. apply Z.eqb_eq. rewrite <- tr_ok. apply Z.eqb_eq, O. }
  pose proof (out_size C aes cbc_enc cbc_dec cmac use_op aes16 cmac16 cbc_len e client (wanted m) h S0 rc w out h2 S2 U HD K) as L.
  destruct m; try reflexivity; exact L.
Qed.
(** A call whose arguments fit does what its command does, once, and returns the
    code of the answer; with OK the caller's memory begins with the result, with an
    error it is as it was.  When the request cannot be sent nothing happens; when the
    answer is lost, or the server did not get its lock, the caller gets an error. *)
Theorem C81_call evs st r b m t i client out rc out1 Y1 : let Y := after evs (fresh_hsys st r b) in let Y0 := after (t_gap t) Y in
  fits m out -> link_ok DL (t_link t) -> do_call m t i client out Y = (rc, out1, Y1) ->
  (l_send (t_link t) <> OK /\ rc = l_send (t_link t) /\ out1 = out /\ Y1 = Y0) \/
  (l_send (t_link t) = OK /\ exists a, step (HShe i client (t_env t) (wanted m)) Y0 = (Some a, Y1) /\
   if is_ok (l_recv (t_link t))
   then (rc = sr_rc a /\ out1 = (if is_ok rc then result_of (cmd_of m) a ++ skipn (length (result_of (cmd_of m) a)) out else out)) \/
        (sr_rc a = LOCKED /\ se_lock (t_env t) = false /\ rc = ABORTED /\ out1 = out)
   else rc = l_recv (t_link t) /\ out1 = out).
Proof.
  intros Y Y0 F (LC & LS) H. unfold ShcModel.call in H.
  destruct (mrequest m (l_cold (t_link t))) as [p|] eqn:MR.
  2:{ exfalso. destruct m; cbn [mrequest fits] in *; try discriminate MR.
      - destruct F as (F & _). destruct (Nat.ltb_spec (length uid) 15); [lia|discriminate MR].
      - destruct F as (F & _). destruct (Nat.ltb_spec (length key) 16); [lia|discriminate MR].
      - destruct F as (F & _). rewrite F in MR. discriminate MR. }
  destruct (request_asked crypt pub ots gcm_enc gcm_dec aes cbc_enc cbc_dec cmac use_op DL aes16 cmac16 cbc_len m out (t_link t) p DL_min LC F MR) as (RA & PL).
  destruct (ask (cmd_of m) p t i client Y) as [[rr resp] Y2] eqn:A.
  assert (U : length (h_uid (hy_she Y0 i)) = 15).
  { unfold Y0, Y. rewrite <- hafter_app. apply uid_len. }
  pose proof (ask_spec C crypt pub ots gcm_enc gcm_dec max_read aes cbc_enc cbc_dec cmac use_op DL aes16 cmac16 cbc_len (cmd_of m) p t i client Y rr resp Y2) as AS.
  cbv zeta in AS. fold Y0 in AS. specialize (AS ltac:(lia) LS ltac:(lia) U A).
  assert (RM : (match m with MRnd => length out <? 16 | _ => false end) = false).
  { destruct m; auto. cbn [fits] in F. apply Nat.ltb_ge. exact F. }
  rewrite RM, Bool.andb_false_r in H.
  destruct AS as [(S1 & -> & ->)|(S1 & a & ST & AS)].
  - left. assert (K : is_ok (l_send (t_link t)) = false) by (destruct (is_ok (l_send (t_link t))) eqn:K; auto; apply is_ok_eq in K; contradiction).
    rewrite K in H. cbn [negb] in H. injection H as <- <- <-. auto.
  - right. split; [exact S1|]. exists a. rewrite RA in ST.
    destruct AS as [(R1 & ->)|(R1 & -> & AS)].
    + assert (K : is_ok (l_recv (t_link t)) = false) by (destruct (is_ok (l_recv (t_link t))) eqn:K; auto; apply is_ok_eq in K; contradiction).
      rewrite K in H. cbn [negb] in H. injection H as <- <- <-. rewrite K. auto.
    + rewrite R1. change (is_ok OK) with true in *. cbn [negb] in H.
      destruct AS as [(-> & LK & SL & _)|[D|((D & _) & _)]].
      * cbn [length] in H. replace (0 <? 4 + tail_size (cmd_of m)) with true in H by reflexivity. injection H as <- <- <-. split; [exact ST|]. right. auto.
      * destruct D as (D1 & D2 & D3). assert (D4 : length resp = 4 + tail_size (cmd_of m)) by (rewrite D1; destruct m; reflexivity).
        rewrite D4, Nat.ltb_irrefl, D2 in H. destruct (is_ok (sr_rc a)) eqn:K; cbn [negb] in H.
        -- injection H as <- <- <-. split; [exact ST|]. left. split; [symmetry; apply is_ok_eq, K|].
           change (is_ok OK) with true. cbn iota. apply is_ok_eq in K. specialize (D3 K).
           assert (GL : length (result_of (cmd_of m) a) = given m).
           { cbn [hstep] in ST. destruct (she_step _ _ _ _ _ _ _ _ _ _ _) as [[a2 h2] S2] eqn:SS. injection ST as -> _. eapply result_len; eauto. }
           rewrite GL in D3. change (bytes_at 4 (given m) resp) with (rd 4 (given m) resp) in D3. rewrite D3, GL. unfold wr. rewrite GL. reflexivity.
        -- injection H as <- <- <-. split; [exact ST|]. left. split; [reflexivity|]. rewrite K. reflexivity.
      * destruct m; discriminate D.
Qed.
(** Bad arguments are refused before anything is sent. *)
Theorem C81_bad_args m t i client out Y : bad_args m -> do_call m t i client out Y = (BADARGS, out, Y).
Proof.
  intros F. unfold ShcModel.call. destruct m; cbn [bad_args mrequest] in *; try contradiction.
  - apply Nat.ltb_lt in F. rewrite F. reflexivity.
  - apply Nat.ltb_lt in F. rewrite F. reflexivity.
  - apply Nat.eqb_neq in F. rewrite F. reflexivity.
Qed.

(** *** Secure boot *)
(** Between the requests of the call nobody else uses its server context. *)
Definition own (i : nat) (t : turn) : Prop := Forall (elsewhere i) (t_gap t) /\ link_ok DL (t_link t).
Definition delivered (t : turn) : Prop := l_send (t_link t) = OK /\ l_recv (t_link t) = OK.

Section Boot.
Variable st : store.
Variable r b : nat.
Variable i : nat.
Variable client : N.
Let Y0 := fresh_hsys st r b.
Hypothesis sane : nvm_sane st.

Lemma ask_event c p t H rr resp Y1 : link_ok DL (t_link t) -> length p <= DL -> ask c p t i client (after H Y0) = (rr, resp, Y1) ->
  (Y1 = after (H ++ t_gap t) Y0 /\ rr = l_send (t_link t) /\ rr <> OK) \/
  exists a, let q := asked DL c (length p) (arrive p (t_link t)) in
    step (HShe i client (t_env t) q) (after (H ++ t_gap t) Y0) = (Some a, Y1) /\ Y1 = after ((H ++ t_gap t) ++ [HShe i client (t_env t) q]) Y0 /\
    ((rr = l_recv (t_link t) /\ rr <> OK) \/ (rr = OK /\ l_recv (t_link t) = OK /\
      ((resp = [] /\ sr_rc a = LOCKED /\ se_lock (t_env t) = false) \/ delivers c a resp \/
       (c = CUpdate /\ q = SBad ABootUpdate /\ length resp = 8 /\ get_rc resp = SEQUENCE_ERROR)))).
Proof.
  intros (LC & LS) PL A.
  assert (U : length (h_uid (hy_she (after (t_gap t) (after H Y0)) i)) = 15) by (rewrite <- hafter_app; apply uid_len).
  pose proof (ask_spec C crypt pub ots gcm_enc gcm_dec max_read aes cbc_enc cbc_dec cmac use_op DL aes16 cmac16 cbc_len c p t i client (after H Y0) rr resp Y1) as AS.
  cbv zeta in AS. specialize (AS ltac:(lia) LS PL U A). rewrite <- hafter_app in AS.
  destruct AS as [(S1 & -> & ->)|(S1 & a & ST & AS)]; [left; auto|].
  right. exists a. cbv zeta. split; [exact ST|]. split.
  { rewrite (hafter_app _ _ _ _ _ _ _ _ _ _ _ _ (H ++ t_gap t)). cbn [hafter]. rewrite ST. reflexivity. }
  destruct AS as [(R1 & ->)|(R1 & -> & AS)]; [left; auto|]. right. split; [auto|]. split; [auto|].
  destruct AS as [(A1 & A2 & A3 & _)|[D|((D1 & D2) & D3 & D4 & _)]]; auto 10.
Qed.
Lemma image_next H ev a Y1 x : step ev (after H Y0) = (a, Y1) -> image_sent i H Y0 None = x ->
  image_sent i (H ++ [ev]) Y0 None = image_by C i ev a (after H Y0) x.
Proof. intros ST <-. rewrite image_app. cbn [SheSpec.image_sent]. rewrite ST. reflexivity. Qed.
Lemma booted_app H1 : forall H2 Y v, booted i (H1 ++ H2) Y v = booted i H2 (after H1 Y) (booted i H1 Y v).
Proof. induction H1 as [|ev H1 IH]; intros H2 Y v; cbn [app SheSpec.booted hafter]; auto. destruct (step ev Y) as [a Y1]. cbn [snd]. apply IH. Qed.
Lemma booted_next H ev a Y1 : step ev (after H Y0) = (a, Y1) ->
  booted i (H ++ [ev]) Y0 false = booted_by i ev a (booted i H Y0 false).
Proof. intros ST. rewrite booted_app. cbn [SheSpec.booted]. rewrite ST. reflexivity. Qed.
Lemma booted_elsewhere g : Forall (elsewhere i) g -> forall Y v, booted i g Y v = true -> v = true.
Proof.
  induction 1 as [|ev g E F IH]; intros Y v H; cbn [SheSpec.booted] in H; auto. destruct (step ev Y) as [a Y1]. apply IH in H.
  destruct ev as [j c e q|[]]; cbn [booted_by elsewhere] in *; auto; try discriminate.
  - destruct (Nat.eqb_spec j i); [contradiction|auto].
  - destruct (Nat.eqb i0 i); [discriminate|auto].
Qed.
Lemma booted_gap t H : own i t -> booted i H Y0 false = false -> booted i (H ++ t_gap t) Y0 false = false.
Proof.
  intros (E & _) B. rewrite booted_app, B. destruct (booted i (t_gap t) (after H Y0) false) eqn:Q; auto.
  apply booted_elsewhere in Q; auto.
Qed.

(** Sound: what an accepted boot says. *)
Definition accepted (len : N) (key img : list N) (H : list hev) (Y1 : hsys) : Prop :=
  exists e a, step (HShe i client e SBootFinish) (after H Y0) = (Some a, Y1) /\ sr_rc a = OK /\ image_sent i H Y0 None = Some (len, key, img).
Lemma gap_image t H x : own i t -> image_sent i (H ++ t_gap t) Y0 None = Some x -> image_sent i H Y0 None = Some x.
Proof.
  intros (E & _) I. rewrite image_app in I.
  destruct (image_elsewhere C crypt pub ots gcm_enc gcm_dec max_read aes cbc_enc cbc_dec cmac use_op i (t_gap t) E (after H Y0) (image_sent i H Y0 None)) as [Q|Q]; rewrite Q in I; [exact I|discriminate I].
Qed.
Lemma fin_sound t H Y1 : own i t -> fin t i client (after H Y0) = (OK, Y1) ->
  exists H1 len key img, image_sent i H Y0 None = Some (len, key, img) /\ accepted len key img (H ++ H1) Y1.
Proof.
  intros OW F. pose proof OW as (E & L). unfold boot_finish in F. destruct (ask CFinish [] t i client (after H Y0)) as [[rr resp] Y2] eqn:A.
  apply ask_event in A; [|exact L|cbn; lia]. cbn [length] in A.
  assert (N0 : rr = OK). { destruct (is_ok rr) eqn:K; [apply is_ok_eq, K|]. cbn [negb] in F. injection F as -> _. discriminate K. }
  subst rr. change (negb (is_ok OK)) with false in F. cbn iota in F.
  destruct A as [(_ & _ & A)|(a & ST & _ & A)]; [destruct A; reflexivity|]. cbn [asked] in ST.
  destruct A as [(_ & A)|(_ & _ & A)]; [destruct A; reflexivity|].
  destruct A as [(-> & _)|[(D1 & D2 & _)|(D & _)]]; [discriminate F| |discriminate D].
  rewrite D1 in F. change (answer_size CFinish <? 8) with false in F. injection F as F <-. rewrite D2 in F.
  destruct (C38_finish_sound C crypt pub ots gcm_enc gcm_dec max_read aes cbc_enc cbc_dec cmac use_op (H ++ t_gap t) st r b i client (t_env t) a Y2 sane ST F) as (sz & k & im & mm & mac & I & _).
  fold Y0 in I. exists (t_gap t), sz, k, im. split; [apply (gap_image t); auto|]. exists (t_env t), a. auto.
Qed.
Lemma loop_sound fuel : forall rest prev ts H Y1, (forall n, own i (ts n)) ->
  loop fuel rest prev ts i client (after H Y0) = (OK, Y1) ->
  exists H1 len key sent, image_sent i H Y0 None = Some (len, key, sent) /\ accepted len key (sent ++ rest) (H ++ H1) Y1.
Proof.
  induction fuel as [|fuel IH]; intros rest prev ts H Y1 OW L.
  - destruct rest as [|x rest]; cbn [boot_loop] in L; [|discriminate L].
    destruct (fin_sound _ _ _ (OW 0) L) as (H1 & len & key & img & I & AC). exists H1, len, key, img. rewrite app_nil_r. auto.
  - destruct rest as [|x rest].
    { cbn [boot_loop] in L. destruct (fin_sound _ _ _ (OW 0) L) as (H1 & len & key & img & I & AC). exists H1, len, key, img. rewrite app_nil_r. auto. }
    set (l := x :: rest) in *. cbn [boot_loop] in L. unfold l in L at 1. cbn iota in L.
    destruct (is_ok (get_rc prev)) eqn:K; cbn [negb] in L. 2:{ injection L as L _. rewrite L in K. discriminate K. }
    destruct (ask CUpdate _ (ts 0) i client (after H Y0)) as [[rr resp] Y2] eqn:A.
    destruct (OW 0) as (EW & LO). pose proof LO as (LC & LS).
    destruct (update_asked crypt pub ots gcm_enc gcm_dec aes cbc_enc cbc_dec cmac use_op DL aes16 cmac16 cbc_len (firstn (DL - 8) l) (ts 0) LC ltac:(lia) ltac:(lia) ltac:(rewrite firstn_length; lia)) as (AQ & PL).
    apply ask_event in A; [|exact LO|rewrite PL, firstn_length; lia].
    assert (N0 : rr = OK). { destruct (is_ok rr) eqn:KR; [apply is_ok_eq, KR|]. cbn [negb] in L. injection L as -> _. discriminate KR. }
    subst rr. change (negb (is_ok OK)) with false in L. cbn iota in L.
    destruct A as [(_ & _ & A)|(a & ST & YE & A)]; [destruct A; reflexivity|]. rewrite AQ in ST, YE. clear A.
    destruct (length resp <? 8); [discriminate L|]. rewrite YE in L.
    destruct (IH (skipn (DL - 8) l) resp (fun n => ts (S n)) _ Y1 (fun n => OW (S n)) L) as (H1 & len & key & sent & I & AC).
    rewrite (image_next _ _ _ _ _ ST eq_refl) in I. cbn [image_by] in I. rewrite Nat.eqb_refl in I. destruct (rc_is (Some a) OK); [|discriminate I].
    destruct (image_sent i (H ++ t_gap (ts 0)) Y0 None) as [[[sz k] im]|] eqn:IG; cbn [option_map] in I; [|discriminate I].
    assert (E1 : sz = len) by congruence. assert (E2 : k = key) by congruence. assert (E3 : sent = im ++ firstn (DL - 8) l) by congruence. subst sz k sent.
    exists (t_gap (ts 0) ++ [HShe i client (t_env (ts 0)) (SBootUpdate (firstn (DL - 8) l))] ++ H1), len, key, im.
    split; [apply (gap_image (ts 0)); auto|]. rewrite <- !app_assoc, firstn_skipn in AC. exact AC.
Qed.
(** The call returns OK only if, when the image was announced, the client had a boot
    MAC key, and at the end the stored boot MAC is the CMAC of the size and the
    bytes of this image under that key; the context is then unlocked.  What others
    do on the device meanwhile is free. *)
Theorem C81_boot_sound evs image ts Y1 : (forall n, own i (ts n)) -> (N.of_nat (length image) < 4294967296)%N ->
  boot image ts i client (after evs Y0) = (OK, Y1) ->
  exists more e m0 key m mac,
    let Ya := after (evs ++ t_gap (ts 0)) Y0 in let H := (evs ++ t_gap (ts 0)) ++ more in
    slot_key C Ya i client SLOT_BOOT_MAC_KEY = Some (m0, key) /\ length key = 16 /\
    slot_key C (after H Y0) i client SLOT_BOOT_MAC = Some (m, mac) /\
    mac = firstn (length mac) (exactly 16 (cmac key (boot_prefix (N.of_nat (length image)) ++ image))) /\
    Y1 = after (H ++ [HShe i client e SBootFinish]) Y0 /\ booted i (H ++ [HShe i client e SBootFinish]) Y0 false = true.
Proof.
  intros OW SZ B. unfold boot_call in B. destruct image as [|x rest]; [discriminate B|]. set (l := x :: rest) in *.
  destruct (ask CInit _ (ts 0) i client (after evs Y0)) as [[rr resp] Y2] eqn:A. destruct (OW 0) as (EW & LO). pose proof LO as (LC & LS).
  destruct (init_asked DL (length l) (ts 0) LC ltac:(lia) SZ) as (AQ & PL).
  apply ask_event in A; [|exact LO|rewrite PL; lia].
  assert (N0 : rr = OK). { destruct (is_ok rr) eqn:KR; [apply is_ok_eq, KR|]. cbn [negb] in B. injection B as -> _. discriminate KR. }
  subst rr. change (negb (is_ok OK)) with false in B. cbn iota in B.
  destruct A as [(_ & _ & A)|(a & ST & YE & A)]; [destruct A; reflexivity|]. rewrite AQ in ST, YE. clear A.
  destruct (length resp <? 8); [discriminate B|]. rewrite YE in B.
  pose proof (image_next _ _ _ _ _ ST eq_refl) as I. cbn [image_by] in I. rewrite Nat.eqb_refl in I.
  set (H := evs ++ t_gap (ts 0)) in *. set (ini := HShe i client (t_env (ts 0)) (SBootInit (N.of_nat (length l)))) in *.
  destruct (loop_sound _ _ _ _ _ _ (fun n => OW (S n)) B) as (H1 & len & key & sent & I1 & e & a1 & SF & F & I2).
  rewrite I in I1. destruct (rc_is (Some a) OK); [|discriminate I1].
  destruct (slot_key C (after H Y0) i client SLOT_BOOT_MAC_KEY) as [[m0 k]|] eqn:SK; cbn [option_map snd] in I1; [|discriminate I1].
  assert (E1 : len = N.of_nat (length l)) by congruence. assert (E2 : key = k) by congruence. assert (E3 : sent = []) by congruence. subst len key sent.
  rewrite <- app_assoc in SF, I2.
  destruct (C38_finish_sound C crypt pub ots gcm_enc gcm_dec max_read aes cbc_enc cbc_dec cmac use_op _ st r b i client e a1 Y1 sane SF F) as (sz & k2 & im & mm & mac & I3 & KL & _ & SM & ME).
  fold Y0 in I3, SM. rewrite I2 in I3. assert (sz = N.of_nat (length l)) by congruence. assert (k2 = k) by congruence. assert (im = [] ++ l) by congruence. subst sz k2 im.
  exists ([ini] ++ H1), e, m0, k, mm, mac. cbv zeta. split; [exact SK|]. split; [exact KL|]. split; [exact SM|]. split; [exact ME|].
  split. { rewrite hafter_app. cbn [hafter]. rewrite SF. reflexivity. }
  rewrite (booted_next _ _ _ _ SF). cbn [booted_by]. rewrite Nat.eqb_refl. cbn [rc_is]. rewrite F. reflexivity.
Qed.

(** What an exchange whose messages arrive gives: an answer of the size of the
    command's with its code, or none. *)
Lemma ask_delivered c p t H rr resp Y1 q : own i t -> delivered t -> length p <= DL -> asked DL c (length p) (arrive p (t_link t)) = q -> q <> SBad ABootUpdate ->
  ask c p t i client (after H Y0) = (rr, resp, Y1) -> let ev := HShe i client (t_env t) q in
  rr = OK /\ exists a, step ev (after (H ++ t_gap t) Y0) = (Some a, Y1) /\ Y1 = after ((H ++ t_gap t) ++ [ev]) Y0 /\
  booted i ((H ++ t_gap t) ++ [ev]) Y0 false = booted_by i ev (Some a) (booted i (H ++ t_gap t) Y0 false) /\
  ((resp = [] /\ sr_rc a = LOCKED) \/ (length resp = answer_size c /\ get_rc resp = sr_rc a)).
Proof.
  intros (E & L) (D1 & D2) PL AQ NB A. apply ask_event in A; auto. rewrite AQ in A. cbv zeta in A. destruct A as [(_ & A & B)|(a & ST & YE & A)]; [congruence|].
  destruct A as [(A & B)|(-> & _ & A)]; [congruence|]. cbv zeta. split; [reflexivity|]. exists a. split; [exact ST|]. split; [exact YE|].
  split; [apply (booted_next _ _ _ _ ST)|]. destruct A as [(A & B & _)|[(A & B & _)|(_ & A & _)]]; auto. contradiction.
Qed.
Lemma fin_fail t H rc Y1 : own i t -> delivered t -> fin t i client (after H Y0) = (rc, Y1) ->
  exists H1, Y1 = after (H ++ H1) Y0 /\ booted i (H ++ H1) Y0 false = Z.eqb rc OK.
Proof.
  intros OW DE F. unfold boot_finish in F. destruct (ask CFinish [] t i client (after H Y0)) as [[rr resp] Y2] eqn:A.
  destruct (ask_delivered CFinish [] t H rr resp Y2 SBootFinish OW DE (Nat.le_0_l DL) eq_refl ltac:(discriminate) A) as (-> & a & ST & YE & BT & RS).
  change (negb (is_ok OK)) with false in F. cbn iota in F. cbn [booted_by] in BT. rewrite Nat.eqb_refl in BT. cbn [rc_is] in BT. rewrite <- app_assoc in YE, BT.
  eexists. destruct RS as [(-> & RL)|(RL & RC)].
  - injection F as <- <-. split; [exact YE|]. rewrite BT, RL. reflexivity.
  - rewrite RL in F. change (answer_size CFinish <? 8) with false in F. injection F as <- <-. split; [exact YE|]. rewrite BT, RC. reflexivity.
Qed.
Lemma loop_fail fuel : forall rest prev ts H rc Y1, (forall n, own i (ts n)) -> (forall n, delivered (ts n)) -> length rest <= fuel ->
  loop fuel rest prev ts i client (after H Y0) = (rc, Y1) -> rc <> OK ->
  exists H1, Y1 = after (H ++ H1) Y0 /\ (booted i (H ++ H1) Y0 false = false \/ (rc = get_rc prev /\ rest <> [] /\ H1 = [])).
Proof.
  induction fuel as [|fuel IH]; intros rest prev ts H rc Y1 OW DE LE L NO.
  - destruct rest as [|x rest]; [|cbn in LE; lia]. cbn [boot_loop] in L. destruct (fin_fail _ _ _ _ (OW 0) (DE 0) L) as (H1 & A & B).
    exists H1. split; auto. left. rewrite B. apply Z.eqb_neq. auto.
  - destruct rest as [|x rest].
    { cbn [boot_loop] in L. destruct (fin_fail _ _ _ _ (OW 0) (DE 0) L) as (H1 & A & B). exists H1. split; auto. left. rewrite B. apply Z.eqb_neq. auto. }
    set (l := x :: rest) in *. cbn [boot_loop] in L. unfold l in L at 1. cbn iota in L.
    destruct (is_ok (get_rc prev)) eqn:K; cbn [negb] in L.
    2:{ injection L as <- <-. exists []. rewrite app_nil_r. split; auto. right. repeat split; auto. discriminate. }
    destruct (ask CUpdate _ (ts 0) i client (after H Y0)) as [[rr resp] Y2] eqn:A.
    destruct (OW 0) as (EW & LO). pose proof LO as (LC & LS).
    destruct (update_asked crypt pub ots gcm_enc gcm_dec aes cbc_enc cbc_dec cmac use_op DL aes16 cmac16 cbc_len (firstn (DL - 8) l) (ts 0) LC ltac:(lia) ltac:(lia) ltac:(rewrite firstn_length; lia)) as (AQ & PL).
    destruct (ask_delivered CUpdate (update_packet (firstn (DL - 8) l) (ts 0)) (ts 0) H rr resp Y2 _ (OW 0) (DE 0) ltac:(rewrite PL, firstn_length; lia) AQ ltac:(discriminate) A) as (-> & a & ST & YE & BT & RS).
    change (negb (is_ok OK)) with false in L. cbn iota in L. cbn [booted_by] in BT. rewrite Nat.eqb_refl in BT.
    set (H2 := (H ++ t_gap (ts 0)) ++ _) in *.
    assert (HE : exists g, H2 = H ++ g) by (unfold H2; rewrite <- app_assoc; eexists; reflexivity). destruct HE as (g & HE).
    destruct (length resp <? 8). { injection L as <- <-. exists g. rewrite <- HE. auto. }
    rewrite YE in L. assert (LR : length (skipn (DL - 8) l) <= fuel) by (rewrite skipn_length; cbn [length l] in *; subst l; cbn [length] in *; lia).
    destruct (IH _ _ _ _ _ _ (fun n => OW (S n)) (fun n => DE (S n)) LR L NO) as (H3 & Y3 & B3).
    exists (g ++ H3). rewrite app_assoc, <- HE. split; [exact Y3|]. destruct B3 as [B3|(_ & _ & ->)]; [left; exact B3|]. left. rewrite app_nil_r. exact BT.
Qed.
(** When all messages arrive and the call returns an error other than
    NO_SECURE_BOOT, the context is locked. *)
Theorem C81_boot_fail evs image ts rc Y1 : (forall n, own i (ts n)) -> (forall n, delivered (ts n)) -> (N.of_nat (length image) < 4294967296)%N -> image <> [] ->
  boot image ts i client (after evs Y0) = (rc, Y1) -> rc <> OK -> rc <> NO_SECURE_BOOT ->
  exists more, Y1 = after (evs ++ more) Y0 /\ booted i (evs ++ more) Y0 false = false.
Proof.
  intros OW DE SZ NE B NO NS. unfold boot_call in B. destruct image as [|x rest]; [contradiction|]. set (l := x :: rest) in *.
  destruct (ask CInit _ (ts 0) i client (after evs Y0)) as [[rr resp] Y2] eqn:A. destruct (OW 0) as (EW & LO). pose proof LO as (LC & LS).
  destruct (init_asked DL (length l) (ts 0) LC ltac:(lia) SZ) as (AQ & PL).
  destruct (ask_delivered CInit (init_packet (length l) (ts 0)) (ts 0) evs rr resp Y2 _ (OW 0) (DE 0) ltac:(rewrite PL; lia) AQ ltac:(discriminate) A) as (-> & a & ST & YE & BT & RS).
  change (negb (is_ok OK)) with false in B. cbn iota in B. cbn [booted_by] in BT. rewrite Nat.eqb_refl in BT. cbn [rc_is] in BT. rewrite <- app_assoc in YE, BT.
  destruct RS as [(-> & RL)|(RL & RC)].
  - injection B as <- <-. eexists. split; [exact YE|]. rewrite BT, RL. reflexivity.
  - rewrite RL in B. change (answer_size CInit <? 8) with false in B. rewrite YE in B.
    destruct (loop_fail _ _ _ _ _ _ _ (fun n => OW (S n)) (fun n => DE (S n)) (le_n _) B NO) as (H1 & Y3 & B3).
    rewrite <- app_assoc in Y3, B3. eexists. split; [exact Y3|]. destruct B3 as [B3|(B3 & _ & ->)]; [exact B3|].
    rewrite app_nil_r, BT, <- RC, <- B3. apply Z.eqb_neq. exact NS.
Qed.

(** Only the announcement is answered NO_SECURE_BOOT. *)
Lemma tr_back rc z : existsb (Z.eqb z) [OK; NO_SECURE_BOOT] = true -> translate rc = z -> rc = z.
Proof.
  cbn [existsb]. rewrite Bool.orb_false_r. intros H E. apply Bool.orb_true_iff in H as [H|H]; apply Z.eqb_eq in H; subst z.
  - apply Z.eqb_eq. rewrite <- tr_ok. apply Z.eqb_eq. congruence.
  - apply Z.eqb_eq. rewrite <- tr_nsb. apply Z.eqb_eq. congruence.
Qed.
Lemma later_codes e q Y a Y1 : (exists d, q = SBootUpdate d) \/ q = SBootFinish -> step (HShe i client e q) Y = (Some a, Y1) -> sr_rc a <> NO_SECURE_BOOT.
Proof.
  intros Q ST E. cbn [hstep] in ST. destruct (she_step _ _ _ _ _ _ e client q _ _) as [[a2 h2] S2] eqn:SS. injection ST as -> _.
  unfold she_step in SS. destruct (refused q _). { injection SS as <- _ _. discriminate E. }
  destruct (she_handle _ _ _ _ _ _ e client q _ _) as [[[[rc w] out] h3] S3] eqn:HD. injection SS as <- _ _. cbn [sr_rc] in E.
  assert (K : rc = NO_SECURE_BOOT). { destruct (_ && _) in E; [exact E|]. apply tr_back; [reflexivity|exact E]. }
  subst rc. unfold she_handle in HD. destruct (_ && _) in HD; [discriminate HD|].
  destruct Q as [(d & ->)| ->].
  - unfold do_boot_update in HD. cbv zeta in HD. destruct (negb _) in HD; [discriminate HD|]. destruct (N.ltb _ _) in HD; [discriminate HD|]. destruct (negb _) in HD; discriminate HD.
  - unfold do_boot_finish in HD. destruct (negb _) in HD; [discriminate HD|]. destruct (negb _) in HD; [discriminate HD|].
    destruct (she_read _ _ _ _) as [[[rr S4] mm] mac]. destruct (negb _) in HD; [discriminate HD|]. destruct (list_eq_dec _ _ _) in HD; discriminate HD.
Qed.
Lemma loop_codes fuel : forall rest prev ts H rc Y1, (forall n, own i (ts n)) -> (forall n, delivered (ts n)) ->
  loop fuel rest prev ts i client (after H Y0) = (rc, Y1) -> get_rc prev <> NO_SECURE_BOOT -> rc <> NO_SECURE_BOOT.
Proof.
  assert (FC : forall t H rc Y1, own i t -> delivered t -> fin t i client (after H Y0) = (rc, Y1) -> rc <> NO_SECURE_BOOT).
  { intros t H rc Y1 OW DE F. unfold boot_finish in F. destruct (ask CFinish [] t i client (after H Y0)) as [[rr resp] Y2] eqn:A.
    destruct (ask_delivered CFinish [] t H rr resp Y2 SBootFinish OW DE (Nat.le_0_l DL) eq_refl ltac:(discriminate) A) as (-> & a & ST & YE & BT & RS).
    change (negb (is_ok OK)) with false in F. cbn iota in F. destruct RS as [(-> & RL)|(RL & RC)].
    - injection F as <- <-. discriminate.
    - rewrite RL in F. change (answer_size CFinish <? 8) with false in F. injection F as <- <-. rewrite RC. refine (later_codes _ _ _ _ _ _ ST). right. reflexivity. }
  induction fuel as [|fuel IH]; intros rest prev ts H rc Y1 OW DE L NP.
  - destruct rest as [|x rest]; cbn [boot_loop] in L; [refine (FC _ _ _ _ (OW 0) (DE 0) L)|]. injection L as <- _. discriminate.
  - destruct rest as [|x rest]; [cbn [boot_loop] in L; refine (FC _ _ _ _ (OW 0) (DE 0) L)|].
    set (l := x :: rest) in *. cbn [boot_loop] in L. unfold l in L at 1. cbn iota in L.
    destruct (is_ok (get_rc prev)) eqn:K; cbn [negb] in L; [|injection L as <- _; exact NP].
    destruct (ask CUpdate _ (ts 0) i client (after H Y0)) as [[rr resp] Y2] eqn:A.
    destruct (OW 0) as (EW & LO). pose proof LO as (LC & LS).
    destruct (update_asked crypt pub ots gcm_enc gcm_dec aes cbc_enc cbc_dec cmac use_op DL aes16 cmac16 cbc_len (firstn (DL - 8) l) (ts 0) LC ltac:(lia) ltac:(lia) ltac:(rewrite firstn_length; lia)) as (AQ & PL).
    destruct (ask_delivered CUpdate (update_packet (firstn (DL - 8) l) (ts 0)) (ts 0) H rr resp Y2 _ (OW 0) (DE 0) ltac:(rewrite PL, firstn_length; lia) AQ ltac:(discriminate) A) as (-> & a & ST & YE & BT & RS).
    change (negb (is_ok OK)) with false in L. cbn iota in L.
    destruct (length resp <? 8) eqn:L8. { injection L as <- _. discriminate. }
    destruct RS as [(-> & _)|(_ & RC)]; [discriminate L8|]. rewrite YE in L.
    refine (IH _ _ _ _ _ _ (fun n => OW (S n)) (fun n => DE (S n)) L _). rewrite RC. refine (later_codes _ _ _ _ _ _ ST). left. eexists. reflexivity.
Qed.
(** NO_SECURE_BOOT is returned only when no 16-byte boot MAC key can be found at the
    announcement; nothing of the image is sent, and the context is unlocked. *)
Theorem C81_boot_none evs image ts Y1 : (forall n, own i (ts n)) -> (forall n, delivered (ts n)) -> (N.of_nat (length image) < 4294967296)%N ->
  boot image ts i client (after evs Y0) = (NO_SECURE_BOOT, Y1) ->
  let H := evs ++ t_gap (ts 0) in let ev := HShe i client (t_env (ts 0)) (SBootInit (N.of_nat (length image))) in
  Y1 = after (H ++ [ev]) Y0 /\ booted i (H ++ [ev]) Y0 false = true /\
  (se_rd (t_env (ts 0)) 0 = OK -> forall m k, slot_key C (after H Y0) i client SLOT_BOOT_MAC_KEY = Some (m, k) -> length k <> 16).
Proof.
  intros OW DE SZ B H ev. unfold boot_call in B. destruct image as [|x rest]; [discriminate B|]. set (l := x :: rest) in *.
  destruct (ask CInit _ (ts 0) i client (after evs Y0)) as [[rr resp] Y2] eqn:A. destruct (OW 0) as (EW & LO). pose proof LO as (LC & LS).
  destruct (init_asked DL (length l) (ts 0) LC ltac:(lia) SZ) as (AQ & PL).
  destruct (ask_delivered CInit (init_packet (length l) (ts 0)) (ts 0) evs rr resp Y2 _ (OW 0) (DE 0) ltac:(rewrite PL; lia) AQ ltac:(discriminate) A) as (-> & a & ST & YE & BT & RS).
  change (negb (is_ok OK)) with false in B. cbn iota in B. cbn [booted_by] in BT. rewrite Nat.eqb_refl in BT. cbn [rc_is] in BT. fold H ev in ST, YE, BT.
  destruct RS as [(-> & RL)|(RL & RC)]; [discriminate B|]. rewrite RL in B. change (answer_size CInit <? 8) with false in B. rewrite YE in B.
  destruct (Z.eq_dec (get_rc resp) NO_SECURE_BOOT) as [NS|NS].
  2:{ exfalso. eapply (loop_codes _ _ _ _ _ _ _ (fun n => OW (S n)) (fun n => DE (S n)) B NS). reflexivity. }
  unfold l in B. cbn [length boot_loop] in B. rewrite NS in B. cbn [negb] in B. change (is_ok NO_SECURE_BOOT) with false in B. cbn [negb] in B.
  injection B as <-. split; [reflexivity|]. rewrite RC in NS. split; [rewrite BT, NS; reflexivity|]. intros RD m k V.
  pose proof (hafter_ok C crypt pub ots gcm_enc gcm_dec max_read aes cbc_enc cbc_dec cmac use_op H Y0 (fresh_hok C st r b sane) i) as [W G].
  cbn [hstep] in ST. unfold ev in ST. cbn [hstep] in ST. destruct (she_step _ _ _ _ _ _ _ _ _ _ _) as [[a2 h2] S2] eqn:SS. injection ST as -> _.
  eapply init_none; eauto.
Qed.

(** Complete.  What others do between the requests leaves the client's SHE context
    and its settled slots alone. *)
Definition quiet (t : turn) : Prop := forall H, let Y := after H Y0 in
  hy_she (after (t_gap t) Y) i = hy_she Y i /\
  forall slot key, settled C Y i client slot key -> settled C (after (t_gap t) Y) i client slot key.
Definition good_turn (t : turn) : Prop := quiet t /\ link_ok DL (t_link t) /\ delivered t /\ in_order (t_env t).
Lemma settled_vis Y slot key : settled C Y i client slot key -> exists m, vis C (ks_of (hy_ks Y) i) (she_id C client slot) = Some (m, key).
Proof.
  intros (m & F & CP). exists m. unfold vis. unfold copy in CP. destruct (find_cache C (ks_of (hy_ks Y) i) (she_id C client slot)) as [s|].
  - rewrite (CP s eq_refl). reflexivity.
  - exact F.
Qed.
Lemma settled_read Y slot key S1 h rd id rc m d : sys_ok C (hy_ks Y) -> kid_type id = KT_SHE -> she_read C rd (ks_of (hy_ks Y) i) id = (rc, S1, m, d) ->
  settled C Y i client slot key -> settled C (mkHsys (put_ks (hy_ks Y) i S1) h) i client slot key.
Proof.
  intros OK0 T R (m0 & F & CP). destruct (OK0 i) as [W G]. destruct (she_read_eff C _ _ _ _ _ _ _ W G T R) as (_ & _ & ST & FR & _).
  exists m0. cbn [hy_ks]. split.
  - change (sp_find (k_st S1) (she_id C client slot) = Some (m0, key)). rewrite ST. exact F.
  - intros s. unfold copy. rewrite ks_put. destruct (she_assigned C _ (sid_type C client slot)) as (_ & _ & _ & NZ).
    destruct (FR _ NZ) as (_ & [V|(_ & [V|(m1 & d1 & NV & V)])]); rewrite V; intros Q.
    + apply CP. exact Q.
    + discriminate Q.
    + change (sp_find (y_st (hy_ks Y)) (she_id C client slot) = Some (m1, d1)) in NV. rewrite F in NV. congruence.
Qed.
Lemma ask_good c p t H rr resp Y1 q : good_turn t -> length p <= DL -> asked DL c (length p) (arrive p (t_link t)) = q -> q <> SBad ABootUpdate ->
  ask c p t i client (after H Y0) = (rr, resp, Y1) ->
  rr = OK /\ exists a, step (HShe i client (t_env t) q) (after (H ++ t_gap t) Y0) = (Some a, Y1) /\ Y1 = after ((H ++ t_gap t) ++ [HShe i client (t_env t) q]) Y0 /\
  length resp = answer_size c /\ get_rc resp = sr_rc a.
Proof.
  intros (_ & L & (D1 & D2) & (LK & _)) PL AQ NB A. apply ask_event in A; auto. rewrite AQ in A. cbv zeta in A. destruct A as [(_ & A & B)|(a & ST & YE & A)]; [congruence|].
  destruct A as [(A & B)|(-> & _ & A)]; [congruence|]. split; [reflexivity|]. exists a. split; [exact ST|]. split; [exact YE|].
  destruct A as [(A & _ & B)|[(A & B & _)|(_ & A & _)]]; [congruence|auto|contradiction].
Qed.
Lemma ok_of H : sys_ok C (hy_ks (after H Y0)).
Proof. apply hafter_ok, fresh_hok, sane. Qed.
(** The SHE context in the middle of a boot. *)
Definition midway (h : she) (sb : sbst) (len : N) (key sent : list N) : Prop :=
  h_uidset h = true /\ h_sb h = sb /\ h_size h = len /\ h_recv h = N.of_nat (length sent) /\ h_ck h = key /\ h_cd h = boot_prefix len ++ sent.
Lemma gap_step t H : good_turn t -> hy_she (after (H ++ t_gap t) Y0) i = hy_she (after H Y0) i /\
  forall slot key, settled C (after H Y0) i client slot key -> settled C (after (H ++ t_gap t) Y0) i client slot key.
Proof. intros (Q & _). specialize (Q H). cbv zeta in Q. rewrite hafter_app. exact Q. Qed.
Lemma fin_good t H len key image mac : good_turn t ->
  midway (hy_she (after H Y0) i) SbFinish len key image -> settled C (after H Y0) i client SLOT_BOOT_MAC mac ->
  mac = exactly 16 (cmac key (boot_prefix len ++ image)) -> exists Y1, fin t i client (after H Y0) = (OK, Y1).
Proof.
  intros GT MW SE ME. unfold boot_finish. destruct (ask CFinish [] t i client (after H Y0)) as [[rr resp] Y2] eqn:A.
  destruct (ask_good CFinish [] t H rr resp Y2 SBootFinish GT (Nat.le_0_l DL) eq_refl ltac:(discriminate) A) as (-> & a & ST & YE & RL & RC).
  change (negb (is_ok OK)) with false. cbn iota. rewrite RL. change (answer_size CFinish <? 8) with false. cbn iota. exists Y2. rewrite RC.
  assert (O : sr_rc a = OK); [|rewrite O; reflexivity].
  destruct (gap_step t H GT) as (HS & SK). pose proof (ok_of (H ++ t_gap t)) as OK1. destruct (OK1 i) as [W G]. clear YE A.
  specialize (SK _ _ SE). destruct (settled_vis _ _ _ SK) as (m & V).
  cbn [hstep] in ST. rewrite HS in ST. set (h := hy_she (after H Y0) i) in *. set (S0 := ks_of (hy_ks (after (H ++ t_gap t) Y0)) i) in *.
  destruct MW as (U & SB & SZ & RV & CK & CD). destruct GT as (_ & _ & _ & (LK & C1 & C2 & RD)).
  destruct (she_step _ _ _ _ _ _ _ _ _ _ _) as [[a2 h2] S2] eqn:SS. injection ST as -> _.
  unfold she_step in SS. unfold refused in SS. cbn [action_of] in SS. rewrite U in SS. cbn [negb is_boot andb] in SS.
  unfold she_handle in SS. cbn [action_of locks andb] in SS. rewrite LK in SS. cbn [negb] in SS. unfold do_boot_finish in SS. rewrite SB, C1 in SS. cbn [sb_eqb negb] in SS.
  destruct (she_read C (se_rd (t_env t) 0) S0 (she_id C client SLOT_BOOT_MAC)) as [[[rr S3] m3] mac3] eqn:R.
  assert (ML : length mac = 16) by (rewrite ME; apply exact_len).
  destruct (she_read_hit C _ _ _ _ _ _ _ _ _ W G (sid_type C client SLOT_BOOT_MAC) (RD 0) V ML R) as (-> & -> & ->).
  change (negb (is_ok OK)) with false in SS. cbn iota in SS. rewrite CK, CD in SS.
  assert (E1 : exactly 16 (mac ++ skipn (length mac) (se_stack (t_env t))) = mac) by (unfold exactly; rewrite <- app_assoc; rewrite <- ML at 1; apply first_app2).
  rewrite E1, ME in SS. destruct (list_eq_dec _ _ _) as [_|X]; [|destruct X; reflexivity]. injection SS as <- _ _. reflexivity.
Qed.
Lemma loop_good fuel : forall rest prev ts H len key sent mac, (forall n, good_turn (ts n)) -> length rest <= fuel -> get_rc prev = OK ->
  (N.of_nat (length sent + length rest) = len)%N -> (len < 4294967296)%N ->
  midway (hy_she (after H Y0) i) (match rest with [] => SbFinish | _ => SbUpdate end) len key sent ->
  settled C (after H Y0) i client SLOT_BOOT_MAC mac -> mac = exactly 16 (cmac key (boot_prefix len ++ sent ++ rest)) ->
  exists Y1, loop fuel rest prev ts i client (after H Y0) = (OK, Y1).
Proof.
  induction fuel as [|fuel IH]; intros rest prev ts H len key sent mac GT LE PO LEN SZ MW SE ME.
  - destruct rest as [|x rest]; [|cbn in LE; lia]. cbn [boot_loop]. rewrite app_nil_r in ME. eapply fin_good; eauto.
  - destruct rest as [|x rest]; [cbn [boot_loop]; rewrite app_nil_r in ME; eapply fin_good; eauto|].
    set (l := x :: rest) in *. cbn [boot_loop]. unfold l at 1. cbn iota. rewrite PO. change (negb (is_ok OK)) with false. cbn iota.
    destruct (ask CUpdate _ (ts 0) i client (after H Y0)) as [[rr resp] Y2] eqn:A.
    pose proof (GT 0) as (_ & LO & _ & (LK & C1 & C2 & RD)). pose proof LO as (LC & LS).
    destruct (update_asked crypt pub ots gcm_enc gcm_dec aes cbc_enc cbc_dec cmac use_op DL aes16 cmac16 cbc_len (firstn (DL - 8) l) (ts 0) LC ltac:(lia) ltac:(lia) ltac:(rewrite firstn_length; lia)) as (AQ & PL).
    destruct (ask_good CUpdate (update_packet (firstn (DL - 8) l) (ts 0)) (ts 0) H rr resp Y2 _ (GT 0) ltac:(rewrite PL, firstn_length; lia) AQ ltac:(discriminate) A) as (-> & a & ST & YE & RL & RC).
    change (negb (is_ok OK)) with false. cbn iota. rewrite RL. change (answer_size CUpdate <? 8) with false. cbn iota.
    destruct (gap_step (ts 0) H (GT 0)) as (HS & SK). specialize (SK _ _ SE).
    set (chunk := firstn (DL - 8) l) in *. set (more := skipn (DL - 8) l) in *.
    assert (LL : length chunk + length more = length l) by (unfold chunk, more; rewrite firstn_length, skipn_length; lia).
    assert (LM : length more <= fuel) by (unfold more; rewrite skipn_length; subst l; cbn [length] in *; lia).
    pose proof ST as ST0. cbn [hstep] in ST. rewrite HS in ST. set (h := hy_she (after H Y0) i) in *. set (Yg := after (H ++ t_gap (ts 0)) Y0) in *.
    destruct MW as (U & SB & SZH & RV & CK & CD).
    destruct (she_step C aes cbc_enc cbc_dec cmac use_op (t_env (ts 0)) client (SBootUpdate chunk) h (ks_of (hy_ks Yg) i)) as [[a2 h2] S2] eqn:SS. assert (AE : a2 = a) by congruence. subst a2. assert (YS : Y2 = mkHsys (put_ks (hy_ks Yg) i S2) (upd_she (hy_she Yg) i h2)) by congruence.
    unfold she_step in SS. unfold refused in SS. cbn [action_of] in SS. rewrite U in SS. cbn [negb is_boot andb] in SS.
    unfold she_handle in SS. cbn [action_of locks andb] in SS. unfold do_boot_update in SS. cbv zeta in SS. rewrite SB, C1, RV, SZH in SS. cbn [sb_eqb negb] in SS.
    assert (RN : ((N.of_nat (length sent) + N.of_nat (length chunk)) mod 2 ^ 32 = N.of_nat (length (sent ++ chunk)))%N).
    { rewrite app_length, Nat2N.inj_add. apply N.mod_small. change (2 ^ 32)%N with 4294967296%N. lia. }
    rewrite RN in SS. assert (NL : N.ltb len (N.of_nat (length (sent ++ chunk))) = false) by (apply N.ltb_ge; rewrite app_length; lia). rewrite NL in SS.
    assert (AO : sr_rc a = OK) by (injection SS as <- _ _; reflexivity).
    assert (SE2 : S2 = ks_of (hy_ks Yg) i) by congruence.
    rewrite YE. apply (IH more resp (fun n => ts (S n)) _ len key (sent ++ chunk) mac).
    + intros n. apply GT.
    + exact LM.
    + rewrite RC. exact AO.
    + rewrite app_length. rewrite <- LEN. f_equal. lia.
    + exact SZ.
    + rewrite <- YE, YS. cbn [hy_she]. unfold upd_she. rewrite Nat.eqb_refl. change (is_ok OK) with true in SS. cbn [negb andb] in SS.
      assert (HE : h2 = if N.eqb (N.of_nat (length (sent ++ chunk))) len then set_sb (set_cmac (set_boot h SbUpdate (h_cmk h) len (N.of_nat (length (sent ++ chunk)))) (h_ck h) (h_cd h ++ chunk)) SbFinish
                        else set_cmac (set_boot h SbUpdate (h_cmk h) len (N.of_nat (length (sent ++ chunk)))) (h_ck h) (h_cd h ++ chunk)) by (symmetry in SS; injection SS as _ SS _; exact SS).
      assert (FE : N.eqb (N.of_nat (length (sent ++ chunk))) len = match more with [] => true | _ => false end).
      { rewrite app_length. destruct more as [|y more']; cbn [length] in LL; [apply N.eqb_eq|apply N.eqb_neq]; lia. }
      rewrite FE in HE. unfold midway. rewrite HE, CK, CD. destruct more; cbn; rewrite ?U, ?app_assoc; repeat split; auto.
    + rewrite <- YE, YS, SE2. destruct SK as (m & F & CP). exists m. cbn [hy_ks]. split; [exact F|]. intros s. unfold copy. rewrite ks_put. apply CP.
    + rewrite ME. unfold more, chunk. rewrite <- app_assoc, firstn_skipn. reflexivity.
Qed.
(** On a device with a unique id and no boot under way, with the boot MAC key and the
    right boot MAC in NVM, the call boots the image: every size, every split. *)
Theorem C81_boot_complete evs image ts key mac : (forall n, good_turn (ts n)) -> (N.of_nat (length image) < 4294967296)%N -> image <> [] ->
  h_uidset (hy_she (after evs Y0) i) = true -> h_sb (hy_she (after evs Y0) i) = SbInit ->
  settled C (after evs Y0) i client SLOT_BOOT_MAC_KEY key -> length key = 16 ->
  settled C (after evs Y0) i client SLOT_BOOT_MAC mac -> mac = exactly 16 (cmac key (boot_prefix (N.of_nat (length image)) ++ image)) ->
  exists Y1, boot image ts i client (after evs Y0) = (OK, Y1).
Proof.
  intros GT SZ NE U SB SK KL SM ME. unfold boot_call. destruct image as [|x rest]; [contradiction|]. set (l := x :: rest) in *.
  destruct (ask CInit _ (ts 0) i client (after evs Y0)) as [[rr resp] Y2] eqn:A.
  pose proof (GT 0) as (_ & LO & _ & (LK & C1 & C2 & RD)). pose proof LO as (LC & LS).
  destruct (init_asked DL (length l) (ts 0) LC ltac:(lia) SZ) as (AQ & PL).
  destruct (ask_good CInit (init_packet (length l) (ts 0)) (ts 0) evs rr resp Y2 _ (GT 0) ltac:(rewrite PL; lia) AQ ltac:(discriminate) A) as (-> & a & ST & YE & RL & RC).
  change (negb (is_ok OK)) with false. cbn iota. rewrite RL. change (answer_size CInit <? 8) with false. cbn iota.
  destruct (gap_step (ts 0) evs (GT 0)) as (HS & SP). pose proof (SP _ _ SK) as SK1. pose proof (SP _ _ SM) as SM1.
  pose proof (ok_of (evs ++ t_gap (ts 0))) as OK1. destruct (OK1 i) as [W G]. destruct (settled_vis _ _ _ SK1) as (m & V).
  pose proof (agrees_fresh C crypt pub ots gcm_enc gcm_dec max_read aes cbc_enc cbc_dec cmac use_op i evs st r b) as AG. cbv zeta in AG. destruct AG as (MA & _). fold Y0 in MA.
  assert (R0 : h_recv (hy_she (after evs Y0) i) = 0%N) by (apply MA; exact SB).
  cbn [hstep] in ST. rewrite HS in ST. set (h := hy_she (after evs Y0) i) in *. set (Yg := after (evs ++ t_gap (ts 0)) Y0) in *.
  destruct (she_step C aes cbc_enc cbc_dec cmac use_op (t_env (ts 0)) client (SBootInit (N.of_nat (length l))) h (ks_of (hy_ks Yg) i)) as [[a2 h2] S2] eqn:SS.
  assert (AE : a2 = a) by congruence. subst a2. assert (YS : Y2 = mkHsys (put_ks (hy_ks Yg) i S2) (upd_she (hy_she Yg) i h2)) by congruence.
  unfold she_step in SS. unfold refused in SS. cbn [action_of] in SS. rewrite U in SS. cbn [negb is_boot andb] in SS.
  unfold she_handle in SS. cbn [action_of locks andb] in SS. rewrite LK in SS. cbn [negb] in SS. unfold do_boot_init in SS. rewrite SB, C1 in SS. cbn [sb_eqb negb] in SS.
  destruct (she_read C (se_rd (t_env (ts 0)) 0) (ks_of (hy_ks Yg) i) (she_id C client SLOT_BOOT_MAC_KEY)) as [[[rr S3] m3] k3] eqn:R.
  destruct (she_read_hit C _ _ _ _ _ _ _ _ _ W G (sid_type C client SLOT_BOOT_MAC_KEY) (RD 0) V KL R) as (-> & -> & ->).
  change (negb (is_ok OK)) with false in SS. rewrite KL in SS. change (negb (16 =? 16)) with false in SS. cbn [orb] in SS. cbn iota in SS. rewrite R0 in SS.
  change (is_ok OK) with true in SS. cbn [negb andb] in SS.
  assert (AO : sr_rc a = OK) by (injection SS as <- _ _; reflexivity).
  assert (SE2 : S2 = S3) by congruence.
  assert (HE : h2 = set_cmac (set_boot h SbUpdate true (N.of_nat (length l)) 0) key (boot_prefix (N.of_nat (length l)))) by (symmetry in SS; injection SS as _ SS _; exact SS).
  rewrite YE. apply (loop_good (length l) l resp (fun n => ts (S n)) _ (N.of_nat (length l)) key [] mac).
  - intros n. apply GT.
  - apply le_n.
  - rewrite RC. exact AO.
  - reflexivity.
  - exact SZ.
  - rewrite <- YE, YS. cbn [hy_she]. unfold upd_she. rewrite Nat.eqb_refl, HE. unfold midway. rewrite app_nil_r. repeat apply conj; try reflexivity. exact U.
  - rewrite <- YE, YS, SE2. eapply settled_read; eauto. apply sid_type.
  - exact ME.
Qed.
End Boot.
End Props.

(** ** Concrete cases *)
Module ShcExamples.
Import SheExamples.
Local Open Scope N_scope.
Definition D : nat := 64.
Definition boot := boot_call cfg toy_crypt toy_pub toy_ots toy_gcm toy_dec 100 toy_aes toy_cbc toy_cbc toy_cmac toy_use D.
Definition mcall0 := ShcModel.call cfg toy_crypt toy_pub toy_ots toy_gcm toy_dec 100 toy_aes toy_cbc toy_cbc toy_cmac toy_use D.
Definition served := mserve cfg toy_aes toy_cbc toy_cbc toy_cmac toy_use D.
Lemma t_aes16 k b : length b = 16%nat -> length (toy_aes k b) = 16%nat. Proof. intros _. unfold toy_aes. rewrite map_length. apply exact_len. Qed.
Lemma t_cmac16 k m : length (toy_cmac k m) = 16%nat. Proof. apply exact_len. Qed.
Lemma t_cbc k m : length (toy_cbc k m) = length m. Proof. apply map_length. Qed.

(** Between the requests another client asks for the status on another context. *)
Definition wire : link := mkLink OK OK (repeat 0 64) (repeat 0 64).
Definition turn_of (e : senv) : turn := mkTurn [HShe 1 2 env SStatus] e (mkMishap 0 []) wire.
Definition t0 : turn := turn_of env.
(** An image of 100 bytes: two chunks of at most 56. *)
Definition big : list N := map (fun n => N.of_nat n mod 251) (seq 3 100).
Definition st_big : store := [obj 1 SLOT_BOOT_MAC_KEY bkey; obj 1 SLOT_BOOT_MAC (toy_cmac bkey (boot_prefix 100 ++ big));
                              obj 1 SLOT_SECRET (repeat 7 16); obj 1 SLOT_SEED (repeat 9 16)].
Definition uid : list N := [1; 2; 3; 4; 5; 6; 7; 8; 9; 10; 11; 12; 13; 14; 15].
Definition ready : list hev := [req 1 (SSetUid uid)].
Definition Yr : hsys := after ready (start st_big).
Definition Yb : hsys := snd (boot big (fun _ => t0) 0 1 Yr).
Lemma sane_big : nvm_sane st_big. Proof. repeat apply sane_obj. apply sane_nil. Qed.
Lemma own0 e : own D 0 (turn_of e). Proof. split; [repeat constructor; discriminate|split; reflexivity]. Qed.

(** The boot of the image: accepted; another image is refused, and the context
    locked; on a device without a boot MAC key there is no secure boot. *)
Example C81_boot_example : fst (boot big (fun _ => t0) 0 1 Yr) = OK /\ h_sb (hy_she Yb 0) = SbSuccess.
Proof. vm_compute. split; reflexivity. Qed.
Example C81_boot_fail_example : let '(rc, Y1) := boot (map (fun x => N.lxor x 1) big) (fun _ => t0) 0 1 Yr in rc = GENERAL_ERROR /\ h_sb (hy_she Y1 0) = SbInit.
Proof. vm_compute. split; reflexivity. Qed.
Example C81_boot_none_example : let '(rc, Y1) := boot big (fun _ => t0) 0 1 (after ready (start [])) in rc = NO_SECURE_BOOT /\ h_sb (hy_she Y1 0) = SbSuccess.
Proof. vm_compute. split; reflexivity. Qed.
(** The hypotheses of the completeness theorem. *)
Lemma settled0 s d : In (s, d) [(SLOT_BOOT_MAC_KEY, bkey); (SLOT_BOOT_MAC, toy_cmac bkey (boot_prefix 100 ++ big))] -> settled cfg Yr 0 1 s d.
Proof.
  cbn [In]. intros [H|[H|[]]]; injection H as <- <-; eexists; (split; [vm_compute; reflexivity|]); intros x H; exfalso; revert H; vm_compute; discriminate.
Qed.
Lemma quiet0 : quiet cfg toy_crypt toy_pub toy_ots toy_gcm toy_dec 100 toy_aes toy_cbc toy_cbc toy_cmac toy_use st_big 4 1 0 1 t0.
Proof.
  intros H. cbv zeta. cbn [t_gap t0 turn_of hafter hstep]. unfold she_step. cbn [refused action_of she_handle locks andb is_boot]. unfold do_status. cbn [snd hy_she hy_ks].
  split; [reflexivity|]. set (Y := hafter _ _ _ _ _ _ _ _ _ _ _ _ H _). intros slot key (m & F & CP). exists m. cbn [hy_ks]. split; [exact F|].
  intros s. rewrite copy_put. cbn [Nat.eqb orb]. destruct (is_global cfg (she_id cfg 1 slot)) eqn:IG; [|apply CP].
  intros Q. apply CP. rewrite (copy_global cfg (hy_ks Y) 0 1 _ IG). exact Q.
Qed.
Example C81_complete_example : exists Y1, boot big (fun _ => t0) 0 1 Yr = (OK, Y1).
Proof.
  apply (C81_boot_complete cfg toy_crypt toy_pub toy_ots toy_gcm toy_dec 100 toy_aes toy_cbc toy_cbc toy_cmac toy_use t_aes16 t_cmac16 t_cbc D
           ltac:(unfold D; lia) ltac:(vm_compute; reflexivity) st_big 4 1 0 1 sane_big ready big (fun _ => t0) bkey (toy_cmac bkey (boot_prefix 100 ++ big))).
  - intros _. split; [exact quiet0|]. split; [apply own0|]. split; [split; reflexivity|]. repeat split.
  - vm_compute. reflexivity.
  - discriminate.
  - vm_compute. reflexivity.
  - vm_compute. reflexivity.
  - apply settled0. left. reflexivity.
  - reflexivity.
  - apply settled0. right. left. reflexivity.
  - vm_compute. reflexivity.
Qed.
(** A random number; a refused key update. *)
Example C81_call_example :
  (let '(rc, _, Y1) := mcall0 MInitRnd t0 0 1 [] Yb in
   rc = OK /\ let '(rc2, out, _) := mcall0 MRnd t0 0 1 (repeat 1 20) Y1 in rc2 = OK /\ skipn 16 out = repeat 1 4 /\ out <> repeat 1 20) /\
  (let '(rc, out, Y1) := mcall0 (MLoadKey (repeat 1 16) (repeat 2 32) (repeat 3 16)) t0 0 1 (repeat 5 48) Yb in
   rc = KEY_UPDATE_ERROR /\ out = repeat 5 48).
Proof. vm_compute. repeat split; discriminate. Qed.

(** C80: the server's answers on a booted device: a RAM key loaded in clear and
    exported, and the answer to a chunk out of turn. *)
Definition ser (c : mcmd) (e : senv) (x : mishap) (n : nat) (buf : list N) (Y : hsys) : list N := fst (fst (served c e x 1 n buf (hy_she Y 0) (ks_of (hy_ks Y) 0))).
Definition ram : list N := [201; 202; 203; 204; 205; 206; 207; 208; 209; 210; 211; 212; 213; 214; 215; 216].
Definition Yk : hsys := snd (mcall0 (MLoadPlain ram) t0 0 1 [] Yb).
Definition blank : list N := repeat 0 64.
Example C80_server_example : length (ser CExportRam env (mkMishap 0 []) 0 blank Yk) = 116%nat /\ get_rc (ser CExportRam env (mkMishap 0 []) 0 blank Yk) = OK /\
  get_rc (ser CUpdate env (mkMishap 0 []) 9 (put32 40 ++ blank) Yk) = SEQUENCE_ERROR /\
  get_rc (ser CLoadKey env (mkMishap 0 []) 63 blank Yk) = GENERAL_ERROR /\ skipn 4 (ser CLoadKey env (mkMishap 0 []) 63 blank Yk) = repeat 0 48.
Proof. vm_compute. repeat split. Qed.
Example C80_error_blank_example : in_order env /\ length (h_uid (hy_she Yb 0)) = 15%nat /\ refused (asked D CExportRam 0 blank) (hy_she Yb 0) = false /\
  get_rc (ser CExportRam env (mkMishap 0 []) 0 blank Yb) = KEY_INVALID.
Proof. vm_compute. repeat split. Qed.
(** (1) A command refused before the boot is answered with bytes of the server's
    stack. *)
Definition on_stack (s : list N) : senv := mkSenv true (fun _ => OK) OK true true s.
Theorem C80_refused_refuted : exists c s, nvm_sane st_big /\
  refused (asked D c 64 blank) (hy_she Yr 0) = true /\ length s = 48%nat /\ ser c (on_stack s) (mkMishap 0 []) 64 blank Yr = put_rc SEQUENCE_ERROR ++ s /\
  s = ram ++ ram ++ ram.
Proof. exists CLoadKey. eexists. split; [apply sane_big|]. repeat split; [|reflexivity]; vm_compute; reflexivity. Qed.
(** (2) When wolfCrypt fails while the RAM key is exported, the answer with the error
    can hold the key in clear. *)
Definition fails_late : senv := mkSenv true (fun _ => OK) OK true false (repeat 0 16).
Theorem C80_ram_key_refuted : exists x, nvm_sane st_big /\ slot_key cfg Yk 0 1 SLOT_RAM = Some (ram_meta cfg 1, ram) /\
  get_rc (ser CExportRam fails_late x 0 blank Yk) = GENERAL_ERROR /\
  bytes_at (4 + 16 + 16) 16 (ser CExportRam fails_late x 0 blank Yk) = ram.
Proof. exists (mkMishap 0 []). split; [apply sane_big|]. repeat split; vm_compute; reflexivity. Qed.
(** (3) The status answer gives back 7 bytes of what the buffer held, here of a key
    that was loaded in clear before. *)
Theorem C80_status_refuted : exists buf, nvm_sane st_big /\ firstn 16 buf = ram /\ get_rc (ser CStatus env (mkMishap 0 []) 0 buf Yk) = OK /\
  skipn 5 (ser CStatus env (mkMishap 0 []) 0 buf Yk) = bytes_at 5 7 ram.
Proof. exists (ram ++ repeat 0 48). split; [apply sane_big|]. repeat split; vm_compute; reflexivity. Qed.

(** C81: (1) the call for random bytes with too little memory is refused after the
    command ran: the generator has moved. *)
Definition Yn : hsys := snd (mcall0 MInitRnd t0 0 1 [] Yb).
Theorem C81_late_refusal_refuted : exists out, nvm_sane st_big /\ (length out < 16)%nat /\
  let '(rc, out1, Y1) := mcall0 MRnd t0 0 1 out Yn in rc = BADARGS /\ out1 = out /\ hy_she Y1 0 <> hy_she Yn 0.
Proof. exists (repeat 0 8). split; [apply sane_big|]. vm_compute. repeat split; try discriminate. repeat constructor. Qed.
(** (2) The code of the last chunk is not looked at: when the server answers it with
    an error, the call returns that of the finish instead. *)
Definition fails_mac : senv := mkSenv true (fun _ => OK) OK false true (repeat 0 16).
Definition ts2 (n : nat) : turn := match n with 2%nat => turn_of fails_mac | _ => t0 end.
Theorem C81_last_code_refuted : nvm_sane st_big /\ fst (boot big ts2 0 1 Yr) = SEQUENCE_ERROR /\
  let Y1 := after (ready ++ [req 1 (SBootInit 100); req 1 (SBootUpdate (firstn 56 big))]) (start st_big) in
  option_map sr_rc (fst (step (HShe 0 1 fails_mac (SBootUpdate (skipn 56 big))) Y1)) = Some GENERAL_ERROR.
Proof. split; [apply sane_big|]. split; vm_compute; reflexivity. Qed.
End ShcExamples.
Print Assumptions C80_server.
Print Assumptions C80_from_request.
Print Assumptions C80_no_stack.
Print Assumptions C80_error_blank.
Print Assumptions C81_call.
Print Assumptions C81_bad_args.
Print Assumptions C81_boot_sound.
Print Assumptions C81_boot_fail.
Print Assumptions C81_boot_none.
Print Assumptions C81_boot_complete.
Print Assumptions ShcExamples.C80_refused_refuted.
Print Assumptions ShcExamples.C80_ram_key_refuted.
Print Assumptions ShcExamples.C80_status_refuted.
Print Assumptions ShcExamples.C81_late_refusal_refuted.
Print Assumptions ShcExamples.C81_last_code_refuted.
