(** The boot and management commands on bytes do what they do on fields. *)
From Coq Require Import Lia.
From Verif Require Import Base BaseLemmas NvmSpec Flags KeyId Store NvmReqModel CounterModel KsModel KsReq KsSys KsSpec KsEff KsSysProof SheModel SheSys SheSpec SheEff SheBoot KdfModel PropertiesKdf AesModel AesSpec ShdModel ShdSpec ShdProof ShcModel ShcSpec.
Local Open Scope nat_scope.

Lemma rc_back z b : (- 2147483648 <= z < 2147483648)%Z -> get_rc (put_rc z ++ b) = z.
Proof.
  apply (get_put_rc (fun _ b => b) (fun _ b => b) (fun _ _ => repeat 0%N 16)); auto.
Qed.

Section Proofs.
Variable C : kscfg.
Variable crypt : cop -> list N -> list N -> Z * list N.
Variable pub : N -> list N -> Z * list N.
Variable ots : list N -> list N -> option (list N * list N).
Variable gcm_enc : list N -> list N -> N -> list N -> option (list N).
Variable gcm_dec : list N -> list N -> N -> list N -> option (list N).
Variable max_read : nat.
Variable aes cbc_enc cbc_dec cmac : list N -> list N -> list N.
Variable use_op : sop -> list N -> list N -> option (list N).
Variable DL : nat.
Hypothesis aes16 : forall k b, length b = 16 -> length (aes k b) = 16.
Hypothesis cmac16 : forall k m, length (cmac k m) = 16.
Hypothesis cbc_len : forall k m, length (cbc_enc k m) = length m.
Notation sstep := (she_step C aes cbc_enc cbc_dec cmac use_op).
Notation handle := (she_handle C aes cbc_enc cbc_dec cmac use_op).
Notation step := (hstep C crypt pub ots gcm_enc gcm_dec max_read aes cbc_enc cbc_dec cmac use_op).
Notation after := (hafter C crypt pub ots gcm_enc gcm_dec max_read aes cbc_enc cbc_dec cmac use_op).
Notation serve_m := (mserve C aes cbc_enc cbc_dec cmac use_op DL).
Notation ask_m := (ask C crypt pub ots gcm_enc gcm_dec max_read aes cbc_enc cbc_dec cmac use_op DL).

Lemma parse_asked c n buf : parse DL c n buf = asked DL c n buf.
Proof.
  unfold parse, asked, get32, num_at, bytes_at, rd. cbv zeta.
  destruct c; try (destruct n; reflexivity);
    try (match goal with |- context[n <? ?k] => rewrite (Nat.ltb_antisym k n) end; match goal with |- context[?k <=? n] => destruct (k <=? n); reflexivity end).
  rewrite !Nat.ltb_antisym. destruct (8 <=? n); cbn [negb andb]; [|reflexivity].
  destruct (_ <=? DL); cbn [negb andb orb]; [|reflexivity]. destruct (_ <=? n); reflexivity.
Qed.

Lemma be32_len x : length (to_be32 x) = 4. Proof. reflexivity. Qed.
Lemma m4_len uid id auth count key : length uid = 15 -> length (m4_of aes uid id auth count key) = 32.
Proof.
  intros U. unfold m4_of. cbv zeta. rewrite !app_length, U, aes16; [reflexivity|]. rewrite !app_length, firstn_length, be32_len, repeat_length. reflexivity.
Qed.
(** The sizes of the results. *)
Lemma out_size e client q h S0 rc w out h1 S1 : length (h_uid h) = 15 -> handle e client q h S0 = (rc, w, out, h1, S1) -> rc = OK ->
  match q with
  | SLoadKey _ _ _ => length out = 48
  | SExportRam => length out = 112
  | SRnd => length out = 16
  | _ => True
  end.
Proof.
  intros U H O. unfold she_handle in H. destruct (_ && _) in H. { unfold err in H. injection H as <- _ _ _ _. discriminate O. }
  destruct q; auto.
  - unfold do_load_key in H. cbv zeta in H.
    destruct (she_read C (se_rd e 0) S0 _) as [[[r0 s0] mm] ak]. destruct (_ || _) in H. { unfold err in H. injection H as <- _ _ _ _. discriminate O. }
    destruct (is_ok r0) eqn:K0; cbn [negb] in H. 2:{ unfold err in H. injection H as <- _ _ _ _. rewrite O in K0. discriminate K0. }
    destruct (negb (se_c1 e)). { unfold err in H. injection H as <- _ _ _ _. discriminate O. }
    destruct (negb (if list_eq_dec _ _ _ then true else false)). { unfold err in H. injection H as <- _ _ _ _. discriminate O. }
    destruct (she_read C (se_rd e 1) _ _) as [[[rt S2] mo] old]. destruct (Z.eqb rt NOSPACE || _). { unfold err in H. injection H as <- _ _ _ _. discriminate O. }
    destruct (negb (Z.eqb rt NOTFOUND) && N.testbit _ _). { unfold err in H. injection H as <- _ _ _ _. discriminate O. }
    match type of H with context[if (if list_eq_dec N.eq_dec ?a ?b then ?c else ?d) then _ else _] => destruct (if list_eq_dec N.eq_dec a b then c else d) end. { unfold err in H. injection H as <- _ _ _ _. discriminate O. }
    destruct (negb (Z.eqb rt NOTFOUND) && N.leb _ _). { unfold err in H. injection H as <- _ _ _ _. discriminate O. }
    destruct (if N.eqb _ _ then _ else _) as [[[rw S3] fm] fk]. destruct (negb (is_ok rw)). { unfold err in H. injection H as <- _ _ _ _. discriminate O. }
    destruct (negb (se_c2 e)). { unfold err in H. injection H as <- _ _ _ _. discriminate O. }
    match type of H with (_, _, ?o, _, _) = _ => assert (OE : out = o) by congruence end. rewrite OE.
    unfold m5_of. rewrite app_length, m4_len, cmac16 by exact U. reflexivity.
  - unfold do_export_ram in H. cbv zeta in H. destruct (negb (h_plain h)). { unfold err in H. injection H as <- _ _ _ _. discriminate O. }
    destruct (she_read _ _ _ _) as [[[r0 s0] mm] ak]. destruct (_ || _) in H. { unfold err in H. injection H as <- _ _ _ _. discriminate O. }
    destruct (negb (se_c1 e)). { unfold err in H. injection H as <- _ _ _ _. discriminate O. }
    destruct (she_read C (se_rd e 1) _ _) as [[[rt S2] mo] key]. destruct (negb (is_ok rt) || _) eqn:B. { unfold err in H. injection H as <- _ _ _ _. discriminate O. }
    apply Bool.orb_false_iff in B as [_ B]. apply Bool.negb_false_iff, Nat.eqb_eq in B.
    destruct (negb (se_c2 e)). { unfold err in H. injection H as <- _ _ _ _. discriminate O. }
    match type of H with (_, _, ?o, _, _) = _ => assert (OE : out = o) by congruence end. rewrite OE.
    unfold m5_of, m3_of, m1_of, m2_of. rewrite !app_length, m4_len, !cmac16, cbc_len, !app_length, be32_len, repeat_length, B, U by exact U. reflexivity.
  - unfold do_rnd in H. cbv zeta in H. destruct (negb (h_rnd h)). { unfold err in H. injection H as <- _ _ _ _. discriminate O. }
    destruct (negb (se_c1 e)). { unfold err in H. injection H as <- _ _ _ _. discriminate O. }
    match type of H with (_, _, ?o, _, _) = _ => assert (OE : out = o) by congruence end. rewrite OE. apply exact_len.
Qed.
Lemma zeros_len n : length (zeros n) = n. Proof. apply repeat_length. Qed.
Lemma export_left_len e x client h S0 : length (h_uid h) = 15 -> length (export_left C aes cbc_enc cmac e x client h S0) = 112.
Proof.
  intros U. unfold export_left. cbv zeta. destruct (negb (h_plain h)); [apply zeros_len|].
  destruct (she_read _ _ _ _) as [[[r0 s0] mm] ak]. destruct (_ || _); [apply zeros_len|]. destruct (negb (se_c1 e)).
  { rewrite app_length, zeros_len, exact_len. reflexivity. }
  destruct (she_read C (se_rd e 1) _ _) as [[[rt S2] mo] key]. destruct (negb (is_ok rt) || _) eqn:B.
  { rewrite !app_length, zeros_len, exact_len. reflexivity. }
  apply Bool.orb_false_iff in B as [_ B]. apply Bool.negb_false_iff, Nat.eqb_eq in B.
  destruct (x_step x) as [|[|[|[|]]]]; rewrite !app_length, ?exact_len, ?zeros_len, ?be32_len, ?B; reflexivity.
Qed.
Lemma tail_len c e x client buf h S0 rc w out h1 : 12 <= length buf -> length (h_uid h) = 15 ->
  length (tail C aes cbc_enc cmac c e x client buf h S0 rc w out h1) = tail_size c.
Proof.
  intros L U. unfold tail. destruct c; cbn [tail_size]; rewrite ?put_rc_len; auto.
  - apply rd_len. lia.
  - rewrite app_length, rd_len by lia. reflexivity.
  - destruct (is_ok rc); [|destruct (_ && _)]; rewrite ?exact_len, ?zeros_len; reflexivity.
  - destruct (is_ok rc); [apply exact_len|]. destruct (Z.eqb rc BUFFER_SIZE); [apply zeros_len|apply export_left_len; exact U].
  - destruct (is_ok rc); rewrite ?exact_len, ?zeros_len; reflexivity.
Qed.
Lemma gate_len c e buf : 12 <= length buf -> length (gate_tail c e buf) = tail_size c.
Proof.
  intros L. unfold gate_tail. destruct c; cbn [tail_size]; rewrite ?exact_len; try reflexivity; [apply rd_len; lia|]. rewrite app_length, rd_len by lia. reflexivity.
Qed.
Lemma size_eq c : answer_size c = 4 + tail_size c. Proof. destruct c; reflexivity. Qed.
Lemma rd4 z l n : length l = n -> bytes_at 4 n (put_rc z ++ l) = l.
Proof.
  intros L. unfold bytes_at. rewrite skipn_app, put_rc_len, Nat.sub_diag. rewrite skipn_all2 by (rewrite put_rc_len; lia). cbn [app skipn].
  apply firstn_all2. lia.
Qed.
Lemma rd4_app z l r : bytes_at 4 (length l) (put_rc z ++ l ++ r) = l.
Proof.
  unfold bytes_at. rewrite skipn_app, put_rc_len, Nat.sub_diag. rewrite skipn_all2 by (rewrite put_rc_len; lia). cbn [app skipn].
  rewrite firstn_app, Nat.sub_diag, firstn_O, app_nil_r. apply firstn_all.
Qed.
(** The kind of a packet's command. *)
Definition kind (c : mcmd) : action :=
  match c with
  | CSetUid => ASetUid | CInit => ABootInit | CUpdate => ABootUpdate | CFinish => ABootFinish | CStatus => AStatus | CLoadKey => ALoadKey
  | CLoadPlain => ALoadPlain | CExportRam => AExportRam | CInitRnd => AInitRnd | CRnd => ARnd | CExtend => AExtendSeed
  end.
Lemma asked_kind c n buf : action_of (asked DL c n buf) = Some (kind c).
Proof.
  unfold asked. destruct c; try (destruct n; reflexivity); try (destruct (_ <=? _); reflexivity). destruct (_ && _); reflexivity.
Qed.
(** A chunk whose size is wrong, out of turn. *)
Definition out_of_turn (c : mcmd) (n : nat) (buf : list N) : Prop := c = CUpdate /\ asked DL c n buf = SBad ABootUpdate.

Lemma mserve_spec c e x client n buf h S0 : 12 <= length buf -> length (h_uid h) = 15 ->
  let '(resp, h1, S1) := serve_m c e x client n buf h S0 in
  let '(a, h2, S2) := sstep e client (asked DL c n buf) h S0 in
  h1 = h2 /\ S1 = S2 /\
  ((resp = [] /\ sr_rc a = LOCKED /\ se_lock e = false /\ locks (Some (kind c)) = true) \/
   delivers c a resp \/
   (out_of_turn c n buf /\ length resp = 8 /\ get_rc resp = SEQUENCE_ERROR /\ sr_rc a = GENERAL_ERROR)).
Proof.
  intros LB U. unfold mserve, she_step. cbv zeta. rewrite parse_asked, asked_kind. set (q := asked DL c n buf) in *.
  assert (AQ : action_of q = Some (kind c)) by apply asked_kind.
  destruct (refused q h) eqn:RF.
  { split; [reflexivity|]. split; [reflexivity|]. right. left. split; [|split].
    - rewrite app_length, put_rc_len, gate_len, size_eq by exact LB. reflexivity.
    - cbn [sr_rc]. apply rc_back. unfold SEQUENCE_ERROR. lia.
    - discriminate. }
  destruct (locks (Some (kind c)) && negb (se_lock e)) eqn:LK.
  { unfold she_handle. rewrite AQ, LK. unfold err. cbv beta iota zeta.
    change (is_ok LOCKED) with false. change (Z.eqb LOCKED NO_SECURE_BOOT) with false. cbn [negb]. rewrite !Bool.andb_true_r.
    split; [destruct (is_boot _); reflexivity|]. split; [reflexivity|]. left. apply Bool.andb_true_iff in LK as [LK0 LK]. apply Bool.negb_true_iff in LK. auto. }
  destruct (handle e client q h S0) as [[[[rc0 w] out] h1] S1] eqn:HD. cbv beta iota zeta. cbn [sr_rc sr_word sr_out].
  set (rc := match c, q with CUpdate, SBad _ => _ | _, _ => rc0 end).
  assert (RC : rc = rc0 \/ (out_of_turn c n buf /\ rc = SEQUENCE_ERROR /\ rc0 = BUFFER_SIZE)).
  { unfold rc, out_of_turn. destruct c; auto. fold q. destruct q eqn:Q; auto. destruct (_ || _); auto. right.
    cbn [action_of] in AQ. injection AQ as ->. repeat apply conj; auto. unfold she_handle in HD. cbn [action_of locks andb] in HD.
    unfold err in HD. congruence. }
  clearbody rc. destruct RC as [RC|(OT & RC & R0)]; subst rc.
  - split; [reflexivity|]. split; [reflexivity|]. right. left. split; [|split].
    + rewrite app_length, put_rc_len, tail_len, size_eq by assumption. reflexivity.
    + apply rc_back, translate_range.
    + intros O. apply translate_ok in O. rewrite O in *. clear O. pose proof (out_size _ _ _ _ _ _ _ _ _ _ U HD eq_refl) as SZ.
      assert (OKQ : match q with SBad _ => False | _ => True end).
      { destruct q; auto. unfold she_handle in HD. rewrite AQ, LK in HD. unfold err in HD. injection HD; discriminate. }
      destruct c; cbn [result_of tail sr_word sr_out]; try reflexivity.
      * change (is_ok OK) with true. cbv iota. assert (LO : length out = 48). { unfold q, asked in SZ, OKQ. destruct (64 <=? n); [exact SZ|destruct OKQ]. }
        rewrite exact_id by exact LO. rewrite rd4; auto.
      * change (is_ok OK) with true. cbv iota. assert (LO : length out = 112). { unfold q, asked in SZ, OKQ. destruct n; [exact SZ|destruct OKQ]. }
        rewrite exact_id by exact LO. rewrite rd4; auto.
      * change (is_ok OK) with true. cbv iota. assert (LO : length out = 16). { unfold q, asked in SZ, OKQ. destruct n; [exact SZ|destruct OKQ]. }
        rewrite exact_id by exact LO. rewrite rd4; auto.
  - subst rc0. change (is_ok SEQUENCE_ERROR) with false. change (is_ok BUFFER_SIZE) with false.
    change (Z.eqb SEQUENCE_ERROR NO_SECURE_BOOT) with false. change (Z.eqb BUFFER_SIZE NO_SECURE_BOOT) with false. cbn [negb].
    split; [reflexivity|]. split; [reflexivity|]. right. right. split; [exact OT|]. split; [|split].
    + rewrite app_length, put_rc_len, tail_len by assumption. destruct OT as [-> _]. reflexivity.
    + apply rc_back. unfold SEQUENCE_ERROR. lia.
    + reflexivity.
Qed.

(** ** One exchange *)
Definition link_fine (L : link) : Prop := length (l_cold L) = DL /\ length (l_sold L) = DL /\ bytes_ok (l_cold L) /\ bytes_ok (l_sold L).
Lemma ask_spec c p t i client Y r resp Y1 : let Y0 := after (t_gap t) Y in
  12 <= DL -> length (l_sold (t_link t)) = DL -> length p <= DL -> length (h_uid (hy_she Y0 i)) = 15 ->
  ask_m c p t i client Y = (r, resp, Y1) ->
  (l_send (t_link t) <> OK /\ r = l_send (t_link t) /\ Y1 = Y0) \/
  (l_send (t_link t) = OK /\
   let q := asked DL c (length p) (arrive p (t_link t)) in
   exists a, step (HShe i client (t_env t) q) Y0 = (Some a, Y1) /\
   ((l_recv (t_link t) <> OK /\ r = l_recv (t_link t)) \/
    (l_recv (t_link t) = OK /\ r = OK /\
     ((resp = [] /\ sr_rc a = LOCKED /\ se_lock (t_env t) = false /\ locks (Some (kind c)) = true) \/
      delivers c a resp \/
      (out_of_turn c (length p) (arrive p (t_link t)) /\ length resp = 8 /\ get_rc resp = SEQUENCE_ERROR /\ sr_rc a = GENERAL_ERROR))))).
Proof.
  intros Y0 D L P U H. unfold ask in H. cbv zeta in H. fold Y0 in H.
  destruct (is_ok (l_send (t_link t))) eqn:SD; cbn [negb] in H.
  2:{ injection H as <- _ <-. left. split; [apply is_ok_neq; exact SD|auto]. }
  right. split; [apply is_ok_eq; exact SD|]. cbv zeta.
  assert (LB : 12 <= length (arrive p (t_link t))). { unfold arrive. rewrite app_length, skipn_length. lia. }
  pose proof (mserve_spec c (t_env t) (t_mishap t) client (length p) (arrive p (t_link t)) (hy_she Y0 i) (ks_of (hy_ks Y0) i) LB U) as M.
  destruct (serve_m c (t_env t) (t_mishap t) client (length p) (arrive p (t_link t)) (hy_she Y0 i) (ks_of (hy_ks Y0) i)) as [[rs h1] S1].
  cbn [hstep]. destruct (sstep (t_env t) client _ (hy_she Y0 i) (ks_of (hy_ks Y0) i)) as [[a h2] S2]. destruct M as (<- & <- & M). exists a.
  destruct (is_ok (l_recv (t_link t))) eqn:RV; cbn [negb] in H; injection H as <- <- <-; (split; [reflexivity|]).
  - right. split; [apply is_ok_eq; exact RV|]. split; [reflexivity|exact M].
  - left. split; [apply is_ok_neq; exact RV|reflexivity].
Qed.

(** ** Packets *)
Lemma rd_app_at (a b c : list N) : rd (length a) (length b) (a ++ b ++ c) = b.
Proof.
  unfold rd. rewrite skipn_app, skipn_all, Nat.sub_diag. cbn [app skipn]. rewrite firstn_app, firstn_all, Nat.sub_diag, firstn_O, app_nil_r. reflexivity.
Qed.
Lemma bytes_app_at o n (a b c : list N) : o = length a -> n = length b -> bytes_at o n (a ++ b ++ c) = b.
Proof. intros -> ->. apply rd_app_at. Qed.
Lemma num_front (k : N) rest : (k < 4294967296)%N -> num_at 0 (le_enc 4 k ++ rest) = k.
Proof.
  intros K. unfold num_at. change (le_enc 4 k ++ rest) with ([] ++ le_enc 4 k ++ rest). rewrite bytes_app_at; [|reflexivity|symmetry; apply le_enc_length]. apply le_dec_enc. exact K.
Qed.
Lemma pad_len t : length (l_cold (t_link t)) = DL -> 8 <= DL -> length (rd 4 4 (l_cold (t_link t))) = 4.
Proof. intros H D. apply rd_len. lia. Qed.
Lemma init_asked len t : length (l_cold (t_link t)) = DL -> 8 <= DL -> (N.of_nat len < 4294967296)%N ->
  asked DL CInit (length (init_packet len t)) (arrive (init_packet len t) (t_link t)) = SBootInit (N.of_nat len) /\ length (init_packet len t) = 8.
Proof.
  intros LC D K. assert (LP : length (init_packet len t) = 8). { unfold init_packet. rewrite app_length, put32_len, pad_len by assumption. reflexivity. }
  split; [|exact LP]. unfold asked. rewrite LP. cbn [Nat.leb]. f_equal. unfold arrive, init_packet, put32. rewrite <- app_assoc. apply num_front. exact K.
Qed.
Lemma update_asked chunk t : length (l_cold (t_link t)) = DL -> 8 <= DL -> (N.of_nat DL < 4294967296)%N -> length chunk <= DL - 8 ->
  asked DL CUpdate (length (update_packet chunk t)) (arrive (update_packet chunk t) (t_link t)) = SBootUpdate chunk /\
  length (update_packet chunk t) = 8 + length chunk.
Proof.
  intros LC D K LK. assert (LP : length (update_packet chunk t) = 8 + length chunk). { unfold update_packet. rewrite !app_length, put32_len, pad_len by assumption. lia. }
  split; [|exact LP]. unfold asked. rewrite LP.
  assert (NM : num_at 0 (arrive (update_packet chunk t) (t_link t)) = N.of_nat (length chunk)).
  { unfold arrive, update_packet, put32. rewrite <- !app_assoc. apply num_front. lia. }
  rewrite NM, Nat2N.id. destruct (Nat.leb_spec 8 (8 + length chunk)); [|lia]. destruct (Nat.leb_spec (length chunk) DL); [|lia].
  destruct (Nat.leb_spec (8 + length chunk) (8 + length chunk)); [|lia]. cbn [andb]. f_equal.
  unfold arrive, update_packet. rewrite (app_assoc (put32 _)), <- app_assoc. apply bytes_app_at; [|reflexivity].
  rewrite app_length, put32_len, pad_len by assumption. reflexivity.
Qed.
Lemma request_asked m out L p : 64 <= DL -> length (l_cold L) = DL -> fits m out -> mrequest m (l_cold L) = Some p ->
  asked DL (cmd_of m) (length p) (arrive p L) = wanted m /\ length p <= 64.
Proof.
  intros D LC F H. destruct m; cbn [mrequest cmd_of wanted fits] in *.
  - destruct F as [F _]. destruct (Nat.ltb_spec (length uid) 15); [lia|]. assert (PE : p = firstn 15 uid ++ rd 15 1 (l_cold L)) by congruence.
    assert (L15 : length (firstn 15 uid) = 15) by (rewrite firstn_length; lia).
    assert (LP : length p = 16) by (rewrite PE, app_length, L15, rd_len by lia; reflexivity).
    split; [|lia]. unfold asked. rewrite LP. change (16 <=? 16) with true. cbv iota. f_equal. unfold arrive. rewrite PE, <- app_assoc.
    apply (bytes_app_at 0 15 []); auto.
  - injection H as <-. split; [reflexivity|cbn [length]; lia].
  - destruct F as (F1 & F2 & F3 & _). rewrite !exact_id in H by assumption. assert (PE : p = m1 ++ m2 ++ m3) by congruence.
    assert (LP : length p = 64) by (rewrite PE, !app_length; lia). split; [|lia]. unfold asked. rewrite LP. change (64 <=? 64) with true. cbv iota.
    unfold arrive. f_equal.
    + rewrite PE, <- app_assoc. apply (bytes_app_at 0 16 []); auto.
    + rewrite PE, <- !app_assoc. apply bytes_app_at; auto.
    + rewrite PE, app_assoc, <- app_assoc. apply bytes_app_at; auto. rewrite app_length. lia.
  - destruct F as [F _]. destruct (Nat.ltb_spec (length key) 16); [lia|]. assert (PE : p = firstn 16 key) by congruence.
    assert (LP : length p = 16) by (rewrite PE, firstn_length; lia).
    split; [|lia]. unfold asked. rewrite LP. change (16 <=? 16) with true. cbv iota. f_equal. unfold arrive. rewrite <- PE.
    apply (bytes_app_at 0 16 []); auto.
  - injection H as <-. split; [reflexivity|cbn [length]; lia].
  - injection H as <-. split; [reflexivity|cbn [length]; lia].
  - injection H as <-. split; [reflexivity|cbn [length]; lia].
  - destruct F as [F _]. rewrite F in H. cbn [Nat.eqb negb] in H. assert (PE : p = entropy) by congruence. subst p.
    split; [|lia]. unfold asked. rewrite F. change (16 <=? 16) with true. cbv iota. f_equal. unfold arrive. apply (bytes_app_at 0 16 []); auto.
Qed.

(** ** Histories *)
Notation uid_given := (uid_given C crypt pub ots gcm_enc gcm_dec max_read aes cbc_enc cbc_dec cmac use_op).
Notation image_sent := (image_sent C crypt pub ots gcm_enc gcm_dec max_read aes cbc_enc cbc_dec cmac use_op).
Lemma uid_given_len i evs : forall Y u, (forall v, u = Some v -> length v = 15) -> forall v, uid_given i evs Y u = Some v -> length v = 15.
Proof.
  induction evs as [|ev evs IH]; intros Y u H v E; cbn [SheSpec.uid_given] in E; [auto|].
  destruct (step ev Y) as [a Y1]. revert E. apply IH. intros v0. unfold uid_by. destruct ev as [j cl e q|ev].
  - destruct q; auto. destruct (_ && _); auto. intros X. injection X as <-. apply exact_len.
  - destruct ev; auto; try discriminate. destruct (Nat.eqb _ _); [discriminate|auto].
Qed.
Lemma uid_len evs st r b i : length (h_uid (hy_she (after evs (fresh_hsys st r b)) i)) = 15.
Proof.
  destruct (agrees_fresh C crypt pub ots gcm_enc gcm_dec max_read aes cbc_enc cbc_dec cmac use_op i evs st r b) as (_ & _ & _ & H). cbv zeta in H. rewrite H.
  destruct (uid_given i evs (fresh_hsys st r b) None) as [v|] eqn:E; [|reflexivity]. revert E. apply uid_given_len. discriminate.
Qed.
Lemma image_app i evs1 : forall evs2 Y x, image_sent i (evs1 ++ evs2) Y x = image_sent i evs2 (after evs1 Y) (image_sent i evs1 Y x).
Proof.
  induction evs1 as [|ev evs IH]; intros evs2 Y x; cbn [app SheSpec.image_sent hafter]; [reflexivity|].
  destruct (step ev Y) as [a Y1] eqn:E. rewrite IH. reflexivity.
Qed.
Lemma image_elsewhere i evs : Forall (elsewhere i) evs -> forall Y x, image_sent i evs Y x = x \/ image_sent i evs Y x = None.
Proof.
  induction 1 as [|ev evs E _ IH]; intros Y x; cbn [SheSpec.image_sent]; auto. destruct (step ev Y) as [a Y1].
  assert (X : image_by C i ev a Y x = x \/ image_by C i ev a Y x = None).
  { destruct ev as [j cl e q|ev]; cbn [elsewhere image_by] in *.
    - destruct (Nat.eqb_spec j i); [congruence|auto].
    - destruct ev; auto. destruct (Nat.eqb _ _); auto. }
  destruct X as [-> | ->]; [apply IH|]. destruct (IH Y1 None); auto.
Qed.
End Proofs.
