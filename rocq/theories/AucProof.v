(** Proofs about the authentication calls on bytes (AucModel.v). *)
From Verif Require Import Base BaseLemmas NvmSpec Flags Store NvmReqModel EndianModel EndianProof KdfModel KsReq NvcModel NvcSpec NvcProof.
From Verif Require Import ServerModel AuthModel AuthCodec AuthRep AuthOps AuthEff AuthSys AucModel AucSpec AucCode.
Local Opaque flatten unflatten.

(** ** Pieces *)
Lemma exactly_len n l : length (exactly n l) = n.
Proof. unfold exactly. rewrite firstn_length, app_length, repeat_length. lia. Qed.
Lemma name_field_len n : length (name_field n) = 32.
Proof. unfold name_field. rewrite app_length, exactly_len. reflexivity. Qed.
Lemma rd_at (a b c : list N) i n : length a = i -> length b = n -> rd i n (a ++ b ++ c) = b.
Proof. intros A B. unfold rd. rewrite skip_exact by auto. apply first_exact; auto. Qed.
Lemma u16_at sb cb (a c : list N) i v : length a = i -> u16 v -> fld 0 (take sb cb [2] (skipn i (a ++ wire cb [(2, v)] ++ c))) = v.
Proof.
  intros A B. rewrite skip_exact by auto. pose proof (take_wire sb cb [(2, v)] c) as T. cbn [map fst snd] in T. rewrite T; [reflexivity|].
  constructor; [|constructor]. unfold fit, wide. cbn [fst snd]. split; [auto|exact B].
Qed.
Lemma u16_0 sb cb (c : list N) v : u16 v -> fld 0 (take sb cb [2] (skipn 0 (wire cb [(2, v)] ++ c))) = v.
Proof. intros B. exact (u16_at sb cb [] c 0 v eq_refl B). Qed.
Lemma rd_0 (b c : list N) n : length b = n -> rd 0 n (b ++ c) = b.
Proof. intros B. exact (rd_at [] b c 0 n eq_refl B). Qed.
Lemma wire_cons be f fs : wire be (f :: fs) = wire be [f] ++ wire be fs.
Proof. unfold wire. cbn [flat_map]. now rewrite app_nil_r. Qed.
Lemma w2_len be v : length (wire be [(2, v)]) = 2.
Proof. apply wire_length. Qed.
Lemma zero_name n : length n <= 31 -> cname n -> uname (zero_end (name_field n)) = n.
Proof.
  intros L C. unfold uname, zero_end, name_field.
  assert (E : firstn 31 (exactly 31 n ++ [0%N]) = exactly 31 n) by (apply first_exact, exactly_len). rewrite E.
  rewrite first_exact by apply exactly_len.
  unfold exactly. rewrite firstn_app. rewrite firstn_all2 by auto.
  destruct (Nat.eq_dec (length n) 31) as [X|X].
  - rewrite X, Nat.sub_diag. cbn [firstn]. rewrite app_nil_r.
    clear -C. induction C as [|b l H C IH]; cbn [cstr]; auto. destruct (N.eqb_spec b 0); [lia|]. now rewrite IH.
  - destruct (31 - length n) as [|m] eqn:M; [lia|]. cbn [repeat firstn]. apply cstr_pad; auto.
Qed.
Lemma own_name n : length n <= 31 -> cname n -> uname n = n.
Proof.
  intros L C. unfold uname. rewrite firstn_all2 by auto.
  clear -C. induction C as [|b l H C IH]; cbn [cstr]; auto. destruct (N.eqb_spec b 0); [lia|]. now rewrite IH.
Qed.
Lemma as_sent_clamp p : perms_wf p -> as_sent p = clamp p.
Proof.
  intros (_ & _ & _ & _ & _ & K & _). unfold as_sent, clamp, MAXKEYS in *. cbv zeta. f_equal.
  destruct (p_keys p) as [|a [|b [|]]]; try discriminate K. cbn [map nth].
  change (N.of_nat 0) with 0%N. change (N.of_nat 1) with 1%N. change (N.of_nat 2) with 2%N.
  destruct (N.ltb_spec 0 (p_count p)) as [A|A]; destruct (N.ltb_spec 1 (p_count p)) as [B|B]; try lia.
  - replace (N.min (p_count p) 2) with 2%N by lia. reflexivity.
  - replace (N.min (p_count p) 2) with 1%N by lia. reflexivity.
  - replace (N.min (p_count p) 2) with 0%N by lia. reflexivity.
Qed.
Lemma name_valid_spec n : name_valid n = true <-> ~ bad_name n.
Proof.
  unfold name_valid, bad_name. destruct n as [|x n]; cbn [length]; [cbn; split; [discriminate|intros H; contradiction H; auto]|].
  cbn [Nat.eqb negb andb]. rewrite Nat.ltb_lt. split; [intros H [E|E]; [discriminate|lia]|]. intros H.
  destruct (Nat.lt_ge_cases 31 (S (length n))); [|lia]. contradiction H. auto.
Qed.

Section Auc.
Variables (nvm crypto certs : bool) (sha : list N -> list N) (verify : list N -> list N -> bool).
Variables CD SD : nat.
Variables sb cb : bool.
Hypothesis CD_min : 510 <= CD.
Hypothesis CD_SD : CD <= SD.
Hypothesis SD_max : (N.of_nat SD < 65536)%N.

(** ** Requests *)
Lemma request_refused old k code : refused CD k code -> arequest CD cb old k = inl code.
Proof.
  unfold arequest, refused, Z_LOGIN, Z_ADD, Z_CRED. destruct k; try tauto.
  - intros [[B|B] ->].
    + destruct (name_valid name) eqn:V; [apply name_valid_spec in V; contradiction|reflexivity].
    + destruct (name_valid name); [|reflexivity]. cbn [negb].
      destruct (Nat.ltb_spec (CD - 36) (length data)); [reflexivity|]. lia.
  - intros [[B ->]|(B & C & ->)].
    + destruct (name_valid name) eqn:V; [apply name_valid_spec in V; contradiction|reflexivity].
    + apply name_valid_spec in B. rewrite B. cbn [negb]. destruct (Nat.ltb_spec (CD - 510) (length cred)); [reflexivity|]. lia.
  - intros [B ->]. destruct (name_valid name) eqn:V; [apply name_valid_spec in V; contradiction|reflexivity].
  - intros [[B|B] ->].
    + destruct (Nat.ltb_spec ((CD - 8) / 2) (length old0)) as [L|L]; [reflexivity|].
      pose proof (Nat.div_mod (CD - 8) 2). pose proof (Nat.mod_upper_bound (CD - 8) 2). lia.
    + destruct (Nat.ltb_spec ((CD - 8) / 2) (length old0)) as [L|L]; [reflexivity|].
      destruct (Nat.ltb_spec ((CD - 8) / 2) (length new)) as [L1|L1]; [reflexivity|].
      pose proof (Nat.div_mod (CD - 8) 2). pose proof (Nat.mod_upper_bound (CD - 8) 2). lia.
Qed.
Lemma refused_dec k : (exists code, refused CD k code) \/ forall code, ~ refused CD k code.
Proof.
  assert (BN : forall n, bad_name n \/ ~ bad_name n).
  { intros n. destruct (name_valid n) eqn:V; [right; now apply name_valid_spec|]. left.
    unfold bad_name. destruct n; auto. unfold name_valid in V. cbn [length Nat.eqb negb andb] in V. apply Nat.ltb_ge in V. right. cbn [length]. lia. }
  destruct k; cbn [refused]; try (right; tauto).
  - destruct (BN name); [left; exists BADARGS; auto|]. destruct (Nat.lt_ge_cases CD (36 + length data)); [left; exists BADARGS; auto|].
    right. intros code [[B|B] _]; [auto|lia].
  - destruct (BN name); [left; exists BADARGS; auto|]. destruct (Nat.lt_ge_cases CD (510 + length cred)); [left; exists BUFFER_SIZE; auto|].
    right. intros code [[B _]|(_ & B & _)]; [auto|lia].
  - destruct (BN name); [left; exists BADARGS; auto|]. right. intros code [B _]; auto.
  - destruct (Nat.lt_ge_cases CD (8 + 2 * length old)); [left; exists BUFFER_SIZE; auto|].
    destruct (Nat.lt_ge_cases CD (8 + 2 * length new)); [left; exists BUFFER_SIZE; auto|].
    right. intros code [[B|B] _]; lia.
Qed.

(** The manager treats the two requests alike. *)
Definition alike (q q' : areq) : Prop :=
  forall e s D, auth_handle nvm crypto certs sha verify e q s D = auth_handle nvm crypto certs sha verify e q' s D.

Ltac len := repeat (rewrite ?app_length, ?wire_length, ?name_field_len, ?exactly_len, ?flatten_length by auto); cbn [map fst sum fold_right length]; unfold FLAT_LEN, NGROUPS, AWORDS, MAXKEYS; lia.
Lemma good_name n : ~ bad_name n -> length n <= 31.
Proof. intros H. destruct (Nat.lt_ge_cases 31 (length n)); [|lia]. contradiction H. right. auto. Qed.
Lemma u16_len (l : list N) n : n <= length l -> length l <= SD -> u16 (N.of_nat (length l - n)).
Proof. unfold u16. lia. Qed.

(** A request that is sent is read as it was meant; the cleared part is the part
    with the credentials. *)
Lemma request_sent old k : acall_ok k -> (forall code, ~ refused CD k code) ->
  exists p, arequest CD cb old k = inr p /\ length p <= CD /\ secret_at k + length (secrets k) <= length p /\
    (forall i, i < length (secrets k) -> nth (secret_at k + i) p 0%N = nth i (secrets k) 0%N) /\
    forall rest, exists q w, aparse SD sb cb (uaction k) (length p) (p ++ rest) = inr (q, w) /\ alike q (meaning k) /\
      (w = (secret_at k, length (secrets k)) \/ w = (0, 0) /\ secrets k = []) /\ areq_action q = uaction k.
Proof.
  intros OKk NR. destruct k; cbn [acall_ok refused] in OKk, NR.
  - (* login *)
    destruct OKk as [M C]. assert (BN : ~ bad_name name) by (intros B; apply (NR BADARGS); auto).
    assert (FD : 36 + length data <= CD) by (destruct (Nat.lt_ge_cases CD (36 + length data)); [exfalso; apply (NR BADARGS); auto|auto]).
    pose proof (good_name _ BN) as LN. unfold arequest. rewrite (proj2 (name_valid_spec name) BN). cbn [negb].
    unfold Z_LOGIN. destruct (Nat.ltb_spec (CD - 36) (length data)); [lia|]. destruct (Nat.ltb_spec CD (36 + length data)); [lia|].
    eexists. split; [reflexivity|]. cbn [secret_at secrets uaction meaning].
    set (A := wire cb [(2, method)]). set (Bn := name_field name). set (Lw := wire cb [(2, N.of_nat (length data))]).
    assert (LA : length A = 2) by apply w2_len. assert (LB : length Bn = 32) by apply name_field_len. assert (LL : length Lw = 2) by apply w2_len.
    assert (LT : length (A ++ Bn ++ Lw ++ data) = 36 + length data) by (rewrite !app_length; lia).
    rewrite LT. split; [lia|]. split; [lia|]. split.
    { intros i Hi. replace (A ++ Bn ++ Lw ++ data) with ((A ++ Bn ++ Lw) ++ data) by (rewrite !app_assoc; reflexivity).
      rewrite app_nth2 by (rewrite !app_length; lia). f_equal. rewrite !app_length. lia. }
    intros rest. set (buf := (A ++ Bn ++ Lw ++ data) ++ rest).
    assert (E0 : fld 0 (take sb cb [2] (skipn 0 buf)) = method).
    { unfold buf, A. rewrite <- !app_assoc. apply (u16_at sb cb [] _ 0); auto. }
    assert (E1 : fld 0 (take sb cb [2] (skipn 34 buf)) = N.of_nat (length data)).
    { unfold buf. replace ((A ++ Bn ++ Lw ++ data) ++ rest) with ((A ++ Bn) ++ Lw ++ (data ++ rest)) by (rewrite <- !app_assoc; reflexivity).
      unfold Lw. apply u16_at; [rewrite app_length; lia|unfold u16; lia]. }
    assert (E2 : rd 2 32 buf = Bn).
    { unfold buf. rewrite <- !app_assoc. apply rd_at; auto. }
    assert (E3 : rd 36 (length data) buf = data).
    { unfold buf. replace ((A ++ Bn ++ Lw ++ data) ++ rest) with ((A ++ Bn ++ Lw) ++ data ++ rest) by (rewrite <- !app_assoc; reflexivity).
      apply rd_at; auto. rewrite !app_length. lia. }
    unfold aparse. cbn [N.eqb]. rewrite E0, E1, E2. unfold Z_LOGIN.
    destruct (Nat.ltb_spec (36 + length data) 36); [lia|].
    destruct (N.ltb_spec (N.of_nat (SD - 36)) (N.of_nat (length data))); [lia|].
    destruct (N.ltb_spec (N.of_nat (36 + length data)) (u16s (N.of_nat 36 + N.of_nat (length data)))) as [X|X].
    { unfold u16s in X. rewrite N.mod_small in X by lia. lia. }
    cbn [orb]. rewrite Nat2N.id, E3. eexists _, _. split; [reflexivity|]. split; [|split; auto].
    intros e s D. unfold Bn, auth_handle. rewrite zero_name, own_name by auto. reflexivity.
  - (* logout *)
    eexists. split; [reflexivity|]. cbn [secret_at secrets uaction meaning length].
    assert (LT : length (wire cb [(2, uid)] ++ [0; 0]%N) = 4) by (rewrite app_length, w2_len; reflexivity).
    rewrite LT. split; [lia|]. split; [lia|]. split; [intros; lia|]. intros rest.
    unfold aparse. cbn [N.eqb Pos.eqb Nat.eqb negb]. eexists _, _. split; [reflexivity|]. split; [|split; auto].
    rewrite <- app_assoc. rewrite u16_0 by auto. intros e s D. reflexivity.
  - (* add *)
    destruct OKk as (M & C & PW). assert (BN : ~ bad_name name) by (intros B; apply (NR BADARGS); auto).
    assert (FD : 510 + length cred <= CD) by (destruct (Nat.lt_ge_cases CD (510 + length cred)); [exfalso; apply (NR BUFFER_SIZE); auto|auto]).
    pose proof (good_name _ BN) as LN. unfold arequest. rewrite (proj2 (name_valid_spec name) BN). cbn [negb].
    unfold Z_ADD. destruct (Nat.ltb_spec (CD - 510) (length cred)); [lia|]. destruct (Nat.ltb_spec CD (510 + length cred)); [lia|].
    eexists. split; [reflexivity|]. cbn [secret_at secrets uaction meaning]. rewrite wire_cons.
    set (A := wire cb [(2, method)]). set (Bn := name_field name). set (Lw := wire cb [(2, N.of_nat (length cred))]).
    set (F := flatten p). set (P := exactly 1 (skipn 505 old)).
    assert (LA : length A = 2) by apply w2_len. assert (LB : length Bn = 32) by apply name_field_len. assert (LL : length Lw = 2) by apply w2_len.
    assert (LF : length F = 473) by (unfold F; rewrite flatten_length by auto; reflexivity). assert (LP : length P = 1) by apply exactly_len.
    rewrite <- !app_assoc.
    assert (LT : length (Bn ++ F ++ P ++ A ++ Lw ++ cred) = 510 + length cred) by (rewrite !app_length; lia).
    rewrite LT. split; [lia|]. split; [lia|]. split.
    { intros i Hi. replace (Bn ++ F ++ P ++ A ++ Lw ++ cred) with ((Bn ++ F ++ P ++ A ++ Lw) ++ cred) by (rewrite <- !app_assoc; reflexivity).
      rewrite app_nth2 by (rewrite !app_length; lia). f_equal. rewrite !app_length. lia. }
    intros rest. set (buf := (Bn ++ F ++ P ++ A ++ Lw ++ cred) ++ rest).
    assert (E0 : fld 0 (take sb cb [2] (skipn 506 buf)) = method).
    { unfold buf. replace ((Bn ++ F ++ P ++ A ++ Lw ++ cred) ++ rest) with ((Bn ++ F ++ P) ++ A ++ (Lw ++ cred ++ rest)) by (rewrite <- !app_assoc; reflexivity).
      unfold A. apply u16_at; [rewrite !app_length; lia|auto]. }
    assert (E1 : fld 0 (take sb cb [2] (skipn 508 buf)) = N.of_nat (length cred)).
    { unfold buf. replace ((Bn ++ F ++ P ++ A ++ Lw ++ cred) ++ rest) with ((Bn ++ F ++ P ++ A) ++ Lw ++ (cred ++ rest)) by (rewrite <- !app_assoc; reflexivity).
      unfold Lw. apply u16_at; [rewrite !app_length; lia|unfold u16; lia]. }
    assert (E2 : rd 0 32 buf = Bn).
    { unfold buf. rewrite <- !app_assoc. apply (rd_at [] Bn); auto. }
    assert (E3 : rd 510 (length cred) buf = cred).
    { unfold buf. replace ((Bn ++ F ++ P ++ A ++ Lw ++ cred) ++ rest) with ((Bn ++ F ++ P ++ A ++ Lw) ++ cred ++ rest) by (rewrite <- !app_assoc; reflexivity).
      apply rd_at; auto. rewrite !app_length. lia. }
    assert (E4 : rd 32 FLAT_LEN buf = F).
    { unfold buf. rewrite <- !app_assoc. apply rd_at; auto. }
    unfold aparse. cbn [N.eqb Pos.eqb]. rewrite E0, E1, E2, E4. unfold Z_ADD.
    destruct (Nat.ltb_spec (510 + length cred) 510); [lia|].
    destruct (N.ltb_spec (N.of_nat (SD - 510)) (N.of_nat (length cred))); [lia|].
    destruct (N.ltb_spec (N.of_nat (510 + length cred)) (u16s (N.of_nat 510 + N.of_nat (length cred)))) as [X|X].
    { unfold u16s in X. rewrite N.mod_small in X by lia. lia. }
    cbn [orb]. rewrite Nat2N.id, E3. eexists _, _. split; [reflexivity|]. split; [|split; auto].
    intros e s D. unfold F. pose proof (unflatten_flatten p [] PW) as U. rewrite app_nil_r in U. rewrite U, as_sent_clamp by auto.
    unfold Bn, auth_handle, base_add. rewrite zero_name, own_name by auto. reflexivity.
  - (* delete *)
    eexists. split; [reflexivity|]. cbn [secret_at secrets uaction meaning length].
    assert (LT : length (wire cb [(2, uid)] ++ [0; 0]%N) = 4) by (rewrite app_length, w2_len; reflexivity).
    rewrite LT. split; [lia|]. split; [lia|]. split; [intros; lia|]. intros rest.
    unfold aparse. cbn [N.eqb Pos.eqb Nat.eqb negb]. eexists _, _. split; [reflexivity|]. split; [|split; auto].
    rewrite <- app_assoc. rewrite u16_0 by auto. intros e s D. reflexivity.
  - (* get *)
    assert (BN : ~ bad_name name) by (intros B; apply (NR BADARGS); auto). pose proof (good_name _ BN) as LN.
    unfold arequest. rewrite (proj2 (name_valid_spec name) BN). cbn [negb].
    eexists. split; [reflexivity|]. cbn [secret_at secrets uaction meaning length].
    assert (LT : length (name_field name ++ [0; 0]%N) = 34) by (rewrite app_length, name_field_len; reflexivity).
    rewrite LT. split; [lia|]. split; [lia|]. split; [intros; lia|]. intros rest.
    unfold aparse. cbn [N.eqb Pos.eqb Nat.eqb negb]. unfold Z_GET. cbn [Nat.eqb negb].
    eexists _, _. split; [reflexivity|]. split; [|split; auto].
    rewrite <- app_assoc. rewrite rd_0 by apply name_field_len.
    intros e s D. unfold auth_handle. rewrite zero_name, own_name by auto. reflexivity.
  - (* permissions *)
    destruct OKk as [M PW].
    eexists. split; [reflexivity|]. cbn [secret_at secrets uaction meaning length].
    assert (LF : length (flatten p) = 473) by (rewrite flatten_length by auto; reflexivity).
    assert (LT : length (wire cb [(2, uid)] ++ flatten p ++ exactly 1 (skipn 475 old)) = 476) by (rewrite !app_length, w2_len, exactly_len; lia).
    rewrite LT. split; [lia|]. split; [lia|]. split; [intros; lia|]. intros rest.
    unfold aparse. cbn [N.eqb Pos.eqb]. unfold Z_PERM. rewrite Nat.eqb_refl. cbn [negb].
    eexists _, _. split; [reflexivity|]. split; [|split; auto].
    rewrite <- !app_assoc. rewrite u16_0 by auto.
    assert (E4 : rd 2 FLAT_LEN (wire cb [(2, uid)] ++ flatten p ++ exactly 1 (skipn 475 old) ++ rest) = flatten p) by (apply rd_at; auto; apply w2_len).
    rewrite E4. intros e s D. pose proof (unflatten_flatten p [] PW) as U. rewrite app_nil_r in U. rewrite U, as_sent_clamp by auto. reflexivity.
  - (* credentials *)
    destruct OKk as [U1 M].
    assert (F1 : 8 + 2 * length old0 <= CD) by (destruct (Nat.lt_ge_cases CD (8 + 2 * length old0)); [exfalso; apply (NR BUFFER_SIZE); auto|auto]).
    assert (F2 : 8 + 2 * length new <= CD) by (destruct (Nat.lt_ge_cases CD (8 + 2 * length new)); [exfalso; apply (NR BUFFER_SIZE); auto|auto]).
    assert (HC : (CD - 8) / 2 * 2 <= CD - 8 < (CD - 8) / 2 * 2 + 2) by (pose proof (Nat.div_mod (CD - 8) 2); pose proof (Nat.mod_upper_bound (CD - 8) 2); lia).
    assert (HS : (SD - 8) / 2 * 2 <= SD - 8 < (SD - 8) / 2 * 2 + 2) by (pose proof (Nat.div_mod (SD - 8) 2); pose proof (Nat.mod_upper_bound (SD - 8) 2); lia).
    unfold arequest. unfold Z_CRED. set (hc := (CD - 8) / 2) in *. set (hs := (SD - 8) / 2) in *.
    destruct (Nat.ltb_spec hc (length old0)); [lia|]. destruct (Nat.ltb_spec hc (length new)); [lia|]. destruct (Nat.ltb_spec CD (8 + length old0 + length new)); [lia|].
    eexists. split; [reflexivity|]. cbn [secret_at secrets uaction meaning].
    rewrite wire_cons, (wire_cons cb (2, method)), (wire_cons cb (2, N.of_nat (length old0))).
    set (A := wire cb [(2, uid)]). set (B := wire cb [(2, method)]). set (L1 := wire cb [(2, N.of_nat (length old0))]). set (L2 := wire cb [(2, N.of_nat (length new))]).
    assert (LA : length A = 2) by apply w2_len. assert (LB : length B = 2) by apply w2_len. assert (LL : length L1 = 2) by apply w2_len. assert (LM : length L2 = 2) by apply w2_len.
    rewrite <- !app_assoc.
    assert (LT : length (A ++ B ++ L1 ++ L2 ++ old0 ++ new) = 8 + length old0 + length new) by (rewrite !app_length; lia).
    rewrite LT. split; [lia|]. rewrite app_length. split; [lia|]. split.
    { intros i Hi. replace (A ++ B ++ L1 ++ L2 ++ old0 ++ new) with ((A ++ B ++ L1 ++ L2) ++ old0 ++ new) by (rewrite <- !app_assoc; reflexivity).
      rewrite (app_nth2 (A ++ B ++ L1 ++ L2)) by (rewrite !app_length; lia). f_equal. rewrite !app_length. lia. }
    intros rest. set (buf := (A ++ B ++ L1 ++ L2 ++ old0 ++ new) ++ rest).
    assert (E0 : fld 0 (take sb cb [2] (skipn 0 buf)) = uid).
    { unfold buf, A. rewrite <- !app_assoc. apply (u16_at sb cb [] _ 0); auto. }
    assert (E1 : fld 0 (take sb cb [2] (skipn 2 buf)) = method).
    { unfold buf, B. rewrite <- !app_assoc. apply u16_at; auto. }
    assert (E2 : fld 0 (take sb cb [2] (skipn 4 buf)) = N.of_nat (length old0)).
    { unfold buf. replace ((A ++ B ++ L1 ++ L2 ++ old0 ++ new) ++ rest) with ((A ++ B) ++ L1 ++ (L2 ++ old0 ++ new ++ rest)) by (rewrite <- !app_assoc; reflexivity).
      unfold L1. apply u16_at; [rewrite !app_length; lia|unfold u16; lia]. }
    assert (E3 : fld 0 (take sb cb [2] (skipn 6 buf)) = N.of_nat (length new)).
    { unfold buf. replace ((A ++ B ++ L1 ++ L2 ++ old0 ++ new) ++ rest) with ((A ++ B ++ L1) ++ L2 ++ (old0 ++ new ++ rest)) by (rewrite <- !app_assoc; reflexivity).
      unfold L2. apply u16_at; [rewrite !app_length; lia|unfold u16; lia]. }
    assert (E4 : rd 8 (length old0) buf = old0).
    { unfold buf. replace ((A ++ B ++ L1 ++ L2 ++ old0 ++ new) ++ rest) with ((A ++ B ++ L1 ++ L2) ++ old0 ++ (new ++ rest)) by (rewrite <- !app_assoc; reflexivity).
      apply rd_at; auto. rewrite !app_length. lia. }
    assert (E5 : rd (8 + length old0) (length new) buf = new).
    { unfold buf. replace ((A ++ B ++ L1 ++ L2 ++ old0 ++ new) ++ rest) with ((A ++ B ++ L1 ++ L2 ++ old0) ++ new ++ rest) by (rewrite <- !app_assoc; reflexivity).
      apply rd_at; auto. rewrite !app_length. lia. }
    unfold aparse. cbn [N.eqb Pos.eqb]. rewrite E0, E1, E2, E3. unfold Z_CRED. fold hs.
    destruct (Nat.ltb_spec (8 + length old0 + length new) 8); [lia|].
    destruct (N.ltb_spec (N.of_nat hs) (N.of_nat (length old0))); [lia|].
    destruct (N.ltb_spec (N.of_nat hs) (N.of_nat (length new))); [lia|].
    destruct (N.ltb_spec (N.of_nat (8 + length old0 + length new)) (u16s (N.of_nat 8 + N.of_nat (length old0) + N.of_nat (length new)))) as [X|X].
    { unfold u16s in X. rewrite N.mod_small in X by lia. lia. }
    rewrite !Nat2N.id, E4, E5. eexists _, _. split; [reflexivity|]. split; [|split; auto].
    intros e s D. reflexivity.
Qed.

(** ** Answers *)
Lemma fit_rc z : fit (4, rc_n z).
Proof. unfold fit, wide. cbn [fst snd]. split; [auto|]. unfold rc_n. pose proof (Z.mod_pos_bound z 4294967296). cbn. lia. Qed.
Lemma fit_id v : u16 v -> fit (2, v).
Proof. unfold fit, wide. cbn [fst snd]. auto. Qed.
Lemma code_round z rest : i32 z -> code_of cb (give sb cb [(4, rc_n z)] ++ rest) = z.
Proof.
  intros H. unfold code_of. pose proof (unwire_give sb cb [(4, rc_n z)] rest) as U. cbn [map fst snd] in U.
  rewrite U by (repeat constructor; apply fit_rc). unfold fld. cbn [nth]. now apply rc_round.
Qed.
Lemma id_round z v rest : i32 z -> u16 v -> unwire cb [4; 2] (give sb cb [(4, rc_n z); (2, v)] ++ rest) = [rc_n z; v].
Proof.
  intros H V. pose proof (unwire_give sb cb [(4, rc_n z); (2, v)] rest) as U. cbn [map fst snd] in U.
  apply U. constructor; [apply fit_rc|]. constructor; [now apply fit_id|constructor].
Qed.
Lemma give4 z : length (give sb cb [(4, rc_n z)]) = 4.
Proof. rewrite give_length. reflexivity. Qed.
Lemma give6 z v : length (give sb cb [(4, rc_n z); (2, v)]) = 6.
Proof. rewrite give_length. reflexivity. Qed.

Lemma reply_len k r buf : perms_wf (ar_perm r) ->
  length (areply sb cb (uaction k) r buf) = match k with UcLogin _ _ _ | UcAdd _ _ _ _ => 8 | UcGet _ => 480 | _ => 4 end.
Proof.
  intros W. unfold areply. destruct k; cbn [uaction N.eqb N.leb Pos.eqb N.compare Pos.compare Pos.compare_cont]; rewrite ?app_length, ?exactly_len, ?give6, ?give4; auto.
  rewrite flatten_length by auto. reflexivity.
Qed.
Lemma reply_read k r buf : i32 (ar_rc r) -> u16 (ar_id r) -> perms_wf (ar_perm r) ->
  reported k r (aresponse cb k (areply sb cb (uaction k) r buf)).
Proof.
  intros R V W. pose proof (reply_len k r buf W) as LR. unfold aresponse.
  destruct k; rewrite LR; unfold Z_IDRESP, Z_GETRESP; rewrite ?Nat.eqb_refl; cbn [negb]; unfold areply;
    cbn [uaction N.eqb N.leb Pos.eqb N.compare Pos.compare Pos.compare_cont];
    unfold reported; cbn [ao_rc ao_out ao_id ao_perm].
  - rewrite id_round by auto. unfold fld; cbn [nth]. rewrite rc_round by auto. auto.
  - rewrite <- (app_nil_r (give _ _ _)), code_round by auto. auto.
  - rewrite id_round by auto. unfold fld; cbn [nth]. rewrite rc_round by auto. auto.
  - rewrite <- (app_nil_r (give _ _ _)), code_round by auto. auto.
  - rewrite id_round by auto. unfold fld; cbn [nth]. rewrite rc_round by auto. split; auto. split; auto. split; auto.
    assert (E : rd 6 FLAT_LEN (give sb cb [(4, rc_n (ar_rc r)); (2, ar_id r)] ++ flatten (ar_perm r) ++ exactly 1 (skipn 479 buf)) = flatten (ar_perm r)).
    { apply rd_at; [apply give6|apply flatten_length; auto]. }
    rewrite E. eexists. split; [reflexivity|]. pose proof (unflatten_flatten (ar_perm r) [] W) as U. rewrite app_nil_r in U. rewrite U.
    split; [reflexivity|]. split; [reflexivity|]. now apply keys_clamp.
  - rewrite <- (app_nil_r (give _ _ _)), code_round by auto. auto.
  - rewrite <- (app_nil_r (give _ _ _)), code_round by auto. auto.
Qed.

(** ** One call *)
Variables (max_read : nat) (have_st : bool).
Notation step := (auth_step nvm crypto certs sha verify max_read have_st).
Notation serve := (aserve nvm crypto certs sha verify SD sb cb).
Notation call := (acall_do nvm crypto certs sha verify CD SD sb cb).

Lemma meaning_action k : areq_action (meaning k) = uaction k.
Proof. destruct k; reflexivity. Qed.
(** The server's answer to a request that is sent, what is left in its buffer and
    its new state are those of the manager for the meaning of the call. *)
Lemma serve_sent c k e p rest Y q w : 
  aparse SD sb cb (uaction k) (length p) (p ++ rest) = inr (q, w) -> alike q (meaning k) ->
  exists r, fst (step (EReq c e (meaning k)) Y) = Some r /\
    exists b, (b = p ++ rest \/ b = wipe w (p ++ rest)) /\
    serve true c e (uaction k) (length p) (p ++ rest) Y =
      ((areply sb cb (uaction k) r b, areply sb cb (uaction k) r b ++ skipn (length (areply sb cb (uaction k) r b)) b), snd (step (EReq c e (meaning k)) Y)) /\
    (as_up Y = true -> is_ok (check_request (ae_lock e) (as_sess Y c) GROUP_AUTH (uaction k)) = true -> b = wipe w (p ++ rest)).
Proof.
  intros HP HA. unfold aserve. cbn [negb auth_step]. rewrite meaning_action.
  destruct (as_up Y) eqn:U; cbn [negb orb].
  - destruct (is_ok (check_request (ae_lock e) (as_sess Y c) GROUP_AUTH (uaction k))) eqn:K; cbn [negb].
    + rewrite HP, HA. destruct (auth_handle nvm crypto certs sha verify e (meaning k) (as_sess Y c) (as_db Y)) as [[r s1] D1].
      cbn [fst snd]. exists r. split; [reflexivity|]. exists (wipe w (p ++ rest)). auto.
    + cbn [fst snd]. eexists. split; [reflexivity|]. exists (p ++ rest). split; auto. split; auto. intros _ Z. discriminate Z.
  - cbn [fst snd]. eexists. split; [reflexivity|]. exists (p ++ rest). split; auto. split; auto. intros Z. discriminate Z.
Qed.
Lemma step_fits c e q Y r : aenv_ok e -> users_wf (a_users (as_db Y)) -> fst (step (EReq c e q) Y) = Some r ->
  i32 (ar_rc r) /\ u16 (ar_id r) /\ perms_wf (ar_perm r).
Proof.
  intros HE HW. cbn [auth_step].
  assert (K : forall z, i32 z -> i32 (ar_rc (arc z)) /\ u16 (ar_id (arc z)) /\ perms_wf (ar_perm (arc z))).
  { intros z Hz. split; [exact Hz|]. split; [unfold u16; cbn; lia|apply perms_zero_wf]. }
  assert (P : i32 PERMISSION_ERROR) by (unfold i32, PERMISSION_ERROR; lia).
  destruct (as_up Y); cbn [negb]; [|intros H; injection H as <-; auto].
  destruct (negb _); [intros H; injection H as <-; auto|].
  pose proof (handle32 nvm crypto certs sha verify e q (as_sess Y c) (as_db Y) HE) as H1.
  pose proof (handle_fits nvm crypto certs sha verify e q (as_sess Y c) (as_db Y) HW) as H2. cbv zeta in H2.
  destruct (auth_handle _ _ _ _ _ _ _ _ _) as [[r0 s1] D1]. cbn [fst snd] in *. intros H. injection H as <-. tauto.
Qed.

Lemma call_does c k e L Y o bufs Y' : acall_ok k -> aenv_ok e -> users_wf (a_users (as_db Y)) ->
  call true c k e L Y = ((o, bufs), Y') ->
  (exists code, refused CD k code /\ silent k false code o /\ Y' = Y) \/
  (forall code, ~ refused CD k code) /\ l_send L <> OK /\ silent k false (l_send L) o /\ Y' = Y \/
  (forall code, ~ refused CD k code) /\ l_send L = OK /\
  exists r, step (EReq c e (meaning k)) Y = (Some r, Y') /\
    (l_recv L = OK -> reported k r o) /\ (l_recv L <> OK -> silent k true (l_recv L) o).
Proof.
  intros OKk HE HW. unfold acall_do. destruct (refused_dec k) as [[code R]|NR].
  - rewrite (request_refused _ k code R). intros H. injection H as <- <- <-. left. exists code. split; auto. split; auto.
    unfold silent. cbn [ao_rc ao_out ao_id ao_perm]. destruct k; auto.
  - intros HC; right; revert HC. destruct (request_sent (l_cbuf L) k OKk NR) as (p & -> & LP & LS & SE & PA).
    destruct (is_ok (l_send L)) eqn:S; cbn [negb].
    + apply Z.eqb_eq in S. intros HC. right. split; auto. split; auto. revert HC.
      destruct (PA (skipn (length p) (l_sbuf L))) as (q & w & HP & HA & HW2 & HAct).
      destruct (serve_sent c k e p _ Y q w HP HA) as (r & ER & b & _ & ES & _). rewrite ES.
      destruct (step_fits c e (meaning k) Y r HE HW ER) as (F1 & F2 & F3).
      assert (SP : step (EReq c e (meaning k)) Y = (Some r, snd (step (EReq c e (meaning k)) Y))) by (rewrite <- ER; apply surjective_pairing).
      clear ES ER. generalize dependent (snd (step (EReq c e (meaning k)) Y)). intros Y1 SP.
      destruct (is_ok (l_recv L)) eqn:RV; cbn [negb]; intros H.
      * apply Z.eqb_eq in RV. injection H as <- <- <-. exists r. split; [exact SP|].
        split; [intros _; now apply reply_read|congruence].
      * injection H as <- <- <-. exists r. split; [exact SP|].
        split; [intros Z; rewrite Z in RV; discriminate RV|]. intros _. unfold silent. cbn [ao_rc ao_out ao_id ao_perm]. destruct k; auto.
    + intros H. injection H as <- <- <-. left. split; auto. split; [intros Z; rewrite Z in S; discriminate S|]. split; auto.
      unfold silent. cbn [ao_rc ao_out ao_id ao_perm]. destruct k; auto.
Qed.

(** ** What is left in the packet buffers *)
Lemma over_nth (a b : list N) i : length a <= i -> nth i (a ++ skipn (length a) b) 0%N = nth i b 0%N.
Proof.
  intros H. rewrite app_nth2 by auto. rewrite <- (firstn_skipn (length a) b) at 2.
  destruct (Nat.le_gt_cases (length a) (length b)) as [X|X].
  - rewrite (app_nth2 (firstn (length a) b)) by (rewrite firstn_length; lia). f_equal. rewrite firstn_length. lia.
  - rewrite !nth_overflow; auto; rewrite ?app_length, ?firstn_length, ?skipn_length; lia.
Qed.
Lemma wipe_nth at_ n (b : list N) i : at_ <= length b -> i < n -> nth (at_ + i) (wipe (at_, n) b) 0%N = 0%N.
Proof.
  intros L H. unfold wipe. cbn [fst snd]. rewrite app_nth2 by (rewrite firstn_length; lia). rewrite firstn_length.
  replace (at_ + i - Nat.min at_ (length b)) with i by lia. rewrite app_nth1 by (rewrite repeat_length; auto).
  apply nth_repeat.
Qed.
Lemma cleared_gone k p buf : secret_at k + length (secrets k) <= length p -> gone k (acleared k p buf).
Proof.
  intros L i Hi. unfold acleared. destruct k; cbn [secrets secret_at length] in Hi, L |- *; try lia; rewrite app_nth1 by (rewrite repeat_length; lia); apply nth_repeat.
Qed.
Lemma reply_short k r buf : perms_wf (ar_perm r) -> 0 < length (secrets k) -> length (areply sb cb (uaction k) r buf) <= secret_at k.
Proof. intros W L. rewrite reply_len by auto. destruct k; cbn [secrets secret_at length] in *; lia. Qed.

Lemma call_wipes c k e L Y o cbuf sbuf Y' : acall_ok k -> aenv_ok e -> users_wf (a_users (as_db Y)) -> (forall code, ~ refused CD k code) ->
  call true c k e L Y = ((o, (cbuf, sbuf)), Y') ->
  gone k cbuf /\
  (l_send L = OK -> as_up Y = true -> is_ok (check_request (ae_lock e) (as_sess Y c) GROUP_AUTH (uaction k)) = true -> gone k sbuf).
Proof.
  intros OKk HE HW NR. unfold acall_do. destruct (request_sent (l_cbuf L) k OKk NR) as (p & -> & LP & LS & SE & PA).
  pose proof (cleared_gone k p (l_cbuf L) LS) as G.
  destruct (is_ok (l_send L)) eqn:S; cbn [negb].
  - destruct (PA (skipn (length p) (l_sbuf L))) as (q & w & HP & HA & HW2 & HAct).
    destruct (serve_sent c k e p _ Y q w HP HA) as (r & ER & b & _ & ES & EB). rewrite ES.
    destruct (step_fits c e (meaning k) Y r HE HW ER) as (F1 & F2 & F3).
    set (resp := areply sb cb (uaction k) r b).
    assert (GS : as_up Y = true -> is_ok (check_request (ae_lock e) (as_sess Y c) GROUP_AUTH (uaction k)) = true -> gone k (resp ++ skipn (length resp) b)).
    { intros U K i Hi. rewrite (EB U K). pose proof (reply_short k r b F3) as RS. fold resp in RS. rewrite over_nth by lia.
      destruct HW2 as [->|[-> E]]; [|rewrite E in Hi; cbn in Hi; lia].
      apply wipe_nth; auto. rewrite app_length. lia. }
    destruct (is_ok (l_recv L)); cbn [negb]; intros H; injection H as <- <- <- <-; split; auto.
    intros i Hi. pose proof (reply_short k r b F3) as RS. fold resp in RS. rewrite over_nth by lia. apply G; auto.
  - intros H; injection H as <- <- <- <-. split; auto. intros Z. rewrite Z in S. discriminate S.
Qed.
End Auc.

(** ** Histories *)
Lemma cname_bytes n : cname n -> bytes_ok n.
Proof. intros H. unfold bytes_ok. eapply Forall_impl; [|exact H]. intros b [_ B]. exact B. Qed.
Lemma meaning_wf c e k : acall_ok k -> ev_wf (EReq c e (meaning k)).
Proof.
  destruct k; cbn [acall_ok meaning ev_wf req_wf]; auto.
  - intros (_ & C & W). split; [now apply cname_bytes|]. rewrite as_sent_clamp by auto. now apply clamp_wf.
  - intros (_ & W). rewrite as_sent_clamp by auto. now apply clamp_wf.
Qed.
Section Runs.
Variables (nvm crypto certs : bool) (sha : list N -> list N) (verify : list N -> list N -> bool).
Variables (max_read : nat) (have_st : bool) (SD : nat) (sb : bool).
Hypothesis sha_len : forall l, length (sha l) = 32.
Hypothesis SD_max : (N.of_nat SD < 65536)%N.
Notation step := (auth_step nvm crypto certs sha verify max_read have_st).
Notation run := (auth_run nvm crypto certs sha verify max_read have_st).
Definition sound (Y : asys) : Prop := as_up Y = true /\ exists X C, Good nvm (as_db Y) X C.
Lemma sound_users Y : sound Y -> users_wf (a_users (as_db Y)).
Proof. intros (_ & X & C & G). apply G. Qed.
Lemma sound_step ev Y : sound Y -> ev_wf ev -> sound (snd (step ev Y)).
Proof.
  intros (U & X & C & G) W. destruct (step ev Y) as [a Y1] eqn:E.
  destruct (step_did nvm crypto certs sha verify max_read have_st sha_len ev Y X C a Y1 U G W E) as (U1 & X1 & C1 & G1 & _).
  split; auto. exists X1, C1. exact G1.
Qed.
Lemma run_cons ev evs Y : snd (run (ev :: evs) Y) = snd (run evs (snd (step ev Y))).
Proof. cbn [auth_run]. destruct (step ev Y) as [a Y1]. cbn [snd]. destruct (run evs Y1). reflexivity. Qed.
Lemma history bs : Forall (bev_ok SD) bs -> forall Y, sound Y ->
  exists evs, means bs evs /\ Forall ev_wf evs /\ bev_run nvm crypto certs sha verify max_read have_st SD sb bs Y = snd (run evs Y) /\
    sound (bev_run nvm crypto certs sha verify max_read have_st SD sb bs Y) /\ (Forall bev_cred bs -> Forall AuthSpec.with_credential evs).
Proof.
  induction 1 as [|b bs HB HBS IH]; intros Y SY.
  - exists []. cbn [bev_run auth_run snd]. split; [apply means_nil|]. split; [constructor|]. split; [reflexivity|]. split; [exact SY|]. intros _. constructor.
  - cbn [bev_run]. destruct b as [CD cb c k e L|ev]; cbn [bev_ok] in HB; cbn [bev_step].
    + destruct HB as (B1 & B2 & B3 & B4).
      destruct (acall_do nvm crypto certs sha verify CD SD sb cb true c k e L Y) as [[o bufs] Y1] eqn:E. cbn [snd].
      destruct (call_does nvm crypto certs sha verify CD SD sb cb B1 B2 SD_max max_read have_st c k e L Y o bufs Y1 B3 B4 (sound_users Y SY) E) as
        [(code & R & _ & ->)|[(NR & S & _ & ->)|(NR & S & r & ST & _)]].
      * destruct (IH Y SY) as (evs & M & W & R1 & S1 & C1). exists evs. split; [apply means_none; eauto|]. split; auto. split; auto. split; auto.
        intros HC. inv HC. auto.
      * destruct (IH Y SY) as (evs & M & W & R1 & S1 & C1). exists evs. split; [apply means_none; eauto|]. split; auto. split; auto. split; auto.
        intros HC. inv HC. auto.
      * pose proof (sound_step (EReq c e (meaning k)) Y SY (meaning_wf c e k B3)) as SY1. rewrite ST in SY1. cbn [snd] in SY1.
        destruct (IH Y1 SY1) as (evs & M & W & R1 & S1 & C1). exists (EReq c e (meaning k) :: evs).
        split; [apply means_call; auto|]. split; [constructor; auto; now apply meaning_wf|].
        split; [rewrite run_cons, ST; exact R1|]. split; auto.
        intros HC. inv HC. constructor; auto. destruct k; cbn [meaning AuthSpec.with_credential]; auto.
    + pose proof (sound_step ev Y SY HB) as SY1. destruct (IH _ SY1) as (evs & M & W & R1 & S1 & C1). exists (ev :: evs).
      split; [apply means_other; auto|]. split; [constructor; auto|]. split; [rewrite run_cons; exact R1|]. split; auto.
      intros HC. inv HC. constructor; auto.
Qed.
End Runs.
