(** Proofs for ShdModel.v. *)
From Coq Require Import Lia.
From Verif Require Import Base BaseLemmas NvmSpec Flags KeyId Store NvmReqModel CounterModel KsModel KsReq KsSys KsSpec KsEff KsSysProof SheModel SheSys SheSpec SheEff SheBoot SheLoad KdfModel PropertiesKdf AesModel AesSpec AesProof ShdModel ShdSpec.
Local Open Scope nat_scope.

(** ** The buffer *)
Lemma rd_len o n (buf : list N) : o + n <= length buf -> length (rd o n buf) = n.
Proof. intros L. unfold rd. rewrite firstn_length, skipn_length. lia. Qed.
Lemma wr_wr o (a b buf : list N) : o + length a + length b <= length buf -> wr (o + length a) b (wr o a buf) = wr o (a ++ b) buf.
Proof.
  intros L. unfold wr. rewrite app_length, Nat.add_assoc.
  assert (X : firstn (o + length a) (firstn o buf ++ a ++ skipn (o + length a) buf) = firstn o buf ++ a).
  { rewrite firstn_app, firstn_length, Nat.min_l by lia. rewrite firstn_all2 by (rewrite firstn_length; lia).
    replace (o + length a - o) with (length a) by lia. rewrite firstn_app, firstn_all, Nat.sub_diag, firstn_O, app_nil_r. reflexivity. }
  assert (Y : skipn (o + length a + length b) (firstn o buf ++ a ++ skipn (o + length a) buf) = skipn (o + length a + length b) buf).
  { rewrite skipn_app, firstn_length, Nat.min_l by lia. rewrite skipn_all2 by (rewrite firstn_length; lia). cbn [app].
    rewrite skipn_app, skipn_all2 by lia. cbn [app]. rewrite skipn_skipn. f_equal. lia. }
  rewrite X, Y, !app_assoc. reflexivity.
Qed.
Lemma wr_wr16 o (a b buf : list N) : length a = 16 -> o + 16 + length b <= length buf -> wr (o + 16) b (wr o a buf) = wr o (a ++ b) buf.
Proof. intros A L. rewrite <- A. apply wr_wr. lia. Qed.
Lemma wr_nil o (buf : list N) : wr o [] buf = buf.
Proof. unfold wr. cbn [length app]. rewrite Nat.add_0_r. apply firstn_skipn. Qed.
Lemma rd_0 o (buf : list N) : rd o 0 buf = [].
Proof. reflexivity. Qed.
Lemma rd_wr_in off d o n (buf : list N) : off + length d <= length buf -> o + n <= length d -> rd (off + o) n (wr off d buf) = firstn n (skipn o d).
Proof.
  intros L B. unfold rd, wr. rewrite <- (skipn_skipn _ o off), skipn_app, firstn_length, Nat.min_l by lia.
  rewrite (skipn_all2 (firstn off buf)) by (rewrite firstn_length; lia). rewrite Nat.sub_diag. cbn [app skipn].
  rewrite skipn_app, firstn_app, skipn_length. replace (n - (length d - o)) with 0 by lia. rewrite firstn_O, app_nil_r. reflexivity.
Qed.
Lemma rd_front o n m (a b : list N) : o + n <= m -> m <= length a -> rd o n (firstn m a ++ b) = rd o n a.
Proof.
  intros L1 L2. unfold rd. rewrite skipn_app, firstn_app, skipn_length, firstn_length, Nat.min_l by lia.
  replace (n - (m - o)) with 0 by lia. rewrite firstn_O, app_nil_r, skipn_firstn_comm, firstn_firstn, Nat.min_l by lia. reflexivity.
Qed.
Lemma nth_rd o (buf : list N) : nth o buf 0%N = nth 0 (rd o 1 buf) 0%N.
Proof.
  unfold rd. revert buf. induction o as [|o IH]; intros [|x buf]; cbn [skipn nth firstn]; try reflexivity. rewrite IH. reflexivity.
Qed.

(** ** The loops: the mode on the bytes at [src], put at [dst] *)
Section Loops.
Variable F : list N -> list N.
Hypothesis F16 : forall b, length b = 16 -> length (F b) = 16.
Lemma ECB_cons c r : length c = 16 -> ECB F (c ++ r) = F c ++ ECB F r.
Proof. intros L. unfold ECB. rewrite blocks_cons by exact L. reflexivity. Qed.
Lemma enc_cons c r iv : length c = 16 -> CBC_enc F iv (c ++ r) = F (xor c iv) ++ CBC_enc F (F (xor c iv)) r.
Proof. intros L. unfold CBC_enc. rewrite blocks_cons by exact L. reflexivity. Qed.
Lemma dec_cons c r iv : length c = 16 -> CBC_dec F iv (c ++ r) = xor (F c) iv ++ CBC_dec F c r.
Proof. intros L. unfold CBC_dec. rewrite blocks_cons by exact L. reflexivity. Qed.
Lemma rd_first o m (buf : list N) : rd o (16 * S m) buf = rd o 16 buf ++ rd (o + 16) (16 * m) buf.
Proof. rewrite (rd_cut o 16 (16 * S m)) by lia. do 2 f_equal. lia. Qed.

Lemma ecb_len n a : length a = 16 * n -> length (ECB F a) = 16 * n.
Proof. intros L. rewrite (ECB_length F F16 n) by exact L. exact L. Qed.
Lemma enc_len n iv a : length iv = 16 -> length a = 16 * n -> length (CBC_enc F iv a) = 16 * n.
Proof.
  intros V L. unfold CBC_enc. destruct (chain_16 F F16 (AesSpec.blocks a) iv V (blocks_16 n a L)) as [A B].
  rewrite (concat_16 _ A), B, (blocks_count n a L). reflexivity.
Qed.
Lemma dec_len n iv a : length iv = 16 -> length a = 16 * n -> length (CBC_dec F iv a) = 16 * n.
Proof.
  intros V L. unfold CBC_dec. destruct (unchain_16 F F16 (AesSpec.blocks a) iv V (blocks_16 n a L)) as [A B].
  rewrite (concat_16 _ A), B, (blocks_count n a L). reflexivity.
Qed.

Lemma ecb_mem_ok n : forall src dst buf, dst <= src -> src + 16 * n <= length buf ->
  ecb_mem F n src dst buf = wr dst (ECB F (rd src (16 * n) buf)) buf.
Proof.
  induction n as [|n IH]; intros src dst buf B L.
  - rewrite Nat.mul_0_r, rd_0. cbn [ecb_mem]. change (ECB F []) with (@nil N). rewrite wr_nil. reflexivity.
  - cbn [ecb_mem]. assert (L1 : length (rd src 16 buf) = 16) by (apply rd_len; lia). pose proof (F16 _ L1) as L2.
    assert (L3 : length (rd (src + 16) (16 * n) buf) = 16 * n) by (apply rd_len; lia).
    rewrite IH; [|lia|rewrite wr_length by lia; lia]. rewrite rd_wr_other by lia. rewrite rd_first, ECB_cons by exact L1.
    apply wr_wr16; [exact L2|]. rewrite (ecb_len n) by exact L3. lia.
Qed.
Lemma cbc_enc_mem_ok n : forall reg src dst buf, length reg = 16 -> dst <= src -> src + 16 * n <= length buf ->
  cbc_enc_mem F n reg src dst buf = wr dst (CBC_enc F reg (rd src (16 * n) buf)) buf.
Proof.
  induction n as [|n IH]; intros reg src dst buf R B L.
  - rewrite Nat.mul_0_r, rd_0. cbn [cbc_enc_mem]. change (CBC_enc F reg []) with (@nil N). rewrite wr_nil. reflexivity.
  - cbn [cbc_enc_mem]. cbv zeta. rewrite zipx_xor. assert (L1 : length (rd src 16 buf) = 16) by (apply rd_len; lia).
    assert (L2 : length (F (xor (rd src 16 buf) reg)) = 16) by (apply F16; rewrite xor_length; lia).
    assert (L3 : length (rd (src + 16) (16 * n) buf) = 16 * n) by (apply rd_len; lia).
    rewrite IH; [|exact L2|lia|rewrite wr_length by lia; lia]. rewrite rd_wr_other by lia. rewrite rd_first, enc_cons by exact L1.
    apply wr_wr16; [exact L2|]. rewrite (enc_len n _ _ L2 L3). lia.
Qed.
Lemma cbc_dec_mem_ok n : forall reg src dst buf, length reg = 16 -> dst <= src -> src + 16 * n <= length buf ->
  cbc_dec_mem F n reg src dst buf = wr dst (CBC_dec F reg (rd src (16 * n) buf)) buf.
Proof.
  induction n as [|n IH]; intros reg src dst buf R B L.
  - rewrite Nat.mul_0_r, rd_0. cbn [cbc_dec_mem]. change (CBC_dec F reg []) with (@nil N). rewrite wr_nil. reflexivity.
  - cbn [cbc_dec_mem]. cbv zeta. rewrite zipx_xor. assert (L1 : length (rd src 16 buf) = 16) by (apply rd_len; lia).
    assert (L2 : length (xor (F (rd src 16 buf)) reg) = 16) by (rewrite xor_length, F16; lia).
    assert (L3 : length (rd (src + 16) (16 * n) buf) = 16 * n) by (apply rd_len; lia).
    rewrite IH; [|exact L1|lia|rewrite wr_length by lia; lia]. rewrite rd_wr_other by lia. rewrite rd_first, dec_cons by exact L1.
    apply wr_wr16; [exact L2|]. rewrite (dec_len n _ _ L1 L3). lia.
Qed.
End Loops.

Section Proofs.
Variable C : kscfg.
Variable E D : list N -> list N -> list N.
Variable cm : list N -> list N -> list N.
Variable DL : nat.
Hypothesis E16 : forall k b, length b = 16 -> length (E k b) = 16.
Hypothesis D16 : forall k b, length b = 16 -> length (D k b) = 16.
Hypothesis cm16 : forall k m, length (cm k m) = 16.

Lemma cipher_len op k iv n a : length iv = 16 -> length a = 16 * n -> length (cipher E D op k iv a) = 16 * n.
Proof.
  intros V L. destruct op; cbn [cipher]; [apply ecb_len|apply ecb_len|apply enc_len|apply dec_len]; auto.
Qed.
Lemma run_ok op k iv n src dst buf : length iv = 16 -> dst <= src -> src + 16 * n <= length buf ->
  run E D op k iv n src dst buf = wr dst (cipher E D op k iv (rd src (16 * n) buf)) buf.
Proof.
  intros V B L. destruct op; cbn [run cipher]; [apply ecb_mem_ok|apply ecb_mem_ok|apply cbc_enc_mem_ok|apply cbc_dec_mem_ok]; auto.
Qed.

(** ** Codes *)
Lemma get_put32 n a b : (N.of_nat n < 4294967296)%N -> get32 (length a) (a ++ put32 n ++ b) = n.
Proof.
  intros L. unfold get32, rd, put32. rewrite skipn_app, skipn_all, Nat.sub_diag. cbn [app skipn].
  rewrite firstn_app, le_enc_length, Nat.sub_diag, firstn_O, app_nil_r, firstn_all2 by (rewrite le_enc_length; lia).
  rewrite le_dec_enc by exact L. apply Nat2N.id.
Qed.
Lemma get_put_rc z b : (- 2147483648 <= z < 2147483648)%Z -> get_rc (put_rc z ++ b) = z.
Proof.
  intros L. unfold get_rc, rd, put_rc. cbn [skipn].
  rewrite firstn_app, le_enc_length, Nat.sub_diag, firstn_O, app_nil_r, firstn_all2 by (rewrite le_enc_length; lia).
  pose proof (Z.mod_pos_bound z 4294967296 eq_refl) as M.
  assert (X : (Z.to_N (z mod 4294967296) < 256 ^ N.of_nat 4)%N).
  { change (256 ^ N.of_nat 4)%N with (Z.to_N 4294967296). apply Z2N.inj_lt; lia. }
  rewrite le_dec_enc by exact X. rewrite Z2N.id by lia.
  destruct (Z_lt_dec z 0) as [G|G].
  - replace (z mod 4294967296)%Z with (z + 4294967296)%Z. 2:{ rewrite <- (Z.mod_small (z + 4294967296) 4294967296) by lia.
      rewrite <- (Z.mod_add z 1 4294967296) by lia. f_equal. }
    destruct (Z.ltb_spec (z + 4294967296) 2147483648); lia.
  - rewrite Z.mod_small by lia. destruct (Z.ltb_spec z 2147483648); lia.
Qed.

(** ** The byte-level server does what the field-level one does *)
Variable aes cbc_enc cbc_dec cmac : list N -> list N -> list N.
Notation handle := (she_handle C aes cbc_enc cbc_dec cmac (lib_use E D cm)).
Notation step := (she_step C aes cbc_enc cbc_dec cmac (lib_use E D cm)).
Notation dec := (decode DL).

Lemma firstn_wr (d buf : list N) : firstn (length d) (wr 0 d buf) = d.
Proof. unfold wr. cbn [firstn app]. rewrite firstn_app, firstn_all, Nat.sub_diag, firstn_O, app_nil_r. reflexivity. Qed.
Lemma firstn_wr_n n (d buf : list N) : n = length d -> firstn n (wr 0 d buf) = d.
Proof. intros ->. apply firstn_wr. Qed.
Lemma wr_front (a b buf : list N) : length a + length b <= length buf -> wr 0 a (wr (length a) b buf) = wr 0 (a ++ b) buf.
Proof.
  intros L. unfold wr. cbn [firstn app]. cbn [Nat.add]. rewrite skipn_app, firstn_length, Nat.min_l by lia.
  rewrite skipn_all2 by (rewrite firstn_length; lia). rewrite Nat.sub_diag. cbn [skipn app]. rewrite <- !app_assoc, app_length. reflexivity.
Qed.
Lemma put_rc_len z : length (put_rc z) = 4.
Proof. apply le_enc_length. Qed.
Lemma put32_len z : length (put32 z) = 4.
Proof. apply le_enc_length. Qed.
Lemma field_eq sz : sz - sz mod 16 = 16 * (sz / 16).
Proof. pose proof (Nat.div_mod sz 16 ltac:(lia)). lia. Qed.
Lemma field_div sz : (16 * (sz / 16)) / 16 = sz / 16.
Proof. rewrite Nat.mul_comm. apply Nat.div_mul. lia. Qed.
Lemma get32_num o buf : get32 o buf = N.to_nat (num_at o buf).
Proof. reflexivity. Qed.

Lemma cipher_handles op e client n buf h S0 : 8 <= DL -> length buf = DL -> n <= DL -> se_lock e = true ->
  let '(rc, b, m, h1, S1) := cipher_serve C E D DL op e client n buf h S0 in
  let '(rc2, w, out, h2, S2) := handle e client (dec (Cipher op) n buf) h S0 in
  rc = rc2 /\ h1 = h2 /\ S1 = S2 /\ w = 0%N /\ firstn m b = put_rc (translate rc) ++ put32 (length out) ++ out.
Proof.
  intros D8 LB NB LK. unfold cipher_serve. cbv zeta. rewrite field_eq. rewrite get32_num. unfold decode.
  set (sz := N.to_nat (num_at 0 buf)).
  assert (FST : forall rc, firstn 8 (wr 0 (put_rc (translate rc) ++ put32 0) buf) = put_rc (translate rc) ++ put32 0 ++ []).
  { intros rc. rewrite app_nil_r. apply firstn_wr_n. rewrite app_length, put_rc_len, put32_len. reflexivity. }
  assert (R : forall bb, bb = false -> handle e client (if bb then SUse (sop_of op (bytes_at 8 16 buf)) (nth 4 buf 0%N) (bytes_at (chdr op) (16 * (sz / 16)) buf) else SBad AUse) h S0 = (BUFFER_SIZE, 0%N, [], h, S0)).
  { intros bb ->. unfold she_handle. cbn [action_of locks]. rewrite LK. reflexivity. }
  destruct (Nat.ltb_spec n (chdr op)) as [A|A].
  { rewrite R by (destruct (Nat.leb_spec (chdr op) n); [lia|reflexivity]). change (CRESP + 0) with 8. cbn [length]. auto. }
  destruct (Nat.ltb_spec DL (16 * (sz / 16))) as [A1|A1].
  { cbn [orb]. rewrite R. 2:{ destruct (Nat.leb_spec (16 * (sz / 16)) DL); [lia|]. rewrite Bool.andb_false_r. reflexivity. } change (CRESP + 0) with 8. cbn [length]. auto. }
  cbn [orb]. destruct (Nat.ltb_spec n (chdr op + 16 * (sz / 16))) as [A2|A2].
  { rewrite R. 2:{ destruct (Nat.leb_spec (chdr op + 16 * (sz / 16)) n); [lia|]. rewrite Bool.andb_false_r. reflexivity. } change (CRESP + 0) with 8. cbn [length]. auto. }
  destruct (Nat.ltb_spec DL (CRESP + 16 * (sz / 16))) as [A3|A3].
  { rewrite R. 2:{ destruct (Nat.leb_spec (8 + 16 * (sz / 16)) DL); [unfold CRESP in A3; lia|]. rewrite Bool.andb_false_r. reflexivity. } change (CRESP + 0) with 8. cbn [length]. auto. }
  destruct (Nat.leb_spec (chdr op) n); [|lia]. destruct (Nat.leb_spec (chdr op + 16 * (sz / 16)) n); [|lia].
  destruct (Nat.leb_spec (16 * (sz / 16)) DL); [|lia]. destruct (Nat.leb_spec (8 + 16 * (sz / 16)) DL); [|unfold CRESP in A3; lia]. cbn [andb].
  unfold she_handle. cbn [action_of locks]. rewrite LK. cbn [andb negb]. unfold do_use. cbv zeta.
  set (data := bytes_at (chdr op) (16 * (sz / 16)) buf). set (iv := bytes_at 8 16 buf).
  assert (LD : length data = 16 * (sz / 16)) by (apply rd_len; lia).
  assert (IN : (if match sop_of op iv with OGenMac | OVerifyMac _ => true | _ => false end then data else firstn (length data - length data mod 16) data) = data).
  { rewrite field_eq, LD, field_div. destruct op; cbn [sop_of]; rewrite <- LD; apply firstn_all. }
  rewrite IN. clear IN.
  destruct (she_read C (se_rd e 0) S0 (she_id C client (nth 4 buf 0%N))) as [[[rc S1] mm] k].
  destruct (is_ok rc) eqn:OKR; cbn [negb orb].
  2:{ change (CRESP + 0) with 8. cbn [length]. unfold err. auto. }
  assert (V16 : is_cbc op = true -> length iv = 16) by (destruct op; try discriminate; cbn [chdr is_cbc] in *; intros _; apply rd_len; lia).
  assert (GOOD : length k = 16 -> cipher E D op k iv data = cipher E D op k (if is_cbc op then iv else repeat 0%N 16) data) by (intros _; destruct op; reflexivity).
  set (iv2 := if is_cbc op then iv else repeat 0%N 16) in *. assert (V2 : length iv2 = 16) by (unfold iv2; destruct (is_cbc op); auto).
  assert (RUN : run E D op k (rd 8 16 buf) (16 * (sz / 16) / 16) (chdr op) CRESP buf = wr 8 (cipher E D op k iv2 data) buf).
  { transitivity (run E D op k iv2 (sz / 16) (chdr op) 8 buf). { rewrite field_div. unfold iv2. destruct op; reflexivity. }
    rewrite run_ok; [reflexivity|exact V2|destruct op; cbn [chdr is_cbc]; lia|lia]. }
  assert (LC : length (cipher E D op k iv2 data) = 16 * (sz / 16)) by (apply cipher_len; auto).
  assert (OUT : firstn (CRESP + 16 * (sz / 16)) (wr 0 (put_rc (translate OK) ++ put32 (16 * (sz / 16))) (wr 8 (cipher E D op k iv2 data) buf)) =
                put_rc (translate OK) ++ put32 (length (cipher E D op k iv2 data)) ++ cipher E D op k iv2 data).
  { rewrite LC. set (hd := put_rc (translate OK) ++ put32 (16 * (sz / 16))). assert (LH : length hd = 8) by (unfold hd; rewrite app_length, put_rc_len, put32_len; reflexivity).
    rewrite <- LH at 2. rewrite wr_front by lia. rewrite app_assoc. fold hd. apply firstn_wr_n. rewrite app_length, LH, LC. reflexivity. }
  rewrite RUN. unfold err.
  destruct (Nat.eqb_spec (length k) 16) as [K|K]; cbn [negb orb].
  2:{ change (CRESP + 0) with 8. destruct op; cbn [sop_of andb negb orb]; cbv iota; try change (CRESP + 0) with 8; try (unfold lib_use; rewrite (proj2 (Nat.eqb_neq _ _) K)); cbn [negb]; try destruct (se_c1 e); cbn [length]; auto 6. }
  destruct (se_c1 e); cbn [negb].
  - assert (U : lib_use E D cm (sop_of op iv) k data = Some (cipher E D op k iv2 data)).
    { unfold lib_use. rewrite K. cbn [Nat.eqb]. rewrite <- GOOD by exact K. destruct op; reflexivity. }
    destruct op; cbn [sop_of andb negb orb] in *; cbv iota; rewrite U; auto.
  - destruct op; cbn [sop_of andb negb orb]; cbv iota; change (CRESP + 0) with 8; cbn [length]; auto.
Qed.

Lemma gen_handles e client n buf h S0 : 20 <= DL -> length buf = DL -> n <= DL -> se_lock e = true ->
  let '(rc, b, m, h1, S1) := gen_serve C cm DL e client n buf h S0 in
  let '(rc2, w, out, h2, S2) := handle e client (dec GenMac n buf) h S0 in
  rc = rc2 /\ h1 = h2 /\ S1 = S2 /\ w = 0%N /\
  firstn m b = put_rc (translate rc) ++ (if is_ok rc then out else repeat 0%N 16).
Proof.
  intros D8 LB NB LK. unfold gen_serve. cbv zeta. rewrite !get32_num, N2Nat.id. unfold decode. set (sz := N.to_nat (num_at 4 buf)).
  assert (FST : forall rc x, length x = 16 -> firstn GRESP (wr 0 (put_rc (translate rc) ++ x) buf) = put_rc (translate rc) ++ x).
  { intros rc x X. apply firstn_wr_n. rewrite app_length, put_rc_len, X. reflexivity. }
  assert (R : forall bb, bb = false -> handle e client (if bb then SUse OGenMac (num_at 0 buf) (bytes_at 8 sz buf) else SBad AUse) h S0 = (BUFFER_SIZE, 0%N, [], h, S0)).
  { intros bb ->. unfold she_handle. cbn [action_of locks]. rewrite LK. reflexivity. }
  assert (Z16 : length (repeat 0%N 16) = 16) by reflexivity.
  unfold GREQ. destruct (Nat.ltb_spec n 8) as [A|A].
  { rewrite R by (destruct (Nat.leb_spec 8 n); [lia|reflexivity]). rewrite FST by exact Z16. auto. }
  destruct (Nat.ltb_spec DL sz) as [A1|A1].
  { cbn [orb]. rewrite R. 2:{ destruct (Nat.leb_spec sz DL); [lia|]. rewrite Bool.andb_false_r. reflexivity. } rewrite FST by exact Z16. auto. }
  cbn [orb]. destruct (Nat.ltb_spec n (8 + sz)) as [A2|A2].
  { rewrite R. 2:{ destruct (Nat.leb_spec (8 + sz) n); [lia|]. rewrite Bool.andb_false_r. reflexivity. } rewrite FST by exact Z16. auto. }
  destruct (Nat.leb_spec 8 n); [|lia]. destruct (Nat.leb_spec (8 + sz) n); [|lia]. destruct (Nat.leb_spec sz DL); [|lia]. cbn [andb].
  unfold she_handle. cbn [action_of locks]. rewrite LK. cbn [andb negb]. unfold do_use. cbv zeta. cbv iota.
  destruct (she_read C (se_rd e 0) S0 _) as [[[rc S1] mm] k]. unfold err.
  destruct (is_ok rc) eqn:OKR; cbn [negb orb]. 2:{ rewrite FST by exact Z16. auto. }
  cbn [andb]. destruct (Nat.eqb_spec (length k) 16) as [K|K]; cbn [negb]. 2:{ rewrite FST by exact Z16. auto. }
  destruct (se_c1 e); cbn [negb].
  - unfold lib_use. rewrite K. cbn [Nat.eqb]. rewrite FST by apply cm16. auto.
  - rewrite FST by exact Z16. auto.
Qed.

Lemma Forall_rd (P : N -> Prop) o n l : Forall P l -> Forall P (rd o n l).
Proof.
  intros F. unfold rd. rewrite Forall_forall in *. intros x X. apply F. rewrite <- (firstn_skipn o l). apply in_or_app. right.
  rewrite <- (firstn_skipn n (skipn o l)). apply in_or_app. left. exact X.
Qed.
Lemma num_small o buf : bytes_ok buf -> (num_at o buf < 4294967296)%N.
Proof.
  intros F. pose proof (le_dec_bound _ (Forall_rd _ o 4 buf F)) as X. fold (num_at o buf) in X.
  eapply N.lt_le_trans; [exact X|]. change 4294967296%N with (256 ^ N.of_nat 4)%N. apply N.pow_le_mono_r; [discriminate|].
  unfold rd. rewrite firstn_length. lia.
Qed.

Lemma verify_handles e client n buf h S0 : 20 <= DL -> (N.of_nat DL < 65536)%N -> length buf = DL -> n <= DL -> bytes_ok buf -> se_lock e = true ->
  let '(rc, b, m, h1, S1) := verify_serve C cm DL e client n buf h S0 in
  let '(rc2, w, out, h2, S2) := handle e client (dec VerifyMac n buf) h S0 in
  rc = rc2 /\ h1 = h2 /\ S1 = S2 /\ out = [] /\
  firstn m b = put_rc (translate rc) ++ [w] ++ firstn 7 (skipn 5 buf).
Proof.
  intros D8 D16' LB NB FB LK. unfold verify_serve. cbv zeta. rewrite !get32_num, N2Nat.id. unfold decode.
  change (le_dec (rd 4 4 buf)) with (num_at 4 buf). change (le_dec (rd 8 4 buf)) with (num_at 8 buf).
  pose proof (num_small 4 buf FB) as S4. pose proof (num_small 8 buf FB) as S8.
  set (a := num_at 4 buf) in *. set (c := num_at 8 buf) in *.
  assert (FST : forall rc x, firstn VRESP (wr 0 (put_rc (translate rc) ++ [x]) buf) = put_rc (translate rc) ++ [x] ++ firstn 7 (skipn 5 buf)).
  { intros rc x. unfold wr. cbn [firstn app]. rewrite (app_length (put_rc _)), put_rc_len. cbn [length Nat.add].
    unfold VRESP. rewrite <- app_assoc, firstn_app, firstn_all2 by (rewrite put_rc_len; lia). rewrite put_rc_len. f_equal. }
  set (u := SUse _ _ _).
  assert (R : forall bb, bb = false -> handle e client (if bb then u else SBad AUse) h S0 = (BUFFER_SIZE, 0%N, [], h, S0)).
  { intros bb ->. unfold she_handle. cbn [action_of locks]. rewrite LK. reflexivity. }
  unfold VREQ. destruct (Nat.ltb_spec n 16) as [A|A].
  { rewrite R by (destruct (Nat.leb_spec 16 n); [lia|reflexivity]). rewrite FST. auto. }
  assert (BOUND : ((a + c) mod 4294967296 <? a)%N || (N.of_nat DL <? (a + c) mod 4294967296)%N || (n <? 16 + N.to_nat ((a + c) mod 4294967296))
                  = negb ((16 + N.to_nat a + N.to_nat c <=? n) && (N.to_nat a + N.to_nat c <=? DL))).
  { destruct (N.lt_ge_cases (a + c) 4294967296) as [X|X].
    - rewrite N.mod_small by exact X. destruct (N.ltb_spec (a + c) a); [lia|]. cbn [orb].
      destruct (N.ltb_spec (N.of_nat DL) (a + c)), (Nat.ltb_spec n (16 + N.to_nat (a + c))), (Nat.leb_spec (16 + N.to_nat a + N.to_nat c) n), (Nat.leb_spec (N.to_nat a + N.to_nat c) DL); try reflexivity; lia.
    - assert (M : ((a + c) mod 4294967296 = a + c - 4294967296)%N).
      { symmetry. apply (N.mod_unique _ _ 1); lia. }
      rewrite M. destruct (N.ltb_spec (a + c - 4294967296) a); [|lia]. cbn [orb].
      destruct (Nat.leb_spec (N.to_nat a + N.to_nat c) DL); [lia|]. rewrite Bool.andb_false_r. reflexivity. }
  rewrite BOUND. destruct (Nat.leb_spec 16 n); [|lia]. cbn [andb].
  destruct ((16 + N.to_nat a + N.to_nat c <=? n) && (N.to_nat a + N.to_nat c <=? DL)); cbn [negb].
  2:{ rewrite (R false eq_refl). rewrite FST. auto. }
  unfold u, she_handle. cbn [action_of locks]. rewrite LK. cbn [andb negb]. unfold do_use. cbv zeta. cbv iota.
  destruct (she_read C (se_rd e 0) S0 _) as [[[rc S1] mm] k]. unfold err.
  destruct (is_ok rc) eqn:OKR; cbn [negb orb]. 2:{ rewrite FST. auto. }
  cbn [andb]. destruct (Nat.eqb_spec (length k) 16) as [K|K]; cbn [negb]. 2:{ rewrite FST. auto. }
  unfold lib_use. rewrite K. cbn [Nat.eqb]. fold (lib_verify cm).
  change (rd (16 + N.to_nat a) (N.to_nat c) buf) with (bytes_at (16 + N.to_nat a) (N.to_nat c) buf). change (rd 16 (N.to_nat a) buf) with (bytes_at 16 (N.to_nat a) buf).
  unfold lib_verify. rewrite FST. destruct (se_c1 e); cbn [andb]; [|auto].
  destruct (_ && _); auto.
Qed.

Lemma translate_range rc : (- 2147483648 <= translate rc < 2147483648)%Z.
Proof.
  unfold translate. destruct (existsb _ _) eqn:X; [|unfold GENERAL_ERROR; lia].
  apply existsb_exists in X. destruct X as (x & IN & Q). apply Z.eqb_eq in Q. subst x.
  cbn [In] in IN. unfold OK, SEQUENCE_ERROR, KEY_NOT_AVAILABLE, KEY_INVALID, KEY_EMPTY, NO_SECURE_BOOT, WRITE_PROTECTED, KEY_UPDATE_ERROR, RNG_SEED, NO_DEBUGGING, BUSY, MEMORY_FAILURE in IN. lia.
Qed.
Lemma refused_use c n buf h : refused (dec c n buf) h = negb (h_uidset h) || negb (sb_eqb (h_sb h) SbSuccess).
Proof.
  assert (X : action_of (dec c n buf) = Some AUse) by (unfold decode; destruct c; cbv zeta; destruct (_ && _); reflexivity).
  unfold refused. rewrite X. cbn [is_boot negb andb]. destruct (h_uidset h); reflexivity.
Qed.
Lemma action_dec c n buf : action_of (dec c n buf) = Some AUse.
Proof. unfold decode; destruct c; cbv zeta; destruct (_ && _); reflexivity. Qed.
Lemma translate_ok rc : translate rc = OK -> rc = OK.
Proof.
  unfold translate. destruct (existsb _ _); auto. discriminate.
Qed.
Lemma serve_refines c e client n buf h S0 : 20 <= DL -> (N.of_nat DL < 65536)%N -> length buf = DL -> n <= DL -> bytes_ok buf ->
  let '(resp, h1, S1) := serve C E D cm DL c e client n buf h S0 in
  let '(r, h2, S2) := step e client (dec c n buf) h S0 in
  h1 = h2 /\ S1 = S2 /\
  (if se_lock e then carries c r resp
   else if h_uidset h && sb_eqb (h_sb h) SbSuccess then resp = [] /\ sr_rc r = LOCKED
   else carries c r resp).
Proof.
  intros L1 L2 LB NB FB. unfold serve, she_step. rewrite refused_use.
  assert (G : negb (h_uidset h) || negb (sb_eqb (h_sb h) SbSuccess) = negb (h_uidset h && sb_eqb (h_sb h) SbSuccess)) by (rewrite Bool.negb_andb; reflexivity).
  rewrite G. destruct (h_uidset h && sb_eqb (h_sb h) SbSuccess); cbn [negb].
  2:{ assert (X : forall x l, length x = l -> carries c (mkSr SEQUENCE_ERROR 0 []) (firstn (4 + l) (wr 0 (put_rc SEQUENCE_ERROR ++ x) buf)) ).
      { intros x l XL. split; [|discriminate]. rewrite firstn_wr_n by (rewrite app_length, put_rc_len, XL; reflexivity). apply (get_put_rc SEQUENCE_ERROR). unfold SEQUENCE_ERROR. lia. }
      assert (EX : forall m l, length (exactly m l) = m). { intros m l. unfold exactly. rewrite firstn_length, app_length, repeat_length. lia. }
      destruct c; cbn [refusal]; repeat split; try (destruct (se_lock e); apply (X _ 4), EX); try (destruct (se_lock e); apply (X _ 16), EX).
      assert (Y : carries VerifyMac (mkSr SEQUENCE_ERROR 0 []) (firstn VRESP (wr 0 (put_rc SEQUENCE_ERROR ++ [1%N]) buf))).
      { split; [|discriminate].
        assert (Q : firstn VRESP (wr 0 (put_rc SEQUENCE_ERROR ++ [1%N]) buf) = put_rc SEQUENCE_ERROR ++ firstn 8 ([1%N] ++ skipn 5 buf)).
        { unfold wr. cbn [firstn app]. rewrite (app_length (put_rc _)), put_rc_len. cbn [length Nat.add].
          unfold VRESP. rewrite <- app_assoc, firstn_app, firstn_all2 by (rewrite put_rc_len; lia). rewrite put_rc_len. reflexivity. }
        rewrite Q. apply (get_put_rc SEQUENCE_ERROR). unfold SEQUENCE_ERROR. lia. }
      destruct (se_lock e); exact Y. }
  rewrite (action_dec c n buf). cbn [locks is_boot andb]. unfold she_handle at 1. rewrite (action_dec c n buf). cbn [locks andb].
  destruct (se_lock e) eqn:LK; cbn [negb].
  2:{ unfold err. repeat split. }
  destruct c as [op| |].
  - pose proof (cipher_handles op e client n buf h S0 ltac:(lia) LB NB LK) as H. unfold she_handle in H. rewrite (action_dec (Cipher op) n buf) in H. cbn [locks andb] in H. rewrite LK in H. cbn [negb] in H.
    destruct (cipher_serve C E D DL op e client n buf h S0) as [[[[rc b] m] h1] S1].
    destruct (match dec (Cipher op) n buf with SSetUid _ => _ | _ => _ end) as [[[[rc2 w] out] h2] S2].
    destruct H as (<- & <- & <- & -> & ->). repeat split; cbn [sr_rc sr_out].
    + apply get_put_rc, translate_range.
  - pose proof (gen_handles e client n buf h S0 L1 LB NB LK) as H. unfold she_handle in H. rewrite (action_dec GenMac n buf) in H. cbn [locks andb] in H. rewrite LK in H. cbn [negb] in H.
    destruct (gen_serve C cm DL e client n buf h S0) as [[[[rc b] m] h1] S1].
    destruct (match dec GenMac n buf with SSetUid _ => _ | _ => _ end) as [[[[rc2 w] out] h2] S2].
    destruct H as (<- & <- & <- & -> & ->). repeat split; cbn [sr_rc sr_out].
    + apply get_put_rc, translate_range.
    + intros T. apply translate_ok in T. subst rc. reflexivity.
  - pose proof (verify_handles e client n buf h S0 L1 L2 LB NB FB LK) as H. unfold she_handle in H. rewrite (action_dec VerifyMac n buf) in H. cbn [locks andb] in H. rewrite LK in H. cbn [negb] in H.
    destruct (verify_serve C cm DL e client n buf h S0) as [[[[rc b] m] h1] S1].
    destruct (match dec VerifyMac n buf with SSetUid _ => _ | _ => _ end) as [[[[rc2 w] out] h2] S2].
    destruct H as (<- & <- & <- & -> & ->). repeat split; cbn [sr_rc sr_word].
    + apply get_put_rc, translate_range.
    + rewrite app_length, put_rc_len. cbn [app length]. rewrite firstn_length, skipn_length. lia.
Qed.

(** ** Packets *)
Lemma num_put32 (n : nat) : (N.of_nat n < 4294967296)%N -> N.to_nat (le_dec (put32 n)) = n.
Proof. intros L. unfold put32. rewrite le_dec_enc by exact L. apply Nat2N.id. Qed.
Lemma rd_wr_at off d n (buf : list N) : n = length d -> off <= length buf -> rd off n (wr off d buf) = d.
Proof. intros -> L. apply rd_wr_same. exact L. Qed.

Lemma cipher_packet op slot iv inp old p rest : length old = DL -> (N.of_nat DL < 65536)%N ->
  cipher_request DL op slot iv inp old = Packet p -> length p = chdr op + length inp /\ length p <= DL /\ 16 <= length inp /\
  (is_cbc op = true -> 16 <= length iv) /\
  dec (Cipher op) (length p) (p ++ rest) = SUse (sop_of op (firstn 16 iv)) slot (firstn (whole inp) inp).
Proof.
  intros LO DB H. unfold cipher_request in H. cbv zeta in H.
  destruct ((length inp <? 16) || is_cbc op && (length iv <? 16) || (DL <? chdr op + length inp)) eqn:CK; [discriminate|].
  apply Bool.orb_false_iff in CK. destruct CK as [CK C3]. apply Bool.orb_false_iff in CK. destruct CK as [C1 C2].
  apply Nat.ltb_ge in C1, C3.
  assert (HS : 8 <= chdr op <= 24) by (destruct op; cbn [chdr is_cbc]; lia).
  set (b0 := wr 0 (put32 (length inp)) (wr 4 [slot] old)) in *.
  assert (L0 : length (wr 4 [slot] old) = DL) by (rewrite wr_length; [exact LO|cbn [length]; lia]).
  assert (LB0 : length b0 = DL) by (unfold b0; rewrite wr_length; [exact L0|rewrite put32_len; lia]).
  assert (SZ : rd 0 4 b0 = put32 (length inp)) by (apply rd_wr_at; [rewrite put32_len; reflexivity|lia]).
  assert (ID : rd 4 1 b0 = [slot]). { unfold b0. rewrite rd_wr_other; [|rewrite put32_len; lia|rewrite put32_len; lia]. apply rd_wr_at; [reflexivity|lia]. }
  assert (FIN : forall b, length b = DL -> p = firstn (chdr op + length inp) b -> rd 0 4 b = put32 (length inp) -> rd 4 1 b = [slot] -> rd (chdr op) (length inp) b = inp ->
     (is_cbc op = true -> rd 8 16 b = firstn 16 iv) ->
     length p = chdr op + length inp /\ length p <= DL /\ dec (Cipher op) (length p) (p ++ rest) = SUse (sop_of op (firstn 16 iv)) slot (firstn (whole inp) inp)).
  { intros b LB -> Q1 Q2 Q3 Q4.
    assert (LP : length (firstn (chdr op + length inp) b) = chdr op + length inp) by (rewrite firstn_length; lia).
    split; [exact LP|]. split; [lia|]. rewrite LP. unfold decode. cbv zeta.
    set (m := chdr op + length inp) in *.
    assert (N1 : N.to_nat (num_at 0 (firstn m b ++ rest)) = length inp).
    { unfold num_at, bytes_at. change (firstn 4 (skipn 0 (firstn m b ++ rest))) with (rd 0 4 (firstn m b ++ rest)). rewrite rd_front by lia. rewrite Q1. apply num_put32. lia. }
    rewrite N1. fold (whole inp).
    assert (W : whole inp <= length inp) by (unfold whole; pose proof (Nat.div_mod (length inp) 16 ltac:(lia)); lia).
    destruct (Nat.leb_spec (chdr op) m); [|unfold m in *; lia]. destruct (Nat.leb_spec (chdr op + whole inp) m); [|unfold m in *; lia].
    destruct (Nat.leb_spec (whole inp) DL); [|unfold m in *; lia]. destruct (Nat.leb_spec (8 + whole inp) DL); [|unfold m in *; lia]. cbn [andb].
    f_equal.
    - destruct op; cbn [sop_of]; try reflexivity; f_equal; unfold bytes_at; change (firstn 16 (skipn 8 (firstn m b ++ rest))) with (rd 8 16 (firstn m b ++ rest));
        (rewrite rd_front; [apply Q4; reflexivity|unfold m; cbn [chdr is_cbc]; lia|lia]).
    - rewrite nth_rd, rd_front by lia. rewrite Q2. reflexivity.
    - unfold bytes_at. change (rd (chdr op) (whole inp) (firstn m b ++ rest) = firstn (whole inp) inp).
      rewrite rd_front by (unfold m; lia). transitivity (firstn (whole inp) (rd (chdr op) (length inp) b)); [|rewrite Q3; reflexivity]. unfold rd. rewrite firstn_firstn. f_equal. lia. }
  destruct op; cbn [is_cbc chdr andb] in *;
    try (injection H as H; destruct (FIN (wr 8 inp b0)) as (F1 & F2 & F3);
      [rewrite wr_length; lia|symmetry; exact H|rewrite rd_wr_other by lia; exact SZ|rewrite rd_wr_other by lia; exact ID|apply rd_wr_at; [reflexivity|lia]|discriminate|repeat apply conj; auto; discriminate]);
    (destruct (Nat.ltb_spec DL (8 + length iv)) as [V|V]; [discriminate|]; injection H as H; apply Nat.ltb_ge in C2;
     assert (LV : length (wr 8 iv b0) = DL) by (rewrite wr_length; lia);
     destruct (FIN (wr 24 inp (wr 8 iv b0))) as (F1 & F2 & F3);
      [rewrite wr_length; lia|symmetry; exact H|rewrite !rd_wr_other by lia; exact SZ|rewrite !rd_wr_other by lia; exact ID|apply rd_wr_at; [reflexivity|lia]|intros _; rewrite rd_wr_other by lia; apply (rd_wr_in 8 iv 0 16 b0); lia|repeat apply conj; auto]).
Qed.

Lemma gen_packet slot inp old p rest : length old = DL -> (N.of_nat DL < 65536)%N -> (slot < 256)%N ->
  gen_request DL slot inp old = Packet p -> length p = 8 + length inp /\ length p <= DL /\ 16 <= length inp /\
  dec GenMac (length p) (p ++ rest) = SUse OGenMac slot inp.
Proof.
  intros LO DB SL H. unfold gen_request in H. cbv zeta in H. unfold GREQ in H.
  destruct ((length inp <? 16) || (DL <? 8 + length inp)) eqn:CK; [discriminate|]. apply Bool.orb_false_iff in CK. destruct CK as [C1 C2]. apply Nat.ltb_ge in C1, C2.
  set (b := wr 8 inp (wr 4 (put32 (length inp)) (wr 0 (le_enc 4 slot) old))) in *. assert (PE : p = firstn (8 + length inp) b) by congruence. clear H. subst p.
  assert (L1 : length (wr 0 (le_enc 4 slot) old) = DL) by (rewrite wr_length; [exact LO|rewrite le_enc_length; lia]).
  assert (L2 : length (wr 4 (put32 (length inp)) (wr 0 (le_enc 4 slot) old)) = DL) by (rewrite wr_length; [exact L1|rewrite put32_len; lia]).
  assert (L3 : length b = DL) by (unfold b; rewrite wr_length; lia).
  assert (LP : length (firstn (8 + length inp) b) = 8 + length inp) by (rewrite firstn_length; lia).
  repeat split; try lia. rewrite LP. unfold decode. cbv zeta. set (m := 8 + length inp).
  assert (Q1 : rd 0 4 b = le_enc 4 slot). { unfold b. rewrite rd_wr_other by lia. rewrite rd_wr_other; [|rewrite put32_len; lia|lia]. apply rd_wr_at; [rewrite le_enc_length; reflexivity|lia]. }
  assert (Q2 : rd 4 4 b = put32 (length inp)). { unfold b. rewrite rd_wr_other by lia. apply rd_wr_at; [rewrite put32_len; reflexivity|lia]. }
  assert (N0 : num_at 0 (firstn m b ++ rest) = slot).
  { change (num_at 0 (firstn m b ++ rest)) with (le_dec (rd 0 4 (firstn m b ++ rest))). rewrite rd_front by (unfold m; lia). rewrite Q1. apply le_dec_enc. change (256 ^ N.of_nat 4)%N with 4294967296%N. lia. }
  assert (N4 : N.to_nat (num_at 4 (firstn m b ++ rest)) = length inp).
  { change (num_at 4 (firstn m b ++ rest)) with (le_dec (rd 4 4 (firstn m b ++ rest))). rewrite rd_front by (unfold m; lia). rewrite Q2. apply num_put32. lia. }
  rewrite N4, N0. destruct (Nat.leb_spec 8 m); [|unfold m in *; lia]. destruct (Nat.leb_spec (8 + length inp) m); [|unfold m in *; lia]. destruct (Nat.leb_spec (length inp) DL); [|lia].
  cbn [andb]. f_equal. change (bytes_at 8 (length inp) (firstn m b ++ rest)) with (rd 8 (length inp) (firstn m b ++ rest)). rewrite rd_front by (unfold m; lia).
  apply rd_wr_at; [reflexivity|lia].
Qed.

Lemma verify_packet slot msg mac old p rest : length old = DL -> (N.of_nat DL < 65536)%N -> (slot < 256)%N ->
  verify_request DL slot msg mac old = Packet p -> length p = 32 + length msg /\ length p <= DL /\ 16 <= length msg /\ 16 <= length mac /\
  dec VerifyMac (length p) (p ++ rest) = SUse (OVerifyMac (firstn 16 mac)) slot msg.
Proof.
  intros LO DB SL H. unfold verify_request in H. cbv zeta in H. unfold VREQ in H.
  destruct ((length msg <? 16) || (length mac <? 16) || (DL <? 16 + length msg + 16)) eqn:CK; [discriminate|].
  apply Bool.orb_false_iff in CK. destruct CK as [CK C2]. apply Bool.orb_false_iff in CK. destruct CK as [C1 C3]. apply Nat.ltb_ge in C1, C2, C3.
  assert (LM : length (firstn 16 mac) = 16) by (rewrite firstn_length; lia). set (mc := firstn 16 mac) in *. set (m := 16 + length msg + 16) in *.
  set (b1 := wr 0 (le_enc 4 slot) old) in *. set (b2 := wr 4 (put32 (length msg)) b1) in *. set (b3 := wr 8 (put32 16) b2) in *. set (b4 := wr 16 msg b3) in *. set (b := wr (16 + length msg) mc b4) in *.
  assert (PE : p = firstn m b) by congruence. clear H. subst p.
  assert (L1 : length b1 = DL) by (unfold b1; rewrite wr_length; [exact LO|rewrite le_enc_length; unfold m in *; lia]).
  assert (L2 : length b2 = DL) by (unfold b2; rewrite wr_length; [exact L1|rewrite put32_len; unfold m in *; lia]).
  assert (L3 : length b3 = DL) by (unfold b3; rewrite wr_length; [exact L2|rewrite put32_len; unfold m in *; lia]).
  assert (L4 : length b4 = DL) by (unfold b4; rewrite wr_length; unfold m in *; lia).
  assert (L5 : length b = DL) by (unfold b; rewrite wr_length; unfold m in *; lia).
  assert (LP : length (firstn m b) = m) by (rewrite firstn_length; lia).
  rewrite LP. split; [unfold m; lia|]. split; [lia|]. split; [lia|]. split; [lia|]. unfold decode. cbv zeta.
  assert (P4 : forall z, length (put32 z) = 4) by (intros; apply put32_len).
  assert (Q1 : rd 0 4 b = le_enc 4 slot).
  { unfold b. rewrite rd_wr_other by (unfold m in *; lia). unfold b4. rewrite rd_wr_other by (unfold m in *; lia). unfold b3. rewrite rd_wr_other by (rewrite P4; unfold m in *; lia).
    unfold b2. rewrite rd_wr_other by (rewrite P4; unfold m in *; lia). apply rd_wr_at; [rewrite le_enc_length; reflexivity|lia]. }
  assert (Q2 : rd 4 4 b = put32 (length msg)).
  { unfold b. rewrite rd_wr_other by (unfold m in *; lia). unfold b4. rewrite rd_wr_other by (unfold m in *; lia). unfold b3. rewrite rd_wr_other by (rewrite P4; unfold m in *; lia).
    apply rd_wr_at; [rewrite P4; reflexivity|unfold m in *; lia]. }
  assert (Q3 : rd 8 4 b = put32 16).
  { unfold b. rewrite rd_wr_other by (unfold m in *; lia). unfold b4. rewrite rd_wr_other by (unfold m in *; lia). apply rd_wr_at; [rewrite P4; reflexivity|unfold m in *; lia]. }
  assert (Q4 : rd 16 (length msg) b = msg).
  { unfold b. rewrite rd_wr_other by (unfold m in *; lia). apply rd_wr_at; [reflexivity|unfold m in *; lia]. }
  assert (Q5 : rd (16 + length msg) 16 b = mc) by (apply rd_wr_at; [lia|unfold m in *; lia]).
  assert (N0 : num_at 0 (firstn m b ++ rest) = slot).
  { change (num_at 0 (firstn m b ++ rest)) with (le_dec (rd 0 4 (firstn m b ++ rest))). rewrite rd_front by (unfold m in *; lia). rewrite Q1. apply le_dec_enc. change (256 ^ N.of_nat 4)%N with 4294967296%N. lia. }
  assert (N4 : N.to_nat (num_at 4 (firstn m b ++ rest)) = length msg).
  { change (num_at 4 (firstn m b ++ rest)) with (le_dec (rd 4 4 (firstn m b ++ rest))). rewrite rd_front by (unfold m in *; lia). rewrite Q2. apply num_put32. unfold m in *. lia. }
  assert (N8 : N.to_nat (num_at 8 (firstn m b ++ rest)) = 16).
  { change (num_at 8 (firstn m b ++ rest)) with (le_dec (rd 8 4 (firstn m b ++ rest))). rewrite rd_front by (unfold m in *; lia). rewrite Q3. apply num_put32. lia. }
  rewrite N4, N8, N0. destruct (Nat.leb_spec 16 m); [|unfold m in *; lia]. destruct (Nat.leb_spec (16 + length msg + 16) m); [|unfold m in *; lia]. destruct (Nat.leb_spec (length msg + 16) DL); [|unfold m in *; lia].
  cbn [andb]. f_equal.
  - f_equal. change (rd (16 + length msg) 16 (firstn m b ++ rest) = mc). rewrite rd_front by (unfold m in *; lia). exact Q5.
  - change (rd 16 (length msg) (firstn m b ++ rest) = msg). rewrite rd_front by (unfold m in *; lia). exact Q4.
Qed.

(** ** Calls *)
Lemma is_ok_eq z : is_ok z = true -> z = OK.
Proof. apply Z.eqb_eq. Qed.
Lemma is_ok_neq z : is_ok z = false -> z <> OK.
Proof. apply Z.eqb_neq. Qed.

(** What an answer tells the caller. *)
Lemma cipher_response_ok op r resp out sz : carries (Cipher op) r resp -> (N.of_nat (length (sr_out r)) < 4294967296)%N -> length out = sz ->
  let '(rc, o) := cipher_response resp out sz in
  (rc <> OK /\ o = out) \/ (rc = OK /\ sr_rc r = OK /\ o = sr_out r ++ skipn (length (sr_out r)) out).
Proof.
  intros [R1 R2] SM LO. unfold cipher_response. destruct (Nat.ltb_spec (length resp) CRESP) as [A|A]; [left; split; [discriminate|reflexivity]|].
  destruct (is_ok (get_rc resp)) eqn:K; cbn [negb]; [|left; split; [apply is_ok_neq; exact K|reflexivity]].
  apply is_ok_eq in K. rewrite K in R1. symmetry in R1. specialize (R2 R1). cbv beta iota in R2.
  assert (G : get32 4 resp = length (sr_out r)).
  { unfold get32, rd. rewrite R2. rewrite firstn_app, put32_len, Nat.sub_diag, firstn_O, app_nil_r, firstn_all2 by (rewrite put32_len; lia). apply num_put32. exact SM. }
  assert (RD : rd CRESP (length (sr_out r)) resp = sr_out r).
  { unfold rd, CRESP. change 8 with (4 + 4). rewrite <- (skipn_skipn resp 4 4), R2. rewrite skipn_app, put32_len, Nat.sub_diag, skipn_all2 by (rewrite put32_len; lia). cbn [app skipn]. apply firstn_all. }
  rewrite G, RD. destruct (Nat.ltb_spec (length resp - CRESP) (length (sr_out r))) as [B|B]; [left; split; [discriminate|reflexivity]|].
  destruct (Nat.ltb_spec sz (length (sr_out r))) as [B1|B1]; [left; split; [discriminate|reflexivity]|].
  right. split; [reflexivity|]. split; [exact R1|]. reflexivity.
Qed.
Lemma cipher_response_back op r resp out sz : carries (Cipher op) r resp -> sr_rc r = OK -> length (sr_out r) <= sz -> (N.of_nat (length (sr_out r)) < 4294967296)%N ->
  fst (cipher_response resp out sz) = OK.
Proof.
  intros [R1 R2] RO LE SM. specialize (R2 RO). cbv beta iota in R2. unfold cipher_response.
  assert (LR : length (skipn 4 resp) = 4 + length (sr_out r)) by (rewrite R2, app_length, put32_len; reflexivity). rewrite skipn_length in LR.
  destruct (Nat.ltb_spec (length resp) CRESP) as [A|A]; [unfold CRESP in A; lia|]. rewrite R1, RO. cbn [is_ok Z.eqb OK negb].
  assert (G : get32 4 resp = length (sr_out r)).
  { unfold get32, rd. rewrite R2. rewrite firstn_app, put32_len, Nat.sub_diag, firstn_O, app_nil_r, firstn_all2 by (rewrite put32_len; lia). apply num_put32. exact SM. }
  change (is_ok OK) with true. cbn [negb]. rewrite G. destruct (Nat.ltb_spec (length resp - CRESP) (length (sr_out r))) as [B|B]; [unfold CRESP in B; lia|].
  destruct (Nat.ltb_spec sz (length (sr_out r))) as [B1|B1]; [lia|]. reflexivity.
Qed.

(** A command with a key that is answered OK. *)
Lemma use_ok e client sop slot data h S0 r h1 S1 : step e client (SUse sop slot data) h S0 = (r, h1, S1) -> sr_rc r = OK ->
  h_uidset h = true /\ h_sb h = SbSuccess /\ se_lock e = true /\
  exists m k, she_read C (se_rd e 0) S0 (she_id C client slot) = (OK, S1, m, k) /\
  match sop with
  | OVerifyMac _ => length k = 16 /\ sr_out r = [] /\ sr_word r = (if se_c1 e then match lib_use E D cm sop k data with Some _ => 0%N | None => 1%N end else 1%N)
  | OGenMac => length k = 16 /\ se_c1 e = true /\ sr_out r = cm k data
  | _ => se_c1 e = true /\ lib_use E D cm sop k (firstn (length data - length data mod 16) data) = Some (sr_out r)
  end.
Proof.
  intros H RO. unfold she_step in H. destruct (refused _ h) eqn:RF. { injection H as <- _ _. discriminate. }
  unfold refused in RF. cbn [action_of is_boot negb andb] in RF. destruct (h_uidset h); [|discriminate]. cbn [negb] in RF. apply Bool.negb_false_iff in RF.
  assert (SB : h_sb h = SbSuccess) by (destruct (h_sb h); try discriminate; reflexivity). split; [reflexivity|]. split; [exact SB|].
  unfold she_handle in H. cbn [action_of locks is_boot andb] in H. destruct (se_lock e); cbn [negb] in H.
  2:{ unfold err in H. injection H as <- _ _. discriminate. }
  split; [reflexivity|]. unfold do_use in H. cbv zeta in H. destruct (she_read C (se_rd e 0) S0 (she_id C client slot)) as [[[rc S2] m] k]. exists m, k.
  destruct (is_ok rc) eqn:K; cbn [negb orb] in H. 2:{ unfold err in H. injection H as <- _ _. discriminate. }
  apply is_ok_eq in K. subst rc.
  destruct sop; cbn [andb] in H; cbv iota in H;
    try (destruct (se_c1 e); [|unfold err in H; injection H as <- _ _; discriminate];
         destruct (lib_use E D cm _ k _) as [o|] eqn:U; [|unfold err in H; injection H as <- _ _; discriminate]; injection H as <- <- <-; auto);
    try (destruct (Nat.eqb_spec (length k) 16) as [KL|KL]; cbn [negb] in H; [|unfold err in H; injection H as <- _ _; discriminate]).
  - destruct (se_c1 e); [|unfold err in H; injection H as <- _ _; discriminate].
    destruct (lib_use E D cm (ODecCbc iv) k _) as [o|] eqn:U; [|unfold err in H; injection H as <- _ _; discriminate]. injection H as <- <- <-. auto.
  - destruct (se_c1 e); [|unfold err in H; injection H as <- _ _; discriminate].
    destruct (lib_use E D cm OGenMac k data) as [o|] eqn:U; [|unfold err in H; injection H as <- _ _; discriminate]. injection H as <- <- <-.
    unfold lib_use in U. rewrite KL in U. cbn [Nat.eqb] in U. injection U as <-. auto.
  - injection H as <- <- <-. cbn [sr_out sr_word]. destruct (se_c1 e); auto.
Qed.
(** And one that has all it needs. *)
Lemma use_works e client sop slot data h S0 m k S1 : h_uidset h = true -> h_sb h = SbSuccess -> se_lock e = true -> se_c1 e = true \/ (exists mac, sop = OVerifyMac mac) ->
  she_read C (se_rd e 0) S0 (she_id C client slot) = (OK, S1, m, k) -> length k = 16 ->
  sr_rc (fst (fst (step e client (SUse sop slot data) h S0))) = OK.
Proof.
  intros U B LK C1 R K. unfold she_step, refused. cbn [action_of is_boot negb andb locks]. rewrite U, B. cbn [sb_eqb negb].
  unfold she_handle. cbn [action_of locks]. rewrite LK. cbn [andb negb]. unfold do_use. cbv zeta. rewrite R. change (is_ok OK) with true. cbn [negb orb]. rewrite K. cbn [Nat.eqb negb]. rewrite Bool.andb_false_r.
  destruct C1 as [C1|[mac ->]].
  - rewrite C1. destruct sop; cbn [lib_use]; unfold lib_use; rewrite ?K; cbn [Nat.eqb]; reflexivity.
  - reflexivity.
Qed.

(** The key that is read is the one the slot holds. *)
Lemma read_holds Y i client slot rd S1 m k : sys_ok C (hy_ks Y) -> (slot < 256)%N ->
  she_read C rd (ks_of (hy_ks Y) i) (she_id C client slot) = (OK, S1, m, k) -> length k = 16 -> holds C Y i client slot k.
Proof.
  intros O SL R K. destruct (O i) as [W G]. destruct (she_read_eff _ _ _ _ _ _ _ _ W G (sid_type _ _ _) R) as (_ & _ & _ & _ & _ & V & _).
  unfold holds, auth_key. split; [exact K|]. rewrite slot_vis. destruct (V eq_refl) as [V1|(V1 & H1 & _ & H3 & _ & ->)]; rewrite V1; [reflexivity|].
  split; [exact H1|]. rewrite sid_id in H3 by exact SL. auto.
Qed.
Lemma holds_read Y i client slot rd k rc S1 m k' : sys_ok C (hy_ks Y) -> (slot < 256)%N -> rd = OK -> holds C Y i client slot k ->
  she_read C rd (ks_of (hy_ks Y) i) (she_id C client slot) = (rc, S1, m, k') -> rc = OK /\ k' = k.
Proof.
  intros O SL RD [K H] R. destruct (O i) as [W G]. rewrite slot_vis in H. destruct (vis C (ks_of (hy_ks Y) i) (she_id C client slot)) as [[m0 d0]|] eqn:V.
  - subst d0. destruct (she_read_hit _ _ _ _ _ _ _ _ _ _ W G (sid_type _ _ _) RD V K R) as (-> & _ & ->). auto.
  - destruct H as (HS & MS & ->). subst rd.
    destruct (she_read_none _ _ _ _ _ _ _ _ W G (sid_type _ _ _) eq_refl V R) as (_ & _ & [[NF DE]|(-> & _ & _ & ->)]); [|auto].
    exfalso. destruct (she_assigned C _ (sid_type C client slot)) as (UA & HW & WR & NZ).
    unfold vis in V. unfold she_read in R. destruct (find_cache C _ _) as [s|] eqn:FC; [discriminate|]. change (is_ok OK) with true in R. cbv iota in R.
    unfold read_key in R. rewrite UA, HW, WR, FC, V in R. rewrite HS, (sid_type C) in R.
    rewrite sid_id in R by exact SL. rewrite MS in R. rewrite !N.eqb_refl in R. cbn [andb] in R. injection R as <- _ _ _. discriminate.
Qed.
Lemma holds_one Y i client slot k k' : holds C Y i client slot k -> holds C Y i client slot k' -> k = k'.
Proof.
  intros [_ A] [_ B]. destruct (slot_key C Y i client slot) as [[m d]|]; [congruence|]. destruct A as (_ & _ & ->), B as (_ & _ & ->). reflexivity.
Qed.
End Proofs.
