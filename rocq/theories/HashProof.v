(** Hashing through the server: lemmas. *)
From Coq Require Import Lia.
From Verif Require Import Base HashModel HashSpec.

Lemma bs_pos v : bs v <> 0.
Proof. destruct v; discriminate. Qed.
Lemma bs_le v : bs v <= 144.
Proof. destruct v; cbn [bs]; lia. Qed.
Lemma bs_algo v : bs (algo v) = bs v.
Proof. destruct v; reflexivity. Qed.
Lemma fam_algo v : fam (algo v) = fam v.
Proof. destruct v; reflexivity. Qed.
Lemma cw_algo v : cw (algo v) = cw v.
Proof. destruct v; reflexivity. Qed.
Lemma reqsz_algo d v : reqsz d (algo v) = reqsz d v.
Proof. destruct v; reflexivity. Qed.

Lemma blocks_cons b x e : b <> 0 -> length x = b -> blocks b (x ++ e) = x :: blocks b e.
Proof.
  intros B L. unfold blocks.
  assert (E : length (x ++ e) / b = S (length e / b)).
  { rewrite app_length, L. replace (b + length e) with (length e + 1 * b) by lia.
    rewrite Nat.div_add by assumption. lia. }
  rewrite E. cbn [seq map]. f_equal.
  - cbn [Nat.mul skipn]. rewrite firstn_app, L, Nat.sub_diag, <- L, firstn_all, firstn_O.
    apply app_nil_r.
  - rewrite <- seq_shift, map_map. apply map_ext. intros i.
    f_equal. replace (S i * b) with (length x + i * b) by lia.
    rewrite skipn_app, skipn_all2 by lia. cbn [app]. f_equal. lia.
Qed.

Lemma last_cons b x e : b <> 0 -> length x = b -> last_part b (x ++ e) = last_part b e.
Proof.
  intros B L. unfold last_part.
  assert (E : length (x ++ e) / b = S (length e / b)).
  { rewrite app_length, L. replace (b + length e) with (length e + 1 * b) by lia.
    rewrite Nat.div_add by assumption. lia. }
  rewrite E. replace (S (length e / b) * b) with (length x + length e / b * b) by (rewrite L; reflexivity).
  rewrite skipn_app, skipn_all2 by apply Nat.le_add_r. cbn [app].
  rewrite (Nat.add_comm (length x)), Nat.add_sub. reflexivity.
Qed.

Lemma blocks_short b m : length m < b -> blocks b m = [] /\ last_part b m = m.
Proof. intros L. unfold blocks, last_part. rewrite Nat.div_small by assumption. split; reflexivity. Qed.

(** Induction over a list of whole blocks. *)
Lemma block_ind b (P : list N -> Prop) :
  b <> 0 -> P [] ->
  (forall x e, length x = b -> length e mod b = 0 -> P e -> P (x ++ e)) ->
  forall d, length d mod b = 0 -> P d.
Proof.
  intros B P0 PS. assert (G : forall n d, length d <= n -> length d mod b = 0 -> P d).
  { induction n as [|n IH]; intros d L M.
    - destruct d; [exact P0|cbn [length] in L; lia].
    - destruct (Nat.eq_dec (length d) 0) as [Z|Z]; [destruct d; [exact P0|discriminate]|].
      assert (b <= length d).
      { destruct (Nat.le_gt_cases b (length d)); [assumption|].
        rewrite Nat.mod_small in M by assumption. contradiction. }
      rewrite <- (firstn_skipn b d). assert (L1 : length (firstn b d) = b) by (rewrite firstn_length; lia).
      assert (M1 : length (skipn b d) mod b = 0).
      { rewrite skipn_length. replace (length d) with (length d - b + 1 * b) in M by lia.
        rewrite Nat.mod_add in M by assumption. exact M. }
      apply PS; [exact L1|exact M1|]. apply IH; [rewrite skipn_length; lia|exact M1]. }
  intros d. apply (G (length d)). apply le_n.
Qed.

Lemma blocks_app b d e : b <> 0 -> length d mod b = 0 -> blocks b (d ++ e) = blocks b d ++ blocks b e.
Proof.
  intros B. revert d. apply (block_ind b (fun d => blocks b (d ++ e) = blocks b d ++ blocks b e)); [exact B| |].
  - cbn [app]. unfold blocks at 2. cbn [length]. rewrite Nat.div_0_l by assumption. reflexivity.
  - intros x d' L M IH. rewrite <- app_assoc, (blocks_cons b x (d' ++ e)), (blocks_cons b x d'), IH by assumption. reflexivity.
Qed.

Lemma last_app b d e : b <> 0 -> length d mod b = 0 -> last_part b (d ++ e) = last_part b e.
Proof.
  intros B. revert d. apply (block_ind b (fun d => last_part b (d ++ e) = last_part b e)); [exact B| |].
  - reflexivity.
  - intros x d' L M IH. rewrite <- app_assoc, last_cons by assumption. exact IH.
Qed.

Lemma last_multiple b d : b <> 0 -> length d mod b = 0 -> last_part b d = [].
Proof.
  intros B M. rewrite <- (app_nil_r d), last_app by assumption. unfold last_part.
  rewrite skipn_nil. reflexivity.
Qed.

Lemma mod_app b (d e : list N) : b <> 0 -> length d mod b = 0 -> length e mod b = 0 -> length (d ++ e) mod b = 0.
Proof.
  intros B M1 M2. rewrite app_length, Nat.add_mod, M1, M2 by assumption. apply Nat.mod_0_l. exact B.
Qed.

Section HashC.
Variable DL : nat.

(** * The client *)
Lemma topup_spec v buf data w b r :
  length buf < bs v -> topup v buf data = (w, b, r) ->
  buf ++ data = w ++ b ++ r /\ (w = [] \/ length w = bs v) /\ length b < bs v /\
  (b = [] \/ r = []) /\ length r <= length data.
Proof.
  intros B. unfold topup. destruct (Nat.eqb_spec (length buf) 0) as [Z|Z].
  - intros E. injection E as <- <- <-. destruct buf; [|discriminate Z]. cbn [app length].
    pose proof (bs_pos v). repeat split; auto; lia.
  - set (k := Nat.min (length data) (bs v - length buf)).
    assert (LB : length (buf ++ firstn k data) = length buf + k).
    { rewrite app_length, firstn_length. unfold k. lia. }
    destruct (Nat.eqb_spec (length (buf ++ firstn k data)) (bs v)) as [F|F]; intros E; injection E as <- <- <-.
    + cbn [app length]. rewrite <- app_assoc, firstn_skipn, skipn_length. pose proof (bs_pos v).
      repeat split; auto; lia.
    + assert (KD : k = length data) by (unfold k in *; lia).
      rewrite KD, skipn_all, firstn_all, app_nil_r in *. cbn [app length].
      repeat split; auto; rewrite app_length in *; lia.
Qed.

Lemma pack_spec v n : forall w r w' r',
  length r <= n -> length w mod bs v = 0 -> pack DL n v w r = (w', r') ->
  w' ++ r' = w ++ r /\ length w' mod bs v = 0 /\
  length w' <= Nat.max (length w) (max_inline DL v) /\ length r' <= length r /\
  (length r' < bs v \/ max_inline DL v < length w' + bs v).
Proof.
  pose proof (bs_pos v) as BP.
  induction n as [|n IH]; intros w r w' r' L M; cbn [pack].
  - intros E. injection E as <- <-. repeat split; auto; lia.
  - destruct (Nat.leb_spec (bs v) (length r)) as [A|A]; cbn [andb].
    2: { intros E. injection E as <- <-. repeat split; auto; lia. }
    destruct (Nat.leb_spec (length w + bs v) (max_inline DL v)) as [C|C].
    2: { intros E. injection E as <- <-. repeat split; auto; lia. }
    intros E. assert (LF : length (firstn (bs v) r) = bs v) by (rewrite firstn_length; lia).
    apply IH in E.
    + destruct E as (E1 & E2 & E3 & E4 & E5). rewrite <- app_assoc, firstn_skipn in E1.
      rewrite app_length, LF in E3. rewrite skipn_length in E4. repeat split; auto; lia.
    + rewrite skipn_length. lia.
    + apply mod_app; auto. rewrite LF. apply Nat.mod_same. exact BP.
Qed.

Lemma max_mult v : max_inline DL v mod bs v = 0.
Proof. unfold max_inline. apply Nat.mod_mul. apply bs_pos. Qed.

Lemma mult_gap (b x y : nat) : b <> 0 -> x mod b = 0 -> y mod b = 0 -> y < x + b -> y <= x.
Proof.
  intros B X Y L. apply Nat.mod_divides in X; [|exact B]. apply Nat.mod_divides in Y; [|exact B].
  destruct X as [i ->]. destruct Y as [j ->].
  assert (b * j < b * S i) by lia. apply Nat.mul_lt_mono_pos_l in H; [|lia].
  apply Nat.mul_le_mono_l. lia.
Qed.

(** The two ways of splitting an update into what is sent and what is kept. *)
Definition split_update (dma : bool) (v : variant) (buf data : list N) : list N * list N * list N :=
  let '(w, b, r) := topup v buf data in
  let '(w, d, t) :=
    if dma then let n := length r / bs v * bs v in (w, firstn n r, skipn n r)
    else let '(w, r) := pack DL (length r) v w r in (w, [], r) in
  (w, d, b ++ t).

Lemma split_spec dma v c data w d b :
  length (c_buf c) < bs v ->
  (dma = false -> length data <= capacity DL v c) ->
  split_update dma v (c_buf c) data = (w, d, b) ->
  c_buf c ++ data = (w ++ d) ++ b /\ length w mod bs v = 0 /\ length d mod bs v = 0 /\
  length b < bs v /\ length d <= length data /\ length w <= Nat.max (bs v) (max_inline DL v) /\
  (dma = false -> d = []) /\ (dma = true -> length w <= bs v).
Proof.
  intros B C. unfold split_update.
  destruct (topup v (c_buf c) data) as [[w0 b0] r0] eqn:T.
  destruct (topup_spec v _ _ _ _ _ B T) as (T1 & T2 & T3 & T4 & T5).
  pose proof (bs_pos v) as BP.
  assert (MW : length w0 mod bs v = 0).
  { destruct T2 as [->| ->]; [apply Nat.mod_0_l; exact BP|apply Nat.mod_same; exact BP]. }
  destruct dma.
  - intros E. injection E as <- <- <-.
    set (n := length r0 / bs v * bs v).
    assert (NL : n <= length r0).
    { unfold n. rewrite Nat.mul_comm. apply Nat.mul_div_le. exact BP. }
    assert (LT : length (skipn n r0) < bs v).
    { rewrite skipn_length. unfold n.
      pose proof (Nat.mod_upper_bound (length r0) (bs v) BP) as U.
      rewrite Nat.mod_eq in U by exact BP. rewrite (Nat.mul_comm _ (bs v)). exact U. }
    split; [|split; [exact MW|split; [|split; [|split; [|split; [|split]]]]]].
    + rewrite T1, <- !app_assoc. f_equal. destruct T4 as [->| ->].
      * cbn [app]. rewrite firstn_skipn. reflexivity.
      * rewrite firstn_nil, skipn_nil. reflexivity.
    + rewrite firstn_length, Nat.min_l by exact NL. unfold n. apply Nat.mod_mul. exact BP.
    + rewrite app_length. destruct T4 as [->| ->].
      * exact LT.
      * rewrite skipn_nil. cbn [length]. lia.
    + rewrite firstn_length. lia.
    + destruct T2 as [->| ->]; cbn [length]; lia.
    + discriminate.
    + intros _. destruct T2 as [->| ->]; cbn [length]; lia.
  - destruct (pack DL (length r0) v w0 r0) as [w1 r1] eqn:P. intros E. injection E as <- <- <-.
    destruct (pack_spec v _ _ _ _ _ (le_n _) MW P) as (P1 & P2 & P3 & P4 & P5).
    assert (WL : length w0 <= bs v) by (destruct T2 as [->| ->]; cbn [length]; lia).
    assert (LN : length (c_buf c) + length data = length w1 + length b0 + length r1).
    { apply (f_equal (@length N)) in T1. apply (f_equal (@length N)) in P1.
      rewrite !app_length in *. lia. }
    split; [|split; [exact P2|split; [|split; [|split; [|split; [|split]]]]]].
    + rewrite T1, app_nil_r. destruct T4 as [->| ->].
      * cbn [app]. symmetry. exact P1.
      * destruct r1; [|cbn [length] in P4; lia]. rewrite !app_nil_r in *. rewrite P1. reflexivity.
    + apply Nat.mod_0_l. exact BP.
    + rewrite app_length. specialize (C eq_refl). unfold capacity in C.
      destruct P5 as [P5|P5].
      * destruct T4 as [->| ->]; [cbn [length]; lia|]. destruct r1; cbn [length] in *; lia.
      * pose proof (mult_gap (bs v) (length w1) (max_inline DL v) BP P2 (max_mult v) P5). lia.
    + cbn [length]. lia.
    + lia.
    + reflexivity.
    + discriminate.
Qed.

Lemma upd_req_split dma v data src s :
  upd_req DL dma v data src s =
  let c := hs_c s in
  if dma && pending s then (REQUEST_PENDING, s)
  else if bs v <=? length (c_buf c) then (BADARGS, s)
  else if negb dma && (capacity DL v c <? length data) then (BADARGS, s)
  else if length data =? 0 then (OK, s)
  else
    let '(w, d, b) := split_update dma v (c_buf c) data in
    if (length w =? 0) && (length d =? 0) then (OK, mkHs (with_buf c b) (hs_p s))
    else
      let rc := send DL (pending s) (HDR + reqsz dma v + length w) src in
      if is_ok rc then (OK, mkHs (with_buf c b) (Some (request dma v c false w d))) else (rc, s).
Proof.
  unfold upd_req, split_update. cbn zeta.
  destruct (dma && pending s); [reflexivity|].
  destruct (bs v <=? _); [reflexivity|].
  destruct (negb dma && _); [reflexivity|].
  destruct (length data =? 0); [reflexivity|].
  destruct (topup v (c_buf (hs_c s)) data) as [[w b] r]. destruct dma; [reflexivity|].
  destruct (pack DL (length r) v w r) as [w' r']. reflexivity.
Qed.

Lemma send_ok p n src : is_ok (send DL p n src) = true -> p = false /\ n <= DL /\ src = OK.
Proof.
  unfold send. destruct p; [discriminate|]. destruct (Nat.ltb_spec DL n); [discriminate|].
  intros E. apply Z.eqb_eq in E. auto.
Qed.

(** An update request either changes nothing or takes its input. *)
Lemma upd_req_ok dma v data src s rc s' :
  length (c_buf (hs_c s)) < bs v -> upd_req DL dma v data src s = (rc, s') ->
  (is_ok rc = false /\ s' = s) \/
  (rc = OK /\ exists w d b, s' = mkHs (with_buf (hs_c s) b) (hs_p s') /\
     c_buf (hs_c s) ++ data = (w ++ d) ++ b /\
     length w mod bs v = 0 /\ length d mod bs v = 0 /\ length b < bs v /\
     length d <= length data /\
     ((w = [] /\ d = [] /\ hs_p s' = hs_p s) \/
      (hs_p s = None /\ hs_p s' = Some (request dma v (hs_c s) false w d) /\
       HDR + reqsz dma v + length w <= DL))).
Proof.
  intros B. rewrite upd_req_split. cbn zeta.
  destruct (dma && pending s); [intros E; injection E as <- <-; left; split; reflexivity|].
  destruct (Nat.leb_spec (bs v) (length (c_buf (hs_c s)))); [lia|].
  destruct (negb dma && _) eqn:CA; [intros E; injection E as <- <-; left; split; reflexivity|].
  destruct (Nat.eqb_spec (length data) 0) as [Z|Z].
  { intros E. injection E as <- <-. right. split; [reflexivity|]. exists [], [], (c_buf (hs_c s)).
    destruct data; [|discriminate Z]. rewrite app_nil_r. cbn [app length].
    rewrite Nat.mod_0_l by apply bs_pos. destruct s as [[st hi lo bf] pp].
    repeat split; auto. }
  destruct (split_update dma v (c_buf (hs_c s)) data) as [[w d] b] eqn:SP.
  apply split_spec in SP; [|exact B|].
  2: { intros ->. cbn [negb andb] in CA. apply Nat.ltb_ge in CA. exact CA. }
  destruct SP as (S1 & S2 & S3 & S4 & S5 & S6 & S7 & S8).
  destruct ((length w =? 0) && (length d =? 0)) eqn:WZ.
  { intros E. injection E as <- <-. right. split; [reflexivity|].
    apply andb_true_iff in WZ. destruct WZ as [W1 W2]. apply Nat.eqb_eq in W1. apply Nat.eqb_eq in W2.
    destruct w; [|discriminate W1]. destruct d; [|discriminate W2].
    exists [], [], b. repeat split; auto. }
  destruct (is_ok (send DL _ _ src)) eqn:SO.
  - intros E. injection E as <- <-. right. split; [reflexivity|].
    destruct (send_ok _ _ _ SO) as (O1 & O2 & O3).
    exists w, d, b. split; [reflexivity|]. split; [exact S1|]. split; [exact S2|]. split; [exact S3|].
    split; [exact S4|]. split; [exact S5|]. right.
    split; [destruct s as [? []]; [discriminate O1|reflexivity]|]. split; [reflexivity|exact O2].
  - intros E. injection E as <- <-. left. split; [exact SO|reflexivity].
Qed.

Lemma fin_req_ok dma v src s rc s' :
  fin_req DL dma v src s = (rc, s') ->
  (is_ok rc = false /\ s' = s) \/
  (rc = OK /\ hs_p s = None /\ hs_c s' = hs_c s /\ length (c_buf (hs_c s)) < bs v /\
   hs_p s' = Some (request dma v (hs_c s) true (c_buf (hs_c s)) [])).
Proof.
  unfold fin_req. cbn zeta.
  destruct (dma && pending s); [intros E; injection E as <- <-; left; split; reflexivity|].
  destruct (Nat.leb_spec (bs v) (length (c_buf (hs_c s)))); [intros E; injection E as <- <-; left; split; reflexivity|].
  destruct (is_ok (send DL _ _ src)) eqn:SO.
  - intros E. injection E as <- <-. right. destruct (send_ok _ _ _ SO) as (O1 & _).
    repeat split; auto. destruct s as [? []]; [discriminate O1|reflexivity].
  - intros E. injection E as <- <-. left. split; [exact SO|reflexivity].
Qed.

End HashC.

Section HashP.
Variable DL : nat.
Variable same : bool.
Variable sup : variant -> bool.
Variable iv : variant -> list N.
Variable comp : family -> list N -> list N -> list N.
Variable fin : family -> nat -> list N -> N -> list N -> list N.
Hypothesis LIB : library_ok iv comp fin.

Let IVL := proj1 LIB.
Let COL := proj1 (proj2 LIB).
Let FIL := proj2 (proj2 LIB).

Definition absorb (v : variant) (st d : list N) : list N := fold_left (comp (fam v)) (blocks (bs v) d) st.

Lemma absorb_app v st d e : length d mod bs v = 0 -> absorb v st (d ++ e) = absorb v (absorb v st d) e.
Proof.
  intros M. unfold absorb. rewrite blocks_app by (auto using bs_pos). apply fold_left_app.
Qed.

Lemma absorb_length v st d : length (absorb v st d) = length st.
Proof.
  unfold absorb. revert st. induction (blocks (bs v) d) as [|b l IH]; intros st; [reflexivity|].
  cbn [fold_left]. rewrite IH. apply COL.
Qed.

Lemma absorb_iv_length v d : length (absorb v (iv v) d) = cw v.
Proof. rewrite absorb_length. apply IVL. Qed.

Lemma chop_spec v f n : forall st d, length d <= n -> f = fam v ->
  chop comp n (bs v) st f d = (absorb v st d, last_part (bs v) d).
Proof.
  induction n as [|n IH]; intros st d L E; subst f; cbn [chop].
  - destruct d; [|cbn [length] in L; lia]. pose proof (bs_pos v).
    destruct (blocks_short (bs v) []) as [A1 A2]; [cbn [length]; lia|].
    unfold absorb. rewrite A1, A2. reflexivity.
  - destruct (Nat.ltb_spec (length d) (bs v)) as [S|S].
    + unfold absorb. destruct (blocks_short (bs v) d S) as [-> ->]. reflexivity.
    + pose proof (bs_pos v). assert (LX : length (firstn (bs v) d) = bs v) by (rewrite firstn_length; lia).
      rewrite IH; [|rewrite skipn_length; lia|reflexivity].
      set (x := firstn (bs v) d) in *. set (e := skipn (bs v) d).
      assert (D : d = x ++ e) by (unfold x, e; rewrite firstn_skipn; reflexivity).
      rewrite D. unfold absorb. rewrite blocks_cons, last_cons by assumption. reflexivity.
Qed.

(** The byte count a context carries for the blocks [d]. *)
Definition lens (v : variant) (n : N) : N * N :=
  match fam v with
  | Fam256 => ((n / 4294967296) mod 4294967296, n mod 4294967296)
  | Fam512 => (0, n mod 4294967296)
  | Keccak => (0, 0)
  end%N.

Lemma lib_update_blocks v st hi lo d :
  length d mod bs v = 0 ->
  lib_update comp v (mkLc st hi lo []) d =
  mkLc (absorb v st d) (fst (add_len (fam v) hi lo (N.of_nat (length d))))
       (snd (add_len (fam v) hi lo (N.of_nat (length d)))) [].
Proof.
  intros M. unfold lib_update. cbn [l_hi l_lo l_buf l_st app].
  destruct (add_len _ _ _ _) as [h l]. rewrite (chop_spec v) by auto.
  rewrite last_multiple by (auto using bs_pos). reflexivity.
Qed.

Lemma add_len_256 n k : (k < 4294967296)%N ->
  add_len Fam256 ((n / 4294967296) mod 4294967296) (n mod 4294967296) k =
  ((((n + k) / 4294967296) mod 4294967296)%N, ((n + k) mod 4294967296)%N).
Proof.
  intros K. unfold add_len, wrap32.
  set (B := 4294967296%N) in *. assert (BP : (B <> 0)%N) by discriminate.
  set (q := (n / B)%N). set (r := (n mod B)%N).
  assert (E : (n = B * q + r)%N) by (apply N.div_mod; exact BP).
  assert (R : (r < B)%N) by (apply N.mod_lt; exact BP).
  destruct (N.lt_ge_cases (r + k) B) as [C|C].
  - assert (E2 : ((n + k) mod B = r + k)%N).
    { symmetry. apply (N.mod_unique _ _ q); [exact C|lia]. }
    assert (E3 : ((n + k) / B = q)%N).
    { symmetry. apply (N.div_unique _ _ _ (r + k)); [exact C|lia]. }
    rewrite E2, E3, (N.mod_small (r + k)) by exact C.
    destruct (N.ltb_spec (r + k) r); [lia|reflexivity].
  - assert (E2 : ((n + k) mod B = r + k - B)%N).
    { symmetry. apply (N.mod_unique _ _ (q + 1)); lia. }
    assert (E3 : ((n + k) / B = q + 1)%N).
    { symmetry. apply (N.div_unique _ _ _ (r + k - B)); lia. }
    assert (E4 : ((r + k) mod B = r + k - B)%N).
    { symmetry. apply (N.mod_unique _ _ 1); lia. }
    rewrite E2, E3, E4. destruct (N.ltb_spec (r + k - B) r) as [X|X]; [|lia].
    rewrite N.add_mod_idemp_l by exact BP. reflexivity.
Qed.

(** One update at the server, as the client sees the lengths afterwards. *)
Lemma lens_add v n k hi lo :
  (k < 4294967296)%N -> lens v n = (hi, lo) ->
  lens v (n + k) = (wrap32 (fst (add_len (fam v) hi lo k)), wrap32 (snd (add_len (fam v) hi lo k))).
Proof.
  intros K. unfold lens. destruct (fam v) eqn:F; intros E; injection E as <- <-.
  - rewrite add_len_256 by exact K. cbn [fst snd]. unfold wrap32.
    rewrite !N.mod_mod by discriminate. reflexivity.
  - unfold add_len, wrap64. cbn [fst snd].
    assert (R : (n mod 4294967296 < 4294967296)%N) by (apply N.mod_lt; discriminate).
    rewrite (N.mod_small (n mod 4294967296 + k)) by lia.
    destruct (N.ltb_spec (n mod 4294967296 + k) (n mod 4294967296)); [lia|].
    unfold wrap32. rewrite N.add_mod_idemp_l by discriminate. reflexivity.
  - reflexivity.
Qed.

(** Two updates in one request: the lengths are cut to 32 bits only at the end. *)
Lemma lens_add2 v n k j hi lo :
  (k < 4294967296)%N -> (j < 4294967296)%N -> lens v n = (hi, lo) ->
  let a := add_len (fam v) hi lo k in
  let b := add_len (fam v) (fst a) (snd a) j in
  lens v (n + k + j) = (wrap32 (fst b), wrap32 (snd b)).
Proof.
  intros K J E. cbn zeta. destruct (fam v) eqn:F.
  - assert (A : add_len Fam256 hi lo k = lens v (n + k)).
    { unfold lens in *. rewrite F in *. injection E as <- <-. apply add_len_256. exact K. }
    rewrite A. destruct (lens v (n + k)) as [h l] eqn:E2. cbn [fst snd].
    rewrite <- F. apply lens_add; assumption.
  - unfold lens in *. rewrite F in *. injection E as <- <-. unfold add_len, wrap64. cbn [fst snd].
    assert (R : (n mod 4294967296 < 4294967296)%N) by (apply N.mod_lt; discriminate).
    rewrite (N.mod_small (n mod 4294967296 + k)) by lia.
    destruct (N.ltb_spec (n mod 4294967296 + k) (n mod 4294967296)); [lia|].
    rewrite (N.mod_small (n mod 4294967296 + k + j)) by lia.
    destruct (N.ltb_spec (n mod 4294967296 + k + j) (n mod 4294967296 + k)); [lia|].
    unfold wrap32. rewrite <- (N.add_assoc (n mod _)), N.add_mod_idemp_l, N.add_assoc by discriminate. reflexivity.
  - unfold lens. rewrite F. unfold lens in E. rewrite F in E. injection E as <- <-. reflexivity.
Qed.

Lemma lens_wrap v n hi lo : lens v n = (hi, lo) -> wrap32 hi = hi /\ wrap32 lo = lo.
Proof.
  unfold lens, wrap32. destruct (fam v); intros E; injection E as <- <-; rewrite ?N.mod_mod by discriminate; auto.
Qed.

(** The length the digest uses. *)
Lemma lens_total v n k hi lo :
  (k < 4294967296)%N -> lens v n = (hi, lo) ->
  total (fam v) (fst (add_len (fam v) hi lo k)) (snd (add_len (fam v) hi lo k)) =
  (match fam v with
   | Fam256 => (n + k) mod 18446744073709551616
   | Fam512 => n mod 4294967296 + k
   | Keccak => 0 end)%N.
Proof.
  intros K E. unfold lens in E. destruct (fam v) eqn:F; injection E as <- <-.
  - rewrite add_len_256 by exact K. cbn [fst snd total].
    change 18446744073709551616%N with (4294967296 * 4294967296)%N.
    rewrite N.mod_mul_r by discriminate. lia.
  - unfold add_len, wrap64. cbn [fst snd total].
    assert (R : (n mod 4294967296 < 4294967296)%N) by (apply N.mod_lt; discriminate).
    rewrite (N.mod_small (n mod 4294967296 + k)) by lia.
    destruct (N.ltb_spec (n mod 4294967296 + k) (n mod 4294967296)); lia.
  - reflexivity.
Qed.

(** * The server *)
Definition absorbed (v : variant) (d : list N) (c : cctx) : Prop :=
  length d mod bs v = 0 /\ c_st c = absorb v (iv v) d /\
  lens v (N.of_nat (length d)) = (c_hi c, c_lo c).


Definition absorbed_some (v : variant) (c : cctx) : Prop := exists d, absorbed v d c.

Lemma ship_same v st : same = true \/ fam v = Keccak -> ship same v st = st.
Proof.
  intros [->|K]; [reflexivity|]. unfold ship. destruct same; [reflexivity|].
  unfold bswap_word. rewrite K. apply map_id.
Qed.

Lemma exec_fam q : fam (exec_type sup q) = fam (q_algo q) /\ bs (exec_type sup q) = bs (q_algo q)
  /\ cw (exec_type sup q) = cw (q_algo q).
Proof.
  unfold exec_type. destruct (q_algo q); try (split; [|split]; reflexivity).
  destruct (q_type q); try destruct (sup _); (split; [|split]); reflexivity.
Qed.

Lemma state_in v t c d :
  c_st c = absorb v (iv v) d -> cw t = cw v ->
  firstn (cw v) (firstn (cw v) (c_st c)) ++ skipn (cw v) (iv t) = absorb v (iv v) d.
Proof.
  intros E T. rewrite E, firstn_firstn, Nat.min_id.
  rewrite firstn_all2 by (rewrite absorb_iv_length; apply le_n).
  rewrite skipn_all2 by (rewrite IVL, T; apply le_n). apply app_nil_r.
Qed.

Definition lo_bound (f : family) (lo : N) : Prop :=
  (match f with Fam256 => lo < 4294967296 | Fam512 => lo < 18446744073709551616 | Keccak => True end)%N.

Lemma add_len_0 f hi lo : lo_bound f lo -> add_len f hi lo 0 = (hi, lo).
Proof.
  unfold lo_bound, add_len, wrap32, wrap64. intros B.
  destruct f; rewrite ?N.add_0_r, ?N.mod_small by exact B; rewrite ?N.ltb_irrefl; reflexivity.
Qed.

Lemma add_len_bound f hi lo k : lo_bound f (snd (add_len f hi lo k)).
Proof.
  unfold lo_bound, add_len, wrap32, wrap64. destruct f; cbn [snd]; [| |exact I]; apply N.mod_lt; discriminate.
Qed.

Lemma lens_bound v n hi lo : lens v n = (hi, lo) -> lo_bound (fam v) lo.
Proof.
  unfold lens, lo_bound. destruct (fam v); intros E; injection E as <- <-; [| |exact I].
  - apply N.mod_lt. discriminate.
  - pose proof (N.mod_lt n 4294967296). lia.
Qed.

(** Update skipped when there is nothing to do, as the handler does. *)
Lemma lib_update_nil v st hi lo :
  lo_bound (fam v) lo -> lib_update comp v (mkLc st hi lo []) [] = mkLc st hi lo [].
Proof.
  intros B. unfold lib_update. cbn [l_hi l_lo l_buf l_st app length chop N.of_nat].
  rewrite add_len_0 by exact B. reflexivity.
Qed.

Lemma upd_if v st hi lo (x : list N) :
  lo_bound (fam v) lo ->
  (if length x =? 0 then mkLc st hi lo [] else lib_update comp v (mkLc st hi lo []) x)
  = lib_update comp v (mkLc st hi lo []) x.
Proof.
  intros B. destruct x; [|reflexivity]. cbn [length Nat.eqb]. symmetry. apply lib_update_nil. exact B.
Qed.

Lemma lib_update_algo v L d : lib_update comp (algo v) L d = lib_update comp v L d.
Proof. unfold lib_update. rewrite fam_algo, bs_algo. reflexivity. Qed.

Lemma type_ok_exec v q : q_algo q = algo v -> type_ok v (exec_type sup q) = true.
Proof.
  intros E. unfold type_ok, exec_type. rewrite E.
  destruct v; cbn [algo]; try reflexivity; destruct (q_type q); try destruct (sup _); reflexivity.
Qed.

Lemma mod_b v (x : list N) : length x mod bs v = 0 -> (length x mod bs (algo v) =? 0) = true.
Proof. intros M. rewrite bs_algo, M. reflexivity. Qed.

Lemma absorb_nil v st : absorb v st [] = st.
Proof. unfold absorb, blocks. cbn [length]. rewrite Nat.div_0_l by apply bs_pos. reflexivity. Qed.

(** What the server does with a well-formed update request. *)
Lemma serve_update dma v c d inl dm k :
  same = true \/ fam v = Keccak ->
  absorbed v d c ->
  length inl mod bs v = 0 -> length dm mod bs v = 0 ->
  (N.of_nat (length inl) < 4294967296)%N -> (N.of_nat (length dm) < 4294967296)%N ->
  (exists rc p, handle_hash same sup iv comp fin k (request dma v c false inl dm) = (rc, p) /\
     is_ok rc = false /\
     ((rc = NOT_COMPILED_IN /\ sup (algo v) = false) \/ (rc = k /\ sup (algo v) = true /\ dm <> [])))
  \/
  (exists p, handle_hash same sup iv comp fin k (request dma v c false inl dm) = (OK, p) /\
     sup (algo v) = true /\ type_ok v (p_type p) = true /\ length (p_st p) = cw v /\
     absorbed v (d ++ inl ++ dm) (mkCc (p_st p) (p_hi p) (p_lo p) [])).
Proof.
  intros SM (M & ST & LE) M1 M2 B1 B2.
  unfold handle_hash. set (q := request dma v c false inl dm).
  change (q_algo q) with (algo v). change (q_dma q) with dma. change (q_last q) with false.
  change (q_insz q) with (length inl). change (q_dmain q) with dm. change (q_inl q) with inl.
  change (q_st q) with (firstn (cw v) (c_st c)).
  change (q_hi q) with (wrap32 (c_hi c)). change (q_lo q) with (wrap32 (c_lo c)).
  change (q_size q) with (HDR + reqsz dma v + length inl).
  destruct (sup (algo v)) eqn:SU; cbn [negb].
  2: { left. do 2 eexists. split; [reflexivity|]. split; [reflexivity|]. left. auto. }
  rewrite reqsz_algo.
  replace (HDR + reqsz dma v + length inl - HDR) with (reqsz dma v + length inl) by lia.
  destruct (Nat.ltb_spec (reqsz dma v + length inl) (reqsz dma v)); [lia|].
  replace (reqsz dma v + length inl - reqsz dma v) with (length inl) by lia.
  rewrite Nat.ltb_irrefl.
  rewrite (mod_b v inl M1), (mod_b v dm M2). cbn [negb orb andb].
  destruct (lens_wrap v _ _ _ LE) as [W1 W2]. rewrite W1, W2.
  rewrite ship_same by (rewrite fam_algo; exact SM).
  rewrite cw_algo.
  destruct (exec_fam q) as (EF & EB & EC). change (q_algo q) with (algo v) in EF, EB, EC.
  rewrite fam_algo in EF. rewrite bs_algo in EB. rewrite cw_algo in EC.
  rewrite (state_in v (exec_type sup q) c d ST EC).
  rewrite firstn_all.
  assert (UA : forall L x, lib_update comp (algo v) L x = lib_update comp v L x) by (apply lib_update_algo).
  rewrite !UA.
  rewrite (upd_if v _ _ _ inl (lens_bound v _ _ _ LE)).
  destruct (negb (length dm =? 0) && negb (is_ok k)) eqn:DK.
  { left. exists k. eexists. split; [reflexivity|]. apply andb_true_iff in DK. destruct DK as [D1 D2].
    split; [apply negb_true_iff; exact D2|]. right. split; [reflexivity|]. split; [reflexivity|].
    intros ->. discriminate D1. }
  right.
  rewrite (lib_update_blocks v _ _ _ inl M1).
  rewrite upd_if by apply add_len_bound.
  rewrite (lib_update_blocks v _ _ _ dm M2). cbn [l_buf length Nat.eqb negb l_st l_hi l_lo].
  eexists. split; [reflexivity|]. cbn [p_type p_st p_hi p_lo].
  rewrite ship_same by (rewrite fam_algo; exact SM).
  split; [reflexivity|]. split; [apply type_ok_exec; reflexivity|].
  assert (LL : length (absorb v (absorb v (absorb v (iv v) d) inl) dm) = cw v).
  { rewrite !absorb_length. apply IVL. }
  rewrite firstn_all2 by (rewrite LL; apply le_n).
  split; [exact LL|]. unfold absorbed. cbn [c_st c_hi c_lo]. pose proof (bs_pos v).
  split; [repeat apply mod_app; auto|]. split.
  - rewrite absorb_app, absorb_app by assumption. reflexivity.
  - rewrite !app_length, !Nat2N.inj_add, N.add_assoc. apply (lens_add2 v _ _ _ _ _ B1 B2 LE).
Qed.

(** ... and with a final request. *)
Lemma serve_final dma v c d k :
  same = true \/ fam v = Keccak ->
  absorbed v d c -> length (c_buf c) < bs v ->
  (exists p, handle_hash same sup iv comp fin k (request dma v c true (c_buf c) []) = (NOT_COMPILED_IN, p) /\
     sup (algo v) = false)
  \/
  (exists p, handle_hash same sup iv comp fin k (request dma v c true (c_buf c) []) = (OK, p) /\
     sup (algo v) = true /\ type_ok v (p_type p) = true /\
     firstn (dsz v) (p_hash p) = wire_digest iv comp fin v (d ++ c_buf c)).
Proof.
  intros SM (M & ST & LE) B.
  unfold handle_hash. set (q := request dma v c true (c_buf c) []).
  change (q_algo q) with (algo v). change (q_dma q) with dma. change (q_last q) with true.
  change (q_insz q) with (length (c_buf c)). change (q_dmain q) with (@nil N). change (q_inl q) with (c_buf c).
  change (q_st q) with (firstn (cw v) (c_st c)).
  change (q_hi q) with (wrap32 (c_hi c)). change (q_lo q) with (wrap32 (c_lo c)).
  change (q_size q) with (HDR + reqsz dma v + length (c_buf c)).
  destruct (sup (algo v)) eqn:SU; cbn [negb].
  2: { left. eexists. split; reflexivity. }
  right. rewrite reqsz_algo.
  replace (HDR + reqsz dma v + length (c_buf c) - HDR) with (reqsz dma v + length (c_buf c)) by lia.
  destruct (Nat.ltb_spec (reqsz dma v + length (c_buf c)) (reqsz dma v)); [lia|].
  replace (reqsz dma v + length (c_buf c) - reqsz dma v) with (length (c_buf c)) by lia.
  rewrite Nat.ltb_irrefl. cbn [negb andb length]. rewrite bs_algo.
  destruct (Nat.leb_spec (bs v) (length (c_buf c))); [lia|]. cbn [Nat.eqb negb orb andb].
  destruct (lens_wrap v _ _ _ LE) as [W1 W2]. rewrite W1, W2.
  rewrite ship_same by (rewrite fam_algo; exact SM).
  rewrite cw_algo.
  destruct (exec_fam q) as (EF & EB & EC). change (q_algo q) with (algo v) in EF, EB, EC.
  rewrite fam_algo in EF. rewrite bs_algo in EB. rewrite cw_algo in EC.
  rewrite (state_in v (exec_type sup q) c d ST EC).
  rewrite firstn_all.
  assert (UA : forall L x, lib_update comp (algo v) L x = lib_update comp v L x) by (apply lib_update_algo).
  rewrite !UA.
  rewrite (upd_if v _ _ _ (c_buf c) (lens_bound v _ _ _ LE)).
  eexists. split; [reflexivity|]. cbn [p_type p_hash].
  split; [reflexivity|]. split; [apply type_ok_exec; reflexivity|].
  unfold lib_update. cbn [l_hi l_lo l_buf l_st app].
  assert (BN : (N.of_nat (length (c_buf c)) < 4294967296)%N) by (pose proof (bs_le v); lia).
  pose proof (lens_total v (N.of_nat (length d)) (N.of_nat (length (c_buf c))) _ _ BN LE) as TT.
  destruct (add_len _ _ _ _) as [h l]. cbn [fst snd] in TT.
  rewrite (chop_spec v) by auto. unfold lib_final. cbn [l_st l_hi l_lo l_buf].
  rewrite EF, EB, TT.
  set (X := fin _ _ _ _ _).
  assert (DX : wire_digest iv comp fin v (d ++ c_buf c) = firstn (dsz v) X).
  { unfold wire_digest, digest_with, X. fold (absorb v (iv v) (d ++ c_buf c)).
    rewrite absorb_app, last_app by (auto using bs_pos). do 3 f_equal.
    unfold wire_len, msg_len. destruct (fam v) eqn:F; try (rewrite app_length, Nat2N.inj_add; reflexivity).
    - assert (B128 : bs v = 128) by (destruct v; try discriminate F; reflexivity).
      rewrite B128 in *.
      assert (DV : length (d ++ c_buf c) / 128 * 128 = length d).
      { rewrite app_length. apply Nat.mod_divides in M; [|discriminate]. destruct M as [z ->].
        rewrite (Nat.mul_comm 128 z), Nat.div_add_l, Nat.div_small by (assumption || discriminate). lia. }
      assert (MV : length (d ++ c_buf c) mod 128 = length (c_buf c)).
      { rewrite app_length, Nat.add_mod, M by discriminate. rewrite Nat.add_0_l, Nat.mod_mod by discriminate.
        apply Nat.mod_small. exact B. }
      rewrite DV, MV. reflexivity.
    - reflexivity. }
  rewrite DX.
  assert (TS : dsz v <= dsz (exec_type sup q)).
  { unfold exec_type. change (q_algo q) with (algo v). change (q_type q) with v. clear.
    destruct v; cbn [algo]; try apply le_n; [destruct (sup SHA512_224)|destruct (sup SHA512_256)];
      cbn [dsz]; lia. }
  assert (XL : dsz v <= length (firstn (dsz (exec_type sup q)) X)).
  { rewrite firstn_length.
    assert (dsz v <= length X); [|lia]. unfold X. apply FIL. }
  rewrite firstn_app. replace (dsz v - length (firstn (dsz (exec_type sup q)) X)) with 0 by lia.
  rewrite firstn_O, app_nil_r, firstn_firstn. f_equal. lia.
Qed.

(** * The invariant *)
Definition good (v : variant) (s : hst) (m : list N) (fl : bool) : Prop :=
  exists d f, m = d ++ f ++ c_buf (hs_c s) /\ length f mod bs v = 0 /\ absorbed v d (hs_c s) /\
  match hs_p s with
  | None => f = [] /\ fl = false
  | Some q =>
      if q_last q
      then f = [] /\ fl = true /\ exists dma, q = request dma v (hs_c s) true (c_buf (hs_c s)) []
      else fl = false /\ exists dma w e, f = w ++ e /\ q = request dma v (hs_c s) false w e /\
           length w mod bs v = 0 /\ length e mod bs v = 0 /\
           (N.of_nat (length w) < 4294967296)%N /\ (N.of_nat (length e) < 4294967296)%N
  end.

(** The state after each call, for the view of the caller. *)
Definition tracks (v : variant) (w : hview) (s : hst) : Prop :=
  length (c_buf (hs_c s)) < bs v /\
  match v_msg w with None => True | Some m => good v s m (v_final w) end.

Lemma good_fresh v : good v (mkHs (fresh iv v) None) [] false.
Proof.
  exists [], []. cbn [hs_c hs_p fresh c_buf app length]. split; [reflexivity|].
  split; [apply Nat.mod_0_l; apply bs_pos|]. split; [|auto].
  split; [apply Nat.mod_0_l; apply bs_pos|]. split; [symmetry; apply absorb_nil|].
  unfold lens. cbn [fresh c_hi c_lo length]. destruct (fam v); reflexivity.
Qed.

Hypothesis DLB : (N.of_nat DL < 65536)%N.

Lemma good_upd dma v s m fl data src rc s' :
  (N.of_nat (length data) < 4294967296)%N ->
  length (c_buf (hs_c s)) < bs v -> good v s m fl -> upd_req DL dma v data src s = (rc, s') ->
  is_ok rc = true -> fl && negb (length data =? 0) = false -> good v s' (m ++ data) fl.
Proof.
  intros DB B (d & f & G1 & G2 & G3 & G4) U O FZ.
  destruct (upd_req_ok DL _ _ _ _ _ _ _ B U) as [[X _]|(_ & w & e & b & E1 & E2 & E3 & E4 & E5 & E6 & E7)];
    [congruence|].
  pose proof (bs_pos v) as BP.
  destruct E7 as [(-> & -> & P)|(P1 & P2 & P3)].
  - cbn [app] in E2. exists d, f. rewrite E1, P. cbn [hs_c hs_p with_buf c_buf].
    split; [rewrite G1, <- !app_assoc, E2; reflexivity|]. split; [exact G2|]. split; [exact G3|].
    destruct (hs_p s) as [q|] eqn:Q; [|exact G4]. destruct (q_last q) eqn:QL; [|exact G4].
    destruct G4 as (-> & -> & dma' & ->). cbn [andb] in FZ. apply negb_false_iff, Nat.eqb_eq in FZ.
    destruct data; [|discriminate FZ]. rewrite app_nil_r in E2. subst b.
    split; [reflexivity|]. split; [reflexivity|]. exists dma'. reflexivity.
  - rewrite P1 in G4. destruct G4 as [-> ->]. exists d, (w ++ e). rewrite E1, P2.
    cbn [hs_c hs_p with_buf c_buf].
    split; [rewrite G1, <- E2; cbn [app]; rewrite <- app_assoc; reflexivity|].
    split; [apply mod_app; auto|]. split; [exact G3|].
    change (q_last (request dma v (hs_c s) false w e)) with false. cbn iota.
    split; [reflexivity|]. exists dma, w, e. split; [reflexivity|]. split; [reflexivity|].
    split; [exact E3|]. split; [exact E4|]. split; lia.
Qed.

Lemma buf_step v e s rc o s' :
  length (c_buf (hs_c s)) < bs v -> hstep DL same sup iv comp fin v e s = Some (rc, o, s') ->
  length (c_buf (hs_c s')) < bs v.
Proof.
  intros B. pose proof (bs_pos v). destruct e as [|dma data src|r|dma src|r]; cbn [hstep].
  - destruct (hs_p s); [discriminate|]. intros E. injection E as <- <- <-. cbn [hs_c fresh c_buf length]. lia.
  - destruct (upd_req _ _ _ _ _ _) as [rc1 s1] eqn:U. intros E. injection E as <- <- <-.
    destruct (upd_req_ok DL _ _ _ _ _ _ _ B U) as [[_ ->]|(_ & w & d & b & E1 & _ & _ & _ & E5 & _)]; [exact B|].
    rewrite E1. exact E5.
  - destruct (hs_p s) as [q|] eqn:P; [|intros E; injection E as <- <- <-; exact B].
    destruct (q_last q); [discriminate|]. unfold upd_resp. rewrite P.
    destruct r as [|f|k]; [intros E; injection E as <- <- <-; exact B
                           |intros E; injection E as <- <- <-; exact B|].
    destruct (handle_hash _ _ _ _ _ _ _) as [rc1 p].
    destruct (negb (is_ok rc1)); [intros E; injection E as <- <- <-; exact B|].
    destruct (negb (type_ok v (p_type p))); intros E; injection E as <- <- <-; exact B.
  - destruct (fin_req _ _ _ _ _) as [rc1 s1] eqn:U. intros E. injection E as <- <- <-.
    destruct (fin_req_ok DL _ _ _ _ _ _ U) as [[_ ->]|(_ & _ & -> & _)]; exact B.
  - destruct (hs_p s) as [q|] eqn:P; [|intros E; injection E as <- <- <-; exact B].
    destruct (q_last q); [|discriminate]. unfold fin_resp. rewrite P.
    destruct r as [|f|k]; [intros E; injection E as <- <- <-; exact B
                           |intros E; injection E as <- <- <-; exact B|].
    destruct (handle_hash _ _ _ _ _ _ _) as [rc1 p].
    destruct (negb (is_ok rc1)); [intros E; injection E as <- <- <-; exact B|].
    destruct (negb (type_ok v (p_type p))); intros E; injection E as <- <- <-; [exact B|].
    cbn [hs_c fresh c_buf length]. lia.
Qed.

Lemma step_tracks v e s w rc o s' :
  same = true \/ fam v = Keccak -> call_fits e ->
  tracks v w s -> hstep DL same sup iv comp fin v e s = Some (rc, o, s') ->
  tracks v (hview_step w e rc) s' /\
  (match e, v_msg w with
   | HFinResp _, Some m => rc = OK -> o = wire_digest iv comp fin v m
   | _, _ => True
   end).
Proof.
  intros SM CF (B & T) ST. pose proof (buf_step _ _ _ _ _ _ B ST) as B'.
  assert (KEY : match v_msg (hview_step w e rc) with
                | None => True | Some m => good v s' m (v_final (hview_step w e rc)) end /\
     (match e, v_msg w with
   | HFinResp _, Some m => rc = OK -> o = wire_digest iv comp fin v m
   | _, _ => True
   end)); [|destruct KEY as [K1 K2]; split; [split; assumption|exact K2]].
  clear B'. destruct e as [|dma data src|r|dma src|r]; cbn [hstep] in ST; cbn [call_fits] in CF.
  - destruct (hs_p s); [discriminate|]. injection ST as <- <- <-. split; [|exact I].
    cbn [hview_step v_msg v_final]. apply good_fresh.
  - destruct (upd_req _ _ _ _ _ _) as [rc1 s1] eqn:U. injection ST as <- <- <-. split; [|exact I].
    cbn [hview_step]. destruct (negb (is_ok rc1)) eqn:O.
    + apply negb_true_iff in O.
      destruct (upd_req_ok DL _ _ _ _ _ _ _ B U) as [[_ ->]|(-> & _)]; [exact T|discriminate O].
    + apply negb_false_iff in O. destruct (v_final w && negb (length data =? 0)) eqn:FZ; [exact I|].
      cbn [v_msg v_final]. destruct (v_msg w) as [m|]; [|exact I].
      apply (good_upd dma v s m (v_final w) data src rc1 s1); assumption.
  - split; [|destruct (v_msg w); exact I]. cbn [hview_step].
    destruct (hs_p s) as [q|] eqn:P; [|injection ST as <- <- <-; exact T].
    destruct (q_last q) eqn:QL; [discriminate|]. unfold upd_resp in ST. rewrite P in ST.
    destruct r as [|f|k]; [injection ST as <- <- <-; exact T| |].
    + injection ST as <- <- <-. destruct CF as [C1 C2].
      destruct (is_ok f || (f =? NOTREADY)%Z) eqn:X; [|exact I]. exfalso.
      apply orb_true_iff in X. destruct X as [X|X]; apply Z.eqb_eq in X; contradiction.
    + destruct (v_msg w) as [m|] eqn:VM.
      2: { destruct (_ || _); [rewrite VM|]; exact I. }
      destruct T as (d & f & G1 & G2 & G3 & G4). rewrite P, QL in G4.
      destruct G4 as (FL & dma & iw & e & -> & -> & M1 & M2 & B1 & B2).
      destruct (serve_update dma v (hs_c s) d iw e k SM G3 M1 M2 B1 B2)
        as [(rc1 & p & HH & O & W)|(p & HH & SU & TY & PL & AB)]; rewrite HH in ST.
      * rewrite O in ST. cbn [negb] in ST. injection ST as <- <- <-. rewrite O. cbn [orb].
        destruct (Z.eqb_spec rc1 NOTREADY) as [X|X]; [|exact I].
        exfalso. destruct W as [[-> _]|[-> _]]; [discriminate X|contradiction].
      * rewrite TY in ST. cbn [negb is_ok] in ST. injection ST as <- <- <-. cbn [orb].
        change (is_ok OK) with true. cbn [orb]. rewrite VM. exists (d ++ iw ++ e), []. cbn [hs_c hs_p c_buf app length].
        split; [rewrite G1, <- !app_assoc; reflexivity|].
        split; [apply Nat.mod_0_l; apply bs_pos|].
        split; [|split; [reflexivity|exact FL]].
        assert (CL : length (c_st (hs_c s)) = cw v).
        { destruct G3 as (_ & -> & _). apply absorb_iv_length. }
        rewrite firstn_all2 by (rewrite PL; apply le_n).
        rewrite skipn_all2 by (rewrite CL; apply le_n). rewrite app_nil_r. exact AB.
  - destruct (fin_req _ _ _ _ _) as [rc1 s1] eqn:U. injection ST as <- <- <-. split; [|exact I].
    cbn [hview_step].
    destruct (fin_req_ok DL _ _ _ _ _ _ U) as [[O ->]|(-> & P & C & L & Q)].
    + rewrite O. exact T.
    + cbn [is_ok v_msg v_final]. destruct (v_msg w) as [m|]; [|exact I].
      destruct T as (d & f & G1 & G2 & G3 & G4). rewrite P in G4. destruct G4 as [-> _].
      exists d, []. rewrite C, Q. split; [exact G1|]. split; [exact G2|]. split; [exact G3|].
      change (q_last (request dma v (hs_c s) true (c_buf (hs_c s)) [])) with true. cbn iota.
      split; [reflexivity|]. split; [reflexivity|]. exists dma. reflexivity.
  - cbn [hview_step].
    destruct (hs_p s) as [q|] eqn:P.
    2: { injection ST as <- <- <-. split; [exact T|]. destruct (v_msg w); [discriminate|exact I]. }
    destruct (q_last q) eqn:QL; [|discriminate]. unfold fin_resp in ST. rewrite P in ST.
    destruct r as [|f|k].
    + injection ST as <- <- <-. split; [exact T|]. destruct (v_msg w); [discriminate|exact I].
    + destruct CF as [C1 C2]. injection ST as <- <- <-.
      destruct (is_ok f) eqn:X1; [apply Z.eqb_eq in X1; contradiction|].
      destruct (Z.eqb_spec f NOTREADY) as [X|X]; [contradiction|].
      destruct (v_msg w) as [m|] eqn:VM; cbn [v_msg v_final]; [|split; exact I].
      split; [|intros ->; discriminate X1].
      destruct T as (d & f' & G1 & G2 & G3 & G4). rewrite P, QL in G4. destruct G4 as (-> & _).
      exists d, []. cbn [hs_c hs_p]. auto.
    + destruct (v_msg w) as [m|] eqn:VM.
      2: { split; [|exact I]. destruct (handle_hash _ _ _ _ _ _ _) as [rc1 p].
           destruct (negb (is_ok rc1)) eqn:O.
           - apply negb_true_iff in O. injection ST as <- <- <-. rewrite O.
             destruct (_ =? _)%Z; cbn [v_msg]; rewrite ?VM; exact I.
           - destruct (negb (type_ok v (p_type p))); injection ST as <- <- <-.
             + change (is_ok ABORTED) with false. change (ABORTED =? NOTREADY)%Z with false.
               cbn [v_msg]. rewrite ?VM. exact I.
             + change (is_ok OK) with true. cbn [v_msg v_final]. apply good_fresh. }
      destruct T as (d & f & G1 & G2 & G3 & G4). rewrite P, QL in G4.
      destruct G4 as (-> & FL & dma & ->).
      destruct (serve_final dma v (hs_c s) d k SM G3 B) as [(p & HH & SU)|(p & HH & SU & TY & DG)];
        rewrite HH in ST.
      * change (is_ok NOT_COMPILED_IN) with false in ST. cbn [negb] in ST. injection ST as <- <- <-.
        change (is_ok NOT_COMPILED_IN) with false. change (NOT_COMPILED_IN =? NOTREADY)%Z with false.
        cbn [v_msg v_final]. rewrite ?VM. split; [|discriminate].
        exists d, []. cbn [hs_c hs_p]. auto.
      * rewrite TY in ST. change (is_ok OK) with true in ST. cbn [negb] in ST. injection ST as <- <- <-.
        change (is_ok OK) with true. cbn [v_msg v_final]. split; [apply good_fresh|].
        intros _. rewrite G1. cbn [app]. exact DG.
Qed.

Theorem run_right v es : forall s w log s',
  same = true \/ fam v = Keccak -> Forall call_fits es -> tracks v w s ->
  hrun DL same sup iv comp fin v es s = Some (log, s') ->
  digests_right (wire_digest iv comp fin v) (fun _ => True) w log /\
  length (c_buf (hs_c s')) < bs v.
Proof.
  induction es as [|e es IH]; intros s w log s' SM CF T R; cbn [hrun] in R.
  - injection R as <- <-. split; [exact I|]. apply T.
  - destruct (hstep DL same sup iv comp fin v e s) as [[[rc o] s1]|] eqn:ST; [|discriminate].
    destruct (hrun DL same sup iv comp fin v es s1) as [[l s2]|] eqn:R2; [|discriminate].
    injection R as <- <-. inversion CF as [|e' es' C1 C2]; subst.
    destruct (step_tracks v e s w rc o s1 SM C1 T ST) as [T1 D1].
    destruct (IH s1 _ l s2 SM C2 T1 R2) as [D2 B2].
    split; [|exact B2]. cbn [digests_right]. split; [|exact D2].
    destruct e; try exact I. destruct (v_msg w); [|exact I]. intros E _. apply D1. exact E.
Qed.

(** * Blocking calls *)
Notation updresp := (upd_resp same sup iv comp fin).
Notation finresp := (fin_resp same sup iv comp fin).
Notation updonce := (upd_once DL same sup iv comp fin).
Notation updloop := (upd_loop DL same sup iv comp fin).
Notation hashcall := (hash_call DL same sup iv comp fin).

Definition env_fits (env : list exchange) : Prop := Forall (fun x => reply_fits (snd x)) env.

Lemma next_fits env src r env' : env_fits env -> next env = ((src, r), env') -> reply_fits r /\ env_fits env'.
Proof.
  intros F E. destruct env as [|x env]; cbn [next] in E.
  - injection E as <- <- <-. split; [split; discriminate|exact F].
  - injection E as -> <-. inversion F; subst. split; assumption.
Qed.

Definition goodo (v : variant) (c : cctx) (w : option (list N)) : Prop :=
  match w with None => True | Some m => good v (mkHs c None) m false end.
Definition appo (w : option (list N)) (d : list N) : option (list N) :=
  match w with None => None | Some m => Some (m ++ d) end.
Lemma appo_nil w : appo w [] = w.
Proof. destruct w; cbn [appo]; [rewrite app_nil_r|]; reflexivity. Qed.
Lemma appo_app w d e : appo (appo w d) e = appo w (d ++ e).
Proof. destruct w; cbn [appo]; [rewrite app_assoc|]; reflexivity. Qed.

Lemma upd_once_ok dma v data env c w rc c1 env' :
  same = true \/ fam v = Keccak -> (N.of_nat (length data) < 4294967296)%N -> env_fits env ->
  length (c_buf c) < bs v -> goodo v c w ->
  updonce dma v data env c = (rc, c1, env') ->
  env_fits env' /\ length (c_buf c1) < bs v /\
  (is_ok rc = true -> rc = OK /\ goodo v c1 (appo w data)).
Proof.
  intros SM DB EF B G. unfold upd_once.
  destruct (next env) as [[src r] env1] eqn:NX. destruct (next_fits _ _ _ _ EF NX) as [RF EF1].
  destruct (upd_req DL dma v data src (mkHs c None)) as [rc0 s1] eqn:U.
  assert (T0 : tracks v (mkHv w false) (mkHs c None)) by (split; assumption).
  assert (S1 : hstep DL same sup iv comp fin v (HUpdReq dma data src) (mkHs c None) = Some (rc0, [], s1))
    by (cbn [hstep]; rewrite U; reflexivity).
  destruct (step_tracks v (HUpdReq dma data src) _ _ _ _ _ SM DB T0 S1) as [T1 _].
  destruct (is_ok rc0) eqn:O0; cbn [negb].
  2: { intros E. injection E as <- <- <-. split; [exact EF1|]. split; [apply T1|]. intros X. congruence. }
  cbn [hview_step] in T1. rewrite O0 in T1. cbn [negb v_final andb v_msg] in T1.
  fold (appo w data) in T1.
  destruct (hs_p s1) as [q|] eqn:P.
  2: { intros E. injection E as <- <- <-. split; [exact EF|]. split; [apply T1|]. intros _.
       split; [reflexivity|]. destruct T1 as [_ T1]. cbn [v_msg v_final] in T1.
       destruct s1 as [c1 p1]. cbn [hs_p] in P. subst p1. exact T1. }
  assert (QL : q_last q = false).
  { destruct (upd_req_ok DL dma v data src (mkHs c None) rc0 s1 B U) as [[X _]|(_ & w' & d & b & _ & _ & _ & _ & _ & _ & [(_ & _ & X)|(_ & X & _)])];
      [congruence| |].
    - cbn [hs_p] in X. congruence.
    - rewrite P in X. injection X as ->. reflexivity. }
  destruct (upd_resp same sup iv comp fin v r s1) as [rc2 s2] eqn:U2.
  assert (S2 : hstep DL same sup iv comp fin v (HUpdResp r) s1 = Some (rc2, [], s2))
    by (cbn [hstep]; rewrite P, QL, U2; reflexivity).
  destruct (step_tracks v (HUpdResp r) _ _ _ _ _ SM RF T1 S2) as [T2 _].
  intros E. injection E as <- <- <-. split; [exact EF1|]. split; [apply T2|]. intros O2.
  apply Z.eqb_eq in O2. split; [exact O2|]. subst rc2.
  destruct T2 as [_ T2]. cbn [hview_step] in T2. change (is_ok OK) with true in T2. cbn [orb v_msg v_final] in T2.
  assert (PN : hs_p s2 = None).
  { unfold upd_resp in U2. rewrite P in U2. destruct r as [|rc'|k]; [discriminate U2|injection U2 as _ <-; reflexivity|].
    destruct (handle_hash _ _ _ _ _ _ _) as [rc3 p]. destruct (negb (is_ok rc3)); [injection U2 as _ <-; reflexivity|].
    destruct (negb (type_ok v (p_type p))); inversion U2; reflexivity. }
  destruct s2 as [c2 p2]. cbn [hs_p] in PN. subst p2. exact T2.
Qed.

Lemma max_le v : bs v <= max_inline DL v -> HDR + reqsz false v + max_inline DL v <= DL.
Proof.
  intros L. pose proof (bs_pos v) as BP.
  assert (max_inline DL v <= DL - HDR - reqsz false v).
  { unfold max_inline. rewrite Nat.mul_comm. apply Nat.mul_div_le. exact BP. }
  lia.
Qed.

Lemma upd_loop_ok v n : forall data env c w rc c1 env',
  same = true \/ fam v = Keccak -> bs v <= max_inline DL v ->
  (N.of_nat (length data) < 4294967296)%N -> length data <= n -> env_fits env ->
  length (c_buf c) < bs v -> goodo v c w ->
  updloop n v data env c = (rc, c1, env') ->
  env_fits env' /\ length (c_buf c1) < bs v /\
  (is_ok rc = true -> rc = OK /\ goodo v c1 (appo w data)).
Proof.
  induction n as [|n IH]; intros data env c w rc c1 env' SM MI DB L EF B G; cbn [upd_loop].
  - intros E. injection E as <- <- <-. destruct data; [|cbn [length] in L; lia].
    rewrite appo_nil. auto.
  - destruct (Nat.eqb_spec (length data) 0) as [Z|Z].
    { intros E. injection E as <- <- <-. destruct data; [|discriminate Z]. rewrite appo_nil. auto. }
    set (k := if length data <? capacity DL v c then length data else capacity DL v c).
    assert (K : 0 < k <= length data).
    { unfold k. pose proof (bs_pos v). destruct (Nat.ltb_spec (length data) (capacity DL v c)); [lia|].
      split; [unfold capacity; lia|assumption]. }
    destruct (upd_once DL same sup iv comp fin false v (firstn k data) env c) as [[rc0 c0] env0] eqn:U.
    apply upd_once_ok with (w := w) in U; auto.
    2: { rewrite firstn_length. lia. }
    destruct U as (EF0 & B0 & G0).
    destruct (is_ok rc0) eqn:O; cbn [negb].
    2: { intros E. injection E as <- <- <-. split; [exact EF0|]. split; [exact B0|]. congruence. }
    destruct (G0 eq_refl) as [_ G1]. intros E.
    apply IH with (w := appo w (firstn k data)) in E; auto.
    + rewrite appo_app, firstn_skipn in E. exact E.
    + rewrite skipn_length. lia.
    + rewrite skipn_length. lia.
Qed.

(** A call of the blocking functions. *)
Lemma hash_call_ok dma v data out env c w rc o c1 :
  same = true \/ fam v = Keccak -> bs v <= max_inline DL v ->
  (N.of_nat (length data) < 4294967296)%N -> env_fits env ->
  length (c_buf c) < bs v -> goodo v c w ->
  hashcall dma v data out env c = (rc, o, c1) ->
  length (c_buf c1) < bs v /\
  (is_ok rc = true ->
    (out = false -> goodo v c1 (appo w data)) /\
    (out = true -> good v (mkHs c1 None) [] false /\
       (forall m, w = Some m -> o = wire_digest iv comp fin v (m ++ data)))) /\
  (is_ok rc = false -> is3 v = true \/ data = [] -> c1 = c).
Proof.
  intros SM MI DB EF B G. unfold hash_call.
  set (UP := if length data =? 0 then (OK, c, env) else _).
  destruct UP as [[rc0 c0] env0] eqn:U. unfold UP in U. clear UP.
  assert (K : env_fits env0 /\ length (c_buf c0) < bs v /\
              (is_ok rc0 = true -> goodo v c0 (appo w data)) /\
              (data = [] -> rc0 = OK /\ c0 = c)).
  { destruct (Nat.eqb_spec (length data) 0) as [Z|Z].
    - injection U as <- <- <-. destruct data; [|discriminate Z]. rewrite appo_nil. auto.
    - assert (ND : data <> []) by (intros ->; apply Z; reflexivity). destruct dma.
      + destruct (upd_once_ok true v data env c w rc0 c0 env0 SM DB EF B G U) as (K1 & K2 & K3).
        split; [exact K1|]. split; [exact K2|]. split; [|contradiction]. intros O. apply K3. exact O.
      + destruct (upd_loop_ok v _ data env c w rc0 c0 env0 SM MI DB (le_n _) EF B G U) as (K1 & K2 & K3).
        split; [exact K1|]. split; [exact K2|]. split; [|contradiction]. intros O. apply K3. exact O. }
  clear U. destruct K as (EF0 & B0 & G0 & N0).
  set (FI := if negb (is_ok rc0 && out) then (rc0, [], c0) else _).
  destruct FI as [[rc2 o2] c2] eqn:F. unfold FI in F. clear FI.
  assert (K : length (c_buf c2) < bs v /\
    (is_ok rc2 = true ->
      (out = false -> goodo v c2 (appo w data)) /\
      (out = true -> good v (mkHs c2 None) [] false /\
       (forall m, w = Some m -> o2 = wire_digest iv comp fin v (m ++ data)))) /\
    (is_ok rc2 = false -> data = [] -> c2 = c)).
  { destruct (is_ok rc0 && out) eqn:RO; cbn [negb] in F.
    2: { injection F as <- <- <-. split; [exact B0|]. split.
         - intros O. rewrite O in RO. cbn [andb] in RO. subst out. split; [auto|discriminate].
         - intros _ E. apply N0. exact E. }
    apply andb_true_iff in RO. destruct RO as [O0 ->]. specialize (G0 O0).
    destruct (next env0) as [[src r] env1] eqn:NX. destruct (next_fits _ _ _ _ EF0 NX) as [RF EF1].
    destruct (fin_req DL dma v src (mkHs c0 None)) as [rc3 s3] eqn:FR.
    destruct (fin_req_ok DL _ _ _ _ _ _ FR) as [[O3 ->]|(-> & P3 & C3 & L3 & Q3)].
    { rewrite O3 in F. cbn [negb hs_c] in F. injection F as <- <- <-.
      split; [exact B0|]. split; [congruence|]. intros _ E. apply N0. exact E. }
    change (is_ok OK) with true in F. cbn [negb] in F.
    assert (T3 : tracks v (mkHv (appo w data) true) s3).
    { assert (T0 : tracks v (mkHv (appo w data) false) (mkHs c0 None)) by (split; assumption).
      assert (S3 : hstep DL same sup iv comp fin v (HFinReq dma src) (mkHs c0 None) = Some (OK, [], s3))
        by (cbn [hstep]; rewrite FR; reflexivity).
      destruct (step_tracks v (HFinReq dma src) _ _ _ _ _ SM I T0 S3) as [T3 _]. exact T3. }
    destruct (fin_resp same sup iv comp fin v r s3) as [[rc4 o4] s4] eqn:FP.
    assert (S4 : hstep DL same sup iv comp fin v (HFinResp r) s3 = Some (rc4, o4, s4)).
    { cbn [hstep]. rewrite Q3. cbn [hs_c request q_last]. rewrite FP. reflexivity. }
    destruct (step_tracks v (HFinResp r) _ _ _ _ _ SM RF T3 S4) as [T4 D4].
    injection F as <- <- <-. split; [apply T4|]. split.
    - intros O4. split; [discriminate|]. intros _. cbn [v_msg] in D4.
      destruct T4 as [_ T4]. cbn [hview_step] in T4. rewrite O4 in T4. cbn [v_msg v_final] in T4.
      apply Z.eqb_eq in O4. subst rc4. split.
      2: { intros m ->. cbn [appo] in D4. apply D4. reflexivity. }
      assert (PN : hs_p s4 = None).
      { unfold fin_resp in FP. rewrite Q3 in FP.
        destruct r as [|rc'|k]; [discriminate FP|injection FP as _ _ <-; reflexivity|].
        destruct (handle_hash _ _ _ _ _ _ _) as [rc5 p]. destruct (negb (is_ok rc5)); [injection FP as _ _ <-; reflexivity|].
        destruct (negb (type_ok v (p_type p))); inversion FP; reflexivity. }
      destruct s4 as [c4 p4]. cbn [hs_p] in PN. subst p4. exact T4.
    - intros O4 E. destruct (N0 E) as [_ EC]. subst c0.
      unfold fin_resp in FP. rewrite Q3 in FP. cbn [hs_c] in C3.
      destruct r as [|rc'|k]; [injection FP as _ _ <-; exact C3|injection FP as _ _ <-; exact C3|].
      destruct (handle_hash _ _ _ _ _ _ _) as [rc5 p]. destruct (negb (is_ok rc5)); [injection FP as _ _ <-; exact C3|].
      destruct (negb (type_ok v (p_type p))); injection FP as <- <- <-; [exact C3|discriminate O4]. }
  clear F. destruct K as (K1 & K2 & K3).
  destruct (is3 v && negb (is_ok rc2)) eqn:RB; intros E; injection E as <- <- <-.
  - apply andb_true_iff in RB. destruct RB as [I3 O2]. apply negb_true_iff in O2.
    split; [exact B|]. split; [congruence|]. reflexivity.
  - split; [exact K1|]. split; [exact K2|]. intros O2 [I3|E]; [|apply K3; assumption].
    rewrite I3, O2 in RB. discriminate RB.
Qed.

Theorem brun_right v es : forall c w,
  same = true \/ fam v = Keccak -> bs v <= max_inline DL v -> Forall bcall_fits es ->
  length (c_buf c) < bs v -> goodo v c w ->
  bdigests_right v (wire_digest iv comp fin v) (fun _ => True) w (brun DL same sup iv comp fin v es c).
Proof.
  induction es as [|e es IH]; intros c w SM MI CF B G; cbn [brun]; [exact I|].
  inversion CF as [|e' es' C1 C2]; subst. destruct e as [|dma data out env]; cbn [bstep].
  - cbn [bdigests_right bview_step]. split; [destruct w; exact I|]. apply IH; auto.
    + cbn [fresh c_buf length]. pose proof (bs_pos v). lia.
    + apply good_fresh.
  - destruct (hash_call DL same sup iv comp fin dma v data out env c) as [[rc o] c1] eqn:HC.
    destruct C1 as [C1 C3]. cbn [bdigests_right bview_step].
    destruct (hash_call_ok _ _ _ _ _ _ _ _ _ _ SM MI C1 C3 B G HC) as (K1 & K2 & K3).
    split.
    + destruct out; [|exact I]. destruct w as [m|]; [|exact I]. intros -> SZ.
      apply (proj2 (proj2 (K2 eq_refl) eq_refl) m). reflexivity.
    + apply IH; auto. destruct (is_ok rc) eqn:O.
      * destruct out; apply (K2 eq_refl); reflexivity.
      * destruct (is3 v || (length data =? 0)) eqn:X; [|exact I].
        rewrite K3; [exact G|reflexivity|]. apply orb_true_iff in X. destruct X as [X|X]; [left; exact X|right].
        apply Nat.eqb_eq in X. destruct data; [reflexivity|discriminate X].
Qed.

(** * wolfCrypt with its software path, SHA-3 *)
Lemma soft_update v c m data :
  fam v = Keccak -> length (c_buf c) < bs v -> good v (mkHs c None) m false ->
  length (c_buf (of_lib (lib_update comp v (lib_of c) data))) < bs v /\
  good v (mkHs (of_lib (lib_update comp v (lib_of c) data)) None) (m ++ data) false.
Proof.
  intros K B (d & f & G1 & G2 & (G3 & G4 & G5) & G6). cbn [hs_p hs_c] in *. destruct G6 as [-> _].
  unfold lib_update, lib_of. cbn [l_hi l_lo l_buf l_st]. rewrite K. cbn [add_len].
  rewrite <- K, (chop_spec v) by auto. unfold of_lib. cbn [l_hi l_lo l_buf l_st c_buf].
  set (x := c_buf c ++ data). pose proof (bs_pos v) as BP.
  set (n := length x / bs v * bs v).
  assert (NL : n <= length x) by (unfold n; rewrite Nat.mul_comm; apply Nat.mul_div_le; exact BP).
  assert (LT : length (last_part (bs v) x) < bs v).
  { unfold last_part. fold n. rewrite skipn_length. unfold n.
    pose proof (Nat.mod_upper_bound (length x) (bs v) BP) as U.
    rewrite Nat.mod_eq in U by exact BP. rewrite (Nat.mul_comm _ (bs v)). exact U. }
  assert (MX : length (firstn n x) mod bs v = 0).
  { rewrite firstn_length, Nat.min_l by exact NL. unfold n. apply Nat.mod_mul. exact BP. }
  split; [exact LT|]. exists (d ++ firstn n x), []. cbn [hs_c hs_p c_buf app length].
  split.
  { rewrite G1. cbn [app]. rewrite <- !app_assoc. f_equal. change (skipn n x) with (last_part (bs v) x).
    unfold last_part. fold n. rewrite firstn_skipn. reflexivity. }
  split; [apply Nat.mod_0_l; exact BP|]. split; [|auto].
  split; [apply mod_app; auto|]. cbn [c_st c_hi c_lo]. split.
  - rewrite absorb_app by exact G3. rewrite <- G4. unfold absorb. f_equal.
    rewrite <- (firstn_skipn n x) at 1. rewrite blocks_app by auto.
    destruct (blocks_short (bs v) (skipn n x)) as [-> _]; [exact LT|]. apply app_nil_r.
  - unfold lens in *. rewrite K in *. exact G5.
Qed.

Lemma soft_final v c m :
  fam v = Keccak -> length (c_buf c) < bs v -> good v (mkHs c None) m false ->
  lib_final fin v (lib_of c) = wire_digest iv comp fin v m.
Proof.
  intros K B (d & f & G1 & G2 & (G3 & G4 & G5) & G6). cbn [hs_p hs_c] in *. destruct G6 as [-> _].
  cbn [app] in G1. subst m.
  unfold lib_final, lib_of, wire_digest, digest_with. cbn [l_hi l_lo l_buf l_st].
  fold (absorb v (iv v) (d ++ c_buf c)).
  rewrite absorb_app, last_app by (auto using bs_pos). rewrite <- G4.
  destruct (blocks_short (bs v) (c_buf c) B) as [E1 E2]. unfold absorb. rewrite E1, E2, K. reflexivity.
Qed.

Theorem wrun_right v es : forall c m,
  fam v = Keccak -> bs v <= max_inline DL v -> Forall wcall_fits es ->
  length (c_buf c) < bs v -> good v (mkHs c None) m false ->
  wdigests_right (wire_digest iv comp fin v) m (wrun DL same sup iv comp fin v es c).
Proof.
  induction es as [|e es IH]; intros c m K MI CF B G; cbn [wrun]; [exact I|].
  inversion CF as [|e' es' C1 C2]; subst.
  assert (I3 : is3 v = true) by (unfold is3; rewrite K; reflexivity).
  destruct e as [|dma data env|dma env]; cbn [wstep].
  - cbn [wdigests_right wview_step]. split; [exact I|]. apply IH; auto.
    + cbn [fresh c_buf length]. pose proof (bs_pos v). lia.
    + apply good_fresh.
  - unfold cb_update. destruct C1 as [C1 C3].
    destruct (hash_call DL same sup iv comp fin dma v data false env c) as [[rc o] c1] eqn:HC.
    destruct (hash_call_ok _ _ _ _ _ _ (Some m) _ _ _ (or_intror K) MI C1 C3 B G HC) as (K1 & K2 & K3).
    destruct (Z.eqb_spec rc NOT_COMPILED_IN) as [NC|NC].
    + subst rc. rewrite (K3 eq_refl (or_introl I3)).
      destruct (soft_update v c m data K B G) as [S1 S2].
      cbn [wdigests_right wview_step]. change (is_ok OK) with true. cbn iota. split; [exact I|].
      apply IH; auto.
    + cbn [wdigests_right wview_step]. split; [exact I|]. destruct (is_ok rc) eqn:O.
      * apply IH; auto. apply (proj1 (K2 eq_refl)). reflexivity.
      * rewrite (K3 eq_refl (or_introl I3)). apply IH; auto.
  - unfold cb_final. cbn [wcall_fits] in C1.
    destruct (hash_call DL same sup iv comp fin dma v [] true env c) as [[rc o] c1] eqn:HC.
    assert (Z0 : (N.of_nat (@length N []) < 4294967296)%N) by reflexivity.
    destruct (hash_call_ok _ _ _ _ _ _ (Some m) _ _ _ (or_intror K) MI Z0 C1 B G HC) as (K1 & K2 & K3).
    destruct (Z.eqb_spec rc NOT_COMPILED_IN) as [NC|NC].
    + subst rc. rewrite (K3 eq_refl (or_introl I3)).
      cbn [wdigests_right wview_step]. change (is_ok OK) with true. cbn iota.
      split; [intros _; apply (soft_final v c m K B G)|]. apply IH; auto.
      * cbn [fresh c_buf length]. pose proof (bs_pos v). lia.
      * apply good_fresh.
    + cbn [wdigests_right wview_step]. split.
      * intros ->. destruct (proj2 (K2 eq_refl) eq_refl) as [_ D].
        specialize (D m eq_refl). rewrite app_nil_r in D. exact D.
      * destruct (is_ok rc) eqn:O.
        -- apply IH; auto. apply (proj2 (K2 eq_refl) eq_refl).
        -- rewrite (K3 eq_refl (or_introl I3)). apply IH; auto.
Qed.

(** * A working server answers *)
Definition fits_dl (dma : bool) (v : variant) : Prop :=
  bs v <= max_inline DL v /\ (dma = true -> HDR + reqsz true v + bs v <= DL).

Lemma upd_once_live dma v data env c w rest :
  same = true \/ fam v = Keccak -> sup (algo v) = true -> fits_dl dma v ->
  (N.of_nat (length data) < 4294967296)%N -> env = (OK, Served OK) :: rest ->
  (dma = false -> length data <= capacity DL v c) ->
  length (c_buf c) < bs v -> good v (mkHs c None) w false ->
  exists c1 env', updonce dma v data env c = (OK, c1, env') /\ (env' = env \/ env' = rest).
Proof.
  intros SM SU [MI DM] DB -> CA B G. unfold upd_once. cbn [next].
  rewrite upd_req_split. cbn [hs_c hs_p pending]. cbn zeta. rewrite andb_false_r.
  destruct (Nat.leb_spec (bs v) (length (c_buf c))); [lia|].
  assert (X : negb dma && (capacity DL v c <? length data) = false).
  { destruct dma; [reflexivity|]. cbn [negb andb]. apply Nat.ltb_ge. apply CA. reflexivity. }
  rewrite X. destruct (length data =? 0).
  { cbn. eexists. eexists. split; [reflexivity|left; reflexivity]. }
  destruct (split_update DL dma v (c_buf c) data) as [[iw d] b] eqn:SP.
  pose proof SP as SP0. apply split_spec in SP; [|exact B|exact CA].
  destruct SP as (S1 & S2 & S3 & S4 & S5 & S6 & S7 & S8).
  destruct ((length iw =? 0) && (length d =? 0)).
  { cbn. eexists. eexists. split; [reflexivity|left; reflexivity]. }
  assert (SN : send DL false (HDR + reqsz dma v + length iw) OK = OK).
  { unfold send. destruct (Nat.ltb_spec DL (HDR + reqsz dma v + length iw)) as [Y|Y]; [|reflexivity].
    exfalso. pose proof (max_le v MI). destruct dma.
    - specialize (S8 eq_refl). specialize (DM eq_refl). lia.
    - lia. }
  rewrite SN. change (is_ok OK) with true. cbn [negb hs_p]. cbn iota.
  unfold upd_resp. cbn [hs_p hs_c].
  destruct G as (dd & f & G1 & G2 & G3 & G4). cbn [hs_c hs_p] in *.
  assert (WB : (N.of_nat (length iw) < 4294967296)%N).
  { pose proof (max_le v MI). pose proof (bs_le v). lia. }
  destruct (serve_update dma v c dd iw d OK SM G3 S2 S3 WB ltac:(lia))
    as [(rc1 & p & HH & O & [[_ W]|[W _]])|(p & HH & _ & TY & _)].
  - congruence.
  - subst rc1. discriminate O.
  - rewrite HH. change (is_ok OK) with true. cbn [negb]. rewrite TY. cbn [negb hs_c].
    eexists. eexists. split; [reflexivity|right; reflexivity].
Qed.

Lemma wire_digest_small v m : size_ok v m -> wire_digest iv comp fin v m = digest iv comp fin v m.
Proof.
  clear DLB. intros S. unfold wire_digest, digest, digest_with. do 3 f_equal.
  unfold wire_len, msg_len, size_ok in *. destruct (fam v); try reflexivity.
  set (n := length m) in *.
  pose proof (Nat.div_mod n 128 ltac:(discriminate)) as E.
  rewrite N.mod_small by lia. rewrite <- Nat2N.inj_add.
  rewrite N.mod_small by lia. f_equal. lia.
Qed.

Definition ready : exchange := (OK, Served OK).

Lemma upd_loop_live v n : forall data k c w,
  same = true \/ fam v = Keccak -> sup (algo v) = true -> fits_dl false v ->
  (N.of_nat (length data) < 4294967296)%N -> length data <= n -> length data <= k ->
  length (c_buf c) < bs v -> good v (mkHs c None) w false ->
  exists c1 j, updloop n v data (repeat ready k) c = (OK, c1, repeat ready j) /\ k - length data <= j.
Proof.
  induction n as [|n IH]; intros data k c w SM SU FD DB L LK B G; cbn [upd_loop].
  - exists c, k. split; [reflexivity|lia].
  - destruct (Nat.eqb_spec (length data) 0) as [Z|Z].
    { exists c, k. split; [reflexivity|lia]. }
    set (z := if length data <? capacity DL v c then length data else capacity DL v c).
    assert (K : 0 < z <= length data /\ z <= capacity DL v c).
    { unfold z. pose proof (bs_pos v). pose proof (proj1 FD).
      destruct (Nat.ltb_spec (length data) (capacity DL v c)); [lia|].
      split; [split; [unfold capacity; lia|assumption]|lia]. }
    destruct k as [|k]; [lia|].
    assert (ZL : length (firstn z data) = z) by (rewrite firstn_length; lia).
    destruct (upd_once_live false v (firstn z data) (repeat ready (S k)) c w (repeat ready k)) as (c1 & env' & U & EV);
      auto; try lia.
    rewrite U. change (is_ok OK) with true. cbn [negb].
    assert (GO : goodo v c (Some w)) by exact G.
    assert (EF : env_fits (repeat ready (S k))).
    { apply Forall_forall. intros x X. apply repeat_spec in X. subst x. cbn. discriminate. }
    destruct (upd_once_ok false v (firstn z data) (repeat ready (S k)) c (Some w) OK c1 env' SM ltac:(lia) EF B GO U)
      as (_ & B1 & G1). destruct (G1 eq_refl) as [_ G2]. cbn [appo goodo] in G2.
    assert (SK : length (skipn z data) = length data - z) by apply skipn_length.
    destruct EV as [-> | ->].
    + destruct (IH (skipn z data) (S k) c1 _ SM SU FD ltac:(lia) ltac:(lia) ltac:(lia) B1 G2) as (c2 & j & R & J).
      exists c2, j. split; [exact R|lia].
    + destruct (IH (skipn z data) k c1 _ SM SU FD ltac:(lia) ltac:(lia) ltac:(lia) B1 G2) as (c2 & j & R & J).
      exists c2, j. split; [exact R|lia].
Qed.

Lemma hash_call_live dma v data out k c w :
  same = true \/ fam v = Keccak -> sup (algo v) = true -> fits_dl dma v ->
  (N.of_nat (length data) < 4294967296)%N -> length data < k ->
  length (c_buf c) < bs v -> good v (mkHs c None) w false ->
  exists o c1, hashcall dma v data out (repeat ready k) c = (OK, o, c1).
Proof.
  intros SM SU FD DB LK B G. unfold hash_call.
  set (UP := if length data =? 0 then (OK, c, repeat ready k) else _).
  assert (UK : exists c1 j, UP = (OK, c1, repeat ready j) /\ 0 < j /\ length (c_buf c1) < bs v /\ absorbed_some v c1).
  { unfold UP. destruct (Nat.eqb_spec (length data) 0) as [Z|Z].
    - exists c, k. split; [reflexivity|]. split; [lia|]. split; [exact B|].
      destruct G as (d & f & _ & _ & G3 & _). exists d. exact G3.
    - assert (GO : goodo v c (Some w)) by exact G.
      assert (EF : env_fits (repeat ready k)).
      { apply Forall_forall. intros x X. apply repeat_spec in X. subst x. cbn. discriminate. }
      destruct dma.
      + destruct k as [|k]; [lia|].
        destruct (upd_once_live true v data (repeat ready (S k)) c w (repeat ready k)) as (c1 & env' & U & EV); auto.
        { discriminate. }
        rewrite U.
        destruct (upd_once_ok true v data _ c (Some w) OK c1 env' SM DB EF B GO U) as (_ & B1 & G1).
        destruct (G1 eq_refl) as [_ (d & f & _ & _ & G3 & _)].
        assert (exists j, env' = repeat ready j /\ 0 < j) as (j & -> & J).
        { destruct EV as [-> | ->]; [exists (S k)|exists k]; split; auto; lia. }
        exists c1, j. split; [reflexivity|]. split; [exact J|]. split; [exact B1|]. exists d. exact G3.
      + destruct (upd_loop_live v (length data) data k c w SM SU FD DB (le_n _) ltac:(lia) B G) as (c1 & j & U & J).
        rewrite U.
        destruct (upd_loop_ok v _ data _ c (Some w) OK c1 _ SM (proj1 FD) DB (le_n _) EF B GO U) as (_ & B1 & G1).
        destruct (G1 eq_refl) as [_ (d & f & _ & _ & G3 & _)].
        exists c1, j. split; [reflexivity|]. split; [lia|]. split; [exact B1|]. exists d. exact G3. }
  destruct UK as (c1 & j & -> & J & B1 & d & AB).
  change (is_ok OK) with true. cbn [andb].
  destruct out; cbn [negb].
  2: { exists [], c1. change (is_ok OK) with true. cbn [negb]. rewrite andb_false_r. reflexivity. }
  destruct j as [|j]; [lia|]. cbn [repeat next ready]. unfold fin_req. cbn [hs_c pending hs_p]. cbn zeta.
  rewrite andb_false_r. destruct (Nat.leb_spec (bs v) (length (c_buf c1))); [lia|].
  assert (SN : send DL false (HDR + reqsz dma v + length (c_buf c1)) OK = OK).
  { unfold send. destruct (Nat.ltb_spec DL (HDR + reqsz dma v + length (c_buf c1))) as [Y|Y]; [|reflexivity].
    exfalso. destruct FD as [MI DM]. pose proof (max_le v MI). destruct dma; [specialize (DM eq_refl)|]; lia. }
  change (q_size (request dma v c1 true (c_buf c1) [])) with (HDR + reqsz dma v + length (c_buf c1)).
  rewrite SN. change (is_ok OK) with true. cbn [negb]. unfold fin_resp. cbn [hs_p hs_c].
  destruct (serve_final dma v c1 d OK SM AB B1) as [(p & _ & X)|(p & HH & _ & TY & _)]; [congruence|].
  rewrite HH. change (is_ok OK) with true. cbn [negb]. rewrite TY. cbn [negb hs_c].
  change (is_ok OK) with true. cbn [negb]. rewrite andb_false_r. eexists. eexists. reflexivity.
Qed.

Lemma run_tracks v es : forall s w log s',
  same = true \/ fam v = Keccak -> Forall call_fits es -> tracks v w s ->
  (forall q, hs_p s = Some q -> q_size q <= DL) ->
  hrun DL same sup iv comp fin v es s = Some (log, s') ->
  tracks v (view_after w log) s' /\ (forall q, hs_p s' = Some q -> q_size q <= DL).
Proof.
  induction es as [|e es IH]; intros s w log s' SM CF T Q R; cbn [hrun] in R.
  - injection R as <- <-. split; assumption.
  - destruct (hstep DL same sup iv comp fin v e s) as [[[rc o] s1]|] eqn:ST; [|discriminate].
    destruct (hrun DL same sup iv comp fin v es s1) as [[l s2]|] eqn:R2; [|discriminate].
    injection R as <- <-. inversion CF as [|e' es' C1 C2]; subst.
    destruct (step_tracks v e s w rc o s1 SM C1 T ST) as [T1 D1].
    apply (IH s1 (hview_step w e rc) l s2 SM C2 T1); [|exact R2].
    clear R2 IH D1 T1. destruct T as [B _].
    destruct e as [|dma data src|r|dma src|r]; cbn [hstep] in ST.
    + destruct (hs_p s); [discriminate|]. injection ST as <- <- <-. discriminate.
    + destruct (upd_req _ _ _ _ _ _) as [rc1 s3] eqn:U. injection ST as <- <- <-.
      destruct (upd_req_ok DL _ _ _ _ _ _ _ B U) as [[_ ->]|(_ & w' & d & b & _ & _ & _ & _ & _ & _ & [(_ & _ & ->)|(_ & -> & X)])];
        [exact Q|exact Q|]. intros q E. injection E as <-. exact X.
    + destruct (hs_p s) as [q|] eqn:P; [|injection ST as <- <- <-; rewrite P; exact Q].
      destruct (q_last q); [discriminate|]. unfold upd_resp in ST. rewrite P in ST.
      destruct r as [|f|k]; [injection ST as <- <- <-; rewrite P; exact Q|injection ST as <- <- <-; discriminate|].
      destruct (handle_hash _ _ _ _ _ _ _) as [rc1 p].
      destruct (negb (is_ok rc1)); [injection ST as <- <- <-; discriminate|].
      destruct (negb (type_ok v (p_type p))); injection ST as <- <- <-; discriminate.
    + unfold fin_req in ST. cbn zeta in ST.
      destruct (dma && pending s); [injection ST as <- <- <-; exact Q|].
      destruct (bs v <=? _); [injection ST as <- <- <-; exact Q|].
      destruct (is_ok (send DL _ _ src)) eqn:SO; injection ST as <- <- <-; [|exact Q].
      intros q E. injection E as <-. apply (send_ok DL _ _ _ SO).
    + destruct (hs_p s) as [q|] eqn:P; [|injection ST as <- <- <-; rewrite P; exact Q].
      destruct (q_last q); [|discriminate]. unfold fin_resp in ST. rewrite P in ST.
      destruct r as [|f|k]; [injection ST as <- <- <-; rewrite P; exact Q|injection ST as <- <- <-; discriminate|].
      destruct (handle_hash _ _ _ _ _ _ _) as [rc1 p].
      destruct (negb (is_ok rc1)); [injection ST as <- <- <-; discriminate|].
      destruct (negb (type_ok v (p_type p))); injection ST as <- <- <-; discriminate.
Qed.

Lemma fresh_tracks v : tracks v (mkHv (Some []) false) (mkHs (fresh iv v) None).
Proof.
  clear DLB. split; [cbn [hs_c fresh c_buf length]; pose proof (bs_pos v); lia|]. apply good_fresh.
Qed.

End HashP.
