(** Proofs about the random calls (RndModel.v). *)
From Verif Require Import Base BaseLemmas NvmSpec Flags Store EndianModel KdfModel KsReq EndianProof AuthCodec NvcModel NvcSpec NvcProof RndModel RndSpec.
From Coq Require Import Sorted.

Lemma rd_tail (a b : list N) n k : length a = n -> length b = k -> rd n k (a ++ b) = b.
Proof. intros <- <-. unfold rd. rewrite skip_exact by reflexivity. apply firstn_all. Qed.
Lemma draw_length g p n : length (draw g p n) = n.
Proof. unfold draw. rewrite map_length, seq_length. reflexivity. Qed.

Lemma give_app sb cb a b : give sb cb (a ++ b) = give sb cb a ++ give sb cb b.
Proof. unfold give, wire. rewrite map_app. apply flat_map_app. Qed.

(** ** Sets of positions *)
Lemma seq_sorted p n : StronglySorted lt (seq p n).
Proof. revert p. induction n as [|n IH]; intros p; cbn [seq]; constructor; auto. apply Forall_forall. intros x H. apply in_seq in H. lia. Qed.
Lemma drawn_nil p q : p <= q -> drawn [] p q.
Proof. intros H. repeat split; auto; constructor. Qed.
Lemma drawn_seq p n q : p + n <= q -> drawn (seq p n) p q.
Proof. intros H. split; [apply seq_sorted|]. split; [|lia]. apply Forall_forall. intros x I. apply in_seq in I. lia. Qed.
Lemma sorted_app (a b : list nat) p : StronglySorted lt a -> StronglySorted lt b -> Forall (fun i => i < p) a -> Forall (fun i => p <= i) b -> StronglySorted lt (a ++ b).
Proof.
  induction a as [|x a IH]; intros A B C D; cbn [app]; auto. inversion A; subst. inversion C; subst. constructor; auto.
  apply Forall_app. split; auto. eapply Forall_impl; [|exact D]. cbn. intros. lia.
Qed.
Lemma drawn_app a b p q r : drawn a p q -> drawn b q r -> drawn (a ++ b) p r.
Proof.
  intros (A & B & C) (D & E & F). split; [|split; [|lia]].
  - apply (sorted_app a b q); auto; [eapply Forall_impl; [|exact B]|eapply Forall_impl; [|exact E]]; cbn; intros; lia.
  - apply Forall_app. split; [eapply Forall_impl; [|exact B]|eapply Forall_impl; [|exact E]]; cbn; intros; lia.
Qed.

(** ** One exchange *)
Section Turn.
Variable g : nat -> N.
Variables CD SD : nat.
Variables sb cb : bool.
Hypothesis HC : (N.of_nat CD < 65536)%N.
Lemma turn_is aff chunk e pos : 0 < chunk <= CAP CD -> (aff < 4294967296)%N -> rl_ok e ->
  rng_turn g CD SD sb cb aff chunk e pos =
  if negb (is_ok (r_send e)) then ((r_send e, []), pos) else
  if negb (is_ok (r_rng e)) then ((if is_ok (r_recv e) then r_rng e else r_recv e, []), pos + r_skip e) else
  let a := Nat.min chunk (SD - 16) in
  if negb (is_ok (r_recv e)) then ((r_recv e, []), pos + a) else
  ((if a =? 0 then ABORTED else OK, draw g pos a), pos + a).
Proof.
  intros HK HA HE. unfold CAP in HK. unfold rng_turn, rng_request, CAP.
  destruct (Nat.eqb_spec chunk 0); [lia|]. destruct (Nat.ltb_spec (CD - 16) chunk); [lia|]. cbn [orb].
  destruct (is_ok (r_send e)) eqn:SE; cbn [negb]; [|reflexivity].
  set (fs := [(4, ALGO_RNG); (4, 0%N); (4, aff); (4, N.of_nat chunk)]).
  assert (LN : length (wire cb fs) = 16) by (rewrite wire_length; reflexivity). rewrite LN.
  assert (TK : forall rest, take sb cb W_RNG (wire cb fs ++ rest) = [ALGO_RNG; 0%N; aff; N.of_nat chunk]).
  { intros rest. change W_RNG with (map (@fst nat N) fs). rewrite take_wire; [reflexivity|]. unfold fs. fits. }
  unfold serve_rng, handle_rng. change (16 - 12 <? 4) with false. cbv iota. rewrite TK. unfold fld. cbn [nth].
  assert (AC : (if (N.of_nat chunk <? N.of_nat (SD - 16))%N then N.to_nat (N.of_nat chunk) else SD - 16) = Nat.min chunk (SD - 16)).
  { rewrite Nat2N.id. destruct (N.ltb_spec (N.of_nat chunk) (N.of_nat (SD - 16))); lia. }
  cbv zeta. rewrite AC. set (a := Nat.min chunk (SD - 16)).
  destruct (is_ok (r_rng e)) eqn:RE; cbn [negb].
  2:{ rewrite RE. rewrite app_nil_r. destruct (is_ok (r_recv e)); cbn [negb]; [|reflexivity].
      unfold rng_response.
      assert (U : forall i, i < 3 -> fld i (unwire cb R_RNG (give sb cb [(4, ALGO_RNG); (4, rc_n (r_rng e)); (4, 0%N)])) = fld i [ALGO_RNG; rc_n (r_rng e); 0%N]).
      { intros i Hi. pose proof (unwire_give sb cb [(4, ALGO_RNG); (4, rc_n (r_rng e)); (4, 0%N)] [] ltac:(fits)) as U. rewrite app_nil_r in U. cbn [map fst snd] in U.
        assert (X : forall b, exists w, unwire cb R_RNG b = unwire cb [4; 4; 4] b ++ [w]) by (intros b; eexists; reflexivity).
        destruct (X (give sb cb [(4, ALGO_RNG); (4, rc_n (r_rng e)); (4, 0%N)])) as [w ->]. rewrite U. destruct i as [|[|[|]]]; [reflexivity..|lia]. }
      cbv zeta. rewrite !U by lia. unfold fld. cbn [nth]. change (N.eqb ALGO_RNG ALGO_RNG) with true. cbn [negb]. rewrite rc_round by exact HE. rewrite RE. cbn [negb]. rewrite RE. reflexivity. }
  change (is_ok OK) with true. cbv iota. destruct (is_ok (r_recv e)) eqn:CE; cbn [negb]; [|reflexivity].
  unfold rng_response.
  assert (GA : give sb cb [(4, ALGO_RNG); (4, rc_n OK); (4, 0%N)] ++ give sb cb [(4, N.of_nat a)] ++ draw g pos a =
               give sb cb [(4, ALGO_RNG); (4, rc_n OK); (4, 0%N); (4, N.of_nat a)] ++ draw g pos a).
  { rewrite app_assoc, <- give_app. reflexivity. }
  rewrite GA. assert (AB : a <= CD - 16) by (unfold a; lia).
  assert (U : unwire cb R_RNG (give sb cb [(4, ALGO_RNG); (4, rc_n OK); (4, 0%N); (4, N.of_nat a)] ++ draw g pos a) = [ALGO_RNG; rc_n OK; 0%N; N.of_nat a]).
  { change R_RNG with (map (@fst nat N) [(4, ALGO_RNG); (4, rc_n OK); (4, 0%N); (4, N.of_nat a)]). rewrite unwire_give; [reflexivity|]. fits. }
  rewrite U. unfold fld. cbn [nth]. change (N.eqb ALGO_RNG ALGO_RNG) with true. cbn [negb]. rewrite rc_round by apply i32_const.
  change (is_ok OK) with true. cbn [negb]. cbv zeta. rewrite Nat2N.id. rewrite app_length, give_length, draw_length.
  change (sum (map fst [(4, ALGO_RNG); (4, rc_n OK); (4, 0%N); (4, N.of_nat a)])) with 16.
  destruct (Nat.ltb_spec (16 + a) 16); [lia|]. destruct (Nat.ltb_spec (16 + a - 16) a); [lia|]. unfold CAP.
  destruct (Nat.ltb_spec (CD - 16) a); [lia|]. destruct (Nat.ltb_spec chunk a); [unfold a in *; lia|]. cbn [orb].
  rewrite rd_tail by (rewrite ?give_length, ?draw_length; reflexivity). change (is_ok OK) with true. cbv iota. rewrite draw_length. reflexivity.
Qed.

(** ** The loop *)
Lemma turn_draws aff chunk e pos rc bs q : 0 < chunk <= CAP CD -> (aff < 4294967296)%N -> rl_ok e ->
  rng_turn g CD SD sb cb aff chunk e pos = ((rc, bs), q) ->
  exists idx, bs = map g idx /\ drawn idx pos q /\ length idx <= chunk /\ (rc = OK <-> 0 < length idx).
Proof.
  intros HK HA HE. rewrite turn_is by auto.
  assert (NO : forall z, is_ok z = false -> z <> OK) by (intros z H X; subst; discriminate).
  destruct (is_ok (r_send e)) eqn:SE; cbn [negb].
  2:{ intros E. injection E as <- <- <-. exists []. split; [reflexivity|]. split; [apply drawn_nil; lia|]. cbn. apply NO in SE. split; [lia|]. split; [contradiction|lia]. }
  destruct (is_ok (r_rng e)) eqn:RE; cbn [negb].
  2:{ intros E. injection E as <- <- <-. exists []. split; [reflexivity|]. split; [apply drawn_nil; lia|]. cbn. split; [lia|].
      split; [|lia]. destruct (is_ok (r_recv e)) eqn:CE; intros X; exfalso; [apply (NO _ RE X)|apply (NO _ CE X)]. }
  cbv zeta. destruct (is_ok (r_recv e)) eqn:CE; cbn [negb].
  2:{ intros E. injection E as <- <- <-. exists []. split; [reflexivity|]. split; [apply drawn_nil; lia|]. cbn. apply NO in CE. split; [lia|]. split; [contradiction|lia]. }
  intros E. injection E as <- <- <-. exists (seq pos (Nat.min chunk (SD - 16))). split; [reflexivity|]. split; [apply drawn_seq; lia|]. rewrite seq_length.
  split; [lia|]. destruct (Nat.eqb_spec (Nat.min chunk (SD - 16)) 0) as [Z|Z]; (split; [|]); intros X; auto; try lia; try discriminate X.
Qed.
Lemma put_more at_ (a b : list nat) out : at_ + length a <= length out ->
  put g at_ (a ++ b) out = put g (at_ + length a) b (put g at_ a out).
Proof.
  intros H. unfold put. rewrite map_app, app_length.
  assert (L1 : length (firstn at_ out ++ map g a) = at_ + length a) by (rewrite app_length, firstn_length, map_length; lia).
  rewrite (app_assoc (firstn at_ out) (map g a)). rewrite first_exact by exact L1.
  rewrite (skipn_app (at_ + length a + length b)). rewrite (skipn_all2 (firstn at_ out ++ map g a)) by (rewrite L1; lia). cbn [app]. rewrite L1.
  replace (at_ + length a + length b - (at_ + length a)) with (length b) by lia. rewrite skip_skip. rewrite <- !app_assoc. cbn [app]. do 4 f_equal. lia.
Qed.
Lemma put_length at_ idx out : at_ + length idx <= length out -> length (put g at_ idx out) = length out.
Proof. intros H. unfold put. rewrite !app_length, firstn_length, map_length, skipn_length. lia. Qed.

Lemma loop_draws aff E : (aff < 4294967296)%N -> (forall k, rl_ok (E k)) -> 0 < CAP CD -> forall fuel at_ left_ k pos out rc out' q,
  left_ <= fuel -> at_ + left_ <= length out ->
  rng_loop g CD SD sb cb fuel aff at_ left_ E k pos out = ((rc, out'), q) ->
  exists idx, out' = put g at_ idx out /\ drawn idx pos q /\ length idx <= left_ /\ (rc = OK <-> length idx = left_).
Proof.
  intros HA HE HP. induction fuel as [|fuel IH]; intros at_ left_ k pos out rc out' q HF HL; cbn [rng_loop].
  { assert (left_ = 0) by lia. subst. intros X. injection X as <- <- <-. exists []. unfold put. cbn [map length app]. rewrite Nat.add_0_r, firstn_skipn.
    split; [reflexivity|]. split; [apply drawn_nil; lia|]. split; [lia|]. split; auto. }
  destruct (Nat.eqb_spec left_ 0) as [->|NZ].
  { intros X. injection X as <- <- <-. exists []. unfold put. cbn [map length app]. rewrite Nat.add_0_r, firstn_skipn.
    split; [reflexivity|]. split; [apply drawn_nil; lia|]. split; [lia|]. split; auto. }
  set (chunk := if left_ <? CAP CD then left_ else CAP CD). assert (HK : 0 < chunk <= CAP CD /\ chunk <= left_) by (unfold chunk; destruct (Nat.ltb_spec left_ (CAP CD)); lia).
  destruct (rng_turn g CD SD sb cb aff chunk (E k) pos) as [[rc1 bs] q1] eqn:T.
  destruct (turn_draws aff chunk (E k) pos rc1 bs q1 (proj1 HK) HA (HE k) T) as (idx & -> & D & LE & OKI).
  rewrite map_length. fold (put g at_ idx out). destruct (is_ok rc1) eqn:R1.
  - apply is_ok_iff in R1. apply OKI in R1. intros X. apply IH in X; [|lia|rewrite put_length; lia].
    destruct X as (idx2 & -> & D2 & LE2 & OK2). exists (idx ++ idx2). split; [symmetry; apply put_more; lia|]. split; [eapply drawn_app; eauto|].
    rewrite app_length. split; [lia|]. rewrite OK2. lia.
  - assert (rc1 <> OK) by (intros X; subst; discriminate). intros X. injection X as <- <- <-. exists idx. split; [reflexivity|]. split; [exact D|]. split; [lia|].
    assert (length idx = 0) by (destruct (length idx); [reflexivity|exfalso; apply H, OKI; lia]). split; [contradiction|lia].
Qed.
(** All goes well: the next bytes, all of them. *)
Lemma loop_full aff E : (aff < 4294967296)%N -> (forall k, smooth (E k)) -> 0 < CAP CD -> 16 < SD -> forall fuel at_ left_ k pos out,
  left_ <= fuel -> at_ + left_ <= length out ->
  rng_loop g CD SD sb cb fuel aff at_ left_ E k pos out = ((OK, put g at_ (seq pos left_) out), pos + left_).
Proof.
  intros HA HE HP HSD. induction fuel as [|fuel IH]; intros at_ left_ k pos out HF HL; cbn [rng_loop].
  { assert (left_ = 0) by lia. subst. unfold put. cbn [seq map length app]. rewrite !Nat.add_0_r, firstn_skipn. reflexivity. }
  destruct (Nat.eqb_spec left_ 0) as [->|NZ].
  { unfold put. cbn [seq map length app]. rewrite !Nat.add_0_r, firstn_skipn. reflexivity. }
  set (chunk := if left_ <? CAP CD then left_ else CAP CD). assert (HK : 0 < chunk <= CAP CD /\ chunk <= left_) by (unfold chunk; destruct (Nat.ltb_spec left_ (CAP CD)); lia).
  destruct (HE k) as (A & B & C). rewrite turn_is; [|lia|exact HA|unfold rl_ok; rewrite C; apply i32_const]. rewrite A, B, C. change (is_ok OK) with true. cbn [negb]. cbv zeta.
  set (a := Nat.min chunk (SD - 16)). assert (HA2 : 0 < a <= left_) by (unfold a; lia). destruct (Nat.eqb_spec a 0); [lia|]. change (is_ok OK) with true. cbv iota.
  rewrite draw_length. unfold draw. assert (P : firstn at_ out ++ map g (seq pos a) ++ skipn (at_ + a) out = put g at_ (seq pos a) out) by (unfold put; rewrite seq_length; reflexivity).
  rewrite P. rewrite IH; [|lia|rewrite put_length; rewrite ?seq_length; lia]. f_equal; [|lia]. f_equal.
  replace (seq pos left_) with (seq pos a ++ seq (pos + a) (left_ - a)) by (rewrite <- seq_app; f_equal; lia).
  rewrite put_more by (rewrite seq_length; lia). rewrite seq_length. reflexivity.
Qed.
(** More turns than bytes change nothing. *)
Lemma loop_fuel aff E : (aff < 4294967296)%N -> (forall k, rl_ok (E k)) -> 0 < CAP CD -> forall fuel f2 at_ left_ k pos out, left_ <= fuel -> left_ <= f2 ->
  rng_loop g CD SD sb cb fuel aff at_ left_ E k pos out = rng_loop g CD SD sb cb f2 aff at_ left_ E k pos out.
Proof.
  intros HA HE HP. induction fuel as [|fuel IH]; intros f2 at_ left_ k pos out HF H2.
  { assert (left_ = 0) by lia. subst. destruct f2; reflexivity. }
  destruct f2 as [|f2]; [assert (left_ = 0) by lia; subst; reflexivity|]. cbn [rng_loop]. destruct (Nat.eqb_spec left_ 0); [reflexivity|].
  set (chunk := if left_ <? CAP CD then left_ else CAP CD). assert (HK : 0 < chunk <= CAP CD /\ chunk <= left_) by (unfold chunk; destruct (Nat.ltb_spec left_ (CAP CD)); lia).
  destruct (rng_turn g CD SD sb cb aff chunk (E k) pos) as [[rc1 bs] q1] eqn:T.
  destruct (turn_draws aff chunk (E k) pos rc1 bs q1 (proj1 HK) HA (HE k) T) as (idx & -> & D & LE & OKI).
  destruct (is_ok rc1) eqn:R1; [|reflexivity]. apply is_ok_iff in R1. apply OKI in R1. rewrite map_length. apply IH; lia.
Qed.
End Turn.

(** ** By DMA *)
Section Dma.
Variable g : nat -> N.
Variables sb cb : bool.
(** The call as an equation; [d_last] is the server's result. *)
Definition d_last (e : dlink) : Z :=
  if negb (is_ok (d_pre e)) then d_pre e else if negb (is_ok (r_rng (d_link e))) then r_rng (d_link e) else d_post e.
Lemma dma_eq aff addr size e pos mem : 0 < size -> (aff < 4294967296)%N -> (N.of_nat size < 4294967296)%N -> (N.of_nat addr < 2 ^ 64)%N ->
  rl_ok (d_link e) -> i32 (d_pre e) -> i32 (d_post e) -> r_send (d_link e) = OK ->
  rng_dma_call g sb cb aff addr size e pos mem =
    (((if is_ok (r_recv (d_link e)) then d_last e else r_recv (d_link e),
       if is_ok (r_recv (d_link e)) then give sb cb [(4, ALGO_RNG); (4, rc_n (d_last e)); (4, 0%N)] ++
           (if is_ok (d_last e) then give sb cb [(8, fld 0 (unwire sb [8; 8] (d_stack e))); (8, fld 1 (unwire sb [8; 8] (d_stack e)))] else []) else []),
      if is_ok (d_pre e) && is_ok (r_rng (d_link e)) then put g addr (seq pos size) mem else mem),
     if negb (is_ok (d_pre e)) then pos else if negb (is_ok (r_rng (d_link e))) then pos + r_skip (d_link e) else pos + size).
Proof.
  intros HS HA HZ HM H1 H2 H3 KS. unfold rng_dma_call. destruct (Nat.eqb_spec size 0); [lia|].
  set (fs := [(4, ALGO_RNG); (4, 0%N); (4, aff); (8, N.of_nat addr); (8, N.of_nat size)]). cbv zeta.
  assert (LN : length (wire cb fs) = 28) by (rewrite wire_length; reflexivity). rewrite LN, KS. change (is_ok OK) with true. cbn [negb].
  assert (TK : forall rest, take sb cb W_RNGDMA (wire cb fs ++ rest) = [ALGO_RNG; 0%N; aff; N.of_nat addr; N.of_nat size]).
  { intros rest. change W_RNGDMA with (map (@fst nat N) fs). rewrite take_wire; [reflexivity|]. unfold fs. fits. }
  unfold serve_rng_dma. rewrite TK. change (28 - 12 <? 16) with false. cbv iota. cbv zeta. 
  change (fld 0 [ALGO_RNG; 0%N; aff; N.of_nat addr; N.of_nat size]) with ALGO_RNG.
  change (fld 3 [ALGO_RNG; 0%N; aff; N.of_nat addr; N.of_nat size]) with (N.of_nat addr).
  change (fld 4 [ALGO_RNG; 0%N; aff; N.of_nat addr; N.of_nat size]) with (N.of_nat size). rewrite !Nat2N.id.
  set (st := give sb cb [(8, fld 0 (unwire sb [8; 8] (d_stack e))); (8, fld 1 (unwire sb [8; 8] (d_stack e)))]).
  assert (LS : length st = 16) by (unfold st; rewrite give_length; reflexivity).
  assert (NO : forall z, is_ok z = false -> z <> OK) by (intros z H X; subst; discriminate).
  assert (NONE : put g addr [] mem = mem) by (unfold put; cbn [map length app]; rewrite Nat.add_0_r; apply firstn_skipn).
  assert (RD : forall rc, i32 rc -> let resp := give sb cb [(4, ALGO_RNG); (4, rc_n rc); (4, 0%N)] ++ (if is_ok rc then st else []) in
    let v := unwire cb R_HEAD resp in
    (if negb (N.eqb (fld 0 v) ALGO_RNG) then ABORTED else if negb (is_ok (n_rc (fld 1 v))) then n_rc (fld 1 v) else if length resp <? 28 then ABORTED else OK) = rc).
  { intros rc I. cbv zeta. pose proof (unwire_give sb cb [(4, ALGO_RNG); (4, rc_n rc); (4, 0%N)] (if is_ok rc then st else []) ltac:(fits)) as U. cbn [map fst snd] in U.
    change R_HEAD with [4; 4; 4]. rewrite U. unfold fld. cbn [nth]. change (N.eqb ALGO_RNG ALGO_RNG) with true. cbn [negb]. rewrite rc_round by exact I.
    destruct (is_ok rc) eqn:R; cbn [negb]; [|reflexivity]. rewrite app_length, give_length, LS. apply is_ok_iff in R. subst. reflexivity. }
  cbv zeta in RD.
  unfold d_last. destruct (is_ok (d_pre e)) eqn:PE; cbn [negb andb].
  2:{ pose proof (RD (d_pre e) H2) as Q. rewrite PE in Q. rewrite PE. destruct (is_ok (r_recv (d_link e))); cbn [negb]; [rewrite Q|]; reflexivity. }
  destruct (is_ok (r_rng (d_link e))) eqn:RE; cbn [negb].
  2:{ pose proof (RD (r_rng (d_link e)) H1) as Q. rewrite RE in Q. rewrite RE. destruct (is_ok (r_recv (d_link e))); cbn [negb]; [rewrite Q|]; reflexivity. }
  assert (P : firstn addr mem ++ draw g pos size ++ skipn (addr + size) mem = put g addr (seq pos size) mem) by (unfold put, draw; rewrite seq_length; reflexivity).
  rewrite P. destruct (is_ok (r_recv (d_link e))); cbn [negb]; [rewrite RD by auto|]; reflexivity.
Qed.
Lemma dma_is aff addr size e pos mem : 0 < size -> (aff < 4294967296)%N -> (N.of_nat size < 4294967296)%N -> (N.of_nat addr < 2 ^ 64)%N ->
  rl_ok (d_link e) -> i32 (d_pre e) -> i32 (d_post e) -> r_send (d_link e) = OK ->
  exists rc body idx q, rng_dma_call g sb cb aff addr size e pos mem =
    (((if is_ok (r_recv (d_link e)) then rc else r_recv (d_link e), if is_ok (r_recv (d_link e)) then body else []), put g addr idx mem), q) /\
    drawn idx pos q /\ (idx = [] \/ idx = seq pos size) /\ (rc = OK -> idx = seq pos size) /\
    (rc = OK <-> d_pre e = OK /\ r_rng (d_link e) = OK /\ d_post e = OK) /\
    (d_pre e = OK -> r_rng (d_link e) = OK -> idx = seq pos size) /\
    body = give sb cb [(4, ALGO_RNG); (4, rc_n rc); (4, 0%N)] ++
           (if is_ok rc then give sb cb [(8, fld 0 (unwire sb [8; 8] (d_stack e))); (8, fld 1 (unwire sb [8; 8] (d_stack e)))] else []).
Proof.
  intros HS HA HZ HM H1 H2 H3 KS. unfold rng_dma_call. destruct (Nat.eqb_spec size 0); [lia|].
  set (fs := [(4, ALGO_RNG); (4, 0%N); (4, aff); (8, N.of_nat addr); (8, N.of_nat size)]). cbv zeta.
  assert (LN : length (wire cb fs) = 28) by (rewrite wire_length; reflexivity). rewrite LN, KS. change (is_ok OK) with true. cbn [negb].
  assert (TK : forall rest, take sb cb W_RNGDMA (wire cb fs ++ rest) = [ALGO_RNG; 0%N; aff; N.of_nat addr; N.of_nat size]).
  { intros rest. change W_RNGDMA with (map (@fst nat N) fs). rewrite take_wire; [reflexivity|]. unfold fs. fits. }
  unfold serve_rng_dma. rewrite TK. change (28 - 12 <? 16) with false. cbv iota. cbv zeta. 
  change (fld 0 [ALGO_RNG; 0%N; aff; N.of_nat addr; N.of_nat size]) with ALGO_RNG.
  change (fld 3 [ALGO_RNG; 0%N; aff; N.of_nat addr; N.of_nat size]) with (N.of_nat addr).
  change (fld 4 [ALGO_RNG; 0%N; aff; N.of_nat addr; N.of_nat size]) with (N.of_nat size). rewrite !Nat2N.id.
  set (st := give sb cb [(8, fld 0 (unwire sb [8; 8] (d_stack e))); (8, fld 1 (unwire sb [8; 8] (d_stack e)))]).
  assert (LS : length st = 16) by (unfold st; rewrite give_length; reflexivity).
  assert (NO : forall z, is_ok z = false -> z <> OK) by (intros z H X; subst; discriminate).
  assert (NONE : put g addr [] mem = mem) by (unfold put; cbn [map length app]; rewrite Nat.add_0_r; apply firstn_skipn).
  assert (RD : forall rc, i32 rc -> let resp := give sb cb [(4, ALGO_RNG); (4, rc_n rc); (4, 0%N)] ++ (if is_ok rc then st else []) in
    let v := unwire cb R_HEAD resp in
    (if negb (N.eqb (fld 0 v) ALGO_RNG) then ABORTED else if negb (is_ok (n_rc (fld 1 v))) then n_rc (fld 1 v) else if length resp <? 28 then ABORTED else OK) = rc).
  { intros rc I. cbv zeta. pose proof (unwire_give sb cb [(4, ALGO_RNG); (4, rc_n rc); (4, 0%N)] (if is_ok rc then st else []) ltac:(fits)) as U. cbn [map fst snd] in U.
    change R_HEAD with [4; 4; 4]. rewrite U. unfold fld. cbn [nth]. change (N.eqb ALGO_RNG ALGO_RNG) with true. cbn [negb]. rewrite rc_round by exact I.
    destruct (is_ok rc) eqn:R; cbn [negb]; [|reflexivity]. rewrite app_length, give_length, LS. apply is_ok_iff in R. subst. reflexivity. }
  cbv zeta in RD.
  destruct (is_ok (d_pre e)) eqn:PE; cbn [negb].
  2:{ exists (d_pre e), (give sb cb [(4, ALGO_RNG); (4, rc_n (d_pre e)); (4, 0%N)] ++ (if is_ok (d_pre e) then st else [])), [], pos.
      rewrite NONE. pose proof (NO _ PE) as N1. pose proof (RD (d_pre e) H2) as Q. rewrite PE in Q. rewrite PE. split; [destruct (is_ok (r_recv (d_link e))); cbn [negb]; [rewrite Q|]; reflexivity|].
      split; [apply drawn_nil; lia|]. split; [auto|]. split; [contradiction|]. split; [tauto|]. split; [contradiction|reflexivity]. }
  apply is_ok_iff in PE. destruct (is_ok (r_rng (d_link e))) eqn:RE; cbn [negb].
  2:{ exists (r_rng (d_link e)), (give sb cb [(4, ALGO_RNG); (4, rc_n (r_rng (d_link e))); (4, 0%N)] ++ (if is_ok (r_rng (d_link e)) then st else [])), [], (pos + r_skip (d_link e)).
      rewrite NONE. pose proof (NO _ RE) as N1. pose proof (RD (r_rng (d_link e)) H1) as Q. rewrite RE in Q. rewrite RE. split; [destruct (is_ok (r_recv (d_link e))); cbn [negb]; [rewrite Q|]; reflexivity|].
      split; [apply drawn_nil; lia|]. split; [auto|]. split; [contradiction|]. split; [tauto|]. split; [contradiction|reflexivity]. }
  apply is_ok_iff in RE.
  exists (d_post e), (give sb cb [(4, ALGO_RNG); (4, rc_n (d_post e)); (4, 0%N)] ++ (if is_ok (d_post e) then st else [])), (seq pos size), (pos + size).
  assert (P : firstn addr mem ++ draw g pos size ++ skipn (addr + size) mem = put g addr (seq pos size) mem) by (unfold put, draw; rewrite seq_length; reflexivity).
  rewrite P. split; [destruct (is_ok (r_recv (d_link e))); cbn [negb]; [rewrite RD by auto|]; reflexivity|].
  split; [apply drawn_seq; lia|]. split; [auto|]. split; [auto|]. split; [tauto|]. split; [auto|reflexivity].
Qed.
End Dma.

(** ** Histories *)
Section Hist.
Variable g : nat -> N.
Variable SD : nat.
Variable sb : bool.
Lemma put_none at_ mem : put g at_ [] mem = mem.
Proof. unfold put. cbn [map length app]. rewrite Nat.add_0_r. apply firstn_skipn. Qed.
Lemma step_draws v pos mem rc mem' q : rev_ok v -> place v + asked v <= length mem -> rev_step g SD sb v pos mem = ((rc, mem'), q) ->
  exists idx, mem' = put g (place v) idx mem /\ drawn idx pos q /\ length idx <= asked v /\ (rc = OK -> length idx = asked v).
Proof.
  destruct v as [CD cb aff size E|cb aff addr size e]; cbn [rev_ok place asked rev_step].
  - intros (A & B & C) L X. unfold rng_call in X. destruct (Nat.eq_dec (CAP CD) 0) as [Z|Z].
    + destruct size as [|size]; cbn [rng_loop] in X.
      { injection X as <- <- <-. exists []. rewrite put_none. split; [reflexivity|]. split; [apply drawn_nil; lia|]. cbn. auto. }
      change (S size =? 0) with false in X. cbv iota in X. rewrite Z in X. change (S size <? 0) with false in X. cbv iota in X.
      unfold rng_turn, rng_request in X. cbn [Nat.eqb orb] in X. change (is_ok BADARGS) with false in X. cbv iota in X. injection X as <- <- <-.
      exists []. cbn [firstn app plus length]. rewrite put_none. split; [reflexivity|]. split; [apply drawn_nil; lia|]. cbn. split; [lia|]. intros Y. discriminate Y.
    + destruct (loop_draws g CD SD sb cb A aff E B C ltac:(lia) size 0 size 0 pos mem rc mem' q (le_n _) L X) as (idx & P & D & LE & OKI).
      exists idx. split; [exact P|]. split; [exact D|]. split; [exact LE|]. apply OKI.
  - intros (A & B & C & D & F & G) L X. destruct (Nat.eq_dec size 0) as [->|NZ].
    { unfold rng_dma_call in X. cbn [Nat.eqb] in X. injection X as <- <- <-. exists []. rewrite put_none. split; [reflexivity|]. split; [apply drawn_nil; lia|]. cbn. split; [lia|]. intros Y. discriminate Y. }
    destruct (is_ok (r_send (d_link e))) eqn:KS.
    2:{ unfold rng_dma_call in X. destruct (Nat.eqb_spec size 0); [lia|]. cbv zeta in X. rewrite KS in X. cbn [negb] in X. injection X as <- <- <-.
        exists []. rewrite put_none. split; [reflexivity|]. split; [apply drawn_nil; lia|]. split; [cbn; lia|]. intros Y. rewrite Y in KS. discriminate KS. }
    apply is_ok_iff in KS. destruct (dma_is g sb cb aff addr size e pos mem ltac:(lia) A B C D F G KS) as (rc1 & body & idx & q1 & E1 & DR & ALT & FULL & _).
    rewrite E1 in X. injection X as <- <- <-. exists idx. split; [reflexivity|]. split; [exact DR|].
    split; [destruct ALT as [->| ->]; rewrite ?seq_length; cbn; lia|]. destruct (is_ok (r_recv (d_link e))) eqn:R.
    + intros Y. rewrite (FULL Y). apply seq_length.
    + intros Y. rewrite Y in R. discriminate R.
Qed.
Lemma run_draws : forall vs pos xs q, Forall (fun vm => rev_ok (fst vm) /\ place (fst vm) + asked (fst vm) <= length (snd vm)) vs ->
  rev_run g SD sb vs pos = (xs, q) ->
  exists ids, Forall2 (fun vm (xi : (Z * list N) * list nat) => snd (fst xi) = put g (place (fst vm)) (snd xi) (snd vm) /\
      length (snd xi) <= asked (fst vm) /\ (fst (fst xi) = OK -> length (snd xi) = asked (fst vm))) vs (combine xs ids) /\
    length ids = length xs /\ drawn (concat ids) pos q.
Proof.
  induction vs as [|[v mem] vs IH]; intros pos xs q OKS; cbn [rev_run].
  - intros X. injection X as <- <-. exists []. split; [constructor|]. split; [reflexivity|]. apply drawn_nil. lia.
  - apply Forall_cons_iff in OKS. destruct OKS as [[O1 O2] OKS]. cbn [fst snd] in O1, O2.
    destruct (rev_step g SD sb v pos mem) as [[rc mem'] q1] eqn:ST. destruct (rev_run g SD sb vs q1) as [ys q2] eqn:R. intros X. injection X as <- <-.
    destruct (step_draws v pos mem rc mem' q1 O1 O2 ST) as (idx & A & B & C & D). destruct (IH q1 ys q2 OKS R) as (ids & F & LEN & DR).
    exists (idx :: ids). cbn [combine concat length]. split; [constructor; [cbn [fst snd]; auto|exact F]|]. split; [lia|]. eapply drawn_app; eauto.
Qed.
End Hist.

(** ** Why a call fails *)
Lemma loop_reason g CD SD sb cb aff E : (N.of_nat CD < 65536)%N -> (aff < 4294967296)%N -> (forall k, rl_ok (E k)) -> 16 < CD -> 16 < SD ->
  forall fuel at_ left_ k pos out rc out' q, rng_loop g CD SD sb cb fuel aff at_ left_ E k pos out = ((rc, out'), q) -> rc <> OK ->
  exists j, In rc [r_send (E j); r_recv (E j); r_rng (E j)].
Proof.
  intros HC HA HE C1 S1. induction fuel as [|fuel IH]; intros at_ left_ k pos out rc out' q; cbn [rng_loop]; [congruence|].
  destruct (Nat.eqb_spec left_ 0); [congruence|].
  set (chunk := if left_ <? CAP CD then left_ else CAP CD). assert (HK : 0 < chunk <= CAP CD) by (unfold chunk, CAP; destruct (Nat.ltb_spec left_ (CD - 16)); lia).
  rewrite turn_is by auto. cbv zeta. destruct (Nat.eqb_spec (Nat.min chunk (SD - 16)) 0); [lia|].
  destruct (is_ok (r_send (E k))) eqn:A; cbn [negb]. 2:{ rewrite A. intros X _. injection X as <- _ _. exists k. cbn. auto. }
  destruct (is_ok (r_rng (E k))) eqn:B; cbn [negb]; destruct (is_ok (r_recv (E k))) eqn:C; cbn [negb]; rewrite ?A, ?B, ?C;
    try (intros X _; injection X as <- _ _; exists k; cbn; auto; fail).
  change (is_ok OK) with true. cbv iota. apply IH.
Qed.
