(* The loops of the library, run from call to call, are the modes on the whole
   message. *)
From Coq Require Import Arith NArith List Bool Lia.
From Verif Require Import KdfModel PropertiesKdf AesModel AesSpec.
Import ListNotations.

(* --- the counter --- *)

Lemma inc_little : forall n v, inc_le (little n v) = little n (v + 1).
Proof.
  induction n as [|n IH]; intros v; [reflexivity|].
  cbn [little inc_le].
  assert (Q : (v = 256 * (v / 256) + v mod 256)%N) by (apply N.div_mod; discriminate).
  assert (B : (v mod 256 < 256)%N) by (apply N.mod_lt; discriminate).
  set (q := (v / 256)%N) in *. set (r := (v mod 256)%N) in *.
  destruct (N.eq_dec r 255) as [R|R].
  - assert (A : ((v + 1) mod 256 = 0)%N).
    { symmetry. apply (N.mod_unique _ _ (q + 1)); lia. }
    assert (C : ((v + 1) / 256 = q + 1)%N).
    { symmetry. apply (N.div_unique _ _ _ 0); lia. }
    rewrite A, C, R. change ((255 + 1) mod 256)%N with 0%N. cbn [N.eqb].
    rewrite IH. reflexivity.
  - assert (A : ((v + 1) mod 256 = r + 1)%N).
    { symmetry. apply (N.mod_unique _ _ q); lia. }
    assert (C : ((v + 1) / 256 = q)%N).
    { symmetry. apply (N.div_unique _ _ _ (r + 1)); lia. }
    rewrite A, C. rewrite (N.mod_small (r + 1) 256) by lia.
    destruct (r + 1 =? 0)%N eqn:Z; [apply N.eqb_eq in Z; lia|]. reflexivity.
Qed.

Lemma little_length : forall n v, length (little n v) = n.
Proof. induction n; intros; cbn [little length]; auto. Qed.

Lemma counter_length : forall iv i, length (counter iv i) = 16.
Proof. intros. unfold counter, big. rewrite rev_length. apply little_length. Qed.

Lemma counter_inc : forall iv i, inc (counter iv i) = counter iv (S i).
Proof.
  intros. unfold inc, counter, big. rewrite rev_involutive, inc_little.
  do 2 f_equal. rewrite Nat2N.inj_succ. lia.
Qed.

Lemma inc_length : forall l, length (inc l) = length l.
Proof.
  intros l. unfold inc. rewrite rev_length.
  rewrite <- (rev_length l). generalize (rev l). clear l.
  induction l as [|x r IH]; [reflexivity|]. cbn [inc_le length].
  destruct ((x + 1) mod 256 =? 0)%N; cbn [length]; auto.
Qed.

Lemma little_value : forall l, Forall (fun b => (b < 256)%N) l ->
  little (length l) (value l) = rev l.
Proof.
  intros l. unfold value. induction l as [|x l IH] using rev_ind; intros F; [reflexivity|].
  rewrite fold_left_app, app_length, Nat.add_comm, rev_app_distr.
  cbn [fold_left length Nat.add little rev app].
  apply Forall_app in F. destruct F as [F1 F2]. inversion F2; subst.
  set (v := fold_left (fun a b : N => (a * 256 + b)%N) l 0%N) in *.
  assert (A : ((v * 256 + x) mod 256 = x)%N) by (symmetry; apply (N.mod_unique _ _ v); lia).
  assert (C : ((v * 256 + x) / 256 = v)%N) by (symmetry; apply (N.div_unique _ _ _ x); lia).
  rewrite A, C, IH by assumption. reflexivity.
Qed.

Lemma counter_0 : forall iv, length iv = 16 -> Forall (fun b => (b < 256)%N) iv ->
  counter iv 0 = iv.
Proof.
  intros iv L F. unfold counter, big. rewrite N.add_0_r, <- L, little_value by assumption.
  apply rev_involutive.
Qed.

(* --- xor --- *)

Lemma zipx_length : forall a b, length (zipx a b) = Nat.min (length a) (length b).
Proof.
  induction a as [|x a IH]; intros [|y b]; try reflexivity.
  cbn [zipx length Nat.min]. rewrite IH. reflexivity.
Qed.

Lemma zipx_xor : forall a b, zipx a b = xor a b.
Proof.
  unfold xor. induction a as [|x a IH]; intros [|y b]; try reflexivity.
  cbn [zipx combine map fst snd]. rewrite IH. reflexivity.
Qed.

(* --- CTR --- *)

Section Ctr.

Variable F : list byte -> list byte.
Variable F16 : forall b, length b = 16 -> length (F b) = 16.
Variable iv : list byte.

Definition ks (pos : nat) : byte := nth (pos mod 16) (F (counter iv (pos / 16))) 0%N.

Fixpoint xs (pos : nat) (msg : list byte) : list byte :=
  match msg with [] => [] | b :: r => N.lxor b (ks pos) :: xs (S pos) r end.

Lemma xs_app : forall a b pos, xs pos (a ++ b) = xs pos a ++ xs (pos + length a) b.
Proof.
  induction a as [|x a IH]; intros b pos; cbn [app xs length].
  - rewrite Nat.add_0_r. reflexivity.
  - rewrite IH. do 3 f_equal. lia.
Qed.

Lemma xs_length : forall a pos, length (xs pos a) = length a.
Proof. induction a; intros; cbn [xs length]; auto. Qed.

Lemma xs_CTR : forall msg, xs 0 msg = CTR F iv msg.
Proof.
  intros msg. unfold CTR.
  assert (G : forall n, xs n msg =
    map (fun p => N.lxor (snd p) (nth (fst p mod 16) (F (counter iv (fst p / 16))) 0%N))
        (combine (seq n (length msg)) msg)); [|apply G].
  induction msg as [|b r IH]; intros n; [reflexivity|].
  cbn [xs length seq combine map fst snd]. rewrite IH. reflexivity.
Qed.

Lemma ks_at : forall q r, r < 16 -> ks (16 * q + r) = nth r (F (counter iv q)) 0%N.
Proof.
  intros q r L. unfold ks.
  rewrite <- (Nat.div_unique (16 * q + r) 16 q r L eq_refl).
  rewrite <- (Nat.mod_unique (16 * q + r) 16 q r L eq_refl). reflexivity.
Qed.

Lemma zipx_xs : forall msg blk pos,
  length msg <= length blk ->
  (forall j, j < length msg -> nth j blk 0%N = ks (pos + j)) ->
  zipx msg blk = xs pos msg.
Proof.
  induction msg as [|b r IH]; intros blk pos L H; [reflexivity|].
  destruct blk as [|c blk]; [cbn [length] in L; lia|].
  cbn [zipx xs]. f_equal.
  - specialize (H 0). cbn [nth length] in H. rewrite Nat.add_0_r in H. rewrite H by lia. reflexivity.
  - apply IH; [cbn [length] in L; lia|].
    intros j Lj. specialize (H (S j)). cbn [nth length] in H. rewrite H by lia. f_equal. lia.
Qed.

(* The object after 16 q + r bytes. *)
Definition at_pos (q r : nat) (reg tmp : list byte) (left : nat) : Prop :=
  r < 16 /\ length tmp = 16 /\
  ((r = 0 /\ left = 0 /\ reg = counter iv q) \/
   (0 < r /\ left = 16 - r /\ reg = counter iv (S q) /\ tmp = F (counter iv q))).

Lemma ctr_blocks_ok : forall fuel inp q tmp,
  length inp < fuel -> length tmp = 16 ->
  exists q' r' reg' tmp' left',
    ctr_blocks F fuel (counter iv q) tmp 0 inp = (xs (16 * q) inp, (reg', tmp', left')) /\
    at_pos q' r' reg' tmp' left' /\ 16 * q' + r' = 16 * q + length inp.
Proof.
  induction fuel as [|f IH]; intros inp q tmp L T; [lia|].
  cbn [ctr_blocks].
  destruct (length inp =? 0) eqn:E0.
  { apply Nat.eqb_eq in E0. destruct inp; [|discriminate E0].
    exists q, 0, (counter iv q), tmp, 0. split; [reflexivity|].
    split; [|cbn [length]; lia]. split; [lia|]. split; [exact T|]. left. auto. }
  apply Nat.eqb_neq in E0.
  unfold BLOCK. destruct (length inp <? 16) eqn:E1.
  { apply Nat.ltb_lt in E1.
    assert (LF : length (F (counter iv q)) = 16) by (apply F16, counter_length).
    exists q, (length inp), (inc (counter iv q)), (F (counter iv q)), (16 - length inp).
    split.
    - f_equal. apply zipx_xs; [lia|]. intros j Lj. rewrite ks_at by lia. reflexivity.
    - split; [|lia]. split; [lia|]. split; [exact LF|]. right.
      rewrite counter_inc. repeat split; lia. }
  apply Nat.ltb_ge in E1.
  rewrite counter_inc.
  assert (LS : length (skipn 16 inp) = length inp - 16) by apply skipn_length.
  destruct (IH (skipn 16 inp) (S q) tmp) as (q' & r' & reg' & tmp' & left' & R & A & P); [lia|exact T|].
  rewrite R. exists q', r', reg', tmp', left'. split; [|split; [exact A|lia]].
  f_equal.
  transitivity (xs (16 * q) (firstn 16 inp ++ skipn 16 inp));
    [|rewrite firstn_skipn; reflexivity].
  assert (LFi : length (firstn 16 inp) = 16) by (rewrite firstn_length; lia).
  rewrite xs_app, LFi. f_equal.
  - apply zipx_xs.
    + rewrite LFi, F16 by apply counter_length. lia.
    + intros j Lj. rewrite ks_at by lia. reflexivity.
  - f_equal. lia.
Qed.

Lemma nth_skipn_ : forall (l : list byte) n j, nth j (skipn n l) 0%N = nth (n + j) l 0%N.
Proof.
  induction l as [|x l IH]; intros [|n] j; try reflexivity.
  - cbn [skipn Nat.add]. destruct j; reflexivity.
  - cbn [skipn Nat.add nth]. apply IH.
Qed.

Lemma lib_ctr_ok : forall q r reg tmp left inp,
  at_pos q r reg tmp left ->
  exists q' r' reg' tmp' left',
    lib_ctr F reg tmp left inp = (xs (16 * q + r) inp, (reg', tmp', left')) /\
    at_pos q' r' reg' tmp' left' /\ 16 * q' + r' = 16 * q + r + length inp.
Proof.
  intros q r reg tmp left inp (R & T & C). unfold lib_ctr, BLOCK.
  destruct C as [(R0 & L0 & G)|(R0 & L0 & G & TT)].
  - subst r left reg. cbn [Nat.min firstn zipx Nat.sub skipn app].
    destruct (ctr_blocks_ok (S (length inp)) inp q tmp) as (q' & r' & g & t & l & E1 & A & P);
      [lia|exact T|].
    rewrite E1. rewrite Nat.add_0_r. exists q', r', g, t, l. auto.
  - set (p := Nat.min left (length inp)).
    assert (HD : zipx (firstn p inp) (skipn (16 - left) tmp) = xs (16 * q + r) (firstn p inp)).
    { apply zipx_xs.
      - rewrite firstn_length, skipn_length. lia.
      - intros j Lj. rewrite firstn_length in Lj. rewrite nth_skipn_.
        replace (16 * q + r + j) with (16 * q + (16 - left + j)) by lia.
        rewrite ks_at by lia. rewrite TT. reflexivity. }
    rewrite HD.
    destruct (le_lt_dec (length inp) (left - 1)) as [S|S].
    + assert (P : p = length inp) by lia.
      rewrite P, skipn_all. cbn [ctr_blocks length Nat.eqb]. rewrite app_nil_r, firstn_all.
      exists q, (r + length inp), reg, tmp, (left - length inp).
      split; [reflexivity|]. split; [|lia].
      split; [lia|]. split; [exact T|].
      right. split; [lia|]. split; [lia|]. auto.
    + assert (P : p = left) by lia.
      assert (LS : length (skipn p inp) = length inp - left) by (rewrite skipn_length; lia).
      destruct (ctr_blocks_ok (Datatypes.S (length inp)) (skipn p inp) (Datatypes.S q) tmp)
        as (q' & r' & g & t & l & E1 & A & PP); [lia|exact T|].
      replace (left - p) with 0 by lia. rewrite G, E1.
      exists q', r', g, t, l. split; [|split; [exact A|lia]].
      f_equal. transitivity (xs (16 * q + r) (firstn p inp ++ skipn p inp));
        [|rewrite firstn_skipn; reflexivity].
      rewrite xs_app. f_equal. f_equal. rewrite firstn_length. lia.
Qed.

End Ctr.

(* Lengths, whatever the state. *)
Lemma ctr_blocks_len : forall F, (forall b, length b = 16 -> length (F b) = 16) ->
  forall fuel inp reg tmp left, length inp < fuel ->
  length reg = 16 -> length tmp = 16 ->
  exists o r t l, ctr_blocks F fuel reg tmp left inp = (o, (r, t, l)) /\
    length o = length inp /\ length r = 16 /\ length t = 16.
Proof.
  intros F F16. induction fuel as [|f IH]; intros inp reg tmp left L R T; [lia|].
  cbn [ctr_blocks]. destruct (length inp =? 0) eqn:E0.
  { apply Nat.eqb_eq in E0. exists [], reg, tmp, left. auto. }
  unfold BLOCK. destruct (length inp <? 16) eqn:E1.
  { apply Nat.ltb_lt in E1. do 4 eexists. split; [reflexivity|].
    rewrite zipx_length, inc_length, F16 by exact R. lia. }
  apply Nat.ltb_ge in E1.
  destruct (IH (skipn 16 inp) (inc reg) tmp 0) as (o & r & t & l & E & A & B & C).
  { rewrite skipn_length. apply Nat.eqb_neq in E0. lia. }
  { rewrite inc_length. exact R. }
  { exact T. }
  rewrite E. do 4 eexists. split; [reflexivity|].
  rewrite app_length, zipx_length, firstn_length, F16, A, skipn_length by exact R. lia.
Qed.

Lemma lib_ctr_len : forall F, (forall b, length b = 16 -> length (F b) = 16) ->
  forall reg tmp left inp, length reg = 16 -> length tmp = 16 -> left <= 16 ->
  exists o r t l, lib_ctr F reg tmp left inp = (o, (r, t, l)) /\
    length o = length inp /\ length r = 16 /\ length t = 16.
Proof.
  intros F F16 reg tmp left inp R T L. unfold lib_ctr.
  destruct (ctr_blocks_len F F16 (S (length inp)) (skipn (Nat.min left (length inp)) inp) reg tmp
              (left - Nat.min left (length inp))) as (o & r & t & l & E & A & B & C).
  { rewrite skipn_length. lia. }
  { exact R. }
  { exact T. }
  rewrite E. do 4 eexists. split; [reflexivity|].
  unfold BLOCK. rewrite app_length, zipx_length, firstn_length, skipn_length, A, skipn_length. lia.
Qed.

(* --- ECB and CBC --- *)

Lemma blocks_nil : blocks [] = [].
Proof. reflexivity. Qed.

Lemma blocks_cons : forall c r, length c = 16 -> blocks (c ++ r) = c :: blocks r.
Proof.
  intros c r L. unfold blocks. rewrite app_length, L.
  replace (16 + length r) with (1 * 16 + length r) by lia.
  rewrite Nat.div_add_l by discriminate.
  cbn [Nat.add seq map]. f_equal.
  - change (16 * 0) with 0. cbn [skipn]. rewrite firstn_app, L, Nat.sub_diag, firstn_O, app_nil_r.
    apply firstn_all2. lia.
  - rewrite <- seq_shift, map_map. apply map_ext. intros i. f_equal.
    rewrite skipn_app, (skipn_all2 c) by lia. cbn [app]. f_equal. lia.
Qed.

(* A message of whole blocks, block by block. *)
Lemma whole_ind : forall P : list byte -> Prop,
  P [] -> (forall c r, length c = 16 -> P r -> P (c ++ r)) ->
  forall n l, length l = 16 * n -> P l.
Proof.
  intros P P0 PS. induction n as [|n IH]; intros l L.
  - destruct l; [exact P0|discriminate L].
  - rewrite <- (firstn_skipn 16 l). apply PS.
    + rewrite firstn_length. lia.
    + apply IH. rewrite skipn_length. lia.
Qed.

Lemma whole_of_mod : forall l : list byte, length l mod 16 = 0 -> exists n, length l = 16 * n.
Proof.
  intros l M. exists (length l / 16). rewrite (Nat.div_mod (length l) 16) at 1 by discriminate. lia.
Qed.

Lemma blocks_app : forall n a b, length a = 16 * n -> blocks (a ++ b) = blocks a ++ blocks b.
Proof.
  intros n a b. revert a. apply (whole_ind (fun a => blocks (a ++ b) = blocks a ++ blocks b)).
  - reflexivity.
  - intros c r L IH. rewrite <- app_assoc, (blocks_cons c (r ++ b) L), (blocks_cons c r L), IH. reflexivity.
Qed.

Lemma concat_blocks : forall n a, length a = 16 * n -> concat (blocks a) = a.
Proof.
  intros n. apply (whole_ind (fun a => concat (blocks a) = a)); [reflexivity|].
  intros c r L IH. rewrite blocks_cons by assumption. cbn [concat]. rewrite IH. reflexivity.
Qed.

Lemma blocks_16 : forall n a, length a = 16 * n -> Forall (fun b => length b = 16) (blocks a).
Proof.
  intros n. apply (whole_ind (fun a => Forall (fun b => length b = 16) (blocks a))).
  - constructor.
  - intros c r L IH. rewrite blocks_cons by assumption. constructor; assumption.
Qed.

Lemma head_of : forall (c r : list byte), length c = 16 ->
  firstn 16 (c ++ r) = c /\ skipn 16 (c ++ r) = r /\ (length (c ++ r) <? 16) = false.
Proof.
  intros c r L. repeat split.
  - rewrite firstn_app, L, Nat.sub_diag, firstn_O, app_nil_r. apply firstn_all2. lia.
  - rewrite skipn_app, L, Nat.sub_diag, skipn_all2 by lia. reflexivity.
  - apply Nat.ltb_ge. rewrite app_length. lia.
Qed.

Lemma lib_ecb_ok : forall F n inp, length inp = 16 * n -> forall fuel, length inp < fuel ->
  lib_ecb F fuel inp = ECB F inp.
Proof.
  intros F n. apply (whole_ind (fun inp => forall fuel, length inp < fuel ->
    lib_ecb F fuel inp = ECB F inp)).
  - intros [|f] L; [cbn [length] in L; lia|]. reflexivity.
  - intros c r L IH [|f] LF; [lia|]. cbn [lib_ecb].
    destruct (head_of c r L) as (A & B & C).
    unfold BLOCK. rewrite C, A, B, IH by (rewrite app_length in LF; lia).
    unfold ECB. rewrite blocks_cons by exact L. reflexivity.
Qed.

Lemma ECB_app : forall F n a b, length a = 16 * n -> ECB F (a ++ b) = ECB F a ++ ECB F b.
Proof.
  intros F n a b L. unfold ECB. rewrite (blocks_app n) by exact L.
  rewrite map_app, concat_app. reflexivity.
Qed.

Lemma ECB_length : forall F, (forall b, length b = 16 -> length (F b) = 16) ->
  forall n a, length a = 16 * n -> length (ECB F a) = length a.
Proof.
  intros F F16 n. apply (whole_ind (fun a => length (ECB F a) = length a)); [reflexivity|].
  intros c r L IH. unfold ECB in *. rewrite blocks_cons by exact L. cbn [map concat].
  rewrite !app_length, IH, F16, L by exact L. reflexivity.
Qed.

(* The block a CBC stream has reached. *)
Definition last_block (reg : list byte) (l : list (list byte)) : list byte := last l reg.

Lemma lib_cbc_enc_ok : forall F n inp, length inp = 16 * n -> forall fuel reg, length inp < fuel ->
  lib_cbc_enc F fuel reg inp =
  (CBC_enc F reg inp, last (cbc_chain F reg (blocks inp)) reg).
Proof.
  intros F n. apply (whole_ind (fun inp => forall fuel reg, length inp < fuel ->
    lib_cbc_enc F fuel reg inp = (CBC_enc F reg inp, last (cbc_chain F reg (blocks inp)) reg))).
  - intros [|f] reg L; [cbn [length] in L; lia|]. reflexivity.
  - intros c r L IH [|f] reg LF; [lia|]. cbn [lib_cbc_enc].
    destruct (head_of c r L) as (A & B & C).
    unfold BLOCK. rewrite C, A, B, IH by (rewrite app_length in LF; lia).
    unfold CBC_enc. rewrite blocks_cons by exact L. cbn [cbc_chain concat].
    rewrite zipx_xor. f_equal.
    set (x := F (xor c reg)). generalize (cbc_chain F x (blocks r)).
    intros l. destruct l as [|y l]; [reflexivity|].
    change (last (x :: y :: l) reg) with (last (y :: l) reg).
    clear. revert y. induction l as [|z l IH]; intros y; [reflexivity|].
    cbn [last] in *. apply IH.
Qed.

Lemma last_any : forall (l : list (list byte)) y a b, last (y :: l) a = last (y :: l) b.
Proof. induction l as [|z l IH]; intros; [reflexivity|]. cbn [last] in *. apply IH. Qed.

Lemma lib_cbc_dec_ok : forall F n inp, length inp = 16 * n -> forall fuel reg, length inp < fuel ->
  lib_cbc_dec F fuel reg inp =
  (CBC_dec F reg inp, last (blocks inp) reg).
Proof.
  intros F n. apply (whole_ind (fun inp => forall fuel reg, length inp < fuel ->
    lib_cbc_dec F fuel reg inp = (CBC_dec F reg inp, last (blocks inp) reg))).
  - intros [|f] reg L; [cbn [length] in L; lia|]. reflexivity.
  - intros c r L IH [|f] reg LF; [lia|]. cbn [lib_cbc_dec].
    destruct (head_of c r L) as (A & B & C).
    unfold BLOCK. rewrite C, A, B, IH by (rewrite app_length in LF; lia).
    unfold CBC_dec. rewrite blocks_cons by exact L. cbn [cbc_unchain concat].
    rewrite zipx_xor. f_equal.
    destruct (blocks r) as [|y l]; [reflexivity|].
    change (last (c :: y :: l) reg) with (last (y :: l) reg). apply last_any.
Qed.

Lemma chain_app : forall F a b prev,
  cbc_chain F prev (a ++ b) = cbc_chain F prev a ++ cbc_chain F (last (cbc_chain F prev a) prev) b.
Proof.
  intros F. induction a as [|x a IH]; intros b prev; [reflexivity|].
  cbn [app cbc_chain]. rewrite IH. f_equal. f_equal. f_equal.
  set (y := F (xor x prev)). destruct (cbc_chain F y a) as [|z l]; [reflexivity|].
  change (last (y :: z :: l) prev) with (last (z :: l) prev). apply last_any.
Qed.

Lemma unchain_app : forall F a b prev,
  cbc_unchain F prev (a ++ b) = cbc_unchain F prev a ++ cbc_unchain F (last a prev) b.
Proof.
  intros F. induction a as [|x a IH]; intros b prev; [reflexivity|].
  cbn [app cbc_unchain]. rewrite IH. f_equal. f_equal. f_equal.
  destruct a as [|z l]; [reflexivity|].
  change (last (x :: z :: l) prev) with (last (z :: l) prev). apply last_any.
Qed.

Lemma CBC_enc_app : forall F n a b iv, length a = 16 * n ->
  CBC_enc F iv (a ++ b) = CBC_enc F iv a ++ CBC_enc F (last (cbc_chain F iv (blocks a)) iv) b.
Proof.
  intros F n a b iv L. unfold CBC_enc. rewrite (blocks_app n), chain_app, concat_app by exact L.
  reflexivity.
Qed.

Lemma CBC_dec_app : forall F n a b iv, length a = 16 * n ->
  CBC_dec F iv (a ++ b) = CBC_dec F iv a ++ CBC_dec F (last (blocks a) iv) b.
Proof.
  intros F n a b iv L. unfold CBC_dec. rewrite (blocks_app n), unchain_app, concat_app by exact L.
  reflexivity.
Qed.

Lemma xor_length : forall a b, length (xor a b) = Nat.min (length a) (length b).
Proof. intros. rewrite <- zipx_xor. apply zipx_length. Qed.

Lemma chain_16 : forall F, (forall b, length b = 16 -> length (F b) = 16) ->
  forall l prev, length prev = 16 -> Forall (fun b => length b = 16) l ->
  Forall (fun b => length b = 16) (cbc_chain F prev l) /\
  length (cbc_chain F prev l) = length l.
Proof.
  intros F F16. induction l as [|c l IH]; intros prev P A.
  - split; [constructor|reflexivity].
  - inversion A; subst. cbn [cbc_chain length].
    assert (L : length (F (xor c prev)) = 16) by (apply F16; rewrite xor_length; lia).
    destruct (IH _ L H2) as [B C]. split; [constructor; assumption|]. rewrite C. reflexivity.
Qed.

Lemma unchain_16 : forall F, (forall b, length b = 16 -> length (F b) = 16) ->
  forall l prev, length prev = 16 -> Forall (fun b => length b = 16) l ->
  Forall (fun b => length b = 16) (cbc_unchain F prev l) /\
  length (cbc_unchain F prev l) = length l.
Proof.
  intros F F16. induction l as [|c l IH]; intros prev P A.
  - split; [constructor|reflexivity].
  - inversion A; subst. cbn [cbc_unchain length].
    assert (L : length (xor (F c) prev) = 16) by (rewrite xor_length, F16; lia).
    destruct (IH c H1 H2) as [B C]. split; [constructor; assumption|]. rewrite C. reflexivity.
Qed.

Lemma concat_16 : forall l : list (list byte), Forall (fun b => length b = 16) l ->
  length (concat l) = 16 * length l.
Proof.
  induction 1 as [|c l L F IH]; [reflexivity|]. cbn [concat length]. rewrite app_length. lia.
Qed.

Lemma last_16 : forall (l : list (list byte)) d, length d = 16 ->
  Forall (fun b => length b = 16) l -> length (last l d) = 16.
Proof.
  intros l d D. induction l as [|c l IH]; intros A; [exact D|]. inversion A; subst.
  destruct l as [|e l]; [assumption|]. cbn [last] in *. apply IH. assumption.
Qed.

Lemma blocks_count : forall n a, length a = 16 * n -> length (blocks a) = n.
Proof.
  intros n a L. unfold blocks. rewrite map_length, seq_length, L, Nat.mul_comm.
  apply Nat.div_mul. discriminate.
Qed.

(* Decryption undoes encryption. *)
Lemma xor_twice : forall a b, length a = length b -> xor (xor a b) b = a.
Proof.
  unfold xor. induction a as [|x a IH]; intros [|y b] L; try discriminate; [reflexivity|].
  cbn [combine map fst snd]. rewrite N.lxor_assoc, N.lxor_nilpotent, N.lxor_0_r. f_equal.
  apply IH. injection L; auto.
Qed.

Lemma chain_unchain : forall F G, (forall b, length b = 16 -> length (F b) = 16) ->
  (forall b, length b = 16 -> G (F b) = b) ->
  forall l prev, length prev = 16 -> Forall (fun b => length b = 16) l ->
  cbc_unchain G prev (cbc_chain F prev l) = l.
Proof.
  intros F G F16 I. induction l as [|c l IH]; intros prev P A; [reflexivity|].
  inversion A; subst. cbn [cbc_chain cbc_unchain].
  assert (X : length (xor c prev) = 16) by (rewrite xor_length; lia).
  rewrite I by exact X. rewrite xor_twice by lia. rewrite IH; auto.
Qed.

Lemma blocks_concat : forall l, Forall (fun b => length b = 16) l -> blocks (concat l) = l.
Proof.
  induction 1 as [|c l L F IH]; [reflexivity|]. cbn [concat]. rewrite blocks_cons, IH by exact L.
  reflexivity.
Qed.

Lemma CBC_undo : forall F G, (forall b, length b = 16 -> length (F b) = 16) ->
  (forall b, length b = 16 -> G (F b) = b) ->
  forall n iv m, length iv = 16 -> length m = 16 * n -> CBC_dec G iv (CBC_enc F iv m) = m.
Proof.
  intros F G F16 I n iv m V L. unfold CBC_dec, CBC_enc.
  pose proof (blocks_16 n m L) as B.
  destruct (chain_16 F F16 (blocks m) iv V B) as [C _].
  rewrite blocks_concat by exact C. rewrite chain_unchain by assumption.
  apply (concat_blocks n). exact L.
Qed.

Lemma ECB_undo : forall F G, (forall b, length b = 16 -> length (F b) = 16) ->
  (forall b, length b = 16 -> G (F b) = b) ->
  forall n m, length m = 16 * n -> ECB G (ECB F m) = m.
Proof.
  intros F G F16 I n. apply (whole_ind (fun m => ECB G (ECB F m) = m)); [reflexivity|].
  intros c r L IH. unfold ECB in *. rewrite blocks_cons by exact L. cbn [map concat].
  rewrite blocks_cons by (apply F16; exact L). cbn [map concat]. rewrite IH, I by exact L.
  reflexivity.
Qed.

Lemma CTR_undo : forall F iv m, CTR F iv (CTR F iv m) = m.
Proof.
  intros F iv m. rewrite <- !xs_CTR. generalize 0. induction m as [|b r IH]; intros p; [reflexivity|].
  cbn [xs]. rewrite IH, N.lxor_assoc, N.lxor_nilpotent, N.lxor_0_r. reflexivity.
Qed.

(* --- one call --- *)

Section Calls.

Variable E D X : list byte -> list byte -> list byte.
Variable gcm_enc : list byte -> list byte -> list byte -> list byte -> nat ->
                   option (list byte * list byte).
Variable gcm_dec : list byte -> list byte -> list byte -> list byte -> list byte ->
                   option (list byte).
Variable DL : nat.

Variable E16 : forall k b, length b = 16 -> length (E k b) = 16.
Variable D16 : forall k b, length b = 16 -> length (D k b) = 16.
Variable X16 : forall k b, length b = 16 -> length (X k b) = 16.

Lemma got_rd : forall w req a b c o n, o = HDR + req + length a -> n = length b ->
  rd o n (got w req (a ++ b ++ c)) = b.
Proof.
  intros w req a b c o n O N'. subst o n. unfold got.
  rewrite <- (repeat_length 0%N (HDR + req)) at 1. apply arrived_rd.
Qed.

Lemma got_length : forall w req p, HDR + req + length p <= length (w_old w) ->
  length (got w req p) = length (w_old w).
Proof.
  intros w req p L. unfold got. apply arrived_length. rewrite repeat_length. exact L.
Qed.

Definition sound (a : aes) : Prop :=
  length (a_reg a) = 16 /\ length (a_tmp a) = 16 /\ a_left a <= 16.

Definition blockf (enc : bool) (k : list byte) : list byte -> list byte := if enc then E k else X k.
Definition blockd (enc : bool) (k : list byte) : list byte -> list byte := if enc then E k else D k.

(* The key of a call, by either path. *)
Lemma pick_dma_same : forall w enc a,
  pick_key_dma w enc (a_id a) (dma_key a) = pick_key w enc (a_id a) (a_key a).
Proof.
  intros w enc a. unfold pick_key_dma, pick_key, dma_key.
  destruct (a_id a =? 0)%N eqn:Z; [|reflexivity].
  destruct (a_key a) as [|x k]; reflexivity.
Qed.

(* A call succeeded with the library's result on the object's state, or changed
   nothing in the object. *)
Definition ctr_ends (w : world) (a : aes) (enc : bool) (msg out : list byte)
    (r : aes * list byte * outcome) : Prop :=
  let '(a', out', o) := r in
  (o = Done /\ exists k x g t l, pick_key w enc (a_id a) (a_key a) = Some k /\
     lib_ctr (blockf enc k) (a_reg a) (a_tmp a) (a_left a) msg = (x, (g, t, l)) /\
     a' = mkAes (a_key a) (a_id a) g t l /\ out' = wr 0 x out) \/
  (o <> Done /\ a' = a).

Lemma rd_same : forall off d n buf, n = length d -> off <= length buf -> rd off n (wr off d buf) = d.
Proof. intros; subst; apply rd_wr_same; assumption. Qed.

Ltac bad := right; split; [discriminate|reflexivity].

Lemma ctr_call_ends : forall w a enc msg out, sound a -> length (w_old w) = DL ->
  ctr_ends w a enc msg out (ctr_call E X DL w a enc msg out) /\
  (snd (ctr_call E X DL w a enc msg out) <> Done ->
   snd (fst (ctr_call E X DL w a enc msg out)) = out).
Proof.
  intros w a enc msg out (SR & ST & SL) LW.
  unfold ctr_call, ctr_serve.
  set (total := HDR + CTR_REQ + length msg + length (a_key a) + BLOCK + BLOCK).
  destruct (fits DL total); cbn [negb]; [|split; [bad|reflexivity]].
  destruct (DL <? total) eqn:T; [split; [bad|reflexivity]|]. apply Nat.ltb_ge in T.
  destruct (w_sent w); cbn [negb]; [|split; [bad|reflexivity]].
  destruct (total - HDR <? CTR_REQ) eqn:Q1.
  { destruct (w_back w); cbn [negb]; (split; [bad|reflexivity]). }
  destruct (CTR_REQ + length msg + length (a_key a) + BLOCK + BLOCK =? total - HDR) eqn:Q2; cbn [negb].
  2:{ destruct (w_back w); cbn [negb]; (split; [bad|reflexivity]). }
  set (buf := got w CTR_REQ (msg ++ a_key a ++ a_reg a ++ a_tmp a)).
  assert (LB : length buf = DL).
  { unfold buf. rewrite got_length; [exact LW|]. rewrite !app_length, LW, SR, ST.
    unfold total, BLOCK in T. lia. }
  assert (RM : rd (HDR + CTR_REQ) (length msg) buf = msg).
  { apply (got_rd w CTR_REQ [] msg); cbn [length]; lia. }
  assert (RK : rd (HDR + CTR_REQ + length msg) (length (a_key a)) buf = a_key a).
  { apply got_rd; reflexivity. }
  assert (RG : rd (HDR + CTR_REQ + length msg + length (a_key a)) BLOCK buf = a_reg a).
  { unfold buf. rewrite (app_assoc msg). apply got_rd; [rewrite app_length; lia|].
    symmetry. exact SR. }
  assert (RT : rd (HDR + CTR_REQ + length msg + length (a_key a) + BLOCK) BLOCK buf = a_tmp a).
  { unfold buf. rewrite (app_assoc msg), (app_assoc (msg ++ a_key a)).
    rewrite <- (app_nil_r (a_tmp a)) at 1.
    apply got_rd; [rewrite !app_length, SR; unfold BLOCK; lia|]. symmetry. exact ST. }
  rewrite RK.
  destruct (pick_key w enc (a_id a) (a_key a)) as [k|] eqn:PK.
  2:{ destruct (w_back w); cbn [negb]; (split; [bad|reflexivity]). }
  destruct (w_lib w); cbn [negb].
  2:{ destruct (w_back w); cbn [negb]; (split; [bad|reflexivity]). }
  destruct (BLOCK <? a_left a) eqn:B.
  { destruct (w_back w); cbn [negb]; (split; [bad|reflexivity]). }
  rewrite RM, RG, RT.
  change (if enc then E k else X k) with (blockf enc k).
  destruct (lib_ctr_len (blockf enc k)) with (reg := a_reg a) (tmp := a_tmp a) (left := a_left a)
    (inp := msg) as (x & g & t & l & LE & LX & LG & LT); try assumption.
  { intros b Lb. unfold blockf. destruct enc; [apply E16|apply X16]; exact Lb. }
  rewrite LE. destruct (w_back w); cbn [negb]; [|split; [bad|reflexivity]].
  split; [|intros C; exfalso; apply C; reflexivity].
  left. split; [reflexivity|]. exists k, x, g, t, l.
  split; [exact PK|]. split; [exact LE|].
  assert (TT : HDR + CTR_REQ + length msg + 32 <= DL) by (unfold total, BLOCK in T; lia).
  unfold BLOCK in *.
  assert (L1 : length (wr (HDR + CTR_REQ) x buf) = DL) by (rewrite wr_length; lia).
  assert (L2 : length (wr (HDR + CTR_REQ + length msg) g (wr (HDR + CTR_REQ) x buf)) = DL)
    by (rewrite wr_length; lia).
  assert (L3 : length (wr (HDR + CTR_REQ + length msg + 16) t
     (wr (HDR + CTR_REQ + length msg) g (wr (HDR + CTR_REQ) x buf))) = DL)
    by (rewrite wr_length; lia).
  split.
  - f_equal.
    + rewrite rd_wr_other by lia. apply rd_same; lia.
    + apply rd_same; lia.
  - f_equal. rewrite !rd_wr_other by lia. apply rd_same; lia.
Qed.

Lemma ctr_call_dma_ends : forall w a enc msg out, sound a -> length (w_old w) = DL ->
  ctr_ends w a enc msg out (ctr_call_dma E X DL w a enc msg out).
Proof.
  intros w a enc msg out (SR & ST & SL) LW.
  unfold ctr_call_dma, ctr_serve_dma.
  set (total := HDR + CTR_DREQ + BLOCK + BLOCK + length (dma_key a)).
  destruct (fits DL total); cbn [negb]; [|bad].
  destruct (DL <? total) eqn:T; [bad|]. apply Nat.ltb_ge in T.
  destruct (w_sent w); cbn [negb]; [|bad].
  destruct (total - HDR <? CTR_DREQ) eqn:Q1.
  { destruct (w_back w); cbn [negb]; bad. }
  destruct (CTR_DREQ + length (dma_key a) + BLOCK + BLOCK =? total - HDR) eqn:Q2; cbn [negb].
  2:{ destruct (w_back w); cbn [negb]; bad. }
  rewrite Nat.eqb_refl; cbn [negb].
  set (buf := got w CTR_DREQ (a_reg a ++ a_tmp a ++ dma_key a)).
  assert (LB : length buf = DL).
  { unfold buf. rewrite got_length; [exact LW|]. rewrite !app_length, LW, SR, ST.
    unfold total, BLOCK in T. lia. }
  assert (RG : rd (HDR + CTR_DREQ) BLOCK buf = a_reg a).
  { apply (got_rd w CTR_DREQ [] (a_reg a)); cbn [length]; [lia|]. symmetry. exact SR. }
  assert (RT : rd (HDR + CTR_DREQ + BLOCK) BLOCK buf = a_tmp a).
  { apply got_rd; [rewrite SR; reflexivity|]. symmetry. exact ST. }
  assert (RK : rd (HDR + CTR_DREQ + BLOCK + BLOCK) (length (dma_key a)) buf = dma_key a).
  { unfold buf. rewrite (app_assoc (a_reg a)). rewrite <- (app_nil_r (dma_key a)) at 2.
    apply got_rd; [rewrite app_length, SR, ST; unfold BLOCK; lia|reflexivity]. }
  rewrite RK, pick_dma_same.
  destruct (pick_key w enc (a_id a) (a_key a)) as [k|] eqn:PK.
  2:{ destruct (w_back w); cbn [negb]; bad. }
  destruct (w_in w); cbn [negb]; [|destruct (w_back w); cbn [negb]; bad].
  destruct (w_out w); cbn [negb]; [|destruct (w_back w); cbn [negb]; bad].
  destruct (w_lib w); cbn [negb]; [|destruct (w_back w); cbn [negb]; bad].
  destruct (BLOCK <? a_left a) eqn:B; [destruct (w_back w); cbn [negb]; bad|].
  rewrite RG, RT.
  change (if enc then E k else X k) with (blockf enc k).
  destruct (lib_ctr_len (blockf enc k)) with (reg := a_reg a) (tmp := a_tmp a) (left := a_left a)
    (inp := msg) as (x & g & t & l & LE & LX & LG & LT); try assumption.
  { intros b Lb. unfold blockf. destruct enc; [apply E16|apply X16]; exact Lb. }
  rewrite LE. destruct (w_back w); cbn [negb]; [|bad].
  unfold landed. destruct (w_post w); [|bad].
  left. split; [reflexivity|]. exists k, x, g, t, l.
  split; [exact PK|]. split; [exact LE|].
  assert (TT : HDR + DRESP + 32 <= DL)
    by (unfold total, BLOCK, HDR, CTR_DREQ, DRESP in *; lia).
  unfold BLOCK in *. split; [|reflexivity].
  assert (L1 : length (wr (HDR + DRESP + 16) t buf) = DL) by (rewrite wr_length; lia).
  f_equal.
  - apply rd_same; lia.
  - rewrite rd_wr_other by lia. apply rd_same; lia.
Qed.

Definition ecb_ends (w : world) (a : aes) (enc : bool) (msg out : list byte)
    (r : aes * list byte * outcome) : Prop :=
  let '(a', out', o) := r in
  (o = Done /\ a' = a /\ (exists n, length msg = 16 * n) /\
   ((msg = [] /\ out' = out) \/
    exists k, pick_key w enc (a_id a) (a_key a) = Some k /\
      out' = wr 0 (ECB (blockd enc k) msg) out)) \/
  (o <> Done /\ a' = a).

Lemma blockd_16 : forall enc k b, length b = 16 -> length (blockd enc k b) = 16.
Proof. intros enc k b L. unfold blockd. destruct enc; [apply E16|apply D16]; exact L. Qed.

Lemma ecb_call_ends : forall w a enc msg out, length (w_old w) = DL ->
  ecb_ends w a enc msg out (ecb_call E D DL w a enc msg out) /\
  (snd (ecb_call E D DL w a enc msg out) <> Done ->
   snd (fst (ecb_call E D DL w a enc msg out)) = out).
Proof.
  intros w a enc msg out LW. unfold ecb_call, ecb_serve.
  set (total := HDR + ECB_REQ + length msg + length (a_key a)).
  destruct (length msg mod BLOCK =? 0) eqn:M; cbn [negb]; [|split; [bad|reflexivity]].
  apply Nat.eqb_eq in M. destruct (whole_of_mod msg M) as [n W].
  destruct (length msg =? 0) eqn:Z.
  { apply Nat.eqb_eq in Z. split; [|reflexivity]. left. split; [reflexivity|]. split; [reflexivity|].
    split; [exists n; exact W|]. left. destruct msg; [auto|discriminate Z]. }
  destruct (blocks16 (length msg) =? 0)%N; [split; [bad|reflexivity]|].
  destruct (fits DL total); cbn [negb]; [|split; [bad|reflexivity]].
  destruct (DL <? total) eqn:T; [split; [bad|reflexivity]|]. apply Nat.ltb_ge in T.
  destruct (w_sent w); cbn [negb]; [|split; [bad|reflexivity]].
  destruct (total - HDR <? ECB_REQ) eqn:Q1.
  { destruct (w_back w); cbn [negb]; (split; [bad|reflexivity]). }
  destruct (ECB_REQ + length msg + length (a_key a) =? total - HDR) eqn:Q2; cbn [negb].
  2:{ destruct (w_back w); cbn [negb]; (split; [bad|reflexivity]). }
  set (buf := got w ECB_REQ (msg ++ a_key a)).
  assert (LB : length buf = DL).
  { unfold buf. rewrite got_length; [exact LW|]. rewrite !app_length, LW. unfold total in T. lia. }
  assert (RM : rd (HDR + ECB_REQ) (length msg) buf = msg).
  { apply (got_rd w ECB_REQ [] msg); cbn [length]; lia. }
  assert (RK : rd (HDR + ECB_REQ + length msg) (length (a_key a)) buf = a_key a).
  { unfold buf. rewrite <- (app_nil_r (a_key a)) at 2. apply got_rd; reflexivity. }
  rewrite RK.
  destruct (pick_key w enc (a_id a) (a_key a)) as [k|] eqn:PK.
  2:{ destruct (w_back w); cbn [negb]; (split; [bad|reflexivity]). }
  destruct (w_lib w); cbn [negb].
  2:{ destruct (w_back w); cbn [negb]; (split; [bad|reflexivity]). }
  rewrite RM. change (if enc then E k else D k) with (blockd enc k).
  rewrite (lib_ecb_ok _ n) by (try exact W; lia).
  destruct (w_back w); cbn [negb]; [|split; [bad|reflexivity]].
  split; [|intros C; exfalso; apply C; reflexivity].
  left. split; [reflexivity|]. split; [reflexivity|]. split; [exists n; exact W|].
  right. exists k. split; [exact PK|]. f_equal.
  pose proof (ECB_length _ (blockd_16 enc k) n msg W) as LE.
  apply rd_same; [symmetry; exact LE|]. unfold total in T. lia.
Qed.

Lemma ecb_call_dma_ends : forall w a enc msg out, length (w_old w) = DL ->
  ecb_ends w a enc msg out (ecb_call_dma E D DL w a enc msg out).
Proof.
  intros w a enc msg out LW. unfold ecb_call_dma, ecb_serve_dma.
  set (total := HDR + ECB_DREQ + length (dma_key a)).
  destruct (length msg mod BLOCK =? 0) eqn:M; cbn [negb]; [|bad].
  apply Nat.eqb_eq in M. destruct (whole_of_mod msg M) as [n W].
  destruct (length msg =? 0) eqn:Z.
  { apply Nat.eqb_eq in Z. left. split; [reflexivity|]. split; [reflexivity|].
    split; [exists n; exact W|]. left. destruct msg; [auto|discriminate Z]. }
  destruct (fits DL total); cbn [negb]; [|bad].
  destruct (DL <? total) eqn:T; [bad|]. apply Nat.ltb_ge in T.
  destruct (w_sent w); cbn [negb]; [|bad].
  destruct (total - HDR <? ECB_DREQ) eqn:Q1.
  { destruct (w_back w); cbn [negb]; bad. }
  destruct (ECB_DREQ + length (dma_key a) =? total - HDR) eqn:Q2; cbn [negb].
  2:{ destruct (w_back w); cbn [negb]; bad. }
  rewrite Nat.eqb_refl; cbn [negb].
  set (buf := got w ECB_DREQ (dma_key a)).
  assert (RK : rd (HDR + ECB_DREQ) (length (dma_key a)) buf = dma_key a).
  { unfold buf. rewrite <- (app_nil_r (dma_key a)) at 2.
    apply (got_rd w ECB_DREQ [] (dma_key a) []); cbn [length]; lia. }
  rewrite RK, pick_dma_same.
  destruct (pick_key w enc (a_id a) (a_key a)) as [k|] eqn:PK.
  2:{ destruct (w_back w); cbn [negb]; bad. }
  destruct (w_in w); cbn [negb]; [|destruct (w_back w); cbn [negb]; bad].
  destruct (w_out w); cbn [negb]; [|destruct (w_back w); cbn [negb]; bad].
  destruct (w_lib w); cbn [negb]; [|destruct (w_back w); cbn [negb]; bad].
  change (if enc then E k else D k) with (blockd enc k).
  rewrite (lib_ecb_ok _ n) by (try exact W; lia).
  destruct (w_back w); cbn [negb]; [|bad].
  unfold landed. destruct (w_post w); [|bad]. cbn [orb].
  left. split; [reflexivity|]. split; [reflexivity|]. split; [exists n; exact W|].
  right. exists k. split; [exact PK|]. reflexivity.
Qed.

(* CBC on the whole of a call's message, and the block it leaves. *)
Definition CBC (enc : bool) (k iv m : list byte) : list byte :=
  if enc then CBC_enc (E k) iv m else CBC_dec (D k) iv m.
Definition carry (enc : bool) (k iv m : list byte) : list byte :=
  if enc then last (cbc_chain (E k) iv (blocks m)) iv else last (blocks m) iv.

Lemma lib_cbc_ok : forall enc k reg n m, length m = 16 * n ->
  lib_cbc E D enc k reg m = (CBC enc k reg m, carry enc k reg m).
Proof.
  intros enc k reg n m W. unfold lib_cbc, CBC, carry. destruct enc.
  - apply (lib_cbc_enc_ok _ n); [exact W|lia].
  - apply (lib_cbc_dec_ok _ n); [exact W|lia].
Qed.

Lemma CBC_length : forall enc k reg n m, length reg = 16 -> length m = 16 * n ->
  length (CBC enc k reg m) = length m /\ length (carry enc k reg m) = 16.
Proof.
  intros enc k reg n m R W. pose proof (blocks_16 n m W) as B. pose proof (blocks_count n m W) as C.
  unfold CBC, carry, CBC_enc, CBC_dec. destruct enc.
  - destruct (chain_16 (E k) (E16 k) (blocks m) reg R B) as [P Q].
    split; [rewrite concat_16 by exact P; lia|apply last_16; assumption].
  - destruct (unchain_16 (D k) (D16 k) (blocks m) reg R B) as [P Q].
    split; [rewrite concat_16 by exact P; lia|apply last_16; assumption].
Qed.

Lemma CBC_app : forall enc k reg n a b, length a = 16 * n ->
  CBC enc k reg (a ++ b) = CBC enc k reg a ++ CBC enc k (carry enc k reg a) b.
Proof.
  intros enc k reg n a b W. unfold CBC, carry.
  destruct enc; [apply (CBC_enc_app _ n)|apply (CBC_dec_app _ n)]; exact W.
Qed.

Definition cbc_ends (w : world) (a : aes) (enc : bool) (msg out : list byte)
    (r : aes * list byte * outcome) : Prop :=
  let '(a', out', o) := r in
  (o = Done /\ (exists n, length msg = 16 * n) /\
   ((msg = [] /\ a' = a /\ out' = out) \/
    exists k, pick_key w enc (a_id a) (a_key a) = Some k /\
      a' = mkAes (a_key a) (a_id a) (carry enc k (a_reg a) msg) (a_tmp a) (a_left a) /\
      out' = wr 0 (CBC enc k (a_reg a) msg) out)) \/
  (o <> Done /\ a' = a).

Lemma cbc_call_ends : forall w a enc msg out, length (a_reg a) = 16 -> length (w_old w) = DL ->
  cbc_ends w a enc msg out (cbc_call E D DL w a enc msg out) /\
  (snd (cbc_call E D DL w a enc msg out) <> Done ->
   snd (fst (cbc_call E D DL w a enc msg out)) = out).
Proof.
  intros w a enc msg out SR LW. unfold cbc_call, cbc_serve.
  set (total := HDR + CBC_REQ + length msg + length (a_key a) + BLOCK).
  destruct (length msg mod BLOCK =? 0) eqn:M; cbn [negb]; [|split; [bad|reflexivity]].
  apply Nat.eqb_eq in M. destruct (whole_of_mod msg M) as [n W].
  destruct (length msg =? 0) eqn:Z.
  { apply Nat.eqb_eq in Z. split; [|reflexivity]. left. split; [reflexivity|].
    split; [exists n; exact W|]. left. destruct msg; [auto|discriminate Z]. }
  destruct (blocks16 (length msg) =? 0)%N; [split; [bad|reflexivity]|].
  destruct (fits DL total); cbn [negb]; [|split; [bad|reflexivity]].
  destruct (DL <? total) eqn:T; [split; [bad|reflexivity]|]. apply Nat.ltb_ge in T.
  destruct (w_sent w); cbn [negb]; [|split; [bad|reflexivity]].
  destruct (total - HDR <? CBC_REQ) eqn:Q1.
  { destruct (w_back w); cbn [negb]; (split; [bad|reflexivity]). }
  destruct (CBC_REQ + length msg + length (a_key a) + BLOCK =? total - HDR) eqn:Q2; cbn [negb].
  2:{ destruct (w_back w); cbn [negb]; (split; [bad|reflexivity]). }
  set (buf := got w CBC_REQ (msg ++ a_key a ++ a_reg a)).
  assert (LB : length buf = DL).
  { unfold buf. rewrite got_length; [exact LW|]. rewrite !app_length, LW, SR.
    unfold total, BLOCK in T. lia. }
  assert (RM : rd (HDR + CBC_REQ) (length msg) buf = msg).
  { apply (got_rd w CBC_REQ [] msg); cbn [length]; lia. }
  assert (RK : rd (HDR + CBC_REQ + length msg) (length (a_key a)) buf = a_key a).
  { apply got_rd; reflexivity. }
  assert (RG : rd (HDR + CBC_REQ + length msg + length (a_key a)) BLOCK buf = a_reg a).
  { unfold buf. rewrite (app_assoc msg). rewrite <- (app_nil_r (a_reg a)) at 1.
    apply got_rd; [rewrite app_length; lia|]. symmetry. exact SR. }
  rewrite RK.
  destruct (pick_key w enc (a_id a) (a_key a)) as [k|] eqn:PK.
  2:{ destruct (w_back w); cbn [negb]; (split; [bad|reflexivity]). }
  destruct (w_lib w); cbn [negb].
  2:{ destruct (w_back w); cbn [negb]; (split; [bad|reflexivity]). }
  rewrite RM, RG, (lib_cbc_ok enc k (a_reg a) n msg W).
  destruct (w_back w); cbn [negb]; [|split; [bad|reflexivity]].
  split; [|intros C; exfalso; apply C; reflexivity].
  left. split; [reflexivity|]. split; [exists n; exact W|].
  right. exists k. split; [exact PK|].
  destruct (CBC_length enc k (a_reg a) n msg SR W) as [LC LR].
  unfold total, BLOCK in *.
  set (x := CBC enc k (a_reg a) msg) in *. set (g := carry enc k (a_reg a) msg) in *.
  assert (L1 : length (wr (HDR + CBC_REQ) x buf) = DL) by (rewrite wr_length; lia).
  split; f_equal.
  - apply rd_same; lia.
  - rewrite rd_wr_other by lia. apply rd_same; lia.
Qed.

Lemma cbc_call_dma_ends : forall w a enc msg out, length (a_reg a) = 16 -> length (w_old w) = DL ->
  cbc_ends w a enc msg out (cbc_call_dma E D DL w a enc msg out).
Proof.
  intros w a enc msg out SR LW. unfold cbc_call_dma, cbc_serve_dma.
  set (total := HDR + CBC_DREQ + BLOCK + length (dma_key a)).
  destruct (length msg mod BLOCK =? 0) eqn:M; cbn [negb]; [|bad].
  apply Nat.eqb_eq in M. destruct (whole_of_mod msg M) as [n W].
  destruct (length msg =? 0) eqn:Z.
  { apply Nat.eqb_eq in Z. left. split; [reflexivity|].
    split; [exists n; exact W|]. left. destruct msg; [auto|discriminate Z]. }
  destruct (fits DL total); cbn [negb]; [|bad].
  destruct (DL <? total) eqn:T; [bad|]. apply Nat.ltb_ge in T.
  destruct (w_sent w); cbn [negb]; [|bad].
  destruct (total - HDR <? CBC_DREQ) eqn:Q1.
  { destruct (w_back w); cbn [negb]; bad. }
  destruct (CBC_DREQ + length (dma_key a) + BLOCK =? total - HDR) eqn:Q2; cbn [negb].
  2:{ destruct (w_back w); cbn [negb]; bad. }
  rewrite Nat.eqb_refl; cbn [negb].
  set (buf := got w CBC_DREQ (a_reg a ++ dma_key a)).
  assert (LB : length buf = DL).
  { unfold buf. rewrite got_length; [exact LW|]. rewrite !app_length, LW, SR.
    unfold total, BLOCK in T. lia. }
  assert (RG : rd (HDR + CBC_DREQ) BLOCK buf = a_reg a).
  { apply (got_rd w CBC_DREQ [] (a_reg a)); cbn [length]; [lia|]. symmetry. exact SR. }
  assert (RK : rd (HDR + CBC_DREQ + BLOCK) (length (dma_key a)) buf = dma_key a).
  { unfold buf. rewrite <- (app_nil_r (dma_key a)) at 2.
    apply got_rd; [rewrite SR; reflexivity|reflexivity]. }
  rewrite RK, pick_dma_same.
  destruct (pick_key w enc (a_id a) (a_key a)) as [k|] eqn:PK.
  2:{ destruct (w_back w); cbn [negb]; bad. }
  destruct (w_in w); cbn [negb]; [|destruct (w_back w); cbn [negb]; bad].
  destruct (w_out w); cbn [negb]; [|destruct (w_back w); cbn [negb]; bad].
  destruct (w_lib w); cbn [negb]; [|destruct (w_back w); cbn [negb]; bad].
  rewrite RG, (lib_cbc_ok enc k (a_reg a) n msg W).
  destruct (w_back w); cbn [negb]; [|bad].
  unfold landed. destruct (w_post w); [|bad]. cbn [orb].
  left. split; [reflexivity|]. split; [exists n; exact W|].
  right. exists k. split; [exact PK|]. split; [|reflexivity].
  destruct (CBC_length enc k (a_reg a) n msg SR W) as [LC LR].
  f_equal. apply rd_same; [symmetry; exact LR|].
  unfold total, BLOCK, HDR, CBC_DREQ, DRESP in *. lia.
Qed.

(* --- GCM --- *)

Variable enc_len : forall k iv aad p n c t, gcm_enc k iv aad p n = Some (c, t) ->
  length c = length p /\ length t = n /\ n <= 16.
Variable dec_len : forall k iv aad c t p, gcm_dec k iv aad c t = Some p -> length p = length c.
Variable DL_small : (N.of_nat DL < 4294967296 - 100)%N.

(* What the library makes of a call's arguments. *)
Definition gcm_gives (enc : bool) (k iv aad msg tag x t : list byte) : Prop :=
  if enc then gcm_enc k iv aad msg (length tag) = Some (x, t)
  else gcm_dec k iv aad msg tag = Some x /\ t = tag.

Definition gcm_ends (w : world) (a : aes) (enc : bool) (msg iv aad tag out : list byte)
    (r : list byte * list byte * outcome) : Prop :=
  let '(out', tag', o) := r in
  (o = Done /\ exists k x, pick_key w enc (a_id a) (a_key a) = Some k /\
     gcm_gives enc k iv aad msg tag x tag' /\ out' = wr 0 x out) \/
  (o <> Done /\ tag' = tag /\ out' = out).

Ltac badg := right; split; [discriminate|split; reflexivity].

Lemma wr_whole : forall (t old : list byte), length t = length old -> wr 0 t old = t.
Proof.
  intros t old L. unfold wr. cbn [firstn Nat.add app]. rewrite skipn_all2 by lia.
  apply app_nil_r.
Qed.

Lemma gcm_call_ends : forall w a enc msg iv aad tag out, length (w_old w) = DL ->
  gcm_ends w a enc msg iv aad tag out
    (gcm_call gcm_enc gcm_dec DL w a enc msg iv aad tag out).
Proof.
  intros w a enc msg iv aad tag out LW. unfold gcm_call, gcm_serve.
  set (total := HDR + GCM_REQ + length msg + length (a_key a) + length iv + length aad
                + (if enc then 0 else length tag)).
  destruct (fits DL total); cbn [negb]; [|badg].
  destruct (DL <? total) eqn:T; [badg|]. apply Nat.ltb_ge in T.
  destruct (w_sent w); cbn [negb]; [|badg].
  destruct (total - HDR <? GCM_REQ) eqn:Q1.
  { destruct (w_back w); cbn [negb]; badg. }
  match goal with |- context [negb (?x =? ?y)] => destruct (x =? y) eqn:Q2; cbn [negb] end.
  2:{ destruct (w_back w); cbn [negb]; badg. }
  match goal with |- context [(?x <? ?y)%N] => destruct (x <? y)%N eqn:Q3 end.
  { destruct (w_back w); cbn [negb]; badg. }
  apply N.ltb_ge in Q3.
  set (tail := if enc then [] else tag) in *.
  set (buf := got w GCM_REQ (msg ++ a_key a ++ iv ++ aad ++ tail)).
  assert (LTl : length tail = if enc then 0 else length tag) by (unfold tail; destruct enc; reflexivity).
  assert (LB : length buf = DL).
  { unfold buf. rewrite got_length; [exact LW|]. rewrite !app_length, LW, LTl.
    unfold total in T. lia. }
  assert (RM : rd (HDR + GCM_REQ) (length msg) buf = msg).
  { apply (got_rd w GCM_REQ [] msg); cbn [length]; lia. }
  assert (RK : rd (HDR + GCM_REQ + length msg) (length (a_key a)) buf = a_key a).
  { apply got_rd; reflexivity. }
  assert (RI : rd (HDR + GCM_REQ + length msg + length (a_key a)) (length iv) buf = iv).
  { unfold buf. rewrite (app_assoc msg). apply got_rd; [rewrite app_length; lia|reflexivity]. }
  assert (RA : rd (HDR + GCM_REQ + length msg + length (a_key a) + length iv) (length aad) buf = aad).
  { unfold buf. rewrite (app_assoc msg), (app_assoc (msg ++ a_key a)).
    apply got_rd; [rewrite !app_length; lia|reflexivity]. }
  assert (RT : enc = false ->
    rd (HDR + GCM_REQ + length msg + length (a_key a) + length iv + length aad) (length tag) buf = tag).
  { intros EF. unfold buf, tail. rewrite EF, (app_assoc msg), (app_assoc (msg ++ a_key a)),
      (app_assoc ((msg ++ a_key a) ++ iv)).
    rewrite <- (app_nil_r tag) at 2.
    apply got_rd; [rewrite !app_length; lia|reflexivity]. }
  rewrite RK.
  destruct (pick_key w enc (a_id a) (a_key a)) as [k|] eqn:PK.
  2:{ destruct (w_back w); cbn [negb]; badg. }
  destruct (w_lib w); cbn [negb].
  2:{ destruct (w_back w); cbn [negb]; badg. }
  rewrite RI, RA, RM.
  destruct enc.
  - destruct (gcm_enc k iv aad msg (length tag)) as [[c t]|] eqn:G.
    2:{ destruct (w_back w); cbn [negb]; badg. }
    destruct (enc_len _ _ _ _ _ _ _ G) as (LC & LT & L16).
    destruct (w_back w); cbn [negb]; [|badg].
    rewrite !Nat.ltb_irrefl.
    assert (RL : (w32 (N.of_nat (GCM_REQ + length msg + length tag)) =
                  N.of_nat (GCM_REQ + length msg + length tag))%N).
    { unfold w32. apply N.mod_small. unfold total, GCM_REQ, HDR in *. lia. }
    assert (FT : HDR + GCM_REQ + length msg + length tag <= DL).
    { rewrite RL in Q3. unfold total, HDR, GCM_REQ in *. lia. }
    left. split; [reflexivity|]. exists k, c. split; [exact PK|].
    assert (L1 : length (wr (HDR + GCM_REQ) c buf) = DL) by (rewrite wr_length; lia).
    split.
    + cbn [gcm_gives]. rewrite rd_same by (rewrite ?L1; lia).
      rewrite wr_whole by exact LT. exact G.
    + f_equal. rewrite rd_wr_other by lia. apply rd_same; lia.
  - rewrite RT by reflexivity.
    destruct (gcm_dec k iv aad msg tag) as [p|] eqn:G.
    2:{ destruct (w_back w); cbn [negb]; badg. }
    pose proof (dec_len _ _ _ _ _ _ G) as LP.
    destruct (w_back w); cbn [negb]; [|badg].
    rewrite Nat.ltb_irrefl. destruct (length tag <? 0) eqn:Z; [apply Nat.ltb_lt in Z; lia|].
    left. split; [reflexivity|]. exists k, p. split; [exact PK|].
    split; [cbn [gcm_gives]; auto|].
    f_equal. apply rd_same; [symmetry; exact LP|]. unfold total in T. lia.
Qed.

(* With DMA a call that fails may have written its result: only what the library
   made of its arguments. *)
Definition gcm_ends_dma (w : world) (a : aes) (enc : bool) (msg iv aad tag out : list byte)
    (r : list byte * list byte * outcome) : Prop :=
  let '(out', tag', o) := r in
  (o = Done /\ exists k x, pick_key w enc (a_id a) (a_key a) = Some k /\
     gcm_gives enc k iv aad msg tag x tag' /\ out' = wr 0 x out) \/
  (o <> Done /\ tag' = tag /\
   (out' = out \/ exists k x t, pick_key w enc (a_id a) (a_key a) = Some k /\
                    gcm_gives enc k iv aad msg tag x t /\ out' = wr 0 x out)).

Ltac badd := right; split; [discriminate|split; [reflexivity|left; reflexivity]].

Lemma gcm_call_dma_ends : forall w a enc msg iv aad tag out, length (w_old w) = DL ->
  gcm_ends_dma w a enc msg iv aad tag out
    (gcm_call_dma gcm_enc gcm_dec DL w a enc msg iv aad tag out).
Proof.
  intros w a enc msg iv aad tag out LW. unfold gcm_call_dma, gcm_serve_dma.
  set (total := HDR + GCM_DREQ + length iv + (if enc then 0 else length tag) + length (dma_key a)).
  destruct (fits DL total); cbn [negb]; [|badd].
  destruct (DL <? total) eqn:T; [badd|]. apply Nat.ltb_ge in T.
  destruct (w_sent w); cbn [negb]; [|badd].
  destruct (total - HDR <? GCM_DREQ) eqn:Q1.
  { destruct (w_back w); cbn [negb]; badd. }
  match goal with |- context [negb (?x =? ?y)] => destruct (x =? y) eqn:Q2; cbn [negb] end.
  2:{ destruct (w_back w); cbn [negb]; badd. }
  rewrite Nat.eqb_refl; cbn [negb].
  set (mid := if enc then [] else tag) in *.
  set (buf := got w GCM_DREQ (iv ++ mid ++ dma_key a)).
  assert (LM : length mid = if enc then 0 else length tag) by (unfold mid; destruct enc; reflexivity).
  assert (LB : length buf = DL).
  { unfold buf. rewrite got_length; [exact LW|]. rewrite !app_length, LW, LM.
    unfold total in T. lia. }
  assert (RI : rd (HDR + GCM_DREQ) (length iv) buf = iv).
  { apply (got_rd w GCM_DREQ [] iv); cbn [length]; lia. }
  assert (RT : enc = false -> rd (HDR + GCM_DREQ + length iv) (length tag) buf = tag).
  { intros EF. unfold buf, mid. rewrite EF. apply got_rd; reflexivity. }
  assert (RK : rd (HDR + GCM_DREQ + length iv + (if enc then 0 else length tag))
                  (length (dma_key a)) buf = dma_key a).
  { unfold buf. rewrite (app_assoc iv). rewrite <- (app_nil_r (dma_key a)) at 2.
    apply got_rd; [rewrite app_length, LM; lia|reflexivity]. }
  rewrite RK, pick_dma_same.
  destruct (pick_key w enc (a_id a) (a_key a)) as [k|] eqn:PK.
  2:{ destruct (w_back w); cbn [negb]; badd. }
  destruct (w_in w); cbn [negb]; [|destruct (w_back w); cbn [negb]; badd].
  destruct (w_out w); cbn [negb]; [|destruct (w_back w); cbn [negb]; badd].
  destruct (w_lib w); cbn [negb]; [|destruct (w_back w); cbn [negb]; badd].
  rewrite RI.
  assert (LAND : forall x out', out' = landed w x out -> out' = out \/ out' = wr 0 x out).
  { intros x out' ->. unfold landed. destruct (w_post w || w_copied w); auto. }
  destruct enc.
  - destruct (gcm_enc k iv aad msg (length tag)) as [[c t]|] eqn:G.
    2:{ destruct (w_back w); cbn [negb]; badd. }
    destruct (enc_len _ _ _ _ _ _ _ G) as (LC & LT & L16).
    assert (FAIL : forall o, o <> Done -> gcm_ends_dma w a true msg iv aad tag out (landed w c out, tag, o)).
    { intros o NO. right. split; [exact NO|]. split; [reflexivity|].
      destruct (LAND c _ eq_refl) as [Y|Y]; [left; exact Y|right].
      exists k, c, t. split; [exact PK|]. split; [exact G|exact Y]. }
    destruct (w_back w); cbn [negb]; [|apply FAIL; discriminate].
    destruct (w_post w) eqn:WP; [|apply FAIL; discriminate].
    rewrite Nat.ltb_irrefl. left. split; [reflexivity|]. exists k, c. split; [exact PK|].
    split; [|unfold landed; rewrite WP; reflexivity].
    cbn [gcm_gives]. rewrite rd_same; [|lia|unfold total, HDR, GCM_DREQ, DRESP in *; lia].
    rewrite wr_whole by exact LT. exact G.
  - rewrite RT by reflexivity.
    destruct (gcm_dec k iv aad msg tag) as [p|] eqn:G.
    2:{ destruct (w_back w); cbn [negb]; badd. }
    assert (FAIL : forall o, o <> Done -> gcm_ends_dma w a false msg iv aad tag out (landed w p out, tag, o)).
    { intros o NO. right. split; [exact NO|]. split; [reflexivity|].
      destruct (LAND p _ eq_refl) as [Y|Y]; [left; exact Y|right].
      exists k, p, tag. split; [exact PK|]. split; [split; [exact G|reflexivity]|exact Y]. }
    destruct (w_back w); cbn [negb]; [|apply FAIL; discriminate].
    destruct (w_post w) eqn:WP; [|apply FAIL; discriminate].
    destruct (length tag <? 0) eqn:Z; [apply Nat.ltb_lt in Z; lia|].
    left. split; [reflexivity|]. exists k, p. split; [exact PK|].
    split; [cbn [gcm_gives]; auto|]. unfold landed. rewrite WP. reflexivity.
Qed.

End Calls.
