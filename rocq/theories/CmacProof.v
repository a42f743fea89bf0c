(* The library's update and final, run from request to request, are CMAC on the
   whole message. *)
From Coq Require Import Arith NArith List Bool Lia.
From Verif Require Import KdfModel PropertiesKdf AesModel AesSpec AesProof CmacSpec CmacModel.
Import ListNotations.

Lemma zipx_comm : forall a b, zipx a b = zipx b a.
Proof.
  induction a as [|x a IH]; intros [|y b]; try reflexivity.
  cbn [zipx]. rewrite IH, N.lxor_comm. reflexivity.
Qed.

Lemma zipx_assoc : forall a b c, zipx (zipx a b) c = zipx a (zipx b c).
Proof.
  induction a as [|x a IH]; intros [|y b] [|z c]; try reflexivity.
  cbn [zipx]. rewrite IH, N.lxor_assoc. reflexivity.
Qed.

Lemma zipx_zero : forall b n, n = length b -> zipx (repeat 0%N n) b = b.
Proof.
  induction b as [|x b IH]; intros n ->; [reflexivity|].
  cbn [length repeat zipx]. rewrite IH, N.lxor_0_l by reflexivity. reflexivity.
Qed.

Section Mac.

Variable E : list byte -> list byte -> list byte.
Variable K1 K2 : list byte -> list byte.
Hypothesis E16 : forall k b, length b = 16 -> length (E k b) = 16.

(* The state after [pre ++ pend]: [pre] in the digest, [pend] in the buffer. *)
Definition mid (k : list byte) (pre pend : list byte) (q : nat) (s : mac_state) : Prop :=
  length (st_buf s) = 16 /\ length (st_dig s) = 16 /\
  length pre = 16 * q /\ length pend <= 16 /\ st_n s = length pend /\
  firstn (length pend) (st_buf s) = pend /\ st_tot s = N.of_nat (16 * q) /\
  st_dig s = CBC_MAC (E k) (blocks pre).

Lemma CBC_MAC_16 : forall k l, Forall (fun b => length b = 16) l ->
  length (CBC_MAC (E k) l) = 16.
Proof.
  intros k l. unfold CBC_MAC. cut (forall c, length c = 16 -> Forall (fun b => length b = 16) l ->
    length (fold_left (fun c b => E k (xor c b)) l c) = 16).
  { intros H F. apply H; [reflexivity|exact F]. }
  induction l as [|x l IH]; intros c C F; [exact C|]. inversion F; subst.
  cbn [fold_left]. apply IH; [|assumption]. apply E16. rewrite xor_length. lia.
Qed.

Lemma wr_at : forall (buf d : list byte) p, firstn (length p) buf = p -> length p <= length buf ->
  firstn (length p + length d) (wr (length p) d buf) = p ++ d.
Proof.
  intros buf d p F L. unfold wr. rewrite F. rewrite app_assoc.
  rewrite firstn_app, app_length, Nat.sub_diag, firstn_O, app_nil_r.
  rewrite <- app_length. apply firstn_all.
Qed.

Lemma update_mid : forall k fuel inp pre pend q s,
  mid k pre pend q s ->
  2 * length inp + (if st_n s =? 16 then 1 else 0) <= fuel ->
  (N.of_nat (length pre + length pend + length inp) < 4294967296)%N ->
  exists pre' pend' q', mid k pre' pend' q' (lib_update (E k) fuel s inp) /\
    pre' ++ pend' = pre ++ pend ++ inp /\ (inp <> [] -> pend' <> []) /\
    (inp = [] -> pend' = pend /\ pre' = pre).
Proof.
  intros k. induction fuel as [|f IH]; intros inp pre pend q s M F T.
  - destruct inp; [|cbn [length] in F; lia].
    exists pre, pend, q. cbn [lib_update]. rewrite app_nil_r. split; [exact M|].
    split; [reflexivity|]. split; [intros X; contradiction X; reflexivity|auto].
  - cbn [lib_update]. destruct (length inp =? 0) eqn:Z.
    + apply Nat.eqb_eq, length_zero_iff_nil in Z. subst inp.
      exists pre, pend, q. rewrite app_nil_r. split; [exact M|].
      split; [reflexivity|]. split; [intros X; contradiction X; reflexivity|auto].
    + apply Nat.eqb_neq in Z.
      assert (NE : inp <> []) by (intros ->; apply Z; reflexivity).
      destruct M as (LB & LD & LP & LQ & SN & FB & ST & SD).
      set (add := Nat.min (length inp) (BLOCK - st_n s)).
      assert (AD : add <= length inp) by (unfold add; lia).
      assert (LF : length (firstn add inp) = add) by (apply firstn_length_le; exact AD).
      assert (AR : length pend + add <= 16) by (unfold add, BLOCK; lia).
      set (buf := wr (st_n s) (firstn add inp) (st_buf s)).
      assert (LBuf : length buf = 16).
      { unfold buf. rewrite wr_length; [exact LB|rewrite LF; lia]. }
      assert (FBuf : firstn (length pend + add) buf = pend ++ firstn add inp).
      { unfold buf. rewrite SN. rewrite <- LF at 1. apply wr_at; [exact FB|lia]. }
      pose proof (firstn_skipn add inp) as SP.
      assert (LS : length (skipn add inp) = length inp - add) by apply skipn_length.
      destruct ((st_n s + add =? BLOCK) && negb (length (skipn add inp) =? 0)) eqn:C.
      * apply andb_true_iff in C. destruct C as [C1 C2].
        apply Nat.eqb_eq in C1. apply negb_true_iff, Nat.eqb_neq in C2. unfold BLOCK in C1.
        assert (FULL : buf = pend ++ firstn add inp).
        { rewrite <- FBuf. symmetry. apply firstn_all2. lia. }
        set (b := if (st_tot s =? 0)%N then buf else zipx buf (st_dig s)).
        assert (Lb : length b = 16).
        { unfold b. destruct (st_tot s =? 0)%N; [exact LBuf|]. rewrite zipx_length. lia. }
        set (s1 := mkSt b (E k b) 0 (w32 (st_tot s + 16))).
        assert (M1 : mid k (pre ++ pend ++ firstn add inp) [] (S q) s1).
        { unfold mid, s1. cbn [st_buf st_dig st_n st_tot length].
          split; [exact Lb|]. split; [apply E16; exact Lb|].
          split; [rewrite !app_length, LF; lia|].
          split; [lia|]. split; [reflexivity|]. split; [reflexivity|].
          split.
          - unfold w32. rewrite ST. rewrite N.mod_small by lia. lia.
          - rewrite (blocks_app q) by exact LP.
            rewrite <- FULL.
            assert (BB : blocks buf = [buf]).
            { pose proof (blocks_cons buf [] LBuf) as BC. rewrite app_nil_r, blocks_nil in BC.
              exact BC. }
            rewrite BB.
            unfold CBC_MAC. rewrite fold_left_app. cbn [fold_left].
            fold (CBC_MAC (E k) (blocks pre)). f_equal. rewrite <- zipx_xor.
            unfold b. destruct (st_tot s =? 0)%N eqn:T0.
            + apply N.eqb_eq in T0. rewrite ST in T0.
              assert (Q0 : q = 0) by lia. subst q.
              assert (P0 : pre = []) by (apply length_zero_iff_nil; lia). subst pre.
              rewrite blocks_nil. unfold CBC_MAC. cbn [fold_left]. unfold zero16.
              symmetry. apply zipx_zero. symmetry. exact LBuf.
            + rewrite SD. apply zipx_comm. }
        destruct (IH (skipn add inp) _ _ _ _ M1) as (pre' & pend' & q' & M' & J & NN & _).
        -- unfold s1. cbn [st_n Nat.eqb]. rewrite LS.
           destruct (st_n s =? 16) eqn:N16; rewrite ?N16 in F.
           ++ lia.
           ++ apply Nat.eqb_neq in N16.
              assert (1 <= add) by (unfold add, BLOCK; lia). lia.
        -- cbn [length]. rewrite !app_length, LF, LS. lia.
        -- exists pre', pend', q'. split; [exact M'|].
           split. { rewrite J. cbn [app]. rewrite <- SP at 3. rewrite <- !app_assoc. reflexivity. }
           split; [intros _; apply NN; intros X; rewrite X in C2; apply C2; reflexivity|].
           intros X; contradiction NE.
      * set (s1 := mkSt buf (st_dig s) (st_n s + add) (st_tot s)).
        assert (NF : st_n s <> 16).
        { intros X. unfold add in C. rewrite X in C. unfold BLOCK in C.
          change (16 - 16) with 0 in C. rewrite Nat.min_0_r in C. cbn [skipn] in C.
          change (16 + 0 =? 16) with true in C. cbn [andb] in C.
          apply negb_false_iff, Nat.eqb_eq in C. contradiction. }
        assert (RE : skipn add inp = []).
        { apply andb_false_iff in C. destruct C as [C|C].
          - apply Nat.eqb_neq in C. apply length_zero_iff_nil. rewrite LS.
            unfold add, BLOCK in *. lia.
          - apply negb_false_iff, Nat.eqb_eq in C. apply length_zero_iff_nil. exact C. }
        assert (FI : firstn add inp = inp).
        { rewrite <- SP at 2. rewrite RE, app_nil_r. reflexivity. }
        assert (M1 : mid k pre (pend ++ inp) q s1).
        { unfold mid, s1. cbn [st_buf st_dig st_n st_tot].
          assert (LA : length inp = add) by (rewrite <- FI at 1; exact LF).
          rewrite app_length, LA.
          split; [exact LBuf|]. split; [exact LD|]. split; [exact LP|]. split; [exact AR|].
          split; [lia|]. split; [rewrite FBuf, FI; reflexivity|]. split; assumption. }
        rewrite RE.
        assert (FX : lib_update (E k) f s1 [] = s1) by (destruct f; reflexivity).
        rewrite FX. exists pre, (pend ++ inp), q. split; [exact M1|].
        split; [reflexivity|]. split.
        -- intros _ X. apply app_eq_nil in X. destruct X as [_ X]. contradiction.
        -- intros X. contradiction.
Qed.

(* The state of a stream that was given [P]. *)
Definition holds (k P : list byte) (s : mac_state) : Prop :=
  exists pre pend q, mid k pre pend q s /\ pre ++ pend = P /\ (pend = [] -> pre = []).

Lemma holds_zero : forall k, holds k [] st_zero.
Proof.
  intros k. exists [], [], 0. split; [|split; [reflexivity|auto]].
  unfold mid, st_zero. cbn [st_buf st_dig st_n st_tot length].
  repeat (split; [try reflexivity; try apply Nat.le_0_l|]). reflexivity.
Qed.

Lemma holds_update : forall k P s inp, holds k P s -> inp <> [] ->
  (N.of_nat (length P + length inp) < 4294967296)%N ->
  holds k (P ++ inp) (update E k s inp).
Proof.
  intros k P s inp (pre & pend & q & M & <- & Z) NE T. unfold update.
  destruct (update_mid k (2 * length inp + 1) inp pre pend q s M) as (pre' & pend' & q' & M' & J & NN & _).
  - destruct (st_n s =? 16); lia.
  - rewrite app_length in T. exact T.
  - exists pre', pend', q'. split; [exact M'|]. split; [rewrite J, app_assoc; reflexivity|].
    intros X. exfalso. apply (NN NE X).
Qed.

Lemma holds_fresh : forall k P s, holds k P s ->
  ((st_n s =? 0) && (st_tot s =? 0)%N = true <-> P = []).
Proof.
  intros k P s (pre & pend & q & (LB & LD & LP & LQ & SN & FB & ST & SD) & <- & Z).
  rewrite andb_true_iff, Nat.eqb_eq, N.eqb_eq. split.
  - intros [A B]. assert (pend = []) by (apply length_zero_iff_nil; lia). subst pend.
    rewrite Z by reflexivity. reflexivity.
  - intros X. apply app_eq_nil in X. destruct X as [-> ->]. cbn [length] in *. split; lia.
Qed.

Lemma holds_small : forall k P s, holds k P s -> (BLOCK <? st_n s) = false.
Proof.
  intros k P s (pre & pend & q & (LB & LD & LP & LQ & SN & FB & ST & SD) & _).
  apply Nat.ltb_ge. unfold BLOCK. lia.
Qed.

(* A state that holds nothing holds nothing under any key. *)
Lemma holds_nil_any : forall k k' s, holds k [] s -> holds k' [] s.
Proof.
  intros k k' s (pre & pend & q & (LB & LD & LP & LQ & SN & FB & ST & SD) & X & Z).
  apply app_eq_nil in X. destruct X as [-> ->].
  exists [], [], q. split; [|split; [reflexivity|auto]]. unfold mid.
  repeat (split; [assumption|]). rewrite SD. reflexivity.
Qed.

Lemma final_ok : forall k P s n, holds k P s -> TAG_MIN <= n <= TAG_MAX ->
  lib_final E K1 K2 k s n = Some (firstn n (CMAC (E k) (K1 k) (K2 k) P)).
Proof.
  intros k P s n (pre & pend & q & (LB & LD & LP & LQ & SN & FB & ST & SD) & <- & Z) [N1 N2].
  unfold lib_final.
  rewrite (proj2 (Nat.ltb_ge _ _)) by exact N1. rewrite (proj2 (Nat.ltb_ge _ _)) by exact N2.
  cbn [orb]. rewrite (proj2 (Nat.ltb_ge BLOCK _)) by (unfold BLOCK; lia).
  assert (Q : (length (pre ++ pend) - 1) / 16 = q).
  { rewrite app_length. destruct pend as [|x pend].
    - rewrite Z in * by reflexivity. cbn [length] in *. assert (q = 0) by lia. subst q. reflexivity.
    - symmetry. apply (Nat.div_unique _ _ _ (length pend)); cbn [length] in *; lia. }
  unfold CMAC. rewrite Q.
  rewrite <- LP. rewrite firstn_app, Nat.sub_diag, firstn_O, app_nil_r, firstn_all.
  rewrite skipn_app, Nat.sub_diag, skipn_all. cbn [app skipn].
  unfold CBC_MAC. rewrite fold_left_app. cbn [fold_left].
  fold (CBC_MAC (E k) (blocks pre)). rewrite <- SD.
  rewrite SN. unfold BLOCK. destruct (length pend =? 16) eqn:L16.
  - apply Nat.eqb_eq in L16. rewrite L16 in FB. rewrite firstn_all2 in FB by lia.
    rewrite FB. do 3 f_equal. rewrite <- !zipx_xor.
    rewrite zipx_assoc, (zipx_comm (st_dig s)), <- zipx_assoc, (zipx_comm _ (st_dig s)). reflexivity.
  - rewrite FB. change (16 - 1) with 15. do 3 f_equal. rewrite <- !zipx_xor.
    rewrite (zipx_comm _ (st_dig s)), zipx_assoc. reflexivity.
Qed.

Lemma generate_ok : forall k inp n, inp <> [] -> TAG_MIN <= n <= TAG_MAX ->
  (N.of_nat (length inp) < 4294967296)%N ->
  lib_generate E K1 K2 k inp n = Some (firstn n (CMAC (E k) (K1 k) (K2 k) inp)).
Proof.
  intros k inp n NE T L. unfold lib_generate. apply final_ok; [|exact T].
  change inp with ([] ++ inp) at 1. apply holds_update; [apply holds_zero|exact NE|exact L].
Qed.

End Mac.
