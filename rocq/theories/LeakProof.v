(** Proofs about the answers (LeakModel.v). *)
From Verif Require Import Base BaseLemmas NvmSpec KdfModel KsReq SheModel AuthCodec LeakModel.
Open Scope nat_scope.
Open Scope list_scope.

Lemma nth_skip (l : list N) : forall o k, nth k (skipn o l) 0%N = nth (o + k) l 0%N.
Proof. induction l as [|x l IH]; intros [|o] k; cbn [skipn plus]; auto; [destruct k; reflexivity|]. rewrite IH. reflexivity. Qed.
Lemma wr_nth o v l i : o + length v <= length l -> nth i (wr o v l) 0%N = if (o <=? i) && (i <? o + length v) then nth (i - o) v 0%N else nth i l 0%N.
Proof.
  intros H. unfold wr. destruct (Nat.leb_spec o i); cbn [andb].
  - rewrite app_nth2 by (rewrite firstn_length; lia). rewrite firstn_length, Nat.min_l by lia. destruct (Nat.ltb_spec i (o + length v)).
    + rewrite app_nth1 by lia. reflexivity.
    + rewrite app_nth2 by lia. rewrite nth_skip. f_equal. lia.
  - rewrite app_nth1 by (rewrite firstn_length; lia). rewrite <- (firstn_skipn o l) at 2. rewrite app_nth1 by (rewrite firstn_length; lia). reflexivity.
Qed.
Lemma wr_len o v l : o + length v <= length l -> length (wr o v l) = length l.
Proof. intros H. unfold wr. rewrite !app_length, firstn_length, skipn_length. lia. Qed.
Lemma exactly_len n l : length (exactly n l) = n.
Proof. unfold exactly. rewrite firstn_length, app_length, repeat_length. lia. Qed.
Lemma rd_len o n l : o + n <= length l -> length (rd o n l) = n.
Proof. intros H. unfold rd. rewrite firstn_length, skipn_length. lia. Qed.
Lemma rd_nth o n l k : k < n -> nth k (rd o n l) 0%N = nth (o + k) l 0%N.
Proof.
  intros H. unfold rd. rewrite <- nth_skip. rewrite <- (firstn_skipn n (skipn o l)) at 2.
  destruct (Nat.lt_ge_cases k (length (firstn n (skipn o l)))) as [L|L].
  - rewrite app_nth1 by exact L. reflexivity.
  - rewrite nth_overflow by exact L. rewrite firstn_length in L. rewrite firstn_skipn. symmetry. apply nth_overflow. lia.
Qed.

(** ** The structure on the stack *)
Definition covers (i : nat) (f : nat * nat) : bool := (fst f <=? i) && (i <? fst f + snd f).
Definition fits_in (n : nat) (f : nat * nat) : bool := fst f + snd f <=? n.
Lemma assign_len l f v : fst f + snd f <= length l -> length (assign l (f, v)) = length l.
Proof. intros H. unfold assign. cbn [fst snd]. apply wr_len. rewrite exactly_len. exact H. Qed.
Lemma assign_nth l f v i : fst f + snd f <= length l -> nth i (assign l (f, v)) 0%N = if covers i f then nth (i - fst f) (exactly (snd f) v) 0%N else nth i l 0%N.
Proof. intros H. unfold assign. cbn [fst snd]. rewrite wr_nth by (rewrite exactly_len; exact H). rewrite exactly_len. reflexivity. Qed.
Lemma assigns_len fs : forall vals l, forallb (fits_in (length l)) fs = true -> length (fold_left assign (combine fs vals) l) = length l.
Proof.
  induction fs as [|f fs IH]; intros [|v vals] l H; cbn [combine fold_left]; auto. cbn [forallb] in H. apply andb_true_iff in H. destruct H as [H1 H2].
  apply Nat.leb_le in H1. rewrite IH; rewrite assign_len by exact H1; auto.
Qed.
(** A byte is what was there or one of the values. *)
Lemma assigns_same fs : forall vals l1 l2 i, length vals = length fs -> length l1 = length l2 -> forallb (fits_in (length l1)) fs = true ->
  nth i l1 0%N = nth i l2 0%N \/ existsb (covers i) fs = true ->
  nth i (fold_left assign (combine fs vals) l1) 0%N = nth i (fold_left assign (combine fs vals) l2) 0%N.
Proof.
  induction fs as [|f fs IH]; intros [|v vals] l1 l2 i LV L12 H C; cbn [combine fold_left existsb length] in *; try discriminate.
  - destruct C as [C|C]; [exact C|discriminate].
  - cbn [forallb] in H. apply andb_true_iff in H. destruct H as [H1 H2]. apply Nat.leb_le in H1.
    assert (A1 : length (assign l1 (f, v)) = length l1) by (apply assign_len; exact H1). assert (A2 : length (assign l2 (f, v)) = length l2) by (apply assign_len; lia).
    apply IH; [lia|lia|rewrite A1; exact H2|]. rewrite !assign_nth by lia. destruct (covers i f) eqn:K; [left; reflexivity|].
    destruct C as [C|C]; [left; exact C|right; cbn [orb] in C; exact C].
Qed.
Lemma assigns_skip fs : forall vals l i, forallb (fits_in (length l)) fs = true -> existsb (covers i) fs = false ->
  nth i (fold_left assign (combine fs vals) l) 0%N = nth i l 0%N.
Proof.
  induction fs as [|f fs IH]; intros [|v vals] l i H C; cbn [combine fold_left existsb] in *; auto.
  cbn [forallb] in H. apply andb_true_iff in H. destruct H as [H1 H2]. apply Nat.leb_le in H1. apply orb_false_iff in C. destruct C as [C1 C2].
  rewrite IH by (rewrite ?assign_len by exact H1; auto). rewrite assign_nth by exact H1. rewrite C1. reflexivity.
Qed.

(** ** Rows *)
(** Fields lie in the structure; copied fields lie in order and apart. *)
Fixpoint apart (at_ : nat) (ts : list ((nat * nat) * bool)) : bool :=
  match ts with [] => true | ((o, n), _) :: r => (at_ <=? o) && apart (o + n) r end.
Definition row_ok (a : ans) : bool :=
  forallb (fits_in (a_size a)) (a_set a) && forallb (fun t => fits_in (a_size a) (fst t)) (a_tr a) && apart 0 (a_tr a).
Definition known (a : ans) (i : nat) : bool := a_clear a || existsb (covers i) (a_set a).
Definition clean (a : ans) : bool := forallb (fun t => forallb (known a) (seq (fst (fst t)) (snd (fst t)))) (a_tr a).

Lemma start_len a stack : length (if a_clear a then repeat 0%N (a_size a) else exactly (a_size a) stack) = a_size a.
Proof. destruct (a_clear a); [apply repeat_length|apply exactly_len]. Qed.
Lemma row_parts a : row_ok a = true -> forallb (fits_in (a_size a)) (a_set a) = true /\ forallb (fun t => fits_in (a_size a) (fst t)) (a_tr a) = true /\ apart 0 (a_tr a) = true.
Proof. unfold row_ok. rewrite !andb_true_iff. tauto. Qed.
Lemma local_len a stack vals : row_ok a = true -> length (local_struct a stack vals) = a_size a.
Proof. intros R. apply row_parts in R. unfold local_struct. rewrite assigns_len by (rewrite start_len; apply R). apply start_len. Qed.
Lemma local_known a s1 s2 vals i : row_ok a = true -> length vals = length (a_set a) -> known a i = true ->
  nth i (local_struct a s1 vals) 0%N = nth i (local_struct a s2 vals) 0%N.
Proof.
  intros R L K. apply row_parts in R. unfold local_struct. apply assigns_same; auto.
  - rewrite !start_len. reflexivity.
  - rewrite start_len. apply R.
  - unfold known in K. destruct (a_clear a); [left; reflexivity|right; exact K].
Qed.
Lemma exactly_nth n l i : i < n -> nth i (exactly n l) 0%N = nth i l 0%N.
Proof.
  intros H. unfold exactly. change (firstn n (l ++ repeat 0%N n)) with (rd 0 n (l ++ repeat 0%N n)). rewrite rd_nth by exact H. cbn [plus].
  destruct (Nat.lt_ge_cases i (length l)).
  - apply app_nth1. lia.
  - rewrite app_nth2 by lia. rewrite (nth_overflow l) by lia. apply nth_repeat.
Qed.
Lemma local_unknown a stack vals i : row_ok a = true -> i < a_size a -> known a i = false -> nth i (local_struct a stack vals) 0%N = nth i stack 0%N.
Proof.
  intros R HI K. apply row_parts in R. unfold known in K. apply orb_false_iff in K. destruct K as [K1 K2]. unfold local_struct.
  rewrite assigns_skip by (rewrite ?start_len; auto; apply R). rewrite K1. apply exactly_nth. exact HI.
Qed.

(** ** The packet *)
Lemma copy_len swap loc p o n sw : o + n <= length loc -> o + n <= length p -> length (copy swap loc p ((o, n), sw)) = length p.
Proof. intros H1 H2. unfold copy. apply wr_len. destruct (sw && swap); rewrite ?rev_length, rd_len by exact H1; exact H2. Qed.
Lemma copies_same swap ts : forall l1 l2 p, (forall t, In t ts -> rd (fst (fst t)) (snd (fst t)) l1 = rd (fst (fst t)) (snd (fst t)) l2) ->
  fold_left (copy swap l1) ts p = fold_left (copy swap l2) ts p.
Proof.
  induction ts as [|[[o n] sw] ts IH]; intros l1 l2 p H; cbn [fold_left]; auto.
  assert (E : copy swap l1 p ((o, n), sw) = copy swap l2 p ((o, n), sw)) by (pose proof (H ((o, n), sw) (or_introl eq_refl)) as X; cbn [fst snd] in X; unfold copy; rewrite X; reflexivity).
  rewrite E. apply IH. intros t I. apply H. right. exact I.
Qed.
Lemma clean_same a swap s1 s2 vals old : row_ok a = true -> clean a = true -> length vals = length (a_set a) ->
  answer a swap s1 vals old = answer a swap s2 vals old.
Proof.
  intros R C L. unfold answer. f_equal. apply copies_same. intros t I.
  pose proof (local_len a s1 vals R) as L1. pose proof (local_len a s2 vals R) as L2.
  unfold clean in C. rewrite forallb_forall in C. specialize (C t I). rewrite forallb_forall in C.
  pose proof (row_parts a R) as (_ & F & _). rewrite forallb_forall in F. specialize (F t I). apply Nat.leb_le in F.
  apply (nth_ext _ _ 0%N 0%N); [rewrite !rd_len by lia; reflexivity|]. intros k HK. rewrite rd_len in HK by lia.
  rewrite !rd_nth by exact HK. apply local_known; auto. apply C. apply in_seq. lia.
Qed.
(** Bytes before the remaining fields stay. *)
Lemma copies_before swap loc ts : forall at_ p i, apart at_ ts = true -> (forall t, In t ts -> fst (fst t) + snd (fst t) <= length loc) ->
  length loc <= length p -> i < at_ -> nth i (fold_left (copy swap loc) ts p) 0%N = nth i p 0%N.
Proof.
  induction ts as [|[[o n] sw] ts IH]; intros at_ p i A F LP HI; cbn [fold_left]; auto.
  cbn [apart] in A. apply andb_true_iff in A. destruct A as [A1 A2]. apply Nat.leb_le in A1.
  pose proof (F ((o, n), sw) (or_introl eq_refl)) as F1. cbn [fst snd] in F1.
  assert (CL : length (copy swap loc p ((o, n), sw)) = length p) by (apply copy_len; lia).
  rewrite (IH (o + n)); auto; [|intros t I; apply F; right; exact I|lia|lia].
  unfold copy. rewrite wr_nth by (destruct (sw && swap); rewrite ?rev_length, rd_len by lia; lia).
  replace (o <=? i) with false by (symmetry; apply Nat.leb_gt; lia). reflexivity.
Qed.
(** Where byte [i] of the structure goes in the packet. *)
Definition mirror (swap : bool) (t : (nat * nat) * bool) (i : nat) : nat :=
  let '((o, n), sw) := t in if sw && swap then o + (o + n - 1 - i) else i.
Lemma copies_at swap loc ts : forall at_ p t i, apart at_ ts = true -> (forall t, In t ts -> fst (fst t) + snd (fst t) <= length loc) ->
  length loc <= length p -> In t ts -> covers i (fst t) = true -> nth (mirror swap t i) (fold_left (copy swap loc) ts p) 0%N = nth i loc 0%N.
Proof.
  induction ts as [|[[o n] sw] ts IH]; intros at_ p t i A F LP I K; [destruct I|]. cbn [fold_left].
  cbn [apart] in A. apply andb_true_iff in A. destruct A as [A1 A2]. apply Nat.leb_le in A1.
  pose proof (F ((o, n), sw) (or_introl eq_refl)) as F1. cbn [fst snd] in F1.
  assert (CL : length (copy swap loc p ((o, n), sw)) = length p) by (apply copy_len; lia).
  destruct I as [<-|I].
  - unfold covers in K. cbn [fst snd] in K. apply andb_true_iff in K. destruct K as [K1 K2]. apply Nat.leb_le in K1. apply Nat.ltb_lt in K2.
    rewrite (copies_before swap loc ts (o + n)); auto; [|intros t I; apply F; right; exact I|lia|unfold mirror; destruct (sw && swap); lia].
    unfold copy, mirror. rewrite wr_nth by (destruct (sw && swap); rewrite ?rev_length, rd_len by lia; lia).
    destruct (sw && swap); rewrite ?rev_length, rd_len by lia.
    + replace (o <=? o + (o + n - 1 - i)) with true by (symmetry; apply Nat.leb_le; lia). replace (o + (o + n - 1 - i) <? o + n) with true by (symmetry; apply Nat.ltb_lt; lia). cbn [andb].
      rewrite rev_nth by (rewrite rd_len by lia; lia). rewrite rd_len by lia. rewrite rd_nth by lia. f_equal. lia.
    + replace (o <=? i) with true by (symmetry; apply Nat.leb_le; lia). replace (i <? o + n) with true by (symmetry; apply Nat.ltb_lt; lia). cbn [andb].
      rewrite rd_nth by lia. f_equal. lia.
  - apply (IH (o + n)); auto; [intros u J; apply F; right; exact J|lia].
Qed.
(** The stack bytes an answer shows: where they are in it and on the stack. *)
Definition shown_field (a : ans) (swap : bool) (t : (nat * nat) * bool) : list (nat * nat) :=
  map (fun i => (mirror swap t i, i)) (filter (fun i => negb (known a i)) (seq (fst (fst t)) (snd (fst t)))).
Definition shown (a : ans) (swap : bool) : list (nat * nat) := flat_map (shown_field a swap) (a_tr a).
Lemma shown_bytes a swap stack vals old p i : row_ok a = true -> a_size a <= length old -> In (p, i) (shown a swap) ->
  p < a_size a /\ nth p (answer a swap stack vals old) 0%N = nth i stack 0%N.
Proof.
  intros R LO I. unfold shown in I. apply in_flat_map in I. destruct I as (t & IT & I). unfold shown_field in I. apply in_map_iff in I.
  destruct I as (j & E & J). injection E as E1 <-. apply filter_In in J. destruct J as [J K]. apply in_seq in J. apply negb_true_iff in K.
  pose proof (row_parts a R) as (_ & F & A). rewrite forallb_forall in F.
  assert (F2 : forall t, In t (a_tr a) -> fst (fst t) + snd (fst t) <= a_size a) by (intros u U; apply Nat.leb_le; exact (F u U)).
  pose proof (F2 t IT) as FT. destruct t as [[o n] sw]. cbn [fst snd] in J, FT.
  assert (PB : p < a_size a) by (subst p; unfold mirror; destruct (sw && swap); lia). split; [exact PB|].
  unfold answer.
  assert (FN : forall l, nth p (firstn (a_size a) l) 0%N = nth p l 0%N) by (intros l; exact (rd_nth 0 (a_size a) l p PB)). rewrite FN. subst p.
  rewrite (copies_at swap _ (a_tr a) 0) with (t := ((o, n), sw)); auto.
  - apply local_unknown; auto. lia.
  - rewrite local_len by exact R. exact F2.
  - rewrite local_len by exact R. exact LO.
  - unfold covers. cbn [fst snd]. apply andb_true_iff. split; [apply Nat.leb_le; lia|apply Nat.ltb_lt; lia].
Qed.
(** ... and through nothing else does the stack show. *)
Lemma shown_all a swap s1 s2 vals old : row_ok a = true -> length vals = length (a_set a) -> (forall p i, In (p, i) (shown a swap) -> nth i s1 0%N = nth i s2 0%N) ->
  answer a swap s1 vals old = answer a swap s2 vals old.
Proof.
  intros R L S. unfold answer. f_equal. apply copies_same. intros t I.
  pose proof (local_len a s1 vals R) as L1. pose proof (local_len a s2 vals R) as L2.
  pose proof (row_parts a R) as (_ & F & _). rewrite forallb_forall in F. specialize (F t I). apply Nat.leb_le in F.
  apply (nth_ext _ _ 0%N 0%N); [rewrite !rd_len by lia; reflexivity|]. intros k HK. rewrite rd_len in HK by lia.
  rewrite !rd_nth by exact HK. destruct (known a (fst (fst t) + k)) eqn:K; [apply local_known; auto|].
  rewrite !local_unknown by (auto; lia). apply (S (mirror swap t (fst (fst t) + k))). unfold shown. apply in_flat_map. exists t. split; [exact I|].
  unfold shown_field. apply in_map_iff. exists (fst (fst t) + k). split; [reflexivity|]. apply filter_In. split; [apply in_seq; lia|rewrite K; reflexivity].
Qed.
Lemma answer_len a swap stack vals old : row_ok a = true -> a_size a <= length old -> length (answer a swap stack vals old) = a_size a.
Proof.
  intros R LO. unfold answer. rewrite firstn_length. pose proof (row_parts a R) as (_ & F & _). rewrite forallb_forall in F.
  assert (G : forall ts p, (forall t, In t ts -> In t (a_tr a)) -> a_size a <= length p -> a_size a <= length (fold_left (copy swap (local_struct a stack vals)) ts p)).
  { induction ts as [|[[o n] sw] ts IH]; intros p I LP; cbn [fold_left]; auto. apply IH; [intros t J; apply I; right; exact J|].
    specialize (F _ (I _ (or_introl eq_refl))). apply Nat.leb_le in F. cbn [fst snd] in F. rewrite copy_len; [exact LP|rewrite local_len by exact R; exact F|lia]. }
  specialize (G (a_tr a) old (fun t I => I) LO). lia.
Qed.
(** The code at the front of an answer. *)
Definition code_first (a : ans) : bool :=
  match a_set a, a_tr a with
  | (0, 4) :: fs, ((0, 4), true) :: _ => forallb (fun i => negb (existsb (covers i) fs)) (seq 0 4) && (4 <=? a_size a)
  | _, _ => false
  end.
Lemma answer_code a swap stack v vals old : row_ok a = true -> code_first a = true -> a_size a <= length old ->
  firstn 4 (answer a swap stack (v :: vals) old) = (if swap then rev (exactly 4 v) else exactly 4 v).
Proof.
  intros R C LO. pose proof (row_parts a R) as (FS & F & A). pose proof (answer_len a swap stack (v :: vals) old R LO) as LA.
  pose proof (local_len a stack (v :: vals) R) as LL.
  unfold code_first in C. destruct (a_set a) as [|[[|o] n] fs] eqn:SE; try discriminate. destruct n as [|[|[|[|[|n]]]]]; try discriminate.
  destruct (a_tr a) as [|[[[|o1] n1] sw] ts] eqn:TE; try discriminate. destruct n1 as [|[|[|[|[|n1]]]]]; try discriminate. destruct sw; try discriminate.
  apply andb_true_iff in C. destruct C as [C SZ]. apply Nat.leb_le in SZ. rewrite forallb_forall in C.
  assert (F2 : forall t, In t (a_tr a) -> fst (fst t) + snd (fst t) <= length (local_struct a stack (v :: vals))).
  { rewrite LL. intros u U. rewrite TE in U. rewrite forallb_forall in F. apply Nat.leb_le. exact (F u U). }
  assert (LOC : forall i, i < 4 -> nth i (local_struct a stack (v :: vals)) 0%N = nth i (exactly 4 v) 0%N).
  { intros i HI. unfold local_struct. rewrite SE. cbn [combine fold_left]. set (l := if a_clear a then _ else _).
    assert (LN : length l = a_size a) by apply start_len.
    rewrite assigns_skip.
    - rewrite assign_nth by (cbn [fst snd]; lia). unfold covers. cbn [fst snd]. replace (i <? 0 + 4) with true by (symmetry; apply Nat.ltb_lt; lia). cbn [Nat.leb andb]. rewrite Nat.sub_0_r. reflexivity.
    - rewrite assign_len by (cbn [fst snd]; lia). rewrite LN. cbn [forallb] in FS. apply andb_true_iff in FS. apply FS.
    - specialize (C i). rewrite in_seq in C. apply negb_true_iff. apply C. lia. }
  assert (NTH : forall i, i < 4 -> nth (mirror swap ((0, 4), true) i) (answer a swap stack (v :: vals) old) 0%N = nth i (exactly 4 v) 0%N).
  { intros i HI. rewrite <- LOC by exact HI. unfold answer. set (big := fold_left _ _ _).
    assert (MB : mirror swap ((0, 4), true) i < a_size a) by (unfold mirror; destruct swap; cbn [andb]; lia).
    rewrite (rd_nth 0 (a_size a) big _ MB : nth _ (firstn (a_size a) big) 0%N = _). cbn [plus]. unfold big.
    apply (copies_at swap _ (a_tr a) 0); auto.
    - rewrite TE. exact A.
    - rewrite LL. exact LO.
    - rewrite TE. left. reflexivity.
    - unfold covers. cbn [fst snd]. apply andb_true_iff. split; [reflexivity|apply Nat.ltb_lt; lia]. }
  assert (LE : length (exactly 4 v) = 4) by apply exactly_len.
  apply (nth_ext _ _ 0%N 0%N).
  - rewrite firstn_length, LA. destruct swap; rewrite ?rev_length, LE; lia.
  - intros i HI. rewrite firstn_length, LA in HI. assert (HI4 : i < 4) by lia.
    transitivity (nth i (answer a swap stack (v :: vals) old) 0%N); [exact (rd_nth 0 4 (answer a swap stack (v :: vals) old) i HI4)|].
    destruct swap.
    + rewrite rev_nth by lia. rewrite LE. rewrite <- NTH by lia. unfold mirror. cbn [andb]. f_equal. lia.
    + rewrite <- NTH by lia. reflexivity.
Qed.
Fixpoint distinct (l : list nat) : bool := match l with [] => true | x :: r => negb (existsb (Nat.eqb x) r) && distinct r end.
Lemma distinct_nodup l : distinct l = true -> NoDup l.
Proof.
  induction l as [|x l IH]; cbn [distinct]; intros H; constructor; apply andb_true_iff in H; destruct H as [A B]; auto.
  intros I. apply negb_true_iff in A. assert (X : existsb (Nat.eqb x) l = true) by (apply existsb_exists; exists x; split; [exact I|apply Nat.eqb_refl]). congruence.
Qed.
Lemma rows_ok : forallb row_ok answers = true.
Proof. vm_compute. reflexivity. Qed.
