(** C101: secrets compare equal exactly when they are, with no dependence of the
    reads on the contents, and wiped memory is zero. *)
From Coq Require Import List NArith ZArith Arith Lia Bool.
From Verif Require Import CmpModel CmpSpec.
Import ListNotations.

Definition acc (a b : nat -> N) (n : nat) : cmp_state := fold_left (cmp_step a b) (seq 0 n) (0%N, []).

Lemma acc_S a b n : acc a b (S n) = cmp_step a b (acc a b n) n.
Proof. unfold acc. rewrite seq_S, fold_left_app. reflexivity. Qed.

Lemma acc_reads a b n : snd (acc a b n) = seq 0 n.
Proof.
  induction n as [|n IH]; [reflexivity|]. rewrite acc_S, seq_S. unfold cmp_step. cbn [snd].
  rewrite IH. reflexivity.
Qed.

Lemma acc_zero a b n : fst (acc a b n) = 0%N <-> same a b n.
Proof.
  induction n as [|n IH]; [split; [intros _ i I; lia|reflexivity]|].
  rewrite acc_S. unfold cmp_step. cbn [fst]. rewrite N.lor_eq_0_iff, IH, N.lxor_eq_0_iff. unfold same. split.
  - intros [A B] i I. destruct (Nat.eq_dec i n) as [->|?]; [exact B|apply A; lia].
  - intros A. split; [intros i I; apply A; lia|apply A; lia].
Qed.

Lemma shift8 x : (x < 256)%N <-> N.shiftr x 8 = 0%N.
Proof.
  rewrite N.shiftr_div_pow2. change (2 ^ 8)%N with 256%N. rewrite N.div_small_iff by discriminate. reflexivity.
Qed.

Lemma acc_byte a b n : bytes a -> bytes b -> (fst (acc a b n) < 256)%N.
Proof.
  intros A B. induction n as [|n IH]; [reflexivity|]. rewrite acc_S. unfold cmp_step. cbn [fst].
  apply shift8. rewrite N.shiftr_lor, N.shiftr_lxor.
  rewrite (proj1 (shift8 _) IH), (proj1 (shift8 _) (A n)), (proj1 (shift8 _) (B n)). reflexivity.
Qed.

Lemma to_int_byte x : (x < 256)%N -> to_int x = Z.of_N x.
Proof.
  intros H. unfold to_int. rewrite N.mod_small by lia.
  destruct (Z.of_N x <? 2147483648)%Z eqn:E; [reflexivity|]. apply Z.ltb_ge in E. lia.
Qed.

(** The comparison returns 0 exactly when the buffers agree on the compared
    bytes: no difference in any bit of any byte is missed. *)
Theorem C101_compare : forall a b n, bytes a -> bytes b ->
  (fst (constant_compare a b n) = 0%Z <-> same a b n).
Proof.
  intros a b n A B. unfold constant_compare. fold (acc a b n). cbn [fst].
  rewrite to_int_byte by (apply acc_byte; assumption). rewrite <- acc_zero. lia.
Qed.

(** the buffer that holds the bytes [l] *)
Definition pin (l : list N) : nat -> N := fun i => nth i l 0%N.

Lemma pin_bytes l : Forall (fun x => (x < 256)%N) l -> bytes (pin l).
Proof.
  intros F i. unfold pin. destruct (Nat.lt_ge_cases i (length l)) as [I|I].
  - rewrite Forall_forall in F. apply F. apply nth_In. exact I.
  - rewrite nth_overflow by exact I. reflexivity.
Qed.

(** The test of a credential or authentication code, equal lengths and a
    comparison of that many bytes, is equality: it accepts no prefix, no
    extension and no other value. *)
Theorem C101_credential : forall a b,
  Forall (fun x => (x < 256)%N) a -> Forall (fun x => (x < 256)%N) b ->
  (length a = length b /\ fst (constant_compare (pin a) (pin b) (length b)) = 0%Z <-> a = b).
Proof.
  intros a b A B. rewrite C101_compare by (apply pin_bytes; assumption). split.
  - intros [L S]. apply nth_ext with (d := 0%N) (d' := 0%N); [exact L|]. intros i I. apply S. lia.
  - intros ->. split; [reflexivity|]. intros i I. reflexivity.
Qed.

(** A difference is reported by a positive number, never by one that could be
    taken for an error code. *)
Theorem C101_compare_range : forall a b n, bytes a -> bytes b ->
  (0 <= fst (constant_compare a b n) < 256)%Z.
Proof.
  intros a b n A B. unfold constant_compare. fold (acc a b n). cbn [fst].
  rewrite to_int_byte by (apply acc_byte; assumption). pose proof (acc_byte a b n A B). lia.
Qed.

(** Which bytes are read, and in which order, depends on the length only: each
    is read once, whether or not an earlier one differed. *)
Theorem C101_same_reads : forall a b a' b' n,
  snd (constant_compare a b n) = snd (constant_compare a' b' n) /\
  snd (constant_compare a b n) = seq 0 n.
Proof.
  intros a b a' b' n. unfold constant_compare. fold (acc a b n) (acc a' b' n). cbn [snd].
  rewrite !acc_reads. split; reflexivity.
Qed.

(** The test for zero says 1 exactly for zero bytes and 0 otherwise. *)
Theorem C101_memeqzero : forall buf n,
  (memeqzero buf n = 1%Z <-> blank buf n) /\ (memeqzero buf n = 0%Z <-> ~ blank buf n).
Proof.
  intros buf. induction n as [|n [IH1 IH2]]; cbn [memeqzero].
  - assert (blank buf 0) by (intros i I; lia). split; split; intros; try reflexivity; try assumption; try discriminate; contradiction.
  - assert (S : blank buf (S n) <-> blank buf n /\ buf n = 0%N).
    { unfold blank. split.
      - intros A. split; [intros i I; apply A; lia|apply A; lia].
      - intros [A B] i I. destruct (Nat.eq_dec i n) as [->|?]; [exact B|apply A; lia]. }
    destruct (N.eqb (buf n) 0) eqn:E.
    + apply N.eqb_eq in E. rewrite S. split; [rewrite IH1; tauto|rewrite IH2; tauto].
    + apply N.eqb_neq in E. rewrite S. split; split; intros; try discriminate; try reflexivity; tauto.
Qed.

Lemma wipe_at : forall n p mem x,
  wipe p n mem x = if (p <=? x) && (x <? p + n) then 0%N else mem x.
Proof.
  induction n as [|n IH]; intros p mem x; cbn [wipe].
  - destruct (p <=? x) eqn:E; [|reflexivity]. apply Nat.leb_le in E.
    replace (x <? p + 0) with false by (symmetry; apply Nat.ltb_ge; lia). reflexivity.
  - rewrite IH. destruct (x =? p) eqn:E.
    + apply Nat.eqb_eq in E as ->. rewrite Nat.leb_refl.
      replace (S p <=? p) with false by (symmetry; apply Nat.leb_gt; lia).
      replace (p <? p + S n) with true by (symmetry; apply Nat.ltb_lt; lia). reflexivity.
    + apply Nat.eqb_neq in E.
      replace (p <=? x) with (S p <=? x).
      2:{ destruct (S p <=? x) eqn:F; symmetry; [apply Nat.leb_le in F; apply Nat.leb_le; lia|apply Nat.leb_gt in F; apply Nat.leb_gt; lia]. }
      replace (p + S n) with (S p + n) by lia. reflexivity.
Qed.

(** Wiping zeroes every byte of the range and no other. *)
Theorem C101_wipe : forall p n mem,
  (forall x, p <= x < p + n -> force_zero (Some p) n mem x = 0%N) /\
  (forall x, ~ p <= x < p + n -> force_zero (Some p) n mem x = mem x).
Proof.
  intros p n mem. unfold force_zero. split; intros x X.
  - replace (n =? 0) with false by (symmetry; apply Nat.eqb_neq; lia). rewrite wipe_at.
    replace (p <=? x) with true by (symmetry; apply Nat.leb_le; lia).
    replace (x <? p + n) with true by (symmetry; apply Nat.ltb_lt; lia). reflexivity.
  - destruct (n =? 0); [reflexivity|]. rewrite wipe_at.
    destruct (p <=? x) eqn:E; [|reflexivity]. destruct (x <? p + n) eqn:F; [|reflexivity].
    apply Nat.leb_le in E. apply Nat.ltb_lt in F. exfalso. apply X. lia.
Qed.

Example C101_wipe_null : forall n mem x, force_zero None n mem x = mem x.
Proof. reflexivity. Qed.

(** After wiping, the range tests as zero. *)
Theorem C101_wiped_is_zero : forall p n mem,
  memeqzero (fun i => force_zero (Some p) n mem (p + i)) n = 1%Z.
Proof.
  intros p n mem. apply C101_memeqzero. intros i I. apply C101_wipe. lia.
Qed.

Example C101_compare_case :
  fst (constant_compare (pin [1; 2; 3]) (pin [1; 2; 3]) 3)%N = 0%Z /\
  fst (constant_compare (pin [1; 2; 3]) (pin [1; 130; 3]) 3)%N = 128%Z /\
  fst (constant_compare (pin [1; 2; 3]) (pin [1; 2; 9]) 2)%N = 0%Z /\
  snd (constant_compare (pin [1; 2; 3]) (pin [9; 2; 9]) 3)%N = [0; 1; 2].
Proof. vm_compute. repeat split. Qed.

Example C101_credential_case :
  fst (constant_compare (pin [1; 2; 3]) (pin [1; 2]) 2)%N = 0%Z /\ length [1; 2; 3] <> length [1; 2].
Proof. vm_compute. split; [reflexivity|discriminate]. Qed.

Example C101_bytes_case : bytes (pin [1; 2; 255]%N).
Proof. intros [|[|[|i]]]; cbn; try reflexivity. destruct i; reflexivity. Qed.

Example C101_wipe_case :
  map (force_zero (Some 2) 3 (fun _ => 7%N)) [1; 2; 3; 4; 5] = [7; 0; 0; 0; 7]%N /\
  memeqzero (pin [0; 0; 5]%N) 3 = 0%Z /\ memeqzero (pin [0; 0; 5]%N) 2 = 1%Z.
Proof. vm_compute. repeat split. Qed.

Print Assumptions C101_compare.
Print Assumptions C101_credential.
Print Assumptions C101_compare_range.
Print Assumptions C101_same_reads.
Print Assumptions C101_memeqzero.
Print Assumptions C101_wipe.
Print Assumptions C101_wiped_is_zero.
