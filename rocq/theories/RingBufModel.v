(** The log ring buffer: src/wh_log_ringbuf.c.  [W] is the range of size_t
    (2^32 or 2^64); entries are of an arbitrary type with a zero value. *)
From Verif Require Import Base.

Section Ring.
Context {A : Type} (zero : A) (W : N).

(** whLogRingbufContext: wh_log_ringbuf.h 56-62. *)
Record ring := mkRing { rg_entries : list A; rg_cap : nat; rg_count : N; rg_init : bool }.

Definition set_nth (i : nat) (x : A) (l : list A) : list A := firstn i l ++ x :: skipn (S i) l.

(** whLogRingbuf_Init 34-61: capacity = buffer_size / sizeof(whLogEntry), the
    contents of the buffer are whatever they were. *)
Definition ring_init (buffer : list A) : Z * ring :=
  if length buffer =? 0 then (BADARGS, mkRing [] 0 0 false)
  else (OK, mkRing buffer (length buffer) 0 true).

(** whLogRingbuf_Clear 164-179. *)
Definition ring_clear (r : ring) : Z * ring :=
  (OK, mkRing (repeat zero (rg_cap r)) (rg_cap r) 0 (rg_init r)).

(** whLogRingbuf_Cleanup 63-77. *)
Definition ring_cleanup (r : ring) : Z * ring :=
  if rg_init r then let '(_, r') := ring_clear r in
                    (OK, mkRing (rg_entries r') (rg_cap r') (rg_count r') false)
  else (OK, r).

(** whLogRingbuf_AddEntry 79-102. *)
Definition ring_add (r : ring) (x : A) : Z * ring :=
  if negb (rg_init r) then (ABORTED, r) else
  let head := N.to_nat (rg_count r mod N.of_nat (rg_cap r)) in
  (OK, mkRing (set_nth head x (rg_entries r)) (rg_cap r) ((rg_count r + 1) mod W)%N true).

(** The loop of whLogRingbuf_Iterate 148-159: entries passed to the callback,
    which stops the iteration by returning nonzero. *)
Fixpoint ring_walk (r : ring) (cb : A -> Z) (start i n : nat) : Z * list A :=
  match n with
  | 0 => (OK, [])
  | S k => let x := nth ((start + i) mod rg_cap r) (rg_entries r) zero in
           let ret := cb x in
           if Z.eqb ret 0 then let '(rc, l) := ring_walk r cb start (S i) k in (rc, x :: l)
           else (ret, [x])
  end.
(** whLogRingbuf_Iterate 111-162. *)
Definition ring_iterate (r : ring) (cb : A -> Z) : Z * list A :=
  if negb (rg_init r) then (ABORTED, []) else
  if N.eqb (rg_count r) 0 then (OK, []) else
  let full := negb (N.ltb (rg_count r) (N.of_nat (rg_cap r))) in
  let num := if full then rg_cap r else N.to_nat (rg_count r) in
  let start := if full then N.to_nat (rg_count r mod N.of_nat (rg_cap r)) else 0 in
  ring_walk r cb start 0 num.

Inductive log_op := LAdd (x : A) | LClear.
Definition log_step (r : ring) (o : log_op) : ring :=
  match o with LAdd x => snd (ring_add r x) | LClear => snd (ring_clear r) end.
Definition log_run (r : ring) (ops : list log_op) : ring := fold_left log_step ops r.

(** ** Specification *)
(** The entries added since the last clear, oldest first. *)
Definition added (ops : list log_op) : list A :=
  fold_left (fun l o => match o with LAdd x => l ++ [x] | LClear => [] end) ops [].
(** The last [n] elements. *)
Definition last_n (n : nat) (l : list A) : list A := skipn (length l - n) l.
(** What a callback that may stop sees of a list. *)
Fixpoint seen (cb : A -> Z) (l : list A) : Z * list A :=
  match l with
  | [] => (OK, [])
  | x :: r => if Z.eqb (cb x) 0 then let '(rc, l') := seen cb r in (rc, x :: l') else (cb x, [x])
  end.

(** ** Proofs *)
Lemma set_nth_length i x l : i < length l -> length (set_nth i x l) = length l.
Proof. intros H. unfold set_nth. rewrite app_length, firstn_length. cbn [length]. rewrite skipn_length. lia. Qed.
Lemma nth_set_nth i j x l : i < length l ->
  nth j (set_nth i x l) zero = if j =? i then x else nth j l zero.
Proof.
  intros H. unfold set_nth. destruct (Nat.eqb_spec j i) as [->|NE].
  - rewrite app_nth2; rewrite firstn_length; [|lia]. replace (i - Nat.min i (length l)) with 0 by lia. reflexivity.
  - destruct (Nat.lt_ge_cases j i) as [L|L].
    + rewrite app_nth1 by (rewrite firstn_length; lia).
      rewrite <- (firstn_skipn i l) at 2. rewrite app_nth1 by (rewrite firstn_length; lia). reflexivity.
    + rewrite app_nth2; rewrite firstn_length; [|lia]. replace (j - Nat.min i (length l)) with (S (j - S i)) by lia. cbn [nth].
      rewrite <- (firstn_skipn (S i) l) at 2. rewrite app_nth2; rewrite firstn_length; [|lia]. f_equal. lia.
Qed.

Definition ring_inv (r : ring) (l : list A) : Prop :=
  rg_init r = true /\ 0 < rg_cap r /\ length (rg_entries r) = rg_cap r /\ rg_count r = N.of_nat (length l) /\
  forall i, i < length l -> length l - rg_cap r <= i -> nth (i mod rg_cap r) (rg_entries r) zero = nth i l zero.

Lemma head_nat c n : 0 < c -> N.to_nat (N.of_nat n mod N.of_nat c) = n mod c.
Proof. intros H. rewrite <- (Nat2N.id (n mod c)). f_equal. rewrite Nat2N.inj_mod. reflexivity. Qed.

Lemma mod_window c i n : 0 < c -> i < n -> n - c <= i -> i mod c = n mod c -> n = i + c.
Proof.
  intros HC L1 L2 E.
  pose proof (Nat.div_mod i c ltac:(lia)) as D1. pose proof (Nat.div_mod n c ltac:(lia)) as D2.
  pose proof (Nat.mod_upper_bound i c ltac:(lia)). rewrite E in D1.
  assert (i / c < n / c) by nia. assert (n / c < i / c + 2) by nia.
  assert (n / c = i / c + 1) by lia. nia.
Qed.

Lemma inv_add r l x : ring_inv r l -> (N.of_nat (length l) + 1 < W)%N ->
  ring_inv (snd (ring_add r x)) (l ++ [x]).
Proof.
  intros (HI & HC & HL & HN & HE) HW. unfold ring_add. rewrite HI. cbn [negb snd].
  rewrite HN, head_nat by auto.
  assert (HM : length l mod rg_cap r < rg_cap r) by (apply Nat.mod_upper_bound; lia).
  split; [reflexivity|]. cbn [rg_cap rg_entries rg_count]. split; [auto|]. split; [rewrite set_nth_length; lia|].
  rewrite app_length. cbn [length]. split; [rewrite N.mod_small by auto; lia|].
  intros i L1 L2. rewrite nth_set_nth by lia.
  destruct (Nat.eqb_spec (i mod rg_cap r) (length l mod rg_cap r)) as [E|NE].
  - assert (i = length l) as ->.
    { destruct (Nat.eq_dec i (length l)); auto.
      pose proof (mod_window (rg_cap r) i (length l) HC ltac:(lia) ltac:(lia) E). lia. }
    rewrite app_nth2, Nat.sub_diag by lia. reflexivity.
  - assert (i <> length l) by (intros ->; auto). rewrite app_nth1 by lia. apply HE; lia.
Qed.

Lemma inv_clear r l : ring_inv r l -> ring_inv (snd (ring_clear r)) [].
Proof.
  intros (HI & HC & HL & HN & HE). unfold ring_clear, ring_inv. cbn [snd rg_init rg_cap rg_entries rg_count length].
  rewrite repeat_length. repeat split; auto. intros i L; lia.
Qed.

Lemma walk_seen cb r start l : forall n i,
  (forall j, j < n -> nth ((start + (i + j)) mod rg_cap r) (rg_entries r) zero = nth j l zero) -> length l = n ->
  ring_walk r cb start i n = seen cb l.
Proof.
  revert start. induction l as [|x l IH]; intros start n i H HL; cbn [length] in HL; subst n; cbn [ring_walk seen]; auto.
  pose proof (H 0 ltac:(lia)) as H0. rewrite Nat.add_0_r in H0. cbn [nth] in H0. rewrite H0.
  destruct (Z.eqb (cb x) 0); auto. rewrite (IH start (length l) (S i)); auto.
  intros j L. specialize (H (S j) ltac:(lia)). rewrite <- Nat.add_succ_comm in H. exact H.
Qed.

Lemma inv_iterate r l cb : ring_inv r l -> ring_iterate r cb = seen cb (last_n (rg_cap r) l).
Proof.
  intros (HI & HC & HL & HN & HE). unfold ring_iterate. rewrite HI. cbn [negb]. rewrite HN.
  destruct l as [|a l0] eqn:EL; [reflexivity|]. rewrite <- EL in *.
  replace (N.eqb (N.of_nat (length l)) 0) with false by (symmetry; apply N.eqb_neq; rewrite EL; cbn [length]; lia).
  assert (NS : forall j n, nth j (skipn n l) zero = nth (n + j) l zero).
  { clear. intros j n. revert l. induction n as [|n IH]; intros l; [reflexivity|]. destruct l; [destruct j; reflexivity|]. apply IH. }
  destruct (N.ltb_spec (N.of_nat (length l)) (N.of_nat (rg_cap r))) as [L|L]; cbn [negb].
  - rewrite Nat2N.id. unfold last_n. replace (length l - rg_cap r) with 0 by lia. cbn [skipn].
    apply walk_seen; auto. intros j J. cbn [Nat.add]. apply HE; lia.
  - rewrite head_nat by auto. apply walk_seen.
    + intros j J. unfold last_n. rewrite NS. cbn [Nat.add].
      rewrite <- HE by lia. f_equal. rewrite Nat.add_mod_idemp_l by lia.
      replace (length l + j) with ((length l - rg_cap r + j) + 1 * rg_cap r) by lia.
      apply Nat.mod_add. lia.
    + unfold last_n. rewrite skipn_length. lia.
Qed.

(** Every prefix of the history stays below the range of the counter. *)
Lemma run_inv : forall ops r l, ring_inv r l ->
  (forall k, N.of_nat (length (fold_left (fun l o => match o with LAdd x => l ++ [x] | LClear => [] end) (firstn k ops) l)) < W)%N ->
  ring_inv (log_run r ops) (fold_left (fun l o => match o with LAdd x => l ++ [x] | LClear => [] end) ops l).
Proof.
  induction ops as [|o ops IH]; intros r l HI HB; cbn [log_run fold_left]; auto.
  apply IH.
  - destruct o as [x|]; cbn [log_step]; [|eapply inv_clear; eauto]. apply inv_add; auto.
    specialize (HB 1). cbn [firstn fold_left] in HB. rewrite app_length in HB. cbn [length] in HB. lia.
  - intros k. specialize (HB (S k)). cbn [firstn fold_left] in HB. exact HB.
Qed.
Lemma run_cap : forall ops r, rg_cap (log_run r ops) = rg_cap r.
Proof.
  induction ops as [|o ops IH]; intros r; cbn [log_run fold_left]; auto. unfold log_run in IH. rewrite IH.
  destruct o; cbn [log_step]; [unfold ring_add; destruct (negb _); reflexivity|reflexivity].
Qed.
Lemma run_count ops : forall r, rg_init r = true -> (forall o, In o ops -> exists x, o = LAdd x) -> W <> 0%N ->
  (rg_count r < W)%N -> rg_init (log_run r ops) = true /\
  rg_count (log_run r ops) = ((rg_count r + N.of_nat (length ops)) mod W)%N.
Proof.
  induction ops as [|o ops IH]; intros r HI HA HW HB; cbn [log_run fold_left length].
  { rewrite N.add_0_r, N.mod_small by auto. auto. }
  destruct (HA o (or_introl eq_refl)) as (x & ->).
  assert (E : log_step r (LAdd x) = mkRing (set_nth (N.to_nat (rg_count r mod N.of_nat (rg_cap r))) x (rg_entries r)) (rg_cap r) ((rg_count r + 1) mod W)%N true)
    by (cbn [log_step]; unfold ring_add; rewrite HI; reflexivity).
  destruct (IH (log_step r (LAdd x))) as [I1 I2]; auto.
  - rewrite E. reflexivity.
  - intros o' IN. apply HA. right; auto.
  - rewrite E. cbn [rg_count]. apply N.mod_lt; auto.
  - split; [exact I1|]. unfold log_run in I2. rewrite I2, E. cbn [rg_count]. rewrite N.add_mod_idemp_l by auto. f_equal. lia.
Qed.
End Ring.
Arguments log_op : clear implicits.
