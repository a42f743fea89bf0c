(** C100: what one processor writes into shared memory is what the other reads,
    through their caches. *)
From Coq Require Import List NArith Arith Lia Bool.
From Verif Require Import LineModel LineSpec.
Import ListNotations.

(** ** the loop *)

Lemma lines_in L ps f t x : (exists p, In p ps /\ one_line L p x) -> lines L ps f t x = f x.
Proof.
  intros (p & I & O). unfold lines. replace (existsb _ ps) with true; [reflexivity|].
  symmetry. apply existsb_exists. exists p. split; [exact I|]. apply Nat.eqb_eq. exact O.
Qed.

Lemma lines_out L ps f t x : (forall p, In p ps -> ~ one_line L p x) -> lines L ps f t x = t x.
Proof.
  intros H. unfold lines. destruct (existsb _ ps) eqn:E; [|reflexivity].
  apply existsb_exists in E as (p & I & O). apply Nat.eqb_eq in O. exfalso. exact (H p I O).
Qed.

Lemma lines_same L ps (f t : view) x : f x = t x -> lines L ps f t x = t x.
Proof. intros E. unfold lines. destruct (existsb _ ps); [exact E|reflexivity]. Qed.

(** the loop visits [p + k L] for each [k] up to the number of lines needed *)
Lemma visit_in L (HL : 0 < L) : forall fuel p n q, n < fuel ->
  (In q (visit fuel L p n) <-> exists k, q = p + k * L /\ (k = 0 \/ k * L < n)).
Proof.
  induction fuel as [|f IH]; intros p n q HF; [lia|].
  cbn [visit In]. destruct (L <? n) eqn:E.
  - apply Nat.ltb_lt in E. rewrite IH by lia. split.
    + intros [<-|(k & -> & K)]; [exists 0; lia|]. exists (S k). split; [lia|]. right. cbn [Nat.mul]. lia.
    + intros ([|k] & -> & K); [left; lia|]. right. exists k. split; [lia|].
      destruct K as [K|K]; [discriminate|]. cbn [Nat.mul] in K. lia.
  - apply Nat.ltb_ge in E. cbn [In]. split.
    + intros [<-|[]]. exists 0. lia.
    + intros (k & -> & K). destruct k as [|k]; [left; lia|].
      destruct K as [K|K]; [discriminate|]. cbn [Nat.mul] in K. lia.
Qed.

Lemma div_shift L p k : 0 < L -> (p + k * L) / L = p / L + k.
Proof. intros H. rewrite Nat.div_add by lia. reflexivity. Qed.

Lemma block_out L p n (f t : view) x (HL : 0 < L) :
  (forall k, k = 0 \/ k * L < n -> p / L + k <> x / L) -> block L p n f t x = t x.
Proof.
  intros H. unfold block. apply lines_out. intros q I O.
  apply visit_in in I; [|exact HL|lia]. destruct I as (k & -> & K).
  unfold one_line in O. rewrite div_shift in O by exact HL. exact (H k K O).
Qed.

Lemma block_in L p n (f t : view) x k (HL : 0 < L) :
  k = 0 \/ k * L < n -> p / L + k = x / L -> block L p n f t x = f x.
Proof.
  intros K E. unfold block. apply lines_in. exists (p + k * L). split.
  - apply visit_in; [exact HL|lia|]. exists k. auto.
  - unfold one_line. rewrite div_shift by exact HL. exact E.
Qed.

Lemma ceil_lt L n k : 0 < L -> (k < (n + L - 1) / L <-> k * L < n).
Proof.
  intros H. pose proof (Nat.div_mod (n + L - 1) L ltac:(lia)) as D.
  pose proof (Nat.mod_upper_bound (n + L - 1) L ltac:(lia)) as U.
  set (q := (n + L - 1) / L) in *. split; intros K.
  - assert (S k * L <= L * q) by nia. nia.
  - destruct (Nat.lt_ge_cases k q) as [?|G]; [assumption|]. nia.
Qed.

(** the line of a byte of the block, counted from the line of its start *)
Lemma off_line L p j : 0 < L -> (p + j) / L = p / L + (p mod L + j) / L.
Proof.
  intros H. pose proof (Nat.div_mod p L ltac:(lia)) as D.
  replace (p + j) with (p mod L + j + p / L * L) by nia.
  rewrite Nat.div_add by lia. lia.
Qed.

(** A block flush or invalidation reaches every byte of the block, for every
    content, exactly when the block needs no extra line. *)
Theorem C100_block_exact : forall L p n, 0 < L -> 0 < n ->
  ((forall (f t : view) x, within p n x -> block L p n f t x = f x)
   <-> no_extra_line L p n).
Proof.
  intros L p n HL HN. unfold no_extra_line, within. split.
  - intros A. destruct (Nat.le_gt_cases (p mod L + n) (L * ((n + L - 1) / L))) as [?|G]; [assumption|].
    exfalso. specialize (A (fun _ => 1%N) (fun _ => 0%N) (p + (n - 1)) ltac:(lia)).
    rewrite block_out in A; [discriminate|exact HL|].
    intros k K E. rewrite off_line in E by exact HL.
    assert (Q : (n + L - 1) / L <= (p mod L + (n - 1)) / L).
    { apply Nat.div_le_lower_bound; lia. }
    assert (K' : k * L < n) by (destruct K as [->|K]; [cbn; lia|exact K]).
    apply ceil_lt in K'; [lia|exact HL].
  - intros F f t x X. replace x with (p + (x - p)) by lia.
    apply (block_in L p n f t _ ((p mod L + (x - p)) / L) HL).
    + right. apply ceil_lt; [exact HL|]. apply Nat.div_lt_upper_bound; lia.
    + symmetry. apply off_line. exact HL.
Qed.

(** A block that starts a line needs no extra line, whatever its length. *)
Theorem C100_aligned_block : forall L p n, 0 < L -> p mod L = 0 -> no_extra_line L p n.
Proof.
  intros L p n HL A. unfold no_extra_line. rewrite A, Nat.add_0_l.
  destruct n as [|n]; [lia|].
  destruct (Nat.le_gt_cases (S n) (L * ((S n + L - 1) / L))) as [?|G]; [assumption|].
  assert ((S n + L - 1) / L < (S n + L - 1) / L); [|lia].
  apply ceil_lt; [exact HL|lia].
Qed.

(** No byte outside the lines of the block is touched, wherever the block
    starts. *)
Theorem C100_block_only : forall L p n (f t : view) x, 0 < L -> 0 < n ->
  (forall y, within p n y -> ~ one_line L y x) -> block L p n f t x = t x.
Proof.
  intros L p n f t x HL HN H. apply block_out; [exact HL|]. intros k K E.
  assert (K' : k * L < n) by (destruct K as [->|K]; [cbn; lia|exact K]).
  apply (H (p + k * L)).
  - unfold within. lia.
  - unfold one_line. rewrite div_shift by exact HL. exact E.
Qed.

(** ** clearing a buffer *)

Lemma put_in a bs v x : within a (length bs) x -> put a bs v x = nth (x - a) bs 0%N.
Proof.
  intros [? ?]. unfold put. replace (a <=? x) with true by (symmetry; apply Nat.leb_le; lia).
  replace (x <? a + length bs) with true by (symmetry; apply Nat.ltb_lt; lia). reflexivity.
Qed.

Lemma put_out a bs v x : ~ within a (length bs) x -> put a bs v x = v x.
Proof.
  intros H. unfold put. destruct (a <=? x) eqn:E; [|reflexivity].
  destruct (x <? a + length bs) eqn:F; [|reflexivity]. exfalso. apply H.
  apply Nat.leb_le in E. apply Nat.ltb_lt in F. split; assumption.
Qed.

(** A buffer that starts a line is cleared in the memory itself, to its last
    byte, whatever the cache held. *)
Theorem C100_clear : forall L p c n v m x, 0 < L -> p mod L = 0 -> within p n x ->
  snd (set_flush L p c n v m) x = c.
Proof.
  intros L p c n v m x HL A X. unfold set_flush. cbn [snd].
  assert (HN : 0 < n) by (unfold within in X; lia).
  rewrite (proj2 (C100_block_exact L p n HL HN) (C100_aligned_block L p n HL A)) by exact X.
  rewrite put_in by (rewrite repeat_length; exact X).
  rewrite nth_indep with (d' := c) by (rewrite repeat_length; unfold within in X; lia).
  apply nth_repeat.
Qed.

(** ** one message *)

Lemma get_put a bs v w : (forall x, within a (length bs) x -> w x = put a bs v x) ->
  get a (length bs) w = bs.
Proof.
  intros H. unfold get. apply nth_ext with (d := w 0) (d' := 0%N); rewrite map_length, seq_length; [reflexivity|].
  intros i I. rewrite map_nth, seq_nth by exact I.
  rewrite H by (unfold within; lia). rewrite put_in by (unfold within; lia).
  f_equal. lia.
Qed.

Lemma word_line L B x : 0 < L -> word_in_line L B -> within B 8 x -> one_line L B x.
Proof.
  unfold word_in_line, within, one_line. intros HL W X.
  replace x with (B + (x - B)) by lia. rewrite off_line by exact HL.
  rewrite (Nat.div_small (B mod L + (x - B))) by lia. lia.
Qed.

(** the memory after a message was sent: the control word is always there, and
    each byte of the data for which the flush reached its line *)
Lemma send_word L B csr data ev1 ev2 v m x : 0 < L -> word_in_line L B -> length csr = 8 ->
  within B 8 x -> snd (send L B csr data ev1 ev2 v m) x = put B csr v x.
Proof.
  intros HL W C X. unfold send.
  destruct (match data with [] => _ | _ => _ end) as [v1 m1]. cbn [snd].
  rewrite lines_in by (exists B; split; [left; reflexivity|apply word_line; assumption]).
  rewrite !put_in by (rewrite C; exact X). reflexivity.
Qed.

Lemma send_data L B csr data ev1 ev2 v m x : 0 < L -> length csr = 8 ->
  no_extra_line L (B + 8) (length data) -> within (B + 8) (length data) x ->
  snd (send L B csr data ev1 ev2 v m) x = put (B + 8) data v x.
Proof.
  intros HL C F X. unfold send. destruct data as [|d ds]; [unfold within in X; cbn in X; lia|].
  set (data := d :: ds) in *. unfold copy_flush. cbn [snd].
  assert (P : put B csr (put (B + 8) data v) x = put (B + 8) data v x).
  { apply put_out. rewrite C. unfold within in *. lia. }
  assert (HN : 0 < length data) by (subst data; cbn; lia).
  assert (M : block L (B + 8) (length data) (put (B + 8) data v) (lines L ev1 (put (B + 8) data v) m) x
              = put (B + 8) data v x).
  { apply (proj2 (C100_block_exact L (B + 8) (length data) HL HN) F). exact X. }
  rewrite lines_same; rewrite lines_same; rewrite ?P, ?M; reflexivity.
Qed.

Lemma recv_word L B rf1 v m x : 0 < L -> word_in_line L B -> within B 8 x ->
  lines L [B] m (lines L rf1 m v) x = m x.
Proof.
  intros HL W X. apply lines_in. exists B. split; [left; reflexivity|apply word_line; assumption].
Qed.

Lemma get_ext a n v w : (forall x, within a n x -> v x = w x) -> get a n v = get a n w.
Proof.
  intros H. unfold get. apply map_ext_in. intros x I. apply in_seq in I. apply H. exact I.
Qed.

(** the control word as the receiver sees it *)
Lemma recv_csr L B csr data ev1 ev2 rf1 v m w : 0 < L -> word_in_line L B -> length csr = 8 ->
  get B 8 (lines L [B] (snd (send L B csr data ev1 ev2 v m))
             (lines L rf1 (snd (send L B csr data ev1 ev2 v m)) w)) = csr.
Proof.
  intros HL W C. rewrite <- C at 1. apply get_put with (v := v). rewrite C. intros x X.
  rewrite recv_word by assumption. apply send_word; assumption.
Qed.

(** A message whose data need no extra line arrives whole, whatever both caches
    held and whichever lines they write back or fetch of their own accord. *)
Theorem C100_delivered : forall L B cap size ready csr data ev1 ev2 rf1 rf2 v m w,
  0 < L -> word_in_line L B -> no_extra_line L (B + 8) (length data) ->
  length csr = 8 -> csr_len csr = length data -> ready (csr_notify csr) = true ->
  length data <= cap -> length data + 8 <= size ->
  recv L B cap size ready rf1 rf2 w (snd (send L B csr data ev1 ev2 v m)) = Got (length data) data.
Proof.
  intros L B cap size ready csr data ev1 ev2 rf1 rf2 v m w HL W F C LN R HC HS.
  unfold recv. rewrite recv_csr by assumption. rewrite R. cbn [negb]. rewrite LN.
  destruct data as [|d ds]; [reflexivity|]. set (data := d :: ds) in *.
  assert (HN : 0 < length data) by (subst data; cbn; lia).
  destruct (length data) as [|n] eqn:E; [lia|]. rewrite <- E in *.
  replace (Nat.min (Nat.min (length data) cap) (size - 8)) with (length data) by lia.
  f_equal. unfold copy_invalidate. cbn [fst]. apply get_put with (v := v). intros x X.
  rewrite (proj2 (C100_block_exact L (B + 8) (length data) HL HN) F) by exact X.
  apply send_data; assumption.
Qed.

(** If the shared buffer is placed so that its data start a line (the control
    word ends the line before), every message arrives whole. *)
Theorem C100_data_aligned : forall L B cap size ready csr data ev1 ev2 rf1 rf2 v m w,
  8 <= L -> (B + 8) mod L = 0 ->
  length csr = 8 -> csr_len csr = length data -> ready (csr_notify csr) = true ->
  length data <= cap -> length data + 8 <= size ->
  recv L B cap size ready rf1 rf2 w (snd (send L B csr data ev1 ev2 v m)) = Got (length data) data.
Proof.
  intros. apply C100_delivered; try assumption; [lia| |apply C100_aligned_block; [lia|assumption]].
  unfold word_in_line. pose proof (Nat.div_mod (B + 8) L ltac:(lia)) as D.
  pose proof (Nat.div_mod B L ltac:(lia)) as D'. pose proof (Nat.mod_upper_bound B L ltac:(lia)).
  rewrite H0, Nat.add_0_r in D.
  set (q := (B + 8) / L) in *. set (b := B / L) in *. set (r := B mod L) in *.
  destruct (Nat.le_gt_cases q b) as [Q|Q]; [pose proof (Nat.mul_le_mono_l q b L Q); lia|].
  destruct (Nat.le_gt_cases (S (S b)) q) as [Q'|Q'].
  - pose proof (Nat.mul_le_mono_l (S (S b)) q L Q'). lia.
  - replace q with (S b) in D by lia. lia.
Qed.

(** Through such a buffer any number of messages arrive, each whole and in
    order, whatever is left over from earlier ones. *)
Theorem C100_conversation : forall L B cap size ts v m,
  8 <= L -> (B + 8) mod L = 0 ->
  Forall (fun t => announces csr_notify csr_len (t_csr t) (t_data t) (t_ready t)
                   /\ length (t_data t) <= cap /\ length (t_data t) + 8 <= size) ts ->
  talk L B cap size ts v m = map (fun t => Got (length (t_data t)) (t_data t)) ts.
Proof.
  intros L B cap size ts v m HL A F. revert v m.
  induction F as [|t ts ((C & N & R) & HC & HS) F IH]; intros v m; cbn [talk map]; [reflexivity|].
  destruct (send L B (t_csr t) (t_data t) (t_ev1 t) (t_ev2 t) v m) as [v' m'] eqn:E.
  rewrite IH. f_equal. replace m' with (snd (send L B (t_csr t) (t_data t) (t_ev1 t) (t_ev2 t) v m)) by (rewrite E; reflexivity).
  apply C100_data_aligned; assumption.
Qed.

(** The condition is exact: for every other place and length the message that
    needs an extra line is received with success and wrong bytes, for some
    earlier content of the memory, even if the receiver fetches all lines
    afresh. *)
Theorem C100_extra_line_refuted : forall L B cap size ready csr data w,
  0 < L -> word_in_line L B -> data <> [] -> ~ no_extra_line L (B + 8) (length data) ->
  length csr = 8 -> csr_len csr = length data -> ready (csr_notify csr) = true ->
  length data <= cap -> length data + 8 <= size ->
  exists m, forall rf1 rf2, exists got,
    recv L B cap size ready rf1 rf2 m (snd (send L B csr data [] [] w m)) = Got (length data) got
    /\ got <> data.
Proof.
  intros L B cap size ready csr data w HL W ND F C LN R HC HS.
  set (s := (nth (length data - 1) data 0 + 1)%N).
  exists (fun _ => s). intros rf1 rf2. unfold recv. rewrite recv_csr by assumption. rewrite R. cbn [negb]. rewrite LN.
  assert (HN : 0 < length data) by (destruct data; [congruence|cbn; lia]).
  destruct (length data) as [|n] eqn:E; [lia|]. rewrite <- E in *.
  replace (Nat.min (Nat.min (length data) cap) (size - 8)) with (length data) by lia.
  eexists. split; [reflexivity|]. unfold copy_invalidate. cbn [fst]. intros G.
  apply (f_equal (fun l => nth (length data - 1) l 0%N)) in G. revert G.
  set (z := B + 8 + (length data - 1)).
  assert (LZ : B / L + (length data + L - 1) / L <= z / L /\ (B + 8) / L + (length data + L - 1) / L <= z / L).
  { assert (Q : (B + 8) / L + (length data + L - 1) / L <= z / L).
    { subst z. rewrite (off_line L (B + 8) (length data - 1)) by exact HL. apply -> Nat.add_le_mono_l.
      unfold no_extra_line in F. apply Nat.div_le_lower_bound; lia. }
    split; [|exact Q]. pose proof (Nat.div_le_mono B (B + 8) L ltac:(lia) ltac:(lia)). lia. }
  assert (CE : 0 < (length data + L - 1) / L) by (apply ceil_lt; [exact HL|cbn; lia]).
  assert (OB : forall k, k = 0 \/ k * L < length data -> (B + 8) / L + k <> z / L).
  { intros k K Q. assert (K' : k * L < length data) by (destruct K as [->|K]; [cbn; lia|exact K]).
    apply ceil_lt in K'; [lia|exact HL]. }
  assert (OW : forall f t, lines L [B] f t z = t z).
  { intros f t. apply lines_out. intros q [<-|[]] O. unfold one_line in O. lia. }
  assert (MZ : snd (send L B csr data [] [] w (fun _ => s)) z = s).
  { unfold send. destruct data as [|d ds]; [congruence|]. set (data := d :: ds) in *.
    unfold copy_flush. cbn [snd]. rewrite OW. unfold lines at 1. cbn [existsb].
    rewrite block_out by assumption. reflexivity. }
  unfold get.
  set (V := block _ _ _ _ _).
  assert (VZ : V z = s).
  { subst V. rewrite block_out by assumption.
    rewrite lines_same; rewrite OW; rewrite lines_same; rewrite ?MZ; reflexivity. }
  rewrite (nth_indep _ _ (V 0)) by (rewrite map_length, seq_length; lia).
  rewrite map_nth, seq_nth by lia. fold z. rewrite VZ. subst s. rewrite E. lia.
Qed.

(** For a buffer that itself starts a line, as the linker would place it, the
    lengths that arrive whole are those that leave room for the control word in
    their last line. *)
Theorem C100_line_aligned_buffer : forall L B n, 8 < L -> B mod L = 0 -> 0 < n ->
  (no_extra_line L (B + 8) n <-> (n - 1) mod L + 8 < L).
Proof.
  intros L B n HL A HN. unfold no_extra_line.
  replace ((B + 8) mod L) with 8.
  2:{ rewrite <- Nat.add_mod_idemp_l, A by lia. rewrite Nat.mod_small by lia. reflexivity. }
  replace (n + L - 1) with (n - 1 + 1 * L) by lia. rewrite Nat.div_add by lia.
  pose proof (Nat.div_mod (n - 1) L ltac:(lia)) as D.
  pose proof (Nat.mod_upper_bound (n - 1) L ltac:(lia)).
  set (q := (n - 1) / L) in *. set (r := (n - 1) mod L) in *. nia.
Qed.

(** Whatever the shared memory holds, at most the capacity of the destination
    and at most the shared buffer is copied. *)
Theorem C100_bounded : forall L B cap size ready rf1 rf2 v m n data,
  recv L B cap size ready rf1 rf2 v m = Got n data -> length data <= cap /\ length data + 8 <= Nat.max 8 size.
Proof.
  intros L B cap size ready rf1 rf2 v m n data. unfold recv.
  destruct (negb _); [discriminate|]. destruct (csr_len _) as [|k].
  - intros E. inversion E. cbn [length]. lia.
  - set (q := Nat.min (Nat.min (S k) cap) (size - 8)).
    assert (Q : q <= cap /\ q <= size - 8) by (subst q; lia). clearbody q.
    intros E. inversion E. unfold get. rewrite map_length, seq_length. lia.
Qed.

(** ** concrete cases *)

Definition word32 (n : N) : list N := [1; 0; n; 0; 0; 0; 0; 0]%N.
Definition stale : view := fun _ => 170%N.
Definition msg (n : nat) : list N := map N.of_nat (seq 1 n).

(** With the default line of 32 bytes and an aligned buffer, a message of 32
    bytes is received with success and with its last 8 bytes stale. *)
Theorem C100_default_refuted :
  recv 32 1024 64 1288 (fun k => N.eqb k 1) [] [] stale (snd (send 32 1024 (word32 32) (msg 32) [] [] stale stale))
  = Got 32 (msg 24 ++ repeat 170%N 8).
Proof. vm_compute. reflexivity. Qed.

Example C100_delivered_hyps :
  word_in_line 32 1024 /\ no_extra_line 32 (1024 + 8) (length (msg 56)) /\ csr_len (word32 56) = length (msg 56).
Proof. vm_compute. repeat split; repeat constructor. Qed.

Example C100_delivered_case :
  recv 32 1024 64 1288 (fun k => N.eqb k 1) [1040] [1090] stale
    (snd (send 32 1024 (word32 56) (msg 56) [1040] [] stale stale)) = Got 56 (msg 56).
Proof. vm_compute. reflexivity. Qed.

Example C100_data_aligned_case :
  (1048 + 8) mod 32 = 0 /\
  recv 32 1048 64 1288 (fun k => N.eqb k 1) [] [] stale
    (snd (send 32 1048 (word32 32) (msg 32) [] [] stale stale)) = Got 32 (msg 32).
Proof. vm_compute. split; reflexivity. Qed.

Example C100_conversation_case :
  talk 32 1048 64 1288
    [mkTurn (word32 32) (msg 32) [] [] [] [] stale (fun k => N.eqb k 1);
     mkTurn (word32 5) (msg 5) [1056] [] [] [1090] stale (fun k => N.eqb k 1)] stale stale
  = [Got 32 (msg 32); Got 5 (msg 5)].
Proof. vm_compute. reflexivity. Qed.

Example C100_extra_line_case :
  word_in_line 32 1024 /\ ~ no_extra_line 32 (1024 + 8) (length (msg 32)) /\ csr_len (word32 32) = length (msg 32).
Proof.
  repeat split; [vm_compute; repeat constructor|]. unfold no_extra_line.
  apply Nat.lt_nge. vm_compute. repeat constructor.
Qed.

Example C100_bounded_case :
  recv 32 1024 10 1288 (fun k => N.eqb k 1) [] [] stale
    (snd (send 32 1024 (word32 56) (msg 56) [] [] stale stale)) = Got 56 (msg 10).
Proof. vm_compute. reflexivity. Qed.

Example C100_clear_case :
  map (snd (set_flush 32 1024 0 40 stale stale)) [1023; 1024; 1063; 1064; 1088] = [170; 0; 0; 170; 170]%N.
Proof. vm_compute. reflexivity. Qed.

Example C100_block_exact_case : block 32 1032 25 (fun _ => 1%N) (fun _ => 0%N) 1056 = 0%N
  /\ within 1032 25 1056 /\ block 32 1032 24 (fun _ => 1%N) (fun _ => 0%N) 1055 = 1%N.
Proof. vm_compute. repeat split; repeat constructor. Qed.

Print Assumptions C100_block_exact.
Print Assumptions C100_aligned_block.
Print Assumptions C100_block_only.
Print Assumptions C100_clear.
Print Assumptions C100_delivered.
Print Assumptions C100_data_aligned.
Print Assumptions C100_conversation.
Print Assumptions C100_extra_line_refuted.
Print Assumptions C100_line_aligned_buffer.
Print Assumptions C100_default_refuted.
Print Assumptions C100_bounded.
