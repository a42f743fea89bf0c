(** Proofs for flash kept in a file (C70). *)
From Verif Require Import Base BaseLemmas Flash FlashWp NvmSpec NvmFlashModel NvmFlashProof NvmHistory FileFlashModel FileFlashSpec.

Lemma skipn_skipn_add {A} (l : list A) : forall a b, skipn a (skipn b l) = skipn (b + a) l.
Proof. induction l as [|x l IH]; intros a b; [rewrite !skipn_nil; auto|]. destruct b; cbn [skipn plus]; auto. Qed.
Lemma piece_length F off n : off + n <= length F -> length (piece F off n) = n.
Proof. intros H. unfold piece. rewrite firstn_length, skipn_length. lia. Qed.
Lemma piece_split F off a b : piece F off (a + b) = piece F off a ++ piece F (off + a) b.
Proof.
  unfold piece. rewrite <- skipn_skipn_add. generalize (skipn off F). intros l. revert l. induction a as [|a IH]; intros [|x l]; cbn [plus firstn skipn app]; auto.
  - rewrite firstn_nil. reflexivity.
  - f_equal. apply IH.
Qed.
Lemma replaced_length F off d : off + length d <= length F -> length (replaced F off d) = length F.
Proof. intros H. unfold replaced. rewrite !app_length, firstn_length, skipn_length. lia. Qed.
Lemma pwrite_in F off d : off + length d <= length F -> pwrite F off d = replaced F off d.
Proof.
  intros H. unfold pwrite, replaced. replace (off - length F) with 0 by lia. cbn [repeat]. rewrite app_nil_r. reflexivity.
Qed.
Lemma pwrite_end F d : pwrite F (length F) d = F ++ d.
Proof.
  unfold pwrite. rewrite Nat.sub_diag. cbn [repeat]. rewrite app_nil_r, firstn_all, skipn_all2 by lia. rewrite app_nil_r. reflexivity.
Qed.
Lemma replaced_twice F off a b : off + length a + length b <= length F ->
  replaced (replaced F off a) (off + length a) b = replaced F off (a ++ b).
Proof.
  intros H. unfold replaced.
  rewrite (app_assoc (firstn off F)). rewrite firstn_app.
  assert (L : length (firstn off F ++ a) = off + length a) by (rewrite app_length, firstn_length; lia).
  rewrite L, Nat.sub_diag. cbn [firstn]. rewrite app_nil_r, firstn_all2 by lia.
  rewrite skipn_app, L. rewrite (skipn_all2 (firstn off F ++ a)) by lia. cbn [app]. rewrite skipn_skipn_add, <- !app_assoc. do 3 f_equal. rewrite app_length. f_equal. lia.
Qed.
Lemma replaced_nil F off : replaced F off [] = F.
Proof. unfold replaced. cbn [app length]. rewrite Nat.add_0_r. apply firstn_skipn. Qed.

(** ** pfill *)
Definition done_of (w : option nat) (n : nat) : nat := match w with None => n | Some k => Nat.min k n end.
Lemma pfill_in w c : forall n F off count, off + count + n <= length F -> match w with Some j => count <= j | None => True end ->
  pfill w F c n off count =
    (done_of w (count + n) =? count + n, replaced F (off + count) (repeat c (done_of w (count + n) - count))).
Proof.
  induction n as [|n IH]; intros F off count L W; cbn [pfill].
  - replace (done_of w (count + 0) - count) with 0 by (unfold done_of; destruct w; lia). cbn [repeat]. rewrite replaced_nil. f_equal.
    symmetry. apply Nat.eqb_eq. unfold done_of. destruct w; lia.
  - destruct w as [j|].
    + destruct (Nat.eqb_spec count j) as [<-|NE].
      * unfold done_of. rewrite Nat.min_l by lia. rewrite Nat.sub_diag. cbn [repeat]. rewrite replaced_nil. f_equal. symmetry. apply Nat.eqb_neq. lia.
      * rewrite pwrite_in by (cbn [length]; lia). rewrite IH; [|rewrite replaced_length by (cbn [length]; lia); lia|lia].
        replace (S count + n) with (count + S n) by lia. f_equal. set (m := done_of (Some j) (count + S n)).
        assert (M : count + 1 <= m <= count + S n) by (subst m; unfold done_of; lia).
        replace (off + S count) with (off + count + length [c]) by (cbn [length]; lia).
        rewrite replaced_twice by (rewrite repeat_length; cbn [length]; lia). f_equal. cbn [app].
        replace (m - count) with (S (m - S count)) by lia. reflexivity.
    + rewrite pwrite_in by (cbn [length]; lia). rewrite IH; [|rewrite replaced_length by (cbn [length]; lia); lia|auto].
      replace (S count + n) with (count + S n) by lia. f_equal. cbn [done_of].
      replace (off + S count) with (off + count + length [c]) by (cbn [length]; lia).
      rewrite replaced_twice by (rewrite repeat_length; cbn [length]; lia). f_equal. cbn [app].
      replace (count + S n - count) with (S (count + S n - S count)) by lia. reflexivity.
Qed.
Lemma pfill_end w c : forall n F off count, off + count = length F -> match w with Some j => count <= j | None => True end ->
  pfill w F c n off count = (done_of w (count + n) =? count + n, F ++ repeat c (done_of w (count + n) - count)).
Proof.
  induction n as [|n IH]; intros F off count L W; cbn [pfill].
  - replace (done_of w (count + 0) - count) with 0 by (unfold done_of; destruct w; lia). cbn [repeat]. rewrite app_nil_r. f_equal.
    symmetry. apply Nat.eqb_eq. unfold done_of. destruct w; lia.
  - assert (IHS : match w with Some j => S count <= j | None => True end ->
      pfill w (pwrite F (off + count) [c]) c n off (S count) = (done_of w (count + S n) =? count + S n, F ++ repeat c (done_of w (count + S n) - count))).
    { intros W'. rewrite L, pwrite_end. rewrite IH; [|rewrite app_length; cbn [length]; lia|auto].
      replace (S count + n) with (count + S n) by lia. f_equal. rewrite <- app_assoc. f_equal. cbn [app].
      assert (M : S count <= done_of w (count + S n)) by (unfold done_of; destruct w; lia).
      replace (done_of w (count + S n) - count) with (S (done_of w (count + S n) - S count)) by lia. reflexivity. }
    destruct w as [j|].
    + destruct (Nat.eqb_spec count j) as [<-|NE]; [|apply IHS; lia].
      unfold done_of. rewrite Nat.min_l by lia. rewrite Nat.sub_diag. cbn [repeat]. rewrite app_nil_r. f_equal. symmetry. apply Nat.eqb_neq. lia.
    + apply IHS. auto.
Qed.

(** ** The callbacks on a file of the right size *)
Lemma read_exact x null F off size : length F = max_offset x ->
  read x null None F off size =
    if max_offset x <? off + size then (BADARGS, []) else (OK, if null then [] else piece F off size).
Proof.
  intros L. unfold read. destruct (Nat.ltb_spec (max_offset x) (off + size)); auto. destruct null; auto. cbn [orb].
  destruct (Nat.eqb_spec size 0) as [->|]; [unfold piece; cbn [firstn]; reflexivity|].
  change (pread F off size) with (piece F off size). rewrite piece_length by lia. rewrite Nat.eqb_refl. reflexivity.
Qed.
Lemma read_short x k F off size : length F = max_offset x -> k < size -> off + size <= max_offset x ->
  read x false (Some k) F off size = (ABORTED, []).
Proof.
  intros L K B. unfold read. destruct (Nat.ltb_spec (max_offset x) (off + size)); [lia|]. destruct (Nat.eqb_spec size 0); [lia|]. cbn [orb].
  change (pread F off (Nat.min k size)) with (piece F off (Nat.min k size)). rewrite piece_length by lia.
  destruct (Nat.eqb_spec (Nat.min k size) size); [lia|]. reflexivity.
Qed.
Lemma list_eqb_true a : forall b, list_eqb a b = true <-> a = b.
Proof.
  induction a as [|x a IH]; intros [|y b]; cbn [list_eqb]; split; intros H; auto; try discriminate.
  - apply andb_true_iff in H. destruct H as [E R]. apply N.eqb_eq in E. apply IH in R. congruence.
  - injection H as -> ->. rewrite N.eqb_refl. apply IH. reflexivity.
Qed.
Lemma list_eqb_app a : forall b c d, length a = length b -> list_eqb (a ++ c) (b ++ d) = list_eqb a b && list_eqb c d.
Proof.
  induction a as [|x a IH]; intros [|y b] c d L; try discriminate; cbn [app list_eqb]; auto.
  rewrite IH by (cbn [length] in L; lia). apply andb_assoc.
Qed.
Lemma verify_loop_exact x F data : length F = max_offset x -> forall fuel off fin doff,
  fin - off <= fuel -> fin <= max_offset x -> doff + (fin - off) <= length data ->
  verify_loop fuel x (fun _ => None) F off fin doff data =
    if list_eqb (piece data doff (fin - off)) (piece F off (fin - off)) then OK else NOTVERIFIED.
Proof.
  intros L. induction fuel as [|k IH]; intros off fin doff FU B D; cbn [verify_loop].
  - destruct (Nat.ltb_spec off fin); [lia|]. replace (fin - off) with 0 by lia. reflexivity.
  - destruct (Nat.ltb_spec off fin) as [LT|]; [|replace (fin - off) with 0 by lia; reflexivity].
    rewrite (read_exact x false) by auto. set (this := Nat.min 64 (fin - off)). assert (T : 0 < this <= fin - off) by (subst this; lia).
    destruct (Nat.ltb_spec (max_offset x) (off + this)); [lia|]. change (is_ok OK) with true. cbn [negb].
    change (firstn this (skipn doff data)) with (piece data doff this).
    replace (fin - off) with (this + (fin - (off + this))) by lia. rewrite !piece_split, list_eqb_app by (rewrite !piece_length by lia; reflexivity).
    destruct (list_eqb (piece data doff this) (piece F off this)); cbn [andb]; auto. apply IH; lia.
Qed.
Lemma verify_exact x F off d : length F = max_offset x ->
  verify x (fun _ => None) F off (length d) (Some d) =
    if max_offset x <? off + length d then BADARGS else if list_eqb d (piece F off (length d)) then OK else NOTVERIFIED.
Proof.
  intros L. unfold verify. destruct (Nat.ltb_spec (max_offset x) (off + length d)); auto. destruct (Nat.eqb_spec (length d) 0) as [Z|].
  - destruct d; [|discriminate]. reflexivity.
  - rewrite verify_loop_exact by (auto; lia). replace (off + length d - off) with (length d) by lia. unfold piece at 1. cbn [skipn]. rewrite firstn_all. reflexivity.
Qed.
Lemma firstn_repeat {A} (c : A) a b : a <= b -> firstn a (repeat c b) = repeat c a.
Proof. revert b. induction a as [|a IH]; intros [|b] H; cbn [firstn repeat]; auto; [lia|]. f_equal. apply IH. lia. Qed.
Lemma blank_loop_exact x F : length F = max_offset x -> forall fuel off fin,
  fin - off <= fuel -> fin <= max_offset x ->
  blank_loop fuel x (fun _ => None) F off fin =
    if list_eqb (repeat (f_eb x) (fin - off)) (piece F off (fin - off)) then OK else NOTBLANK.
Proof.
  intros L. induction fuel as [|k IH]; intros off fin FU B; cbn [blank_loop].
  - destruct (Nat.ltb_spec off fin); [lia|]. replace (fin - off) with 0 by lia. reflexivity.
  - destruct (Nat.ltb_spec off fin) as [LT|]; [|replace (fin - off) with 0 by lia; reflexivity].
    rewrite (read_exact x false) by auto. set (this := Nat.min 64 (fin - off)). assert (T : 0 < this <= fin - off) by (subst this; lia).
    destruct (Nat.ltb_spec (max_offset x) (off + this)); [lia|]. change (is_ok OK) with true. cbn [negb].
    rewrite firstn_repeat by (subst this; lia).
    replace (fin - off) with (this + (fin - (off + this))) by lia. rewrite piece_split, repeat_app, list_eqb_app by (rewrite repeat_length, piece_length by lia; reflexivity).
    destruct (list_eqb (repeat (f_eb x) this) (piece F off this)); cbn [andb]; auto. apply IH; lia.
Qed.
Lemma blank_exact x F off size : length F = max_offset x ->
  blank_check x (fun _ => None) F off size =
    if max_offset x <? off + size then BADARGS else if list_eqb (repeat (f_eb x) size) (piece F off size) then OK else NOTBLANK.
Proof.
  intros L. unfold blank_check. destruct (Nat.ltb_spec (max_offset x) (off + size)); auto. destruct (Nat.eqb_spec size 0) as [->|]; [reflexivity|].
  rewrite blank_loop_exact by (auto; lia). replace (off + size - off) with size by lia. reflexivity.
Qed.
Lemma firstn_done w (d : list N) : firstn (done_of w (length d)) d = firstn (match w with None => length d | Some k => Nat.min k (length d) end) d.
Proof. reflexivity. Qed.
Lemma program_exact x w F off d : length F = max_offset x -> off + length d <= max_offset x -> f_unlocked x = true ->
  program x w F off (length d) (Some d) =
    (if done_of w (length d) =? length d then OK else ABORTED, replaced F off (firstn (done_of w (length d)) d)).
Proof.
  intros L B U. unfold program. destruct (Nat.ltb_spec (max_offset x) (off + length d)); [lia|]. destruct (Nat.eqb_spec (length d) 0) as [Z|].
  - destruct d; [|discriminate]. cbn [length firstn]. replace (done_of w 0) with 0 by (unfold done_of; destruct w; lia). cbn [firstn Nat.eqb]. rewrite replaced_nil. reflexivity.
  - rewrite U. cbn [negb]. fold (done_of w (length d)). f_equal. apply pwrite_in. rewrite firstn_length. lia.
Qed.
Lemma erase_exact x w F off size : length F = max_offset x -> off + size <= max_offset x -> f_unlocked x = true ->
  erase x w F off size = (if done_of w size =? size then OK else ABORTED, replaced F off (repeat (f_eb x) (done_of w size))).
Proof.
  intros L B U. unfold erase. destruct (Nat.ltb_spec (max_offset x) (off + size)); [lia|]. destruct (Nat.eqb_spec size 0) as [->|].
  - replace (done_of w 0) with 0 by (unfold done_of; destruct w; lia). cbn [repeat Nat.eqb]. rewrite replaced_nil. reflexivity.
  - rewrite U. cbn [negb]. rewrite pfill_in; [|lia|destruct w; lia]. cbn [plus]. rewrite Nat.add_0_r, Nat.sub_0_r. reflexivity.
Qed.

(** ** Opening *)
Lemma sized_length n eb F : length (sized n eb F) = n.
Proof. unfold sized. rewrite app_length, firstn_length, repeat_length. lia. Qed.
Lemma sized_same n eb F : length F = n -> sized n eb F = F.
Proof. intros <-. unfold sized. rewrite firstn_all, Nat.sub_diag. apply app_nil_r. Qed.
Lemma sized_more n eb F k : length F + k <= n -> sized n eb (F ++ repeat eb k) = sized n eb F.
Proof.
  intros H. unfold sized. rewrite !firstn_all2 by (rewrite ?app_length, ?repeat_length; lia). rewrite app_length, repeat_length, <- app_assoc, <- repeat_app.
  do 2 f_equal. lia.
Qed.
Lemma init_ok offmax c F x F1 opened w trunc : init offmax c opened true w trunc F = (OK, Some x, F1) ->
  F1 = sized (2 * fc_part c) (fc_eb c) F /\ x = mkF (fc_part c) (fc_eb c) false.
Proof.
  unfold init. destruct opened; cbn [negb]; [|discriminate]. destruct (_ || _)%bool; [discriminate|]. unfold max_offset. cbn [f_part f_eb].
  destruct (Nat.ltb_spec (length F) (2 * fc_part c)).
  - rewrite pfill_end; [|lia|destruct w; lia]. cbn [plus]. rewrite Nat.sub_0_r. destruct (Nat.eqb_spec (done_of w (2 * fc_part c - length F)) (2 * fc_part c - length F)) as [E|]; [|discriminate].
    rewrite E. intros X. inversion X. subst. split; auto. unfold sized. rewrite firstn_all2 by lia. reflexivity.
  - destruct (Nat.ltb_spec (2 * fc_part c) (length F)).
    + destruct trunc; [|discriminate]. intros X. injection X as X1 X2. subst x F1. split; auto. unfold sized, truncate. replace (2 * fc_part c - length F) with 0 by lia. cbn [repeat]. rewrite app_nil_r. reflexivity.
    + intros X. injection X as X1 X2. subst x F1. split; auto. symmetry. apply sized_same. lia.
Qed.
Lemma init_sized offmax c F opened w trunc :
  sized (2 * fc_part c) (fc_eb c) (snd (init offmax c opened true w trunc F)) = sized (2 * fc_part c) (fc_eb c) F.
Proof.
  unfold init. destruct opened; cbn [negb]; [|reflexivity]. destruct (_ || _)%bool; [reflexivity|]. unfold max_offset. cbn [f_part f_eb].
  destruct (Nat.ltb_spec (length F) (2 * fc_part c)).
  - rewrite pfill_end; [|lia|destruct w; lia]. cbn [plus]. rewrite Nat.sub_0_r.
    destruct (_ =? _); cbn [snd]; apply sized_more; unfold done_of; destruct w; lia.
  - destruct (Nat.ltb_spec (2 * fc_part c) (length F)); [|reflexivity]. destruct trunc; [|reflexivity]. cbn [snd]. unfold sized, truncate.
    rewrite firstn_firstn, Nat.min_id, firstn_length. replace (_ - Nat.min _ _) with (2 * fc_part c - length F) by lia. reflexivity.
Qed.

(** ** Units *)
Lemma firstn_app_exact {A} (a b : list A) n : length a = n -> firstn n (a ++ b) = a.
Proof. intros <-. rewrite firstn_app, Nat.sub_diag, firstn_all. cbn [firstn]. apply app_nil_r. Qed.
Lemma nth_skipn (l : list N) : forall n j, nth j (skipn n l) 0%N = nth (n + j) l 0%N.
Proof. induction l as [|x l IH]; intros [|n] j; cbn [skipn plus nth]; auto. destruct j; auto. Qed.
Lemma nth_firstn_lt (l : list N) : forall n j, j < n -> nth j (firstn n l) 0%N = nth j l 0%N.
Proof. induction l as [|x l IH]; intros [|n] [|j] H; cbn [firstn nth]; auto; try lia. apply IH. lia. Qed.
Lemma piece_app_l A B off n : off + n <= length A -> piece (A ++ B) off n = piece A off n.
Proof. intros H. unfold piece. rewrite skipn_app, firstn_app, skipn_length. replace (n - (length A - off)) with 0 by lia. cbn [firstn]. apply app_nil_r. Qed.
Lemma piece_app_r A B off n : length A <= off -> piece (A ++ B) off n = piece B (off - length A) n.
Proof. intros H. unfold piece. rewrite skipn_app, (skipn_all2 A) by lia. reflexivity. Qed.
Lemma piece_firstn F k off n : off + n <= k -> piece (firstn k F) off n = piece F off n.
Proof. intros H. unfold piece. rewrite skipn_firstn_comm, firstn_firstn. f_equal. lia. Qed.
Lemma piece_skipn F k off n : piece (skipn k F) off n = piece F (k + off) n.
Proof. unfold piece. rewrite skipn_skipn_add. reflexivity. Qed.
Lemma unit_replaced F a d m o : length d = 8 * m -> 8 * (a + m) <= length F ->
  unit_at (replaced F (8 * a) d) o = if (a <=? o) && (o <? a + m) then unit_at d (o - a) else unit_at F o.
Proof.
  intros Ld LF. change unit_at with (fun F o => piece F (8 * o) 8). cbv beta. unfold replaced.
  assert (L1 : length (firstn (8 * a) F) = 8 * a) by (rewrite firstn_length; lia).
  destruct (Nat.leb_spec a o); cbn [andb].
  - rewrite piece_app_r by lia. rewrite L1. destruct (Nat.ltb_spec o (a + m)).
    + rewrite piece_app_l by lia. f_equal. lia.
    + rewrite piece_app_r by lia. rewrite piece_skipn. f_equal. lia.
  - rewrite piece_app_l by lia. apply piece_firstn. lia.
Qed.
Lemma unit_repeat eb n o : o < n -> unit_at (repeat eb (8 * n)) o = repeat eb 8.
Proof.
  intros H. unfold unit_at. replace (8 * n) with (8 * o + (8 + 8 * (n - o - 1))) by lia. rewrite repeat_app, skipn_app.
  rewrite skipn_all2 by (rewrite repeat_length; lia). rewrite repeat_length, Nat.sub_diag. cbn [skipn app]. rewrite repeat_app. apply firstn_app_exact. apply repeat_length.
Qed.
Lemma unit_unpack us : forall o, o < length us -> unit_at (unpack us) o = le_enc 8 (nth o us 0%N).
Proof.
  induction us as [|u us IH]; intros o H; cbn [length] in H; [lia|]. change (unpack (u :: us)) with (le_enc 8 u ++ unpack us).
  unfold unit_at in *. destruct o as [|o].
  - rewrite Nat.mul_0_r. cbn [skipn nth]. apply firstn_app_exact. apply le_enc_length.
  - replace (8 * S o) with (8 + 8 * o) by lia. rewrite <- skipn_skipn_add. rewrite skipn_app, (skipn_all2 (le_enc 8 u)) by (rewrite le_enc_length; lia).
    rewrite le_enc_length, Nat.sub_diag. cbn [skipn app nth]. apply IH. lia.
Qed.
Lemma firstn_unpack us : forall j, firstn (8 * j) (unpack us) = unpack (firstn j us).
Proof.
  induction us as [|u us IH]; intros [|j]; rewrite ?Nat.mul_0_r; try reflexivity.
  cbn [firstn]. change (unpack (u :: us)) with (le_enc 8 u ++ unpack us). change (unpack (u :: firstn j us)) with (le_enc 8 u ++ unpack (firstn j us)).
    rewrite firstn_app, le_enc_length. rewrite firstn_all2 by (rewrite le_enc_length; lia). replace (8 * S j - 8) with (8 * j) by lia. rewrite IH. reflexivity.
Qed.
Lemma bytes_nth F : bytes_ok F <-> forall i, i < length F -> (nth i F 0 < 256)%N.
Proof.
  split.
  - intros H i L. unfold bytes_ok in H. rewrite Forall_forall in H. apply H. apply nth_In. auto.
  - intros H. apply Forall_forall. intros b I. destruct (In_nth _ _ 0%N I) as (i & L & <-). apply H. auto.
Qed.
Lemma nth_unit F i : i < length F -> nth i F 0%N = nth (i mod 8) (unit_at F (i / 8)) 0%N.
Proof.
  intros H. unfold unit_at. rewrite nth_firstn_lt by (apply Nat.mod_upper_bound; lia). rewrite nth_skipn. f_equal. 
  apply Nat.div_mod_eq.
Qed.

(** ** The file as the device of Flash.v *)
Lemma le_dec_inj a b : bytes_ok a -> bytes_ok b -> length a = length b -> le_dec a = le_dec b -> a = b.
Proof. intros A B L E. rewrite <- (le_enc_dec a A), <- (le_enc_dec b B), L, E. reflexivity. Qed.
Lemma list_eqb_dec a b : bytes_ok a -> bytes_ok b -> length a = length b -> list_eqb a b = (le_dec a =? le_dec b)%N.
Proof.
  intros A B L. destruct (N.eqb_spec (le_dec a) (le_dec b)) as [E|E].
  - apply list_eqb_true. apply le_dec_inj; auto.
  - destruct (list_eqb a b) eqn:X; auto. apply list_eqb_true in X. congruence.
Qed.
Lemma bytes_piece F off n : bytes_ok F -> bytes_ok (piece F off n).
Proof. intros H. unfold piece. apply bytes_ok_firstn, bytes_ok_skipn, H. Qed.
Lemma bytes_replaced F off d : bytes_ok F -> bytes_ok d -> bytes_ok (replaced F off d).
Proof. intros H D. unfold replaced. rewrite !bytes_ok_app. auto using bytes_ok_firstn, bytes_ok_skipn. Qed.
Lemma bytes_repeat c n : (c < 256)%N -> bytes_ok (repeat c n).
Proof. intros H. apply Forall_forall. intros x I. apply repeat_spec in I. subst. exact H. Qed.
Lemma bytes_unpack us : bytes_ok (unpack us).
Proof. induction us as [|u us IH]; [constructor|]. change (unpack (u :: us)) with (le_enc 8 u ++ unpack us). apply bytes_ok_app. split; [apply le_enc_ok|auto]. Qed.
Definition u64 (u : N) : Prop := (u < 2 ^ 64)%N.
Lemma dec_enc8 u : u64 u -> le_dec (le_enc 8 u) = u.
Proof. intros H. apply le_dec_enc. exact H. Qed.

Section Sim.
Variable C : cfg.
Hypothesis PU : 0 < c_pu C.
Hypothesis EB : (c_eb C < 256)%N.
Notation X := (ctx_of C).
Definition R (f : flash) (F : list N) : Prop :=
  length F = 8 * dev_units C /\ bytes_ok F /\ forall o, f o = flash_of F o.

Lemma maxX : max_offset X = 8 * dev_units C.
Proof. unfold max_offset, dev_units. cbn [f_part ctx_of]. lia. Qed.
Lemma ltb_units off n : (8 * dev_units C <? 8 * off + 8 * n) = negb (off + n <=? dev_units C).
Proof. destruct (Nat.leb_spec (off + n) (dev_units C)); cbn [negb]; [apply Nat.ltb_ge|apply Nat.ltb_lt]; lia. Qed.

Lemma pack_piece F : forall n off, 8 * (off + n) <= length F -> pack (piece F (8 * off) (8 * n)) = read_units (flash_of F) off n.
Proof.
  induction n as [|n IH]; intros off L; [reflexivity|]. replace (8 * S n) with (8 + 8 * n) by lia. rewrite piece_split.
  assert (L8 : length (piece F (8 * off) 8) = 8 * 1) by (rewrite piece_length by lia; reflexivity).
  rewrite (pack_app8 1) by exact L8.
  rewrite pack_short by (try (intros Z; rewrite Z in L8; discriminate); lia). cbn [app]. unfold read_units. cbn [seq map]. f_equal.
  replace (8 * off + 8) with (8 * S off) by lia. apply IH. lia.
Qed.
Lemma read_ext f F off n : (forall o, f o = flash_of F o) -> read_units (flash_of F) off n = read_units f off n.
Proof. intros H. apply map_ext. auto. Qed.
Lemma blank_units F f : R f F -> forall n off, 8 * (off + n) <= length F ->
  list_eqb (repeat (c_eb C) (8 * n)) (piece F (8 * off) (8 * n)) = blankb C f off n.
Proof.
  intros (L & B & H). induction n as [|n IH]; intros off Q; [reflexivity|].
  replace (8 * S n) with (8 + 8 * n) by lia. rewrite piece_split, repeat_app, list_eqb_app by (rewrite repeat_length, piece_length by lia; reflexivity).
  unfold blankb, read_units. cbn [seq map forallb]. rewrite H. f_equal.
  - rewrite list_eqb_dec; auto using bytes_repeat, bytes_piece. rewrite repeat_length, piece_length by lia. reflexivity.
  - replace (8 * off + 8) with (8 * S off) by lia. rewrite IH by lia. reflexivity.
Qed.
Lemma verify_units F f : R f F -> forall us off, Forall u64 us -> 8 * (off + length us) <= length F ->
  list_eqb (unpack us) (piece F (8 * off) (8 * length us)) = list_eqb (read_units f off (length us)) us.
Proof.
  intros (L & B & H). induction us as [|u us IH]; intros off U Q; [reflexivity|]. cbn [length] in *.
  replace (8 * S (length us)) with (8 + 8 * length us) by lia. rewrite piece_split. change (unpack (u :: us)) with (le_enc 8 u ++ unpack us).
  rewrite list_eqb_app by (rewrite le_enc_length, piece_length by lia; reflexivity).
  unfold read_units. cbn [seq map list_eqb]. rewrite H. inversion U. subst. f_equal.
  - rewrite list_eqb_dec; auto using le_enc_ok, bytes_piece; [|rewrite le_enc_length, piece_length by lia; reflexivity].
    rewrite dec_enc8 by auto. apply N.eqb_sym.
  - replace (8 * off + 8) with (8 * S off) by lia. rewrite IH by (auto; lia). reflexivity.
Qed.
Lemma flash_unit F o : flash_of F o = le_dec (unit_at F o).
Proof. reflexivity. Qed.
Lemma R_put f F off us : R f F -> Forall u64 us -> off + length us <= dev_units C ->
  R (put_units f off us) (replaced F (8 * off) (unpack us)).
Proof.
  intros (L & B & H) U Q. split; [|split].
  - rewrite replaced_length by (rewrite unpack_length; lia). exact L.
  - apply bytes_replaced; auto using bytes_unpack.
  - intros o. unfold put_units. rewrite flash_unit, (unit_replaced F off (unpack us) (length us)) by (rewrite ?unpack_length; lia).
    destruct (Nat.leb_spec off o); cbn [andb]; [|apply H]. destruct (Nat.ltb_spec o (off + length us)); [|apply H].
    rewrite unit_unpack by lia. rewrite dec_enc8; auto. rewrite Forall_forall in U. apply U. apply nth_In. lia.
Qed.
Lemma R_erase f F off n : R f F -> off + n <= dev_units C ->
  R (put_erased C f off n) (replaced F (8 * off) (repeat (c_eb C) (8 * n))).
Proof.
  intros (L & B & H) Q. split; [|split].
  - rewrite replaced_length by (rewrite repeat_length; lia). exact L.
  - apply bytes_replaced; auto using bytes_repeat.
  - intros o. unfold put_erased. rewrite flash_unit, (unit_replaced F off _ n) by (rewrite ?repeat_length; lia).
    destruct (Nat.leb_spec off o); cbn [andb]; [|apply H]. destruct (Nat.ltb_spec o (off + n)); [|apply H].
    rewrite unit_repeat by lia. reflexivity.
Qed.

(** What the NVM layer's calls satisfy. *)
Definition call_ok (f : flash) (c : fcall) : Prop :=
  match c with
  | FProgram off us => Forall u64 us /\ (off + length us <= dev_units C -> blankb C f off (length us) = true)
  | FVerify off us => Forall u64 us
  | FErase off n => off mod c_pu C = 0 /\ n mod c_pu C = 0
  | _ => True
  end.
Lemma sim_call f F c : R f F -> call_ok f c ->
  snd (dev X None F c) = snd (fstep C f c) /\ R (fst (fstep C f c)) (fst (dev X None F c)).
Proof.
  intros RR CO. pose proof RR as (L & B & H). assert (LX : length F = max_offset X) by (rewrite maxX; auto).
  destruct c as [off n|off n|off us|off us|off n]; cbn [dev fstep call_ok] in *.
  - rewrite read_exact by auto. rewrite maxX, ltb_units. destruct (Nat.leb_spec (off + n) (dev_units C)); cbn [negb fst snd].
    + rewrite pack_piece by lia. rewrite (read_ext f) by auto. auto.
    + rewrite pack_nil. auto.
  - rewrite blank_exact by auto. rewrite maxX, ltb_units. destruct (Nat.leb_spec (off + n) (dev_units C)); cbn [negb fst snd f_eb ctx_of]; auto.
    rewrite (blank_units F f) by (auto; lia). auto.
  - replace (8 * length us) with (length (unpack us)) by apply unpack_length. rewrite verify_exact by auto. rewrite unpack_length, maxX, ltb_units.
    destruct (Nat.leb_spec (off + length us) (dev_units C)); cbn [negb fst snd]; auto. rewrite (verify_units F f) by (auto; lia). auto.
  - destruct CO as [U BL]. destruct (Nat.leb_spec (off + length us) (dev_units C)) as [Q|Q].
    + rewrite BL by auto. replace (8 * length us) with (length (unpack us)) by apply unpack_length.
      rewrite program_exact by (auto; rewrite unpack_length, maxX; lia). cbn [done_of]. rewrite Nat.eqb_refl, firstn_all. cbn [fst snd]. split; auto. apply R_put; auto.
    + unfold program. rewrite maxX, ltb_units. destruct (Nat.leb_spec (off + length us) (dev_units C)); [lia|]. cbn [negb fst snd]. auto.
  - destruct CO as [E1 E2]. rewrite E1, E2. cbn [Nat.eqb andb]. destruct (Nat.leb_spec (off + n) (dev_units C)) as [Q|Q].
    + rewrite erase_exact by (auto; rewrite maxX; lia). cbn [done_of f_eb ctx_of]. rewrite Nat.eqb_refl. cbn [fst snd]. split; auto. apply R_erase; auto.
    + unfold erase. rewrite maxX, ltb_units. destruct (Nat.leb_spec (off + n) (dev_units C)); [lia|]. cbn [negb fst snd]. auto.
Qed.
Lemma sim_cut f F c F' : R f F -> call_ok f c -> cut_write X c F F' ->
  torn C c f (flash_of F') /\ R (flash_of F') F'.
Proof.
  intros RR CO [L' H']. destruct (sim_call f F c RR CO) as [_ (L1 & B1 & H1)]. destruct RR as (L & B & H). split.
  - intros o. rewrite H, H1. rewrite !flash_unit. destruct (Nat.lt_ge_cases (8 * o) (length F)) as [Q|Q].
    + destruct (H' o Q) as [-> | ->]; auto.
    + left. unfold unit_at. rewrite !skipn_all2 by lia. reflexivity.
  - split; [lia|]. split; [|auto]. apply bytes_nth. intros i Hi. rewrite nth_unit by auto.
    assert (Q : 8 * (i / 8) < length F) by (pose proof (Nat.mul_div_le i 8); lia).
    destruct (H' _ Q) as [-> | ->]; rewrite <- nth_unit by lia; apply bytes_nth; auto; lia.
Qed.
(** A write that stops early: it succeeds after all, or it is a torn write. *)
Lemma sim_short f F c j : R f F -> call_ok f c -> is_write c = true ->
  dev X (Some (8 * j)) F c = dev X None F c \/
  (exists F', dev X (Some (8 * j)) F c = (F', (ABORTED, [])) /\ cut_write X c F F').
Proof.
  intros RR CO W. pose proof RR as (L & B & H). assert (LX : length F = max_offset X) by (rewrite maxX; auto).
  destruct c as [off n|off n|off us|off us|off n]; try discriminate; cbn [dev call_ok] in *.
  - destruct (Nat.leb_spec (off + length us) (dev_units C)) as [Q|Q].
    + pose proof (unpack_length us) as UL. assert (UB : 8 * off + length (unpack us) <= max_offset X) by (rewrite UL, maxX; lia).
      rewrite <- UL. rewrite !program_exact by auto. cbn [done_of]. rewrite Nat.eqb_refl.
      destruct (Nat.le_gt_cases (length us) j).
      * left. rewrite Nat.min_r by lia. rewrite Nat.eqb_refl. reflexivity.
      * right. rewrite Nat.min_l by lia. destruct (Nat.eqb_spec (8 * j) (length (unpack us))); [lia|]. eexists. split; [reflexivity|].
        rewrite firstn_unpack. set (d := unpack (firstn j us)).
        assert (DL : length d = 8 * j) by (subst d; rewrite unpack_length, firstn_length; lia). split.
        -- apply replaced_length. lia.
        -- intros o Ho. cbn [dev]. rewrite <- UL, program_exact by auto. cbn [done_of fst]. rewrite firstn_all.
           rewrite (unit_replaced F off d j) by lia. rewrite (unit_replaced F off (unpack us) (length us)) by lia.
           destruct (Nat.leb_spec off o); cbn [andb]; auto. destruct (Nat.ltb_spec o (off + j)); auto. right.
           destruct (Nat.ltb_spec o (off + length us)); [|lia]. subst d. rewrite !unit_unpack by (rewrite ?firstn_length; lia). rewrite nth_firstn_lt by lia. reflexivity.
    + left. unfold program. rewrite maxX, ltb_units. destruct (Nat.leb_spec (off + length us) (dev_units C)); [lia|]. reflexivity.
  - destruct (Nat.leb_spec (off + n) (dev_units C)) as [Q|Q].
    + assert (UB : 8 * off + 8 * n <= max_offset X) by (rewrite maxX; lia).
      rewrite !erase_exact by auto. cbn [done_of f_eb ctx_of]. rewrite Nat.eqb_refl.
      destruct (Nat.le_gt_cases n j).
      * left. rewrite Nat.min_r by lia. rewrite Nat.eqb_refl. reflexivity.
      * right. rewrite Nat.min_l by lia. destruct (Nat.eqb_spec (8 * j) (8 * n)); [lia|]. eexists. split; [reflexivity|]. split.
        -- apply replaced_length. rewrite repeat_length. lia.
        -- intros o Ho. cbn [dev]. rewrite erase_exact by auto. cbn [done_of fst f_eb ctx_of].
           rewrite (unit_replaced F off _ j) by (rewrite ?repeat_length; lia). rewrite (unit_replaced F off _ n) by (rewrite ?repeat_length; lia).
           destruct (Nat.leb_spec off o); cbn [andb]; auto. destruct (Nat.ltb_spec o (off + j)); auto. right.
           destruct (Nat.ltb_spec o (off + n)); [|lia]. rewrite !unit_repeat by lia. reflexivity.
    + left. unfold erase. rewrite maxX, ltb_units. destruct (Nat.leb_spec (off + n) (dev_units C)); [lia|]. reflexivity.
Qed.

(** ** Programs that check before they write *)
Definition call_safe (st : option (nat * nat)) (c : fcall) : Prop :=
  match c with
  | FProgram off us => st = Some (off, length us) /\ Forall u64 us
  | FVerify off us => Forall u64 us
  | FErase off n => off mod c_pu C = 0 /\ n mod c_pu C = 0
  | _ => True
  end.
Definition next_st (c : fcall) (rc : Z) : option (nat * nat) :=
  match c with FBlank off n => if is_ok rc then Some (off, n) else None | _ => None end.
Fixpoint safe {A} (st : option (nat * nat)) (Q : A -> Prop) (p : prog A) : Prop :=
  match p with
  | Ret a => Q a
  | Call c k => call_safe st c /\ forall rc us, safe (next_st c rc) Q (k (rc, us))
  end.
Definition st_ok (f : flash) (st : option (nat * nat)) : Prop :=
  match st with Some (off, n) => blankb C f off n = true | None => True end.
Lemma safe_call_ok f st c : st_ok f st -> call_safe st c -> call_ok f c.
Proof. destruct c; cbn [call_safe call_ok]; auto. intros S [-> U]. split; auto. Qed.
Lemma st_next f c : st_ok (fst (fstep C f c)) (next_st c (fst (snd (fstep C f c)))).
Proof.
  destruct c as [off n|off n| | |]; cbn [next_st st_ok]; auto. cbn [fstep]. destruct (_ <=? _); cbn [fst snd]; [|exact I].
  destruct (blankb C f off n) eqn:E; cbn [fst snd]; [exact E|exact I].
Qed.
Lemma sim_exec {A} fl (p : prog A) F a F' : fexec X fl p F a F' -> forall st Q f, R f F -> st_ok f st -> safe st Q p ->
  exists f', exec C fl p f a f' /\ R f' F' /\ Q a.
Proof.
  induction 1 as [a F|c k F a F' H IH|c k F j a F' FL W H IH]; intros st Q f RR ST SF; cbn [safe] in SF.
  - exists f. split; [constructor|auto].
  - destruct SF as [CS SF]. pose proof (safe_call_ok _ _ _ ST CS) as CO. destruct (sim_call f F c RR CO) as [E R1].
    rewrite E in IH. specialize (SF (fst (snd (fstep C f c))) (snd (snd (fstep C f c)))). rewrite <- surjective_pairing in SF.
    destruct (IH _ Q _ R1 (st_next f c) SF) as (f' & E' & R' & Qa). exists f'. split; [|auto]. apply exec_ok. exact E'.
  - destruct SF as [CS SF]. pose proof (safe_call_ok _ _ _ ST CS) as CO. destruct (sim_short f F c j RR CO W) as [E0|(F1 & E0 & CW)].
    + rewrite E0 in IH. destruct (sim_call f F c RR CO) as [E R1].
      rewrite E in IH. specialize (SF (fst (snd (fstep C f c))) (snd (snd (fstep C f c)))). rewrite <- surjective_pairing in SF.
      destruct (IH _ Q _ R1 (st_next f c) SF) as (f' & E' & R' & Qa). exists f'. split; [|auto]. apply exec_ok. exact E'.
    + rewrite E0 in IH. cbn [fst snd] in IH. destruct (sim_cut f F c F1 RR CO CW) as [T R1].
      assert (S1 : st_ok (flash_of F1) (next_st c ABORTED)) by (destruct c; try discriminate; exact I).
      destruct (IH _ Q _ R1 S1 (SF _ _)) as (f' & E' & R' & Qa). exists f'. split; [|auto].
      eapply exec_fault; [exact FL|exact W|exact T| |exact E']. discriminate.
Qed.
Lemma sim_crash {A} fl (p : prog A) F F' : fcrash X fl p F F' -> forall st Q f, R f F -> st_ok f st -> safe st Q p ->
  exists f', crash C fl p f f' /\ R f' F'.
Proof.
  induction 1 as [p F|c k F F' W CW|c k F F' H IH|c k F j F' FL W H IH]; intros st Q f RR ST SF; cbn [safe] in SF.
  - exists f. split; [constructor|auto].
  - destruct SF as [CS SF]. pose proof (safe_call_ok _ _ _ ST CS) as CO. destruct (sim_cut f F c F' RR CO CW) as [T R1].
    eexists. split; [|exact R1]. apply crash_torn; auto.
  - destruct SF as [CS SF]. pose proof (safe_call_ok _ _ _ ST CS) as CO. destruct (sim_call f F c RR CO) as [E R1].
    rewrite E in IH. specialize (SF (fst (snd (fstep C f c))) (snd (snd (fstep C f c)))). rewrite <- surjective_pairing in SF.
    destruct (IH _ Q _ R1 (st_next f c) SF) as (f' & E' & R'). exists f'. split; [|auto]. apply crash_next. exact E'.
  - destruct SF as [CS SF]. pose proof (safe_call_ok _ _ _ ST CS) as CO. destruct (sim_short f F c j RR CO W) as [E0|(F1 & E0 & CW)].
    + rewrite E0 in IH. destruct (sim_call f F c RR CO) as [E R1].
      rewrite E in IH. specialize (SF (fst (snd (fstep C f c))) (snd (snd (fstep C f c)))). rewrite <- surjective_pairing in SF.
      destruct (IH _ Q _ R1 (st_next f c) SF) as (f' & E' & R'). exists f'. split; [|auto]. apply crash_next. exact E'.
    + rewrite E0 in IH. cbn [fst snd] in IH. destruct (sim_cut f F c F1 RR CO CW) as [T R1].
      assert (S1 : st_ok (flash_of F1) (next_st c ABORTED)) by (destruct c; try discriminate; exact I).
      destruct (IH _ Q _ R1 S1 (SF _ _)) as (f' & E' & R'). exists f'. split; [|auto].
      eapply crash_fault; [exact FL|exact W|exact T| |exact E']. discriminate.
Qed.
End Sim.

(** ** The NVM layer's programs check before they write *)
Section Safe.
Variable C : cfg.
Hypothesis PU : 0 < c_pu C.
Notation safe := (safe C).
Definition any {A} (_ : A) : Prop := True.

Lemma safe_none {A} (Q : A -> Prop) st p : safe None Q p -> safe st Q p.
Proof.
  destruct p as [a|c k]; auto. cbn [FileFlashProof.safe]. intros [CS H]. split; auto. destruct c; auto. cbn [call_safe] in *. destruct CS. discriminate.
Qed.
Lemma safe_bind {A B} (Q : A -> Prop) (Q' : B -> Prop) k : (forall a, Q a -> safe None Q' (k a)) ->
  forall p st, safe st Q p -> safe st Q' (bind p k).
Proof.
  intros H. induction p as [a|c kk IH]; intros st S; cbn [bind FileFlashProof.safe] in *.
  - apply safe_none. auto.
  - destruct S as [CS S]. split; auto.
Qed.
Lemma safe_any {A} (Q : A -> Prop) : forall p st, safe st Q p -> safe st any p.
Proof. induction p as [a|c k IH]; intros st S; cbn [FileFlashProof.safe] in *; [exact I|]. destruct S as [CS S]. split; auto. Qed.

Lemma safe_fu_read st off n : safe st any (fu_read off n).
Proof. cbn. unfold any. auto. Qed.
Lemma safe_fu_blank st off n : safe st any (fu_blank off n).
Proof. cbn. unfold any. auto. Qed.
Lemma safe_fu_program st off us : Forall u64 us -> safe st any (fu_program off us).
Proof.
  intros U. unfold fu_program. cbn [FileFlashProof.safe call_safe next_st fst]. split; auto. intros rc xs. destruct (is_ok rc); [|exact I].
  cbn [FileFlashProof.safe call_safe next_st fst]. split; auto. intros rc' xs'. destruct (is_ok rc'); [|exact I].
  cbn [FileFlashProof.safe call_safe next_st fst]. split; auto. intros. exact I.
Qed.
Lemma safe_fu_erase st off n : off mod c_pu C = 0 -> n mod c_pu C = 0 -> safe st any (fu_erase off n).
Proof.
  intros H1 H2. unfold fu_erase. destruct (n =? 0); [exact I|]. cbn [FileFlashProof.safe call_safe next_st fst]. split; auto.
  intros rc xs. destruct (is_ok rc); [|exact I]. cbn [FileFlashProof.safe call_safe next_st fst]. split; auto. intros. exact I.
Qed.
Lemma safe_fu_program_bytes st boff bs : bytes_ok bs -> safe st any (fu_program_bytes boff bs).
Proof.
  intros B. unfold fu_program_bytes. eapply (safe_bind any).
  - intros rc _. destruct (_ && _); [|exact I]. apply safe_fu_program. apply pack_bound. auto using bytes_ok_firstn, bytes_ok_skipn.
  - destruct (_ =? 0); [exact I|]. apply safe_fu_program. apply pack_bound. auto using bytes_ok_firstn, bytes_ok_skipn.
Qed.
Lemma safe_fu_read_bytes st boff n : safe st (fun r => bytes_ok (snd r)) (fu_read_bytes boff n).
Proof.
  unfold fu_read_bytes. apply (safe_bind (fun r : Z * list N * nat * nat => bytes_ok (snd (fst (fst r))))).
  - intros [[[rc hd] bl] ou]. cbn [fst snd]. intros H1. destruct (is_ok rc); [|constructor].
    apply (safe_bind (fun r : Z * list N * nat => bytes_ok (snd (fst r)))).
    + intros [[rc2 mid] ou2]. cbn [fst snd]. intros H2. destruct (is_ok rc2); [|constructor]. destruct (_ =? 0); [cbn; apply bytes_ok_app; auto|].
      apply (safe_bind any); [|apply safe_fu_read]. intros [rc3 us] _. destruct (is_ok rc3); [|constructor]. cbn.
      rewrite !bytes_ok_app. auto using bytes_ok_firstn, bytes_unpack.
    + destruct (_ =? 0); [constructor|]. apply (safe_bind any); [|apply safe_fu_read]. intros [rc3 us] _. cbn. apply bytes_unpack.
  - destruct (_ =? 0); [constructor|]. apply (safe_bind any); [|apply safe_fu_read]. intros [rc3 us] _. destruct (is_ok rc3); [|constructor].
    cbn. auto using bytes_ok_firstn, bytes_ok_skipn, bytes_unpack.
Qed.

Definition lab (m : meta) : Prop := bytes_ok (m_label m).
Definition obj_lab (o : mobj) : Prop := lab (o_meta o).
Definition dir_lab (d : mdir) : Prop := Forall obj_lab (d_objs d).
Definition ctx_lab (x : ctx) : Prop := dir_lab (x_dir x).

Lemma u64_word e : u64 (word e).
Proof. unfold u64, word, BASE, W32. lia. Qed.
Lemma u64_obj_word c x : u64 (obj_word C c x).
Proof. unfold u64, obj_word, crc_word, word, BASE, CRC_BASE, W32. destruct (c_crc C); lia. Qed.
Lemma u64_meta m : lab m -> Forall u64 (meta_units m).
Proof. intros H. apply pack_bound. unfold meta_bytes. rewrite !bytes_ok_app. repeat split; auto using le_enc_ok. Qed.
Lemma lab_units us : lab (meta_of_units us).
Proof. unfold lab, meta_of_units, meta_of_bytes. cbn [m_label]. auto using bytes_ok_firstn, bytes_ok_skipn, bytes_unpack. Qed.
Lemma lab_zero : lab meta_zero.
Proof. exact (bytes_ok_repeat0 24). Qed.
Lemma lab_nth os i : Forall obj_lab os -> obj_lab (nth i os mo_zero).
Proof.
  intros H. destruct (Nat.lt_ge_cases i (length os)) as [L|L].
  - rewrite Forall_forall in H. apply H, nth_In, L.
  - rewrite nth_overflow by lia. apply lab_zero.
Qed.
Lemma lab_upd i o os : obj_lab o -> Forall obj_lab os -> Forall obj_lab (upd_nth i o os).
Proof.
  intros Ho H. unfold upd_nth. apply Forall_app. split.
  - apply Forall_forall. intros x I. rewrite Forall_forall in H. apply H. rewrite <- (firstn_skipn i os). apply in_or_app. auto.
  - assert (G : Forall obj_lab (skipn i os)).
    { apply Forall_forall. intros x I. rewrite Forall_forall in H. apply H. rewrite <- (firstn_skipn i os). apply in_or_app. auto. }
    destruct (skipn i os); [constructor|]. inversion G. constructor; auto.
Qed.
Lemma lab_dd_inner id : forall k os re rd, Forall obj_lab os -> Forall obj_lab (fst (fst (dd_inner k id (os, re, rd)))).
Proof.
  induction k as [|k IH]; intros os re rd H; cbn [dd_inner]; auto. destruct (_ && _); apply IH; auto. apply lab_upd; auto. apply (lab_nth os k H).
Qed.
Lemma lab_dd_outer : forall k os re rd, Forall obj_lab os -> Forall obj_lab (fst (fst (dd_outer k (os, re, rd)))).
Proof.
  induction k as [|k IH]; intros os re rd H; cbn [dd_outer]; auto. destruct (o_used _); [|apply IH; auto].
  pose proof (lab_dd_inner (o_id (nth k os mo_zero)) k os re rd H) as G. destruct (dd_inner _ _ _) as [[os' re'] rd']. apply IH. exact G.
Qed.
Lemma lab_parse d : dir_lab d -> dir_lab (snd (parse d)).
Proof.
  intros H. unfold parse. destruct (parse_fwd _ _ _ _ _ _) as [[[[nfo nfd] re] rd]|]; [|exact H].
  pose proof (lab_dd_outer (length (d_objs d)) (d_objs d) re rd H) as G. destruct (dd_outer _ _) as [[os re'] rd']. exact G.
Qed.

Lemma safe_state_read st off : safe st any (state_read C off).
Proof.
  unfold state_read. apply (safe_bind any); [|apply safe_fu_blank]. intros be _. destruct (bc_error be); [exact I|].
  apply (safe_bind any); [|apply safe_fu_blank]. intros bs _. destruct (bc_error bs); [exact I|].
  apply (safe_bind any); [|apply safe_fu_blank]. intros bc _. destruct (bc_error bc); [exact I|].
  destruct (_ && _ && _).
  - apply (safe_bind any); [|apply safe_fu_read]. intros [rc us] _. destruct (is_ok rc); exact I.
  - destruct (_ && _); [|destruct (nonblank be); exact I]. apply (safe_bind any); [|apply safe_fu_read]. intros [rc us] _. destruct (is_ok rc); exact I.
Qed.
Lemma safe_object_read st off : safe st (fun r => obj_lab (snd r)) (object_read C off).
Proof.
  unfold object_read. apply (safe_bind any); [|apply safe_state_read]. intros [rc s] _. destruct (_ && _); [|apply lab_zero].
  apply (safe_bind any); [|apply safe_fu_read]. intros [rc' us] _. destruct (is_ok rc'); [|apply lab_zero]. cbv zeta.
  destruct (_ && _); [apply lab_zero|apply lab_units].
Qed.
Lemma safe_read_objs p : forall n i st, safe st (Forall obj_lab) (read_objs C p i n).
Proof.
  induction n as [|n IH]; intros i st; cbn [read_objs]; [constructor|].
  apply (safe_bind (fun r => obj_lab (snd r))); [|apply safe_object_read]. intros [rc o] H. apply (safe_bind (Forall obj_lab)); [|apply IH].
  intros os G. constructor; auto.
Qed.
Lemma safe_read_parse st p : safe st (fun r => dir_lab (snd r)) (read_parse_dir C p).
Proof.
  unfold read_parse_dir. apply (safe_bind dir_lab).
  - intros d H. apply lab_parse. exact H.
  - unfold read_dir. apply (safe_bind (Forall obj_lab)); [|apply safe_read_objs]. intros os H. exact H.
Qed.
Lemma part_off_mod p : part_off C p mod c_pu C = 0.
Proof. destruct p; cbn [part_off]; [apply Nat.mod_same|apply Nat.mod_0_l]; lia. Qed.
Lemma safe_part_erase st p : safe st any (part_erase C p).
Proof. apply safe_fu_erase; [apply part_off_mod|apply Nat.mod_same; lia]. Qed.
Lemma safe_blank_or_erase st p : safe st any (blank_or_erase C p).
Proof.
  unfold blank_or_erase. apply (safe_bind any); [|apply safe_fu_blank]. intros rc _. destruct (nonblank rc); [apply safe_part_erase|exact I].
Qed.
Lemma safe_word st off e : safe st any (fu_program off [word e]).
Proof. apply safe_fu_program. repeat constructor. apply u64_word. Qed.
Lemma safe_program_init st p s0 : safe st any (program_init C p s0).
Proof.
  unfold program_init. apply (safe_bind any); [|apply safe_blank_or_erase]. intros rc _. destruct (is_ok rc); [|exact I].
  apply (safe_bind any); [|apply safe_word]. clear rc. intros rc _. destruct (is_ok rc); [|exact I].
  apply (safe_bind any); [|apply safe_word]. clear rc. intros rc _. destruct (is_ok rc); [|exact I].
  apply (safe_bind any); [|apply safe_word]. clear rc. intros rc _. destruct (is_ok rc); exact I.
Qed.
Lemma safe_init st : safe st (fun r => ctx_lab (snd r)) (nf_init C).
Proof.
  unfold nf_init. apply (safe_bind any); [|apply safe_state_read]. intros [r0 s0] _. apply (safe_bind any); [|apply safe_state_read]. intros [r1 s1] _. cbv zeta.
  apply (safe_bind any).
  - intros [[rc ac] s] _. destruct (is_ok rc).
    + apply (safe_bind (fun r => dir_lab (snd r))); [|apply safe_read_parse]. intros [rc' d] H. exact H.
    + cbn. unfold ctx_lab, dir_lab. cbn [x_dir d_objs]. apply Forall_forall. intros o I. apply repeat_spec in I. subst. apply lab_zero.
  - destruct (_ && _); [exact I|]. destruct (_ && _); [exact I|]. destruct (_ && _); [exact I|].
    apply (safe_bind any); [|apply safe_program_init]. intros [rc s] _. exact I.
Qed.
Lemma safe_obj_begin st p i e s m c : lab m -> safe st any (obj_begin C p i e s m c).
Proof.
  intros L. unfold obj_begin. apply (safe_bind any); [|apply safe_word]. intros rc _. destruct (is_ok rc); [|exact I].
  apply (safe_bind any); [|apply safe_fu_program; apply u64_meta, L]. clear rc. intros rc _. destruct (is_ok rc); [|exact I].
  apply safe_fu_program. repeat constructor. apply u64_obj_word.
Qed.
Lemma safe_obj_data st p u bs : bytes_ok bs -> safe st any (obj_data C p u bs).
Proof. intros B. unfold obj_data. destruct (check_range _ _ _ _); [|exact I]. apply safe_fu_program_bytes, B. Qed.
Lemma safe_obj_finish st p i n c : safe st any (obj_finish C p i n c).
Proof. apply safe_fu_program. repeat constructor. apply u64_obj_word. Qed.
Lemma safe_obj_read st d p i b n : safe st (fun r => bytes_ok (snd r)) (obj_read C d p i b n).
Proof.
  unfold obj_read. destruct (_ <=? _); [constructor|]. destruct (_ <? _); [constructor|]. destruct (negb _); [constructor|].
  apply (safe_bind (fun r => bytes_ok (snd r))); [|apply safe_fu_read_bytes]. intros [rc bs] H. destruct (_ && _); exact H.
Qed.
Lemma safe_copy_loop d a b i len : forall fuel doff dd crc st, safe st any (copy_loop C fuel d a b i len doff dd crc).
Proof.
  induction fuel as [|k IH]; intros doff dd crc st; cbn [copy_loop]; destruct (_ <=? _); try exact I.
  apply (safe_bind (fun r => bytes_ok (snd r))); [|apply safe_obj_read]. intros [rc bs] H. destruct (is_ok rc); [|exact I].
  apply (safe_bind any); [|apply safe_obj_data, H]. intros rc' _. destruct (is_ok rc'); [apply IH|exact I].
Qed.
Lemma safe_obj_copy st d a b i o dd : dir_lab d -> safe st any (obj_copy C d a b i o dd).
Proof.
  intros L. unfold obj_copy. cbv zeta. destruct (_ && _); [exact I|].
  apply (safe_bind any); [|apply safe_obj_begin; apply lab_nth, L]. intros rc _. destruct (is_ok rc); [|exact I].
  apply (safe_bind any); [|apply safe_copy_loop]. intros [[rc' dd'] crc] _. destruct (is_ok rc'); [|exact I]. destruct (_ && _); [exact I|].
  apply (safe_bind any); [|apply safe_obj_finish]. intros rc2 _. destruct (is_ok rc2); exact I.
Qed.
Lemma safe_copy_all d a b ids : dir_lab d -> forall n i o dd st, safe st any (copy_all C n i d a b ids o dd).
Proof.
  intros L. induction n as [|n IH]; intros i o dd st; cbn [copy_all]; [exact I|]. destruct (_ && _); [|apply IH].
  apply (safe_bind any); [|apply safe_obj_copy, L]. intros [[rc o'] dd'] _. destruct (is_ok rc); [apply IH|exact I].
Qed.
Lemma safe_destroy st x ids : ctx_lab x -> safe st (fun r => ctx_lab (snd r)) (nf_destroy C x ids).
Proof.
  intros L. unfold nf_destroy. destruct (x_bad x); [exact L|]. cbv zeta. destruct (_ && _); [exact L|].
  apply (safe_bind any); [|apply safe_blank_or_erase]. intros rc _. destruct (negb _); [exact L|].
  apply (safe_bind any); [|apply safe_word]. clear rc. intros rc _. destruct (negb _); [exact L|].
  apply (safe_bind any); [|apply safe_word]. clear rc. intros rc _. destruct (negb _); [exact L|].
  apply (safe_bind any); [|apply safe_copy_all, L]. clear rc. intros rc _. destruct (negb _); [exact L|].
  apply (safe_bind any); [|apply safe_word]. clear rc. intros rc _. destruct (negb _); [exact L|].
  apply (safe_bind (fun r => dir_lab (snd r))); [|apply safe_read_parse]. clear rc. intros [rc d'] H. destruct (negb _).
  - apply (safe_bind (fun r => dir_lab (snd r))); [|apply safe_read_parse]. intros [rc2 d2] H2. exact H2.
  - apply (safe_bind any); [|apply safe_part_erase]. intros rc2 _. exact H.
Qed.
Lemma safe_add st x m data : ctx_lab x -> lab m -> bytes_ok (dbytes data) -> safe st (fun r => ctx_lab (snd r)) (nf_add C x m data).
Proof.
  intros L M B. unfold nf_add. destruct (x_bad x); [exact L|]. cbv zeta. destruct (_ || _); [exact L|].
  assert (M' : lab (with_len m (N.of_nat (dlen data)))) by exact M.
  apply (safe_bind any).
  - intros rc _. destruct (is_ok rc); [|exact L]. 
    match goal with |- context [upd_nth ?a ?b ?c] => assert (U : Forall obj_lab (upd_nth a b c)) by (apply lab_upd; [exact M'|exact L]) end.
    destruct (find_obj _ _); cbn [FileFlashProof.safe snd]; unfold ctx_lab, dir_lab; cbn [x_dir d_objs]; [|exact U]. apply lab_upd; [|exact U]. exact (lab_nth _ _ U).
  - unfold obj_program. apply (safe_bind any); [|apply safe_obj_begin, M']. intros rc _. destruct (is_ok rc); [|exact I].
    apply (safe_bind any); [|destruct data; [apply safe_obj_data, B|exact I]]. clear rc. intros rc _. destruct (is_ok rc); [apply safe_obj_finish|exact I].
Qed.
Lemma safe_op st x o : ctx_lab x -> op_ok o -> safe st (fun r => ctx_lab (snd r)) (op_run C x o).
Proof.
  intros L OKo. destruct o as [m data|m data|ids|id off len|id|start|]; cbn [op_run op_ok] in *; try exact L.
  - destruct OKo as ((_ & _ & M) & B & _). apply (safe_bind (fun r => ctx_lab (snd r))); [|apply safe_add; auto; destruct data; exact B].
    intros [rc x'] H. exact H.
  - destruct OKo as ((_ & _ & M) & B & _). apply (safe_bind (fun r => ctx_lab (snd r))); [intros [rc x'] H; exact H|].
    unfold nvm_add_reclaim. destruct (nf_avail C x) as [rc [[[a b] c] e]].
    apply (safe_bind (fun r => ctx_lab (snd r))).
    + intros [rc' x'] H. destruct (is_ok rc'); [|exact H]. apply safe_add; auto.
    + destruct (is_ok rc); [|exact L]. destruct (_ || _); [|exact L]. destruct (_ && _); [apply safe_destroy, L|exact L].
  - apply (safe_bind (fun r => ctx_lab (snd r))); [|apply safe_destroy, L]. intros [rc x'] H. exact H.
  - apply (safe_bind (fun r => bytes_ok (snd r))).
    + intros [rc bs] _. exact L.
    + unfold nf_read. destruct (x_bad x); [constructor|]. destruct (find_obj _ _); [apply safe_obj_read|constructor].
Qed.
End Safe.

(** ** Lives of a file are lives of the device *)
Section Lives.
Variable C : cfg.
Hypothesis HC : cfg_ok C.
Notation n := (8 * dev_units C).
Notation fit := (sized n (c_eb C)).
Lemma pu_pos : 0 < c_pu C.
Proof. destruct HC as (H & _). unfold data_offset in H. lia. Qed.
Lemma fc_size : 2 * fc_part (fcfg_of C) = n.
Proof. unfold dev_units. cbn [fc_part fcfg_of]. lia. Qed.
Lemma bytes_sized F : bytes_ok F -> bytes_ok (fit F).
Proof. destruct HC as (_ & _ & E). intros H. unfold sized. apply bytes_ok_app. split; [apply bytes_ok_firstn, H|apply bytes_repeat, E]. Qed.
Lemma R_sized F : bytes_ok F -> R C (flash_of (fit F)) (fit F).
Proof. intros H. split; [apply sized_length|]. split; [apply bytes_sized, H|auto]. Qed.
Lemma flife_life offmax F0 evs F ox : bytes_ok F0 -> flife offmax C F0 evs F ox ->
  exists f, life C (flash_of (fit F0)) evs f ox /\ R C f (fit F) /\
    match ox with Some x => length F = n /\ ctx_lab x | None => True end.
Proof.
  pose proof pu_pos as PU. pose proof HC as (_ & _ & EB). intros B0 L.
  assert (INIT : forall F x F1, init offmax (fcfg_of C) true true None true F = (OK, Some x, F1) ->
    F1 = fit F /\ write_unlock (write_unlock x) = ctx_of C).
  { intros F1 x F2 E. apply init_ok in E. rewrite fc_size in E. destruct E as [-> ->]. auto. }
  assert (SAME : forall F, length F = n -> fit F = F) by (intros; apply sized_same; auto).
  assert (RL : forall f F, R C f F -> length F = n) by (intros f F1 (H & _); exact H).
  induction L as [|evs F x F1 F2 s L IH E X|evs F op w tr L IH E|evs F x F1 F2 L IH E X|evs F x F1 F2 rx L IH E X
                 |evs F s o r s' F' L IH O X|evs F s o F' L IH O X|evs F s o rx F' L IH O X|evs F os L IH].
  - eexists. split; [constructor|]. split; [apply R_sized, B0|exact I].
  - destruct IH as (f & LF & RF & _). destruct (INIT _ _ _ E) as [-> EX]. rewrite EX in X.
    destruct (sim_exec C PU EB _ _ _ _ _ X None _ f RF I (safe_init C PU None)) as (f' & X' & R' & Q).
    exists f'. split; [eapply life_boot; eauto|]. rewrite SAME by (eapply RL; exact R'). split; [exact R'|]. split; [eapply RL; exact R'|exact Q].
  - destruct IH as (f & LF & RF & _). exists f. split; [eapply life_boot_crash; [exact LF|constructor]|]. split; [|exact I].
    pose proof (init_sized offmax (fcfg_of C) F op w tr) as IS. rewrite fc_size in IS. cbn [fc_eb fcfg_of] in IS. rewrite IS. exact RF.
  - destruct IH as (f & LF & RF & _). destruct (INIT _ _ _ E) as [-> EX]. rewrite EX in X.
    destruct (sim_crash C PU EB _ _ _ _ X None _ f RF I (safe_init C PU None)) as (f' & X' & R').
    exists f'. split; [eapply life_boot_crash; eauto|]. rewrite SAME by (eapply RL; exact R'). auto.
  - destruct IH as (f & LF & RF & _). destruct (INIT _ _ _ E) as [-> EX]. rewrite EX in X.
    destruct (sim_exec C PU EB _ _ _ _ _ X None _ f RF I (safe_init C PU None)) as (f' & X' & R' & Q).
    exists f'. split; [eapply life_boot_fault; eauto|]. rewrite SAME by (eapply RL; exact R'). auto.
  - destruct IH as (f & LF & RF & LN & LB). rewrite SAME in RF by auto.
    destruct (sim_exec C PU EB _ _ _ _ _ X None _ f RF I (safe_op C PU None s o LB O)) as (f' & X' & R' & Q).
    exists f'. split; [eapply life_op; eauto|]. rewrite SAME by (eapply RL; exact R'). split; [exact R'|]. split; [eapply RL; exact R'|exact Q].
  - destruct IH as (f & LF & RF & LN & LB). rewrite SAME in RF by auto.
    destruct (sim_crash C PU EB _ _ _ _ X None _ f RF I (safe_op C PU None s o LB O)) as (f' & X' & R').
    exists f'. split; [eapply life_crash; eauto|]. rewrite SAME by (eapply RL; exact R'). auto.
  - destruct IH as (f & LF & RF & LN & LB). rewrite SAME in RF by auto.
    destruct (sim_exec C PU EB _ _ _ _ _ X None _ f RF I (safe_op C PU None s o LB O)) as (f' & X' & R' & Q).
    exists f'. split; [eapply life_fault; eauto|]. rewrite SAME by (eapply RL; exact R'). auto.
  - destruct IH as (f & LF & RF & _). exists f. split; [eapply life_off; eauto|]. auto.
Qed.
(** Starting again. *)
Lemma init_starts offmax F : (N.of_nat n <= offmax)%N ->
  init offmax (fcfg_of C) true true None true F = (OK, Some (mkF (8 * c_pu C) (c_eb C) false), fit F).
Proof.
  intros H. destruct HC as (_ & H2 & _). destruct (init offmax (fcfg_of C) true true None true F) as [[rc ox] F1] eqn:E. pose proof E as E0. revert E.
  unfold init. cbn [negb]. replace (max_offset _) with n by (unfold max_offset; cbn [f_part]; rewrite fc_size; reflexivity).
  assert (M : (N.of_nat n <= 4294967295)%N) by (unfold dev_units, W32 in *; lia).
  replace (4294967295 <? N.of_nat n)%N with false by (symmetry; apply N.ltb_ge; lia).
  replace (offmax <? N.of_nat n)%N with false by (symmetry; apply N.ltb_ge; lia). cbn [orb].
  assert (K : rc = OK -> ox = Some (mkF (8 * c_pu C) (c_eb C) false) ->
    (rc, ox, F1) = (OK, Some (mkF (8 * c_pu C) (c_eb C) false), fit F)).
  { intros -> ->. destruct (init_ok _ _ _ _ _ _ _ _ E0) as [-> _]. rewrite fc_size. reflexivity. }
  destruct (Nat.ltb_spec (length F) n).
  - rewrite pfill_end; [|lia|exact I]. cbn [done_of]. rewrite Nat.eqb_refl. intros E. inversion E. subst. apply K; reflexivity.
  - destruct (Nat.ltb_spec n (length F)); intros E; inversion E; subst; apply K; auto.
Qed.
End Lives.

(** ** Failing reads *)
Lemma read_any x w F off size : length F = max_offset x ->
  read x false w F off size = read x false None F off size \/ fst (read x false w F off size) = ABORTED.
Proof.
  intros L. destruct w as [k|]; auto. destruct (Nat.le_gt_cases size k) as [G|G].
  - left. unfold read. rewrite Nat.min_r by lia. reflexivity.
  - destruct (Nat.le_gt_cases (off + size) (max_offset x)) as [Q|Q].
    + right. rewrite read_short by auto. reflexivity.
    + left. unfold read. destruct (Nat.ltb_spec (max_offset x) (off + size)); [auto|lia].
Qed.
Lemma verify_loop_any x ws F data : length F = max_offset x -> forall fuel off fin doff,
  verify_loop fuel x ws F off fin doff data = verify_loop fuel x (fun _ => None) F off fin doff data \/
  verify_loop fuel x ws F off fin doff data = ABORTED.
Proof.
  intros L. induction fuel as [|k IH]; intros off fin doff; cbn [verify_loop]; auto. destruct (_ <? _); auto.
  destruct (read_any x (ws k) F off (Nat.min 64 (fin - off)) L) as [-> |E].
  - destruct (read x false None _ _ _) as [rc b]. destruct (negb _); auto. destruct (list_eqb _ _); auto.
  - right. destruct (read x false (ws k) _ _ _) as [rc b]. cbn [fst] in E. subst rc. reflexivity.
Qed.
Lemma blank_loop_any x ws F : length F = max_offset x -> forall fuel off fin,
  blank_loop fuel x ws F off fin = blank_loop fuel x (fun _ => None) F off fin \/ blank_loop fuel x ws F off fin = ABORTED.
Proof.
  intros L. induction fuel as [|k IH]; intros off fin; cbn [blank_loop]; auto. destruct (_ <? _); auto.
  destruct (read_any x (ws k) F off (Nat.min 64 (fin - off)) L) as [-> |E].
  - destruct (read x false None _ _ _) as [rc b]. destruct (negb _); auto. destruct (list_eqb _ _); auto.
  - right. destruct (read x false (ws k) _ _ _) as [rc b]. cbn [fst] in E. subst rc. reflexivity.
Qed.
Lemma verify_any x ws F off size d : length F = max_offset x ->
  verify x ws F off size d = verify x (fun _ => None) F off size d \/ verify x ws F off size d = ABORTED.
Proof.
  intros L. unfold verify. destruct (_ <? _); auto. destruct d; auto. destruct (_ =? _); auto. apply verify_loop_any, L.
Qed.
Lemma blank_any x ws F off size : length F = max_offset x ->
  blank_check x ws F off size = blank_check x (fun _ => None) F off size \/ blank_check x ws F off size = ABORTED.
Proof. intros L. unfold blank_check. destruct (_ <? _); auto. destruct (_ =? _); auto. apply blank_loop_any, L. Qed.
Lemma piece_replaced_same F off d : off + length d <= length F -> piece (replaced F off d) off (length d) = d.
Proof.
  intros H. unfold replaced. assert (L1 : length (firstn off F) = off) by (rewrite firstn_length; lia).
  rewrite piece_app_r by lia. rewrite L1, Nat.sub_diag. rewrite piece_app_l by lia. unfold piece. cbn [skipn]. apply firstn_all.
Qed.
Lemma piece_replaced_other F off d o m : off + length d <= length F -> o + m <= off \/ off + length d <= o ->
  piece (replaced F off d) o m = piece F o m.
Proof.
  intros H D. unfold replaced. assert (L1 : length (firstn off F) = off) by (rewrite firstn_length; lia). destruct D.
  - rewrite piece_app_l by lia. apply piece_firstn. lia.
  - rewrite piece_app_r by lia. rewrite L1, piece_app_r by lia. rewrite piece_skipn. f_equal. lia.
Qed.
