(** The byte formats of the authentication model: permission words and the user
    index decode to what was encoded. *)
From Verif Require Import Base BaseLemmas NvmSpec Store ServerModel AuthModel.
Local Open Scope N_scope.

Definition word_ok (x : N) : Prop := x < 2 ^ 32.
(** Permissions as the structure whAuthPermissions can hold them. *)
Definition perms_wf (p : perms) : Prop :=
  length (p_group p) = S NGROUPS /\ bytes_ok (p_group p) /\
  length (p_act p) = NGROUPS /\ Forall (fun r => length r = AWORDS /\ Forall word_ok r) (p_act p) /\
  p_count p < 2 ^ 16 /\
  length (p_keys p) = MAXKEYS /\ Forall word_ok (p_keys p).

Lemma map_nth_seq {A} (d : A) l : map (fun i => nth i l d) (seq 0 (length l)) = l.
Proof.
  apply nth_ext with (d := d) (d' := d); rewrite map_length, seq_length; auto.
  intros n H. rewrite nth_indep with (d' := nth 0 l d) by (rewrite map_length, seq_length; auto).
  rewrite (map_nth (fun i => nth i l d)), seq_nth; auto.
Qed.
Lemma map_nth_seq' {A} (d : A) l n : length l = n -> map (fun i => nth i l d) (seq 0 n) = l.
Proof. intros <-. apply map_nth_seq. Qed.
Lemma map_seq_ext {A} (f g : nat -> A) n : forall a, (forall i, (a <= i < a + n)%nat -> f i = g i) -> map f (seq a n) = map g (seq a n).
Proof.
  induction n as [|n IH]; intros a H; cbn [seq map]; auto. rewrite H by lia. f_equal. apply IH. intros i Hi. apply H. lia.
Qed.
Lemma flat_map_seq_ext {A} (f g : nat -> list A) n : forall a, (forall i, (a <= i < a + n)%nat -> f i = g i) ->
  flat_map f (seq a n) = flat_map g (seq a n).
Proof.
  induction n as [|n IH]; intros a H; cbn [seq flat_map]; auto. rewrite H by lia. f_equal. apply IH. intros i Hi. apply H. lia.
Qed.

Lemma skip_exact {A} n (a b : list A) : length a = n -> skipn n (a ++ b) = b.
Proof. intros <-. rewrite skipn_app, skipn_all, Nat.sub_diag. reflexivity. Qed.
Lemma first_exact {A} n (a b : list A) : length a = n -> firstn n (a ++ b) = a.
Proof. intros <-. rewrite firstn_app, Nat.sub_diag, firstn_all. cbn [firstn]. apply app_nil_r. Qed.

Lemma skip_skip {A} a b (l : list A) : skipn a (skipn b l) = skipn (a + b) l.
Proof.
  revert l; induction b as [|b IH]; intros l; [now rewrite Nat.add_0_r|].
  rewrite Nat.add_succ_r. destruct l as [|x l]; [now rewrite !skipn_nil|]. cbn [skipn]. apply IH.
Qed.
Lemma flat_map_row (r : list N) n : length r = n ->
  flat_map (fun j => le_enc 4 (nth j r 0)) (seq 0 n) = flat_map (le_enc 4) r.
Proof.
  intros H. transitivity (flat_map (le_enc 4) (map (fun i => nth i r 0) (seq 0 n))); [|now rewrite (map_nth_seq' 0 r n H)].
  generalize (seq 0 n). induction l as [|x l IH]; cbn [flat_map map]; auto. now rewrite IH.
Qed.
Lemma flat_map_rows (rows : list (list N)) k n : length rows = n -> Forall (fun r => length r = k) rows ->
  flat_map (fun i => flat_map (fun j => le_enc 4 (nth j (nth i rows []) 0)) (seq 0 k)) (seq 0 n) =
  flat_map (le_enc 4) (concat rows).
Proof.
  intros H F. transitivity (flat_map (fun i => flat_map (le_enc 4) (nth i rows [])) (seq 0 n)).
  - apply flat_map_seq_ext. intros i Hi. apply flat_map_row.
    rewrite Forall_forall in F. apply F. apply nth_In. lia.
  - transitivity (flat_map (le_enc 4) (concat (map (fun i => nth i rows []) (seq 0 n)))); [|now rewrite (map_nth_seq' [] rows n H)].
    generalize (seq 0 n).
    induction l as [|x l IH]; cbn [flat_map map concat]; auto. rewrite flat_map_app. now rewrite IH.
Qed.
Lemma flat_words_length ws : length (flat_map (le_enc 4) ws) = (4 * length ws)%nat.
Proof.
  induction ws as [|w ws IH]; cbn [flat_map length]; auto. rewrite app_length, IH, le_enc_length. lia.
Qed.
Lemma word_flat : forall ws a rest j, (j < length ws)%nat -> Forall word_ok ws ->
  word_at (a ++ flat_map (le_enc 4) ws ++ rest) (length a + 4 * j) = nth j ws 0.
Proof.
  intros ws a rest j H F. unfold word_at. rewrite skipn_app.
  replace (length a + 4 * j - length a)%nat with (4 * j)%nat by lia.
  rewrite (skipn_all2 a) by lia. cbn [app].
  revert j H. induction F as [|w ws Hw F IH]; intros j H; [cbn in H; lia|].
  cbn [flat_map]. destruct j as [|j].
  - rewrite Nat.mul_0_r. cbn [skipn nth]. rewrite <- app_assoc, first_exact by apply le_enc_length.
    apply le_dec_enc. exact Hw.
  - cbn [nth length] in *. replace (4 * S j)%nat with (4 * j + 4)%nat by lia. rewrite <- app_assoc, <- skip_skip.
    rewrite (skip_exact 4) by apply le_enc_length. apply IH. lia.
Qed.
Lemma nth_concat (rows : list (list N)) k : Forall (fun r => length r = k) rows -> forall i j, (j < k)%nat ->
  nth (k * i + j) (concat rows) 0 = nth j (nth i rows []) 0.
Proof.
  induction 1 as [|r rows Hr F IH]; intros i j Hj; cbn [concat].
  - destruct (k * i + j)%nat, i, j; reflexivity.
  - destruct i as [|i]; cbn [nth].
    + rewrite Nat.mul_0_r. cbn [Nat.add]. apply app_nth1. lia.
    + rewrite app_nth2 by lia. rewrite <- IH by auto. f_equal. lia.
Qed.
Lemma concat_length (rows : list (list N)) k : Forall (fun r => length r = k) rows -> length (concat rows) = (k * length rows)%nat.
Proof. induction 1 as [|r rows Hr F IH]; cbn [concat length]; [lia|]. rewrite app_length, IH. lia. Qed.
Lemma rows_eq (rows : list (list N)) k n : length rows = n -> Forall (fun r => length r = k) rows ->
  map (fun i => map (fun j => nth j (nth i rows []) 0) (seq 0 k)) (seq 0 n) = rows.
Proof.
  intros H F. transitivity (map (fun i => nth i rows []) (seq 0 n)); [|apply map_nth_seq'; auto].
  apply map_seq_ext. intros i Hi. apply map_nth_seq'. rewrite Forall_forall in F. apply F, nth_In. lia.
Qed.
(** Decoding the action words at an offset. *)
Lemma rows_at rows k n a rest : length rows = n -> Forall (fun r => length r = k /\ Forall word_ok r) rows ->
  map (fun i => map (fun j => word_at (a ++ flat_map (le_enc 4) (concat rows) ++ rest) (length a + 4 * (k * i + j))) (seq 0 k)) (seq 0 n) = rows.
Proof.
  intros H F. assert (FL : Forall (fun r => length r = k) rows) by (eapply Forall_impl; [|exact F]; intros r [X _]; exact X).
  etransitivity; [|apply (rows_eq rows k n H FL)].
  apply map_seq_ext. intros i Hi. apply map_seq_ext. intros j Hj. rewrite word_flat.
  - apply nth_concat; auto. lia.
  - rewrite (concat_length rows k FL), H. nia.
  - clear -F. induction F as [|r rows [_ Hr] F IH]; cbn [concat]; auto. apply Forall_app; auto.
Qed.
Lemma keys_at ks n a rest : length ks = n -> Forall word_ok ks ->
  map (fun i => word_at (a ++ flat_map (le_enc 4) ks ++ rest) (length a + 4 * i)) (seq 0 n) = ks.
Proof.
  intros H F. etransitivity; [|apply (map_nth_seq' 0 ks n H)].
  apply map_seq_ext. intros i Hi. apply word_flat; auto. lia.
Qed.

Lemma pad_exact n l : length l = n -> pad_to n l = l.
Proof. intros <-. unfold pad_to. rewrite firstn_app, Nat.sub_diag, firstn_all. cbn [firstn]. apply app_nil_r. Qed.
Lemma pad_length n l : length (pad_to n l) = n.
Proof. unfold pad_to. rewrite firstn_length, app_length, repeat_length. lia. Qed.
Lemma pad_short n l : (length l <= n)%nat -> pad_to n l = l ++ repeat 0 (n - length l).
Proof.
  intros H. unfold pad_to. rewrite firstn_app, firstn_all2 by lia. f_equal.
  replace n with (n - length l + length l)%nat at 2 by lia. rewrite repeat_app, firstn_app, repeat_length.
  rewrite Nat.sub_diag. cbn [firstn]. rewrite app_nil_r. apply firstn_all2. rewrite repeat_length. lia.
Qed.

Lemma clamp_wf p : perms_wf p -> perms_wf (clamp p).
Proof.
  intros (H1 & H2 & H3 & H4 & H5 & H6 & H7). unfold clamp, perms_wf; cbn [p_group p_act p_count p_keys].
  split; [auto|]. split; [auto|]. split; [auto|]. split; [auto|].
  split; [eapply N.le_lt_trans; [apply N.le_min_l|exact H5]|]. split; [apply pad_length|].
  unfold pad_to. rewrite Forall_forall. intros x Hx.
  assert (Hx' : In x (firstn (N.to_nat (N.min (p_count p) (N.of_nat MAXKEYS))) (p_keys p) ++ repeat 0 MAXKEYS)).
  { rewrite <- (firstn_skipn MAXKEYS). apply in_or_app. left. exact Hx. }
  apply in_app_or in Hx' as [Hi|Hi].
  - rewrite Forall_forall in H7. apply H7.
    rewrite <- (firstn_skipn (N.to_nat (N.min (p_count p) (N.of_nat MAXKEYS)))). apply in_or_app. left. exact Hi.
  - apply repeat_spec in Hi. subst x. reflexivity.
Qed.
Lemma perms_zero_wf : perms_wf perms_zero.
Proof.
  unfold perms_wf. cbn. repeat split; repeat constructor.
Qed.
Lemma keys_clamp p : perms_wf p -> key_ids (clamp p) = key_ids p.
Proof.
  intros (_ & _ & _ & _ & _ & H6 & _). unfold key_ids, clamp; cbn [p_count p_keys].
  assert (E : N.to_nat (N.min (p_count p) (N.of_nat MAXKEYS)) = Nat.min (N.to_nat (p_count p)) MAXKEYS).
  { rewrite N2Nat.inj_min, Nat2N.id. reflexivity. }
  rewrite E.
  replace (Nat.min (Nat.min (N.to_nat (p_count p)) MAXKEYS) MAXKEYS) with (Nat.min (N.to_nat (p_count p)) MAXKEYS) by lia.
  set (n := Nat.min (N.to_nat (p_count p)) MAXKEYS).
  assert (Hn : (n <= MAXKEYS)%nat) by (unfold n; lia).
  unfold pad_to. rewrite firstn_firstn, Nat.min_l by lia. rewrite firstn_app, firstn_firstn, Nat.min_id.
  rewrite firstn_length, H6, Nat.min_l by lia. rewrite Nat.sub_diag. cbn [firstn]. apply app_nil_r.
Qed.
Lemma is_admin_clamp p : is_admin (clamp p) = is_admin p.
Proof. reflexivity. Qed.

(** ** Flattened permissions *)
Lemma flatten_shape p : perms_wf p ->
  flatten p = p_group p ++ flat_map (le_enc 4) (concat (p_act p)) ++
              le_enc 2 (N.min (p_count p) (N.of_nat MAXKEYS)) ++ flat_map (le_enc 4) (p_keys (clamp p)).
Proof.
  intros (H1 & H2 & H3 & H4 & H5 & H6 & H7). unfold flatten, grp, act.
  rewrite (map_nth_seq' 0 (p_group p)) by auto.
  rewrite (flat_map_rows (p_act p) AWORDS NGROUPS); auto.
  2:{ eapply Forall_impl; [|exact H4]. intros r [X _]; exact X. }
  unfold key_ids, clamp; cbn [p_keys]. do 3 f_equal. f_equal. f_equal. f_equal.
  rewrite N2Nat.inj_min, Nat2N.id. reflexivity.
Qed.
Lemma flatten_length p : perms_wf p -> length (flatten p) = FLAT_LEN.
Proof.
  intros W. rewrite flatten_shape by auto. destruct W as (H1 & H2 & H3 & H4 & H5 & H6 & H7).
  rewrite !app_length, H1, !flat_words_length, le_enc_length.
  rewrite (concat_length (p_act p) AWORDS), H3.
  2:{ eapply Forall_impl; [|exact H4]. intros r [X _]; exact X. }
  unfold clamp; cbn [p_keys]. rewrite pad_length. reflexivity.
Qed.
Lemma unflatten_flatten p rest : perms_wf p -> unflatten (flatten p ++ rest) = clamp p.
Proof.
  intros W. rewrite flatten_shape by auto. pose proof (clamp_wf p W) as WC.
  destruct W as (H1 & H2 & H3 & H4 & H5 & H6 & H7). destruct WC as (_ & _ & _ & _ & _ & K6 & K7).
  assert (FL : Forall (fun r => length r = AWORDS) (p_act p)) by (eapply Forall_impl; [|exact H4]; intros r [X _]; exact X).
  assert (LA : length (flat_map (le_enc 4) (concat (p_act p))) = (4 * NGROUPS * AWORDS)%nat).
  { rewrite flat_words_length, (concat_length _ AWORDS), H3 by auto. reflexivity. }
  set (cnt := N.min (p_count p) (N.of_nat MAXKEYS)).
  unfold unflatten. rewrite <- !app_assoc. rewrite first_exact by auto.
  replace (clamp p) with (mkP (p_group p) (p_act p) cnt (p_keys (clamp p))) by reflexivity.
  f_equal.
  - rewrite <- H1. apply (rows_at (p_act p) AWORDS NGROUPS (p_group p)); auto.
  - rewrite app_assoc. rewrite skip_exact.
    2:{ rewrite app_length, H1, LA. reflexivity. }
    rewrite first_exact by apply le_enc_length. rewrite le_dec_enc.
    + unfold cnt. rewrite <- N.min_assoc, N.min_id. reflexivity.
    + unfold cnt. eapply N.le_lt_trans; [apply N.le_min_r|]. reflexivity.
  - etransitivity; [|apply (keys_at (p_keys (clamp p)) MAXKEYS
      (p_group p ++ flat_map (le_enc 4) (concat (p_act p)) ++ le_enc 2 cnt) rest); auto].
    apply map_seq_ext. intros i Hi. rewrite <- !app_assoc. f_equal.
    rewrite !app_length, H1, LA, le_enc_length. lia.
Qed.

(** ** The index *)
Definition core (u : urec) : urec := mkU (b_id u) (b_name u) (b_perm u) false METHOD_NONE 0.
Definition name_ok (n : list N) : Prop := (length n <= 31)%nat /\ Forall (fun b => 0 < b < 256) n.
Definition user_wf (i : nat) (u : urec) : Prop :=
  name_ok (b_name u) /\ perms_wf (b_perm u) /\ p_count (b_perm u) <= N.of_nat MAXKEYS /\
  (u = urec_zero \/ b_id u = N.of_nat (S i)).
Definition users_wf (us : list urec) : Prop :=
  length us = MAX_USERS /\ forall i, (i < MAX_USERS)%nat -> user_wf i (nth i us urec_zero).

Lemma cstr_pad n rest : Forall (fun b => 0 < b < 256) n -> cstr (n ++ 0 :: rest) = n.
Proof.
  induction 1 as [|b n Hb F IH]; cbn [app cstr]; auto.
  destruct (N.eqb_spec b 0); [lia|]. now rewrite IH.
Qed.
Lemma cstr_ok l : bytes_ok l -> Forall (fun b => 0 < b < 256) (cstr l) /\ (length (cstr l) <= length l)%nat.
Proof.
  induction 1 as [|b l Hb F [IH1 IH2]]; cbn [cstr length]; [split; auto|].
  destruct (N.eqb_spec b 0); cbn [length]; [split; auto; lia|].
  split; [constructor; auto; unfold byte_ok in Hb; lia|lia].
Qed.
Lemma uname_ok raw : bytes_ok raw -> name_ok (uname raw).
Proof.
  intros H. unfold uname. assert (B : bytes_ok (firstn 31 raw)).
  { apply Forall_forall. intros x Hx. rewrite <- (firstn_skipn 31) in H. apply Forall_app in H as [H _].
    rewrite Forall_forall in H. auto. }
  destruct (cstr_ok _ B) as [X Y]. split; auto. rewrite firstn_length in Y. lia.
Qed.

Lemma ser_shape u : perms_wf (b_perm u) ->
  ser_user u = le_enc 2 (b_id u) ++ pad_to 32 (b_name u) ++ [0; 0] ++ p_group (b_perm u) ++ [0] ++
               flat_map (le_enc 4) (concat (p_act (b_perm u))) ++ le_enc 2 (p_count (b_perm u)) ++ [0; 0] ++
               flat_map (le_enc 4) (p_keys (b_perm u)) ++ [0] ++ [0; 0; 0].
Proof.
  intros (H1 & H2 & H3 & H4 & H5 & H6 & H7). unfold ser_user, grp, act.
  rewrite (map_nth_seq' 0 (p_group (b_perm u))) by auto.
  rewrite (flat_map_rows (p_act (b_perm u)) AWORDS NGROUPS); auto.
  2:{ eapply Forall_impl; [|exact H4]. intros r [X _]; exact X. }
  rewrite (pad_exact MAXKEYS) by auto. reflexivity.
Qed.
Lemma ser_length u : perms_wf (b_perm u) -> length (ser_user u) = USER_SIZE.
Proof.
  intros W. rewrite ser_shape by auto. destruct W as (H1 & H2 & H3 & H4 & H5 & H6 & H7).
  rewrite !app_length, H1, !flat_words_length, !le_enc_length, pad_length, H6.
  rewrite (concat_length (p_act (b_perm u)) AWORDS), H3.
  2:{ eapply Forall_impl; [|exact H4]. intros r [X _]; exact X. }
  reflexivity.
Qed.
Lemma des_ser i u : (i < MAX_USERS)%nat -> user_wf i u -> des_user (ser_user u) = core u.
Proof.
  intros Hi (HN & W & HC & HI). rewrite ser_shape by auto.
  destruct W as (H1 & H2 & H3 & H4 & H5 & H6 & H7).
  assert (FL : Forall (fun r => length r = AWORDS) (p_act (b_perm u))) by (eapply Forall_impl; [|exact H4]; intros r [X _]; exact X).
  assert (LA : length (flat_map (le_enc 4) (concat (p_act (b_perm u)))) = (4 * NGROUPS * AWORDS)%nat).
  { rewrite flat_words_length, (concat_length _ AWORDS), H3 by auto. reflexivity. }
  assert (L2 : length (le_enc 2 (b_id u)) = 2%nat) by apply le_enc_length.
  assert (L3 : length (pad_to 32 (b_name u)) = 32%nat) by apply pad_length.
  unfold des_user, core. f_equal.
  - rewrite first_exact by auto. apply le_dec_enc. unfold MAX_USERS in Hi. destruct HI as [-> | ->]; [reflexivity|].
    change (256 ^ N.of_nat 2) with 65536. lia.
  - rewrite skip_exact by auto. destruct HN as [HL HB]. rewrite pad_short by lia.
    rewrite <- app_assoc. rewrite firstn_app, firstn_all2 by lia.
    destruct (32 - length (b_name u))%nat as [|k] eqn:Ek; [lia|]. cbn [repeat app].
    destruct (31 - length (b_name u))%nat as [|k'] eqn:Ek'.
    + cbn [firstn]. rewrite app_nil_r. rewrite <- (cstr_pad (b_name u) [] HB) at 2.
      clear -HB. induction HB as [|b n Hb F IH]; cbn [app cstr]; auto. destruct (N.eqb_spec b 0); [lia|]. now rewrite IH.
    + cbn [firstn]. apply cstr_pad; auto.
  - set (A := le_enc 2 (b_id u) ++ pad_to 32 (b_name u) ++ [0; 0]).
    assert (LA' : length A = 36%nat) by (unfold A; rewrite !app_length, L2, L3; reflexivity).
    assert (EP : mkP (p_group (b_perm u)) (p_act (b_perm u)) (p_count (b_perm u)) (p_keys (b_perm u)) = b_perm u)
      by (destruct (b_perm u); reflexivity).
    etransitivity; [|exact EP]. f_equal.
    + rewrite !app_assoc. rewrite <- (app_assoc _ (pad_to 32 _) [0; 0]). fold A. rewrite <- !app_assoc.
      rewrite (skip_exact 36 A) by auto. apply first_exact; auto.
    + etransitivity; [|apply (rows_at (p_act (b_perm u)) AWORDS NGROUPS (A ++ p_group (b_perm u) ++ [0])
        (le_enc 2 (p_count (b_perm u)) ++ [0; 0] ++ flat_map (le_enc 4) (p_keys (b_perm u)) ++ [0] ++ [0; 0; 0])); auto].
      assert (LB : length (A ++ p_group (b_perm u) ++ [0]) = 52%nat) by (rewrite !app_length, LA', H1; reflexivity).
      apply map_seq_ext. intros x Hx. apply map_seq_ext. intros y Hy. rewrite LB. f_equal.
      unfold A. rewrite <- !app_assoc. reflexivity.
    + set (B := A ++ p_group (b_perm u) ++ [0] ++ flat_map (le_enc 4) (concat (p_act (b_perm u)))).
      assert (LB : length B = 500%nat) by (unfold B; rewrite !app_length, LA', H1, LA; reflexivity).
      match goal with |- le_dec (firstn 2 (skipn 500 ?X)) = _ =>
        replace X with (B ++ le_enc 2 (p_count (b_perm u)) ++ [0; 0] ++ flat_map (le_enc 4) (p_keys (b_perm u)) ++ [0] ++ [0; 0; 0])
          by (unfold B, A; rewrite <- !app_assoc; reflexivity) end.
      rewrite (skip_exact 500 B) by auto. rewrite first_exact by apply le_enc_length. apply le_dec_enc. exact H5.
    + set (B := A ++ p_group (b_perm u) ++ [0] ++ flat_map (le_enc 4) (concat (p_act (b_perm u))) ++ le_enc 2 (p_count (b_perm u)) ++ [0; 0]).
      assert (LB : length B = 504%nat) by (unfold B; rewrite !app_length, LA', H1, LA, le_enc_length; reflexivity).
      etransitivity; [|apply (keys_at (p_keys (b_perm u)) MAXKEYS B ([0] ++ [0; 0; 0])); auto].
      apply map_seq_ext. intros x Hx. rewrite LB. f_equal. unfold B, A. rewrite <- !app_assoc. reflexivity.
Qed.
