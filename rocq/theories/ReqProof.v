(** Proofs for C67. *)
From Verif Require Import Base ReqModel ReqSpec.
From Coq Require Import Lia ZifyNat ZifyN ZifyBool.
Local Open Scope N_scope.

(** ** Lists *)
Lemma len_app : forall a b, len (a ++ b) = len a + len b.
Proof. intros. unfold len. rewrite app_length. lia. Qed.
Lemma len_nil : len [] = 0. Proof. reflexivity. Qed.
Lemma len_firstn : forall k l, len (firstn k l) = N.min (N.of_nat k) (len l).
Proof. intros. unfold len. rewrite firstn_length. lia. Qed.
Lemma supplied_len : forall a, supplied a -> len (data a) = size a.
Proof. intros [b | n] [H | H]; cbn in *; try discriminate; try reflexivity; subst; reflexivity. Qed.
Lemma given_len : forall a, given a = true -> len (data a) = size a.
Proof. intros. apply supplied_len. left; assumption. Qed.
Lemma missing_false : forall a, missing a = false -> supplied a.
Proof.
  intros a H. unfold missing in H. unfold supplied. destruct (given a); [left; reflexivity | right].
  cbn in H. apply N.ltb_ge in H. lia.
Qed.
Lemma missing_true : forall a, missing a = true -> given a = false /\ 0 < size a.
Proof.
  intros a H. unfold missing in H. apply andb_true_iff in H. destruct H as [A B].
  apply negb_true_iff in A. apply N.ltb_lt in B. auto.
Qed.

Section Writes.
Variable cf : conf.
Notation DL := (c_dl cf).
Notation put := (put cf).
Notation puts := (puts cf).

Lemma puts_app : forall w1 w2 buf,
  puts buf (w1 ++ w2) = match puts buf w1 with None => None | Some b => puts b w2 end.
Proof.
  induction w1 as [| w r IH]; intros w2 buf; [reflexivity |].
  cbn [app ReqModel.puts]. destruct (put buf w); [apply IH | reflexivity].
Qed.

Lemma put_ok : forall buf o d, len buf = DL -> o + len d <= DL ->
  put buf (o, d) = Some (with_at buf o d) /\ len (with_at buf o d) = DL /\
  firstn (N.to_nat (o + len d)) (with_at buf o d) = firstn (N.to_nat o) buf ++ d.
Proof.
  intros buf o d L F. unfold ReqModel.put, with_at.
  destruct (DL <? o + len d) eqn:E; [apply N.ltb_lt in E; lia |].
  split; [reflexivity |]. unfold len in *. split.
  - rewrite !app_length, firstn_length, skipn_length. lia.
  - rewrite app_assoc. rewrite firstn_app.
    replace (N.to_nat (o + N.of_nat (length d)) - length (firstn (N.to_nat o) buf ++ d))%nat with 0%nat
      by (rewrite app_length, firstn_length; lia).
    cbn [firstn]. rewrite app_nil_r. apply firstn_all2. rewrite app_length, firstn_length. lia.
Qed.

Lemma put_nil : forall buf o, o <= DL -> put buf (o, []) = Some buf.
Proof.
  intros buf o F. unfold ReqModel.put. rewrite len_nil.
  destruct (DL <? o + 0) eqn:E; [apply N.ltb_lt in E; lia |].
  cbn [app length]. rewrite Nat.add_0_r, firstn_skipn. reflexivity.
Qed.

(** Pieces one after the other from an offset on. *)
Inductive writes : N -> list (N * list N) -> list (list N) -> Prop :=
| W_nil : forall o, writes o [] []
| W_none : forall o ws ps, writes o ws ps -> writes o ws ([] :: ps)
| W_one : forall o o' d ws ps, o' = o -> writes (o + len d) ws ps -> writes o ((o', d) :: ws) (d :: ps)
| W_copy : forall o o' a ws ps, o' = o -> supplied a -> writes (o + size a) ws ps ->
    writes o (copy o' a ++ ws) (data a :: ps)
| W_last : forall o o' a, o' = o -> supplied a -> writes o (copy o' a) [data a].

Lemma puts_copy : forall buf o a, o <= DL -> puts buf (copy o a) = puts buf [(o, data a)].
Proof.
  intros buf o [[| x b] | n] F; cbn [copy data ReqModel.puts]; try reflexivity; rewrite put_nil by exact F; reflexivity.
Qed.

Lemma writes_ok : forall o ws ps, writes o ws ps -> forall buf pre,
  len buf = DL -> firstn (N.to_nat o) buf = pre -> o + len (concat ps) <= DL ->
  exists b, puts buf ws = Some b /\ len b = DL /\ firstn (N.to_nat (o + len (concat ps))) b = pre ++ concat ps.
Proof.
  induction 1 as [o | o ws ps W IH | o o' d ws ps Eo W IH | o o' a ws ps Eo S W IH | o o' a Eo S]; intros buf pre L P F.
  - exists buf. cbn [concat ReqModel.puts]. rewrite len_nil, N.add_0_r, app_nil_r. auto.
  - cbn [concat app] in *. apply IH; assumption.
  - subst o'. cbn [concat] in *. rewrite len_app in *.
    destruct (put_ok buf o d L ltac:(lia)) as (A & B & C).
    cbn [ReqModel.puts]. rewrite A. rewrite P in C.
    destruct (IH _ _ B C ltac:(lia)) as (b & Q & R & T). exists b.
    rewrite app_assoc. replace (o + (len d + len (concat ps))) with (o + len d + len (concat ps)) by lia. auto.
  - subst o'. cbn [concat] in *. rewrite len_app in *.
    rewrite (supplied_len a S) in *.
    destruct (put_ok buf o (data a) L ltac:(rewrite (supplied_len a S); lia)) as (A & B & C).
    rewrite (supplied_len a S) in C. rewrite P in C.
    rewrite puts_app, puts_copy by lia. cbn [ReqModel.puts]. rewrite A.
    destruct (IH _ _ B C ltac:(lia)) as (b & Q & R & T). exists b.
    rewrite app_assoc. replace (o + (size a + len (concat ps))) with (o + size a + len (concat ps)) by lia. auto.
  - subst o'. cbn [concat] in *. rewrite app_nil_r in *. rewrite (supplied_len a S) in *.
    destruct (put_ok buf o (data a) L ltac:(rewrite (supplied_len a S); lia)) as (A & B & C).
    rewrite (supplied_len a S) in C. rewrite P in C.
    rewrite puts_copy by lia. cbn [ReqModel.puts]. rewrite A. eauto.
Qed.

(** Writes that leave [h] in the first bytes. *)
Definition heads (ws : list (N * list N)) (h : list N) : Prop :=
  len h <= DL -> forall buf, len buf = DL ->
  exists b, puts buf ws = Some b /\ len b = DL /\ firstn (N.to_nat (len h)) b = h.

Lemma heads_nil : forall h, len h = 0 -> heads [] h.
Proof.
  intros h E _ buf L. exists buf. cbn [ReqModel.puts]. rewrite E.
  assert (h = []) by (destruct h; [reflexivity | unfold len in E; cbn in E; lia]). subst. auto.
Qed.
Lemma heads_one : forall h, heads [(0, h)] h.
Proof.
  intros h F buf L. destruct (put_ok buf 0 h L ltac:(lia)) as (A & B & C).
  cbn [ReqModel.puts]. rewrite A. exists (with_at buf 0 h). rewrite N.add_0_l in C. auto.
Qed.

Lemma with_at_len : forall h o d, o + len d <= len h -> len (with_at h o d) = len h.
Proof. intros h o d F. unfold with_at, len in *. rewrite !app_length, firstn_length, skipn_length. lia. Qed.
Lemma with_at_nil : forall h o, with_at h o [] = h.
Proof. intros. unfold with_at. cbn [app length]. rewrite Nat.add_0_r. apply firstn_skipn. Qed.

(** The head of a buffer after a write that starts inside the head. *)
Lemma firstn_with_at : forall b h o d k, firstn (N.to_nat (len h)) b = h -> len h <= len b ->
  o + N.of_nat k <= len h -> (length (firstn k d) = k \/ (length d <= k)%nat) ->
  ((length d <= k)%nat \/ o + N.of_nat k = len h) ->
  firstn (N.to_nat (len h)) (with_at b o d) = with_at h o (firstn k d).
Proof.
  intros b h o d k P L F K E.
  assert (B : b = h ++ skipn (N.to_nat (len h)) b) by (rewrite <- P at 1; symmetry; apply firstn_skipn).
  set (r := skipn (N.to_nat (len h)) b) in *. clearbody r. subst b. clear P L.
  unfold with_at, len in *. rewrite Nat2N.id.
  rewrite (firstn_app (N.to_nat o)). replace (N.to_nat o - length h)%nat with 0%nat by lia.
  cbn [firstn]. rewrite app_nil_r.
  rewrite firstn_app. rewrite (firstn_all2 (n := length h)) by (rewrite firstn_length; lia).
  f_equal. rewrite firstn_length. rewrite (Nat.min_l (N.to_nat o)) by lia.
  rewrite firstn_app.
  destruct (Nat.le_gt_cases (length d) k) as [Q | Q].
  - rewrite (firstn_all2 (n := k)) by exact Q. rewrite (firstn_all2 d) by lia. f_equal.
    rewrite skipn_app, firstn_app. rewrite (firstn_all2 (skipn (N.to_nat o + length d) h)) by (rewrite skipn_length; lia).
    replace (length h - N.to_nat o - length d - length (skipn (N.to_nat o + length d) h))%nat with 0%nat
      by (rewrite skipn_length; lia).
    cbn [firstn]. rewrite app_nil_r. reflexivity.
  - destruct E as [E | E]; [lia |].
    replace (length h - N.to_nat o)%nat with k by lia.
    replace (k - length d)%nat with 0%nat by lia. cbn [firstn]. rewrite app_nil_r.
    rewrite (skipn_all2 h) by (rewrite firstn_length; lia). rewrite app_nil_r. reflexivity.
Qed.

Lemma heads_field : forall h o d, o + len d <= len h -> heads [(0, h); (o, d)] (with_at h o d).
Proof.
  intros h o d F. unfold heads. rewrite with_at_len by exact F. intros G buf L.
  destruct (heads_one h G buf L) as (b & A & B & C).
  change [(0, h); (o, d)] with ([(0, h)] ++ [(o, d)]). rewrite puts_app, A.
  destruct (put_ok b o d B ltac:(lia)) as (A' & B' & _). cbn [ReqModel.puts]. rewrite A'.
  exists (with_at b o d). split; [reflexivity |]. split; [exact B' |].
  rewrite (firstn_with_at b h o d (length d) C ltac:(lia)).
  - rewrite firstn_all. reflexivity.
  - unfold len in *. lia.
  - right; lia.
  - left; lia.
Qed.

Lemma firstn_cut : forall (b : list N),
  firstn (N.to_nat (if 24 <? len b then 24 else len b)) b = firstn 24 b.
Proof.
  intros b. destruct (24 <? len b) eqn:E; [reflexivity |]. apply N.ltb_ge in E. unfold len in *.
  rewrite Nat2N.id. rewrite firstn_all. symmetry. apply firstn_all2. lia.
Qed.

Lemma heads_label : forall h o l, o + 24 <= len h -> heads ((0, h) :: label o l) (with_at h o (first 24 l)).
Proof.
  intros h o [b | n] F.
  - unfold label, copy_first, first. cbn [size data]. rewrite firstn_cut. apply heads_field.
    rewrite len_firstn. lia.
  - cbn [label copy_first]. unfold first. cbn [data firstn]. rewrite with_at_nil. apply heads_one.
Qed.
Lemma heads_label_if : forall h o l, o + 24 <= len h ->
  heads ((0, h) :: (if given l && (0 <? size l) then label o l else [])) (with_at h o (first 24 l)).
Proof.
  intros h o l F. destruct (given l && (0 <? size l)) eqn:E; [apply heads_label; exact F |].
  assert (D : first 24 l = []).
  { destruct l as [b | n]; [| reflexivity]. cbn in E. apply N.ltb_ge in E.
    destruct b; [reflexivity | unfold len in E; cbn in E; lia]. }
  rewrite D, with_at_nil. apply heads_one.
Qed.
Lemma heads_copy : forall h o l, o + 24 <= len h -> size l <= 24 -> supplied l ->
  heads ((0, h) :: copy o l) (with_at h o (first 24 l)).
Proof.
  intros h o l F G S.
  assert (D : first 24 l = data l).
  { unfold first. apply firstn_all2. pose proof (supplied_len l S) as E. unfold len in E. lia. }
  rewrite D. pose proof (supplied_len l S) as E.
  destruct l as [[| x b] | n]; cbn [copy data]; try (rewrite with_at_nil; apply heads_one).
  apply heads_field. cbn [data] in E. lia.
Qed.
Lemma heads_iv : forall h o l, o + 16 = len h -> 16 <= size l -> given l = true -> o + size l <= DL ->
  heads ((0, h) :: copy o l) (with_at h o (first 16 l)).
Proof.
  intros h o l F G S T. destruct l as [b | n]; [| discriminate S]. cbn [size] in *. unfold first. cbn [data].
  assert (K : length (firstn 16 b) = 16%nat) by (rewrite firstn_length; unfold len in G; lia).
  unfold heads. rewrite with_at_len by (unfold len; rewrite K; unfold len in F; lia). intros Q buf L.
  destruct (heads_one h Q buf L) as (b' & A & B & C).
  replace (copy o (Buf b)) with [(o, b)] by (destruct b; [discriminate K | reflexivity]).
  change [(0, h); (o, b)] with ([(0, h)] ++ [(o, b)]). change ((0, h) :: [(o, b)]) with ([(0, h)] ++ [(o, b)]).
  rewrite puts_app, A.
  destruct (put_ok b' o b B ltac:(lia)) as (A' & B' & _). cbn [ReqModel.puts]. rewrite A'.
  exists (with_at b' o b). split; [reflexivity |]. split; [exact B' |].
  apply firstn_with_at; try exact C; try lia.
Qed.

Lemma heads_writes : forall w1 w2 h ps, heads w1 h -> writes (len h) w2 ps -> len h + len (concat ps) <= DL ->
  forall buf, len buf = DL ->
  exists b, puts buf (w1 ++ w2) = Some b /\ len b = DL /\
    firstn (N.to_nat (len h + len (concat ps))) b = h ++ concat ps.
Proof.
  intros w1 w2 h ps A W F buf L. destruct (A ltac:(lia) buf L) as (b & P & Q & R).
  rewrite puts_app, P. apply (writes_ok _ _ _ W); assumption.
Qed.

(** A write that ends outside the buffer. *)
Lemma puts_overrun : forall ws o d, In (o, d) ws -> DL < o + len d -> forall buf, puts buf ws = None.
Proof.
  induction ws as [| w r IH]; intros o d I G buf; [destruct I |].
  cbn [ReqModel.puts]. destruct I as [-> | I].
  - unfold ReqModel.put. destruct (DL <? o + len d) eqn:E; [reflexivity | apply N.ltb_ge in E; lia].
  - destruct (put buf w) as [b |]; [| reflexivity]. exact (IH o d I G b).
Qed.
End Writes.

(** ** What a function does with its arguments *)
Definition head (enc : call -> list N) (c : call) : list N :=
  match among c with Some (o, d) => with_at (enc c) o d | None => enc c end.

Definition shape (cf : conf) (enc : call -> list N) (c : call) (p : plan) : Prop :=
  match p with
  | No rc => rc <> OK /\ ~ (acceptable cf c /\ fits cf c) /\ ~ nothing_to_do c
  | Idle => nothing_to_do c
  | Go ws t =>
      acceptable cf c /\ fits cf c /\ ~ nothing_to_do c /\
      t = fixed cf c + len (concat (follows c)) /\
      exists w1 w2, ws = w1 ++ w2 /\ heads cf w1 (head enc c) /\ writes (fixed cf c) w2 (follows c)
  end.

Lemma first_len : forall k a, given a = true -> N.of_nat k <= size a -> len (first k a) = N.of_nat k.
Proof.
  intros k [b | n] G F; [| discriminate G]. unfold first. cbn [data size] in *. rewrite len_firstn. lia.
Qed.

Lemma resolve_data : forall named cached key, missing key = false ->
  data (resolve named cached key) = cmac_key named cached key /\ supplied (resolve named cached key).
Proof.
  intros named cached key M. apply missing_false in M. unfold resolve, cmac_key, supplied in *.
  destruct key as [b | n]; [cbn; auto |]. cbn in M. destruct M as [M | M]; [discriminate M | subst n].
  cbn [given size negb andb]. rewrite N.eqb_refl. cbn [andb]. destruct named; cbn [negb andb]; [cbn; auto |].
  destruct cached as [| x r]; [cbn; auto |].
  replace (0 <? len (x :: r)) with true by (symmetry; apply N.ltb_lt; unfold len; cbn [length]; lia).
  cbn; auto.
Qed.

Section Shape.
Variable cf : conf.
Variable enc : call -> list N.
Hypothesis Sane : sane cf.
Hypothesis Fields : good_fields cf enc.

Lemma enc_len : forall c, len (enc c) = fixed cf c.
Proof. intros c. apply Fields. Qed.

Lemma st_small : forall x, x < 2 ^ 32 -> x mod c_sizet cf = x.
Proof. intros x H. destruct Sane as (_ & _ & _ & [E | E]); rewrite E; apply N.mod_small; lia. Qed.
Lemma u32_small : forall x, x < 2 ^ 32 -> U32 x = x.
Proof. intros x H. apply N.mod_small. exact H. Qed.
Lemma u16_small : forall x, x < 2 ^ 16 -> U16 x = x.
Proof. intros x H. apply N.mod_small. exact H. Qed.
End Shape.

Ltac bools := repeat match goal with
  | H : _ || _ = false |- _ => apply orb_false_iff in H; destruct H
  | H : _ && _ = true |- _ => apply andb_true_iff in H; destruct H
  | H : _ || _ = true |- _ => apply orb_true_iff in H; destruct H
  | H : _ && _ = false |- _ => apply andb_false_iff in H; destruct H
  | H : negb _ = true |- _ => apply negb_true_iff in H
  | H : negb _ = false |- _ => apply negb_false_iff in H
  | H : (_ <? _) = true |- _ => apply N.ltb_lt in H
  | H : (_ <? _) = false |- _ => apply N.ltb_ge in H
  | H : (_ =? _) = true |- _ => apply N.eqb_eq in H
  | H : (_ =? _) = false |- _ => apply N.eqb_neq in H
  | H : missing _ = false |- _ => apply missing_false in H
  | H : missing _ = true |- _ => apply missing_true in H; destruct H
  end.
Ltac tests := repeat match goal with
  | |- context [if ?b then _ else _] => destruct b eqn:?
  end; bools.
Ltac lens := repeat match goal with
  | H : given ?a = true |- context [len (first ?k ?a)] => rewrite (first_len k a H) by lia
  | H : given ?a = true, G : context [len (first ?k ?a)] |- _ => rewrite (first_len k a H) in G by lia
  | H : supplied ?a |- context [len (data ?a)] => rewrite (supplied_len a H)
  | H : supplied ?a, G : context [len (data ?a)] |- _ => rewrite (supplied_len a H) in G
  | H : given ?a = true |- context [len (data ?a)] => rewrite (given_len a H)
  | H : given ?a = true, G : context [len (data ?a)] |- _ => rewrite (given_len a H) in G
  end.
Ltac ands := repeat match goal with H : _ /\ _ |- _ => destruct H | H : exists _, _ |- _ => destruct H
  | H : ?x = ?x -> _ |- _ => specialize (H eq_refl) end.

Lemma W_tail : forall o o' a ps, o' = o -> supplied a -> writes (o + size a) [] ps ->
  writes o (copy o' a) (data a :: ps).
Proof. intros. rewrite <- (app_nil_r (copy o' a)). apply W_copy; assumption. Qed.
Lemma W_buf : forall o o' b ws ps, o' = o -> writes (o + len b) ws ps ->
  writes o (copy o' (Buf b) ++ ws) (b :: ps).
Proof. intros o o' b ws ps E W. apply (W_copy o o' (Buf b)); [exact E | left; reflexivity | exact W]. Qed.
Lemma W_buf_tail : forall o o' b ps, o' = o -> writes (o + len b) [] ps -> writes o (copy o' (Buf b)) (b :: ps).
Proof. intros. apply (W_tail o o' (Buf b)); [assumption | left; reflexivity | assumption]. Qed.
Lemma W_first : forall o o' k a ws ps, o' = o -> given a = true -> writes (o + len (first (N.to_nat k) a)) ws ps ->
  writes o (copy_first o' k a ++ ws) (first (N.to_nat k) a :: ps).
Proof. intros o o' k [b | n] ws ps E G W; [| discriminate G]. cbn [copy_first app]. apply W_one; assumption. Qed.
Lemma W_first_tail : forall o o' k a, o' = o -> given a = true ->
  writes o (copy_first o' k a) [first (N.to_nat k) a].
Proof. intros. rewrite <- (app_nil_r (copy_first o' k a)). apply W_first; [assumption | assumption | apply W_nil]. Qed.
Lemma copy_first_all : forall o k a, given a = true -> size a = k -> 0 < k -> copy_first o k a = copy o a.
Proof.
  intros o k [b | n] G E F; [| discriminate G]. cbn [size copy_first copy] in *. subst k.
  rewrite firstn_all2 by (unfold len; lia). destruct b; [cbn in F; lia | reflexivity].
Qed.
Lemma first_all : forall k a, given a = true -> size a = N.of_nat k -> first k a = data a.
Proof. intros k [b | n] G E; [| discriminate G]. apply firstn_all2. cbn in *. unfold len in E. lia. Qed.

Lemma supplied_nil : forall a, supplied a -> (data a = [] <-> size a = 0).
Proof.
  intros a S. pose proof (supplied_len a S) as E. split; intro H.
  - rewrite H in E. cbn in E. lia.
  - destruct (data a); [reflexivity |]. unfold len in E. cbn [length] in E. lia.
Qed.
Lemma resolve_facts : forall named cached key, missing key = false -> let rk := resolve named cached key in
  data rk = cmac_key named cached key /\ supplied rk /\ size key <= size rk /\
  (size rk = size key \/ size rk = len cached) /\ supplied key.
Proof.
  intros named cached key M rk. destruct (resolve_data named cached key M) as [A B].
  split; [exact A |]. split; [exact B |]. apply missing_false in M. subst rk. unfold resolve in *.
  destruct (negb (given key) && (size key =? 0) && negb named && (0 <? len cached)) eqn:E; [| auto with zarith].
  bools. cbn [size]. split; [lia |]. auto.
  split; [lia |]. split; [left; reflexivity | exact M].
Qed.

Lemma ed_spec : forall ty ctx, ed_refuses ty ctx = false <-> ed_ok ty ctx.
Proof.
  intros ty ctx. unfold ed_refuses, ed_type, ed_ok. split.
  - intro H. bools; (split; [assumption |]); subst; try (left; split; [reflexivity | destruct ctx; cbn in *; congruence]);
      try (right; split; [auto | lia]); try lia.
  - intros [S [[-> ->] | [T U]]]; [reflexivity |].
    replace (missing ctx) with false
      by (symmetry; destruct (missing ctx) eqn:E; [| reflexivity]; apply missing_true in E; destruct E, S; [congruence | lia]).
    replace (255 <? size ctx) with false by (symmetry; apply N.ltb_ge; lia).
    destruct T; subst ty; reflexivity.
Qed.

Lemma ed_true : forall ty ctx, ed_refuses ty ctx = true -> ~ ed_ok ty ctx.
Proof. intros ty ctx E H. apply ed_spec in H. congruence. Qed.
Lemma ed_false : forall ty ctx, ed_refuses ty ctx = false -> ed_ok ty ctx /\ supplied ctx /\ size ctx <= 255.
Proof.
  intros ty ctx E. apply ed_spec in E. split; [exact E |]. destruct E as [A B]. split; [exact A |].
  destruct B as [[_ ->] | [_ B]]; [cbn; lia | exact B].
Qed.
Lemma supplied_null : forall a, supplied a -> given a = false -> size a = 0.
Proof. intros a [H | H] G; [congruence | exact H]. Qed.

Ltac Zify.zify_post_hook ::= Z.to_euclidean_division_equations.
Ltac op := unfold acceptable, fits, nothing_to_do, in_range, regular, sum_fits_its_type, stated, she_stated, total,
  nonempty, at_least, name, tag_ok, u16_arg, u32_arg, follows in *;
  cbn [fold_right app size concat fixed] in *; rewrite ?app_nil_r, ?len_app, ?len_nil in *.
Ltac arith := first [assumption | congruence | lia | discriminate].
Ltac fin := ands; lens; repeat match goal with |- _ /\ _ => split end; first [arith | left; arith | right; arith | idtac].
Ltac supp := match goal with H : supplied ?a, G : given ?a = false |- _ => destruct H; [congruence | lia] end.
Ltac refuse := split; [discriminate | split; [intros [A F]; ands; lens; first [contradiction | arith | supp] | try tauto; intro; ands; arith]].
Ltac wr := repeat first [apply W_nil | apply W_none | apply W_buf_tail; [lia |] | apply W_buf; [lia |]
  | apply W_tail; [lia | assumption |] | apply W_copy; [lia | assumption |] | apply W_one; [lia |]].
(** An optional label as one piece of the writes. *)
Ltac lab cf h := try match goal with
  | |- context [if given ?l && (0 <? size ?l) then label ?o ?l else []] =>
      let K := fresh "K" in pose proof (heads_label_if cf h o l) as K;
      let L := fresh "L" in
      set (L := if given l && (0 <? size l) then label o l else []) in *; clearbody L
  end.

Section ShapeProof.
Variable cf : conf.
Variable enc : call -> list N.
Hypothesis Sane : sane cf.
Hypothesis Fields : good_fields cf enc.

Lemma shape_all : forall c, in_range c -> regular cf c -> shape cf enc c (prepare cf enc c).
Proof.
  intros c R Q. pose proof Sane as (S1 & S2 & S3 & S4). pose proof (enc_len cf enc Fields c) as EL.
  assert (G : forall a, given a = true -> supplied a) by (intros; left; assumption).
  assert (P : forall x (r : list N), (0 <? len (x :: r)) = true)
    by (intros; apply N.ltb_lt; unfold len; cbn [length]; lia).
  set (h := enc c) in *.
  destruct c; try (destruct named); try (destruct enc0); try (destruct dma); unfold prepare; cbn [negb andb orb].
  all: rewrite ?orb_false_r, ?orb_true_r, ?(andb_comm (0 <? _) (given _)); fold h; lab cf h.
  all: try match goal with |- context [ed_refuses ?t ?x] =>
         destruct (ed_refuses t x) eqn:ED; rewrite ?orb_true_r, ?orb_false_r;
         [pose proof (ed_true t x ED) | pose proof (ed_false t x ED)] end.
  all: try match goal with |- context [resolve ?n ?c ?k] =>
         let M := fresh "M" in destruct (missing k) eqn:M; rewrite ?orb_true_r; cbn [orb]; try discriminate M end.
  all: op.
  all: try match goal with M : missing ?k = false |- context [resolve ?n ?c ?k] =>
         destruct (resolve_facts n c k M) as (F1 & F2 & F3 & F4 & F5);
         set (rk := resolve n c k) in *; clearbody rk; pose proof (supplied_nil rk F2) end.
  all: ands.
  all: rewrite ?(st_small cf Sane) by lia.
  all: rewrite ?u32_small by lia.
  all: tests; cbn [shape]; op; try rewrite <- F1; repeat match goal with H : given ?a = true |- _ => 
       lazymatch goal with S : supplied a |- _ => fail | _ => pose proof (G a H) end end;
       repeat match goal with S : supplied ?a, H : given ?a = false |- _ => pose proof (supplied_null a S H); clear H end.
  all: rewrite ?u16_small in * by lia.
  all: try (refuse; fail).
  all: try (split; [fin; fail | split; [ands; lens; lia | split; [try tauto; intro; ands; arith | split; [ands; lens; lia |]]]]).
  all: unfold head, among; fold h.
  all: try (exists [(0, h)]; eexists; split; [reflexivity | split; [apply heads_one | wr]]; fail).
  all: try (eexists (_ :: _), _; split; [reflexivity | split; [first [apply heads_label; lia | apply K; lia | apply heads_copy; [lia | lia | assumption] | apply heads_iv; [lia | lia | assumption | lia]] | wr]]; fail).
  all: try (eexists (_ :: _), []; split; [rewrite app_nil_r; reflexivity | split; [first [apply heads_label; lia | apply K; lia] | wr]]; fail).
  - exists [], (copy 0 d). split; [reflexivity |]. split; [apply heads_nil; lia | wr].
  - exists [], (copy 0 d). split; [reflexivity |]. split; [apply heads_nil; lia | wr].
  - assert (E : size meta = 32) by auto. rewrite (copy_first_all 6 32 meta) by (assumption || lia).
    exists [(0, h)]; eexists; split; [reflexivity | split; [apply heads_one | wr]].
  - exists [(0, h)]; eexists; split; [reflexivity | split; [apply heads_one |]].
    apply W_copy; [lia | assumption |]. apply (W_first_tail _ _ 16); [lia | assumption].
  - destruct uid as [b | n]; [| discriminate]. eexists ((0, h) :: _), []. split; [rewrite app_nil_r; reflexivity |].
    split; [| wr]. apply heads_field. unfold first; cbn [fixed size data] in *. rewrite len_firstn. lia.
  - exists [], (copy_first 0 16 key). split; [reflexivity |]. split; [apply heads_nil; lia |].
    apply (W_first_tail _ _ 16); [lia | assumption].
  - exists [], (copy_first 0 16 entropy). split; [reflexivity |]. split; [apply heads_nil; lia |].
    rewrite (copy_first_all 0 16 entropy) by (assumption || lia). wr.
  - lia.
  - split; [assumption | lia].
  - repeat split; try lia. apply supplied_nil; [assumption | lia].
  - repeat split; try lia. apply supplied_nil; [assumption | lia].
  - repeat split; try lia. apply supplied_nil; [assumption | lia].
  - repeat split; try lia. apply supplied_nil; [assumption | lia].
Qed.

Lemma request_exact : forall c buf, in_range c -> regular cf c -> len buf = c_dl cf ->
  (nothing_to_do c -> request cf enc buf c = Quiet) /\
  (~ nothing_to_do c -> acceptable cf c -> fits cf c -> request cf enc buf c = Sent (message enc c)) /\
  (~ nothing_to_do c -> ~ (acceptable cf c /\ fits cf c) -> exists rc, rc <> OK /\ request cf enc buf c = Refused rc).
Proof.
  intros c buf R Q L. pose proof (shape_all c R Q) as S. unfold request.
  destruct (prepare cf enc c) as [rc | | ws t]; cbn [shape] in S.
  - destruct S as (A & B & C). split; [tauto |]. split; [tauto |]. intros _ _. exists rc. auto.
  - split; [reflexivity |]. tauto.
  - destruct S as (A & B & C & -> & w1 & w2 & -> & H1 & H2). split; [tauto |]. split; [| tauto]. intros _ _ _.
    assert (HL : len (head enc c) = fixed cf c).
    { unfold head. pose proof (enc_len cf enc Fields c) as EL.
      destruct (among c) as [[o d] |] eqn:Ea; [| exact EL]. rewrite with_at_len; [exact EL |].
      rewrite EL. destruct c; inversion Ea; subst; unfold first; rewrite len_firstn; cbn [fixed]; lia. }
    unfold fits in B. destruct Sane as (S1 & _).
    destruct (heads_writes cf w1 w2 (head enc c) (follows c) H1) with (buf := buf) as (b & P1 & P2 & P3);
      [rewrite HL; assumption | rewrite HL; assumption | exact L |].
    rewrite P1. rewrite u16_small by lia.
    destruct (c_dl cf <? fixed cf c + len (concat (follows c))) eqn:E; [apply N.ltb_lt in E; lia |].
    f_equal. rewrite <- HL. exact P3.
Qed.

(** ** Sums that are cut off *)
Lemma writes_overrun : forall o ws ps, writes o ws ps -> o <= c_dl cf -> c_dl cf < o + len (concat ps) ->
  forall buf, puts cf buf ws = None.
Proof.
  induction 1 as [o | o ws ps W IH | o o' d ws ps Eo W IH | o o' a ws ps Eo S W IH | o o' a Eo S]; intros O F buf.
  - cbn [concat] in F. rewrite len_nil in F. lia.
  - cbn [concat app] in F. auto.
  - subst o'. cbn [concat] in F. rewrite len_app in F. cbn [puts].
    unfold put at 1. destruct (c_dl cf <? o + len d) eqn:E; [reflexivity |]. apply N.ltb_ge in E. apply IH; lia.
  - subst o'. cbn [concat] in F. rewrite len_app in F. rewrite (supplied_len a S) in F.
    rewrite puts_app, puts_copy by exact O. cbn [puts]. unfold put at 1. rewrite (supplied_len a S).
    destruct (c_dl cf <? o + size a) eqn:E; [reflexivity |]. apply N.ltb_ge in E. apply IH; lia.
  - subst o'. cbn [concat] in F. rewrite app_nil_r in F. rewrite puts_copy by exact O. cbn [puts]. unfold put at 1.
    destruct (c_dl cf <? o + len (data a)) eqn:E; [reflexivity |]. apply N.ltb_ge in E. lia.
Qed.

Lemma head_overrun : forall w1 w2 o ps, writes o w2 ps -> o <= c_dl cf -> c_dl cf < o + len (concat ps) ->
  forall buf, puts cf buf (w1 ++ w2) = None.
Proof.
  intros w1 w2 o ps W O F buf. rewrite puts_app. destruct (puts cf buf w1); [| reflexivity].
  apply (writes_overrun _ _ _ W); assumption.
Qed.
End ShapeProof.

(** A call whose lengths add up to a little more than its type holds. *)
Definition some_blocks (c : call) : Prop :=
  match c with AesEcb d _ | AesCbc d _ _ => size d mod 2 ^ 20 <> 0 | _ => True end.

Ltac btests := repeat match goal with
  | |- context [if ?b then _ else _] => match type of b with bool => destruct b eqn:? end
  end; bools.
Ltac sums := repeat match goal with
  | H : ?x mod 4294967296 <= _ |- context [U32 ?y] =>
      replace (U32 y) with (x mod 4294967296) by (unfold U32; f_equal; lia)
  | H : ?x mod 65536 <= _ |- context [U16 ?y] =>
      replace (U16 y) with (x mod 65536) by (unfold U16; f_equal; lia)
  end.
Ltac over o ps := match goal with |- context [puts ?cf ?buf (?x :: ?r)] =>
    let N0 := fresh "N0" in
    assert (N0 : puts cf buf (x :: r) = None);
    [ first [ change (x :: r) with ([x] ++ r); apply (head_overrun cf [x] r o ps);
              [unfold o, ps, follows; cbn [fixed]; solve [wr] | unfold o; cbn [fixed]; lia | unfold o, ps, follows; cbn [fixed concat]; rewrite ?app_nil_r, ?len_app; lens; lia]
            | rewrite app_comm_cons; eapply (head_overrun cf _ _ o ps);
              [unfold o, ps, follows; cbn [fixed]; solve [wr] | unfold o; cbn [fixed]; lia | unfold o, ps, follows; cbn [fixed concat]; rewrite ?app_nil_r, ?len_app; lens; lia] ]
    | rewrite N0; reflexivity ] end.

Lemma wrapped_overrun : forall cf enc c w l buf, sane cf -> in_range c -> acceptable cf c -> stated c = Some (w, l) ->
  w <= fixed cf c + total l -> (fixed cf c + total l) mod w <= c_dl cf -> some_blocks c ->
  request cf enc buf c = Overrun.
Proof.
  intros cf enc c w l buf Sane R A St W M B.
  pose proof Sane as (S1 & S2 & S3 & S4).
  assert (G : forall a, given a = true -> supplied a) by (intros; left; assumption).
  set (o := fixed cf c). set (ps := follows c).
  destruct c; try discriminate St; try (destruct named); try (destruct enc0); try (destruct dma); try discriminate St;
    cbn in St; injection St as <- <-; unfold request, prepare; cbn [negb andb orb].
  all: change (2 ^ 32) with 4294967296 in *; change (2 ^ 16) with 65536 in *.
  all: try match goal with |- context [ed_refuses ?t ?x] => destruct (ed_refuses t x) eqn:ED;
         [exfalso; apply (ed_true t x ED); apply A |
          destruct (ed_false t x ED) as (_ & ED1 & ED2)] end.
  all: lab cf (enc (Echo (Null 0))).
  all: unfold some_blocks in B; op; ands; sums.
  all: repeat match goal with H : given ?a = true |- _ =>
       lazymatch goal with S : supplied a |- _ => fail | _ => pose proof (G a H) end end.
  all: btests; try (exfalso; first [supp | congruence | lia]).
  all: repeat match goal with S : supplied ?a, H : given ?a = false |- _ => pose proof (supplied_null a S H); clear H end.
  all: try (exfalso; unfold U16 in *; change (2 ^ 20) with 1048576 in *; lia).
  all: over o ps.
Qed.

Lemma she_wrapped : forall cf enc c n buf, sane cf -> in_range c -> acceptable cf c -> she_stated c = Some n ->
  c_sizet cf <= fixed cf c + n -> (fixed cf c + n) mod c_sizet cf <= c_dl cf ->
  request cf enc buf c = Overrun.
Proof.
  intros cf enc c n buf Sane R A St W M. set (o := fixed cf c). set (ps := follows c).
  pose proof Sane as (S1 & S2 & S3 & S4).
  assert (DLS : c_dl cf < c_sizet cf) by (destruct S4 as [-> | ->]; lia).
  assert (G : forall a, given a = true -> supplied a) by (intros; left; assumption).
  destruct c; try discriminate St; cbn in St; injection St as <-; unfold request, prepare; cbn [negb andb orb].
  all: op; ands; rewrite ?N.add_assoc in *.
  all: repeat match goal with H : given ?a = true |- _ =>
       lazymatch goal with S : supplied a |- _ => fail | _ => pose proof (G a H) end end.
  all: btests; try (exfalso; first [congruence | lia]).
  all: try over o ps.
  all: assert (E : puts cf buf ([(0, enc (SheVerMac msg mac))] ++ copy 16 msg ++ copy_first (16 + size msg) 16 mac) = None);
    [apply (head_overrun cf _ _ o ps); [| unfold o; cbn [fixed]; lia |
      unfold o, ps, follows; cbn [fixed concat]; rewrite ?app_nil_r, ?len_app; lens; lia];
     apply W_copy; [reflexivity | assumption |]; apply (W_first_tail _ _ 16); [lia | assumption]
    | cbn [app] in E; rewrite E; reflexivity].
Qed.

(** ** Bytes of earlier messages *)
Lemma skipn_twice : forall (a b : nat) (l : list N), skipn a (skipn b l) = skipn (b + a) l.
Proof.
  intros a b. induction b as [| b IH]; intros l; [reflexivity |].
  destruct l as [| x r]; [destruct a; reflexivity | apply IH].
Qed.
Lemma put_two : forall cf buf h d, len buf = c_dl cf -> len h + len d <= c_dl cf ->
  puts cf buf [(0, h); (len h, d)] = Some (h ++ d ++ skipn (length h + length d) buf).
Proof.
  intros cf buf h d L F. cbn [puts put].
  destruct (c_dl cf <? 0 + len h) eqn:E1; [apply N.ltb_lt in E1; lia |].
  destruct (c_dl cf <? len h + len d) eqn:E2; [apply N.ltb_lt in E2; lia |].
  change (N.to_nat 0) with 0%nat. cbn [firstn app Nat.add]. f_equal. unfold len. rewrite !Nat2N.id.
  rewrite firstn_app, firstn_all, Nat.sub_diag. cbn [firstn]. rewrite app_nil_r. f_equal. f_equal.
  rewrite skipn_app, skipn_all2 by lia. cbn [app].
  replace (length h + length d - length h)%nat with (length d) by lia. rewrite skipn_twice. reflexivity.
Qed.
Lemma put_one_copy : forall cf buf h a, len buf = c_dl cf -> supplied a -> len h + size a <= c_dl cf ->
  puts cf buf ((0, h) :: copy (len h) a) = Some (h ++ data a ++ skipn (length h + length (data a)) buf).
Proof.
  intros cf buf h a L S F. rewrite <- (put_two cf buf h (data a) L) by (rewrite (supplied_len a S); exact F).
  change ((0, h) :: copy (len h) a) with ([(0, h)] ++ copy (len h) a).
  change [(0, h); (len h, data a)] with ([(0, h)] ++ [(len h, data a)]).
  rewrite !puts_app. destruct (puts cf buf [(0, h)]) as [b |]; [| reflexivity]. apply puts_copy. lia.
Qed.

Lemma firstn_three : forall (a b n : list N) k,
  firstn (length a + length b + k) (a ++ b ++ n) = a ++ b ++ firstn k n.
Proof.
  intros a b n k. rewrite app_assoc, firstn_app, firstn_all2 by (rewrite app_length; lia).
  rewrite app_length, <- app_assoc. do 3 f_equal. lia.
Qed.

(** A function that counts [n] more bytes than it writes. *)
Lemma stale : forall cf enc buf c a n, sane cf -> good_fields cf enc -> len buf = c_dl cf -> supplied a ->
  fixed cf c + size a + n <= c_dl cf ->
  prepare cf enc c = Go ((0, enc c) :: copy (fixed cf c) a) (fixed cf c + size a + n) ->
  request cf enc buf c =
  Sent (enc c ++ data a ++ firstn (N.to_nat n) (skipn (N.to_nat (fixed cf c + size a)) buf)).
Proof.
  intros cf enc buf c a n Sane Fl L S F P. destruct Sane as (S1 & _). pose proof (enc_len cf enc Fl c) as EL.
  unfold request. rewrite P. rewrite <- EL in *. rewrite put_one_copy by (assumption || lia).
  rewrite u16_small by lia.
  destruct (c_dl cf <? len (enc c) + size a + n) eqn:E; [apply N.ltb_lt in E; lia |]. f_equal.
  pose proof (supplied_len a S) as SL. rewrite <- SL.
  replace (N.to_nat (len (enc c) + len (data a) + n)) with (length (enc c) + length (data a) + N.to_nat n)%nat
    by (unfold len; lia).
  rewrite firstn_three. do 4 f_equal. unfold len. lia.
Qed.

Lemma hkdf_plan : forall cf enc key n, sane cf -> supplied key -> 12 + 56 + size key + n <= c_dl cf ->
  prepare cf enc (Hkdf (Null 0) key (Null n) (Null 0)) =
  Go ((0, enc (Hkdf (Null 0) key (Null n) (Null 0))) :: copy (12 + 56) key) (12 + 56 + size key + n).
Proof.
  intros cf enc key n (S1 & _) S F. unfold prepare. cbn [fixed given size copy andb app].
  destruct (missing key) eqn:M; [apply missing_true in M; destruct M, S; [congruence | lia] |].
  rewrite u32_small by lia. rewrite N.add_0_r.
  destruct (c_dl cf <? 12 + 56 + size key + n) eqn:E; [apply N.ltb_lt in E; lia |].
  rewrite u16_small by lia. rewrite app_nil_r. reflexivity.
Qed.
Lemma mlsign_plan : forall cf enc msg n, sane cf -> supplied msg -> 12 + 24 + size msg + n <= c_dl cf ->
  prepare cf enc (MlSign false msg (Null n)) =
  Go ((0, enc (MlSign false msg (Null n))) :: copy (12 + 24) msg) (12 + 24 + size msg + n).
Proof.
  intros cf enc msg n (S1 & _) S F. unfold prepare. cbn [fixed size copy].
  destruct (missing msg) eqn:M; [apply missing_true in M; destruct M, S; [congruence | lia] |].
  rewrite u32_small by lia.
  destruct (c_dl cf <? 12 + 24 + size msg + n) eqn:E; [apply N.ltb_lt in E; lia |].
  rewrite u16_small by lia. rewrite app_nil_r. reflexivity.
Qed.

(** ** The label *)
Lemma label_read : forall h o d, o + 24 <= len h -> (length d <= 24)%nat ->
  firstn 24 (skipn (N.to_nat o) h) = repeat 0 24 ->
  firstn 24 (skipn (N.to_nat o) (with_at h o d)) = d ++ repeat 0 (24 - length d).
Proof.
  intros h o d F L Z. unfold with_at. unfold len in F.
  rewrite skipn_app, skipn_all2 by (rewrite firstn_length; lia). cbn [app].
  rewrite firstn_length. replace (N.to_nat o - Nat.min (N.to_nat o) (length h))%nat with 0%nat by lia. cbn [skipn].
  rewrite firstn_app, firstn_all2 by lia. f_equal. rewrite <- skipn_twice.
  apply (f_equal (skipn (length d))) in Z. rewrite <- (firstn_skipn (length d) (firstn 24 _)) in Z.
  replace (repeat 0 (24 - length d)) with (skipn (length d) (repeat 0 24)).
  - rewrite <- Z. rewrite firstn_skipn. symmetry. rewrite skipn_firstn_comm. reflexivity.
  - replace 24%nat with (length d + (24 - length d))%nat at 1 by lia. rewrite repeat_app, skipn_app, skipn_all2 by (rewrite repeat_length; lia).
    rewrite repeat_length, Nat.sub_diag. reflexivity.
Qed.
