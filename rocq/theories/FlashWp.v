(** Weakest preconditions with a crash condition for flash programs, and the
    specifications of the wh_flash_unit.c functions. *)
From Verif Require Import Base Flash BaseLemmas.

(** A callback the layers above are allowed to issue in memory [f]: inside the
    device, programming only blank units, erasing only one whole partition. *)
Definition okcall (C : cfg) (f : flash) (c : fcall) : Prop :=
  match c with
  | FRead off n | FBlank off n => off + n <= dev_units C
  | FVerify off us => off + length us <= dev_units C
  | FProgram off us =>
      off + length us <= dev_units C /\
      forall o, off <= o < off + length us -> f o = erased_unit C
  | FErase off n => (off = 0 \/ off = c_pu C) /\ n = c_pu C
  end.

(** [issues C fl p f g c]: running p from f can issue callback c in memory g. *)
Inductive issues {A} (C : cfg) (fl : bool) : prog A -> flash -> flash -> fcall -> Prop :=
| iss_now c k f : issues C fl (Call c k) f f c
| iss_ok c k f g c' :
    issues C fl (k (snd (fstep C f c))) (fst (fstep C f c)) g c' ->
    issues C fl (Call c k) f g c'
| iss_fault c k f f1 rc g c' :
    fl = true -> is_write c = true -> torn C c f f1 -> rc <> OK ->
    issues C fl (k (rc, [])) f1 g c' ->
    issues C fl (Call c k) f g c'.

Section Wp.
Variable C : cfg.
Variable fl : bool.

Fixpoint wp {A} (p : prog A) (f : flash) (Q : A -> flash -> Prop) (Cr : flash -> Prop) : Prop :=
  match p with
  | Ret a => Q a f /\ Cr f
  | Call c k =>
      (okcall C f c /\ Cr f)
      /\ wp (k (snd (fstep C f c))) (fst (fstep C f c)) Q Cr
      /\ (is_write c = true -> forall f', torn C c f f' ->
            Cr f' /\ (fl = true -> forall rc, rc <> OK -> wp (k (rc, [])) f' Q Cr))
  end.

Lemma wp_exec {A} (p : prog A) f Q Cr a f' :
  wp p f Q Cr -> exec C fl p f a f' -> Q a f'.
Proof.
  intros W E. revert W. induction E as [a f|c k f a f' E IH|c k f f1 rc a f' H1 H2 H3 H4 E IH];
    intros W; cbn [wp] in W.
  - tauto.
  - apply IH; tauto.
  - apply IH. destruct W as (_ & _ & W). destruct (W H2 f1 H3) as [_ W']; auto.
Qed.

Lemma wp_init {A} (p : prog A) f Q Cr : wp p f Q Cr -> Cr f.
Proof. destruct p; cbn [wp]; tauto. Qed.

Lemma wp_crash {A} (p : prog A) f Q Cr f' :
  wp p f Q Cr -> crash C fl p f f' -> Cr f'.
Proof.
  intros W E. revert W.
  induction E as [p f|c k f f' H1 H2|c k f f' E IH|c k f f1 rc f' H1 H2 H3 H4 E IH]; intros W.
  - eapply wp_init; eauto.
  - cbn [wp] in W. destruct W as (_ & _ & W). apply W; auto.
  - cbn [wp] in W. apply IH; tauto.
  - cbn [wp] in W. destruct W as (_ & _ & W). destruct (W H2 f1 H3) as [_ W']. auto.
Qed.

Lemma wp_issues {A} (p : prog A) f Q Cr g c :
  wp p f Q Cr -> issues C fl p f g c -> okcall C g c.
Proof.
  intros W E. revert W.
  induction E as [c k f|c k f g c' E IH|c k f f1 rc g c' H1 H2 H3 H4 E IH]; intros W; cbn [wp] in W.
  - tauto.
  - apply IH; tauto.
  - destruct W as (_ & _ & W). destruct (W H2 f1 H3) as [_ W']. auto.
Qed.

Lemma wp_mono {A} (p : prog A) : forall f (Q Q' : A -> flash -> Prop) (Cr Cr' : flash -> Prop),
  wp p f Q Cr -> (forall a g, Q a g -> Q' a g) -> (forall g, Cr g -> Cr' g) -> wp p f Q' Cr'.
Proof.
  induction p as [a|c k IH]; intros f Q Q' Cr Cr' W HQ HC; cbn [wp] in *.
  - destruct W; split; auto.
  - destruct W as (W1 & W2 & W3). split; [intuition auto|]. split; [eapply IH; eauto|].
    intros Hw f' Ht. destruct (W3 Hw f' Ht) as [W4 W5]. split; auto.
    intros Hf rc Hr. eapply IH; eauto.
Qed.

Lemma wp_bind {A B} (p : prog A) (k : A -> prog B) : forall f Q Cr,
  wp p f (fun a g => wp (k a) g Q Cr) Cr -> wp (bind p k) f Q Cr.
Proof.
  induction p as [a|c kk IH]; intros f Q Cr W; cbn [wp bind] in *.
  - tauto.
  - destruct W as (W1 & W2 & W3). split; [auto|]. split; [auto|].
    intros Hw f' Ht. destruct (W3 Hw f' Ht) as [W4 W5]. split; auto.
Qed.

Lemma wp_ret {A} (a : A) f (Q : A -> flash -> Prop) (Cr : flash -> Prop) :
  Q a f -> Cr f -> wp (Ret a) f Q Cr.
Proof. intros; cbn [wp]; auto. Qed.

Lemma wp_bind_inv {A B} (p : prog A) (k : A -> prog B) : forall f Q Cr,
  wp (bind p k) f Q Cr -> wp p f (fun a g => wp (k a) g Q Cr) Cr.
Proof.
  induction p as [a|c kk IH]; intros f Q Cr W; cbn [wp bind] in *.
  - split; auto. destruct (k a); cbn [wp] in W; tauto.
  - destruct W as (W1 & W2 & W3). split; [auto|]. split; [auto|].
    intros Hw f' Ht. destruct (W3 Hw f' Ht) as [W4 W5]. split; auto.
Qed.

(** Crash conditions can be strengthened with a known fact that every torn
    image preserves; used to carry facts through [wp_bind]. *)
Lemma wp_conj {A} (p : prog A) : forall f (Q1 Q2 : A -> flash -> Prop) (C1 C2 : flash -> Prop),
  wp p f Q1 C1 -> wp p f Q2 C2 ->
  wp p f (fun a g => Q1 a g /\ Q2 a g) (fun g => C1 g /\ C2 g).
Proof.
  induction p as [a|c k IH]; intros f Q1 Q2 C1 C2 W1 W2; cbn [wp] in *.
  - tauto.
  - destruct W1 as (A1 & A2 & A3), W2 as (B1 & B2 & B3).
    split; [tauto|]. split; [auto|].
    intros Hw f' Ht. destruct (A3 Hw f' Ht), (B3 Hw f' Ht). split; auto.
Qed.

End Wp.

Lemma run_exec {A} C fl (p : prog A) : forall f,
  exec C fl p f (fst (run C p f)) (snd (run C p f)).
Proof.
  induction p as [a|c k IH]; intros f; cbn [run].
  - constructor.
  - destruct (fstep C f c) as [f' r] eqn:E. cbn [fst snd].
    apply exec_ok. rewrite E; cbn [fst snd]. apply IH.
Qed.

Lemma exec_run {A} C (p : prog A) : forall f a f',
  exec C false p f a f' -> run C p f = (a, f').
Proof.
  intros f a f' E. induction E as [a f|c k f a f' E IH|]; cbn [run].
  - reflexivity.
  - destruct (fstep C f c) as [g r]; cbn [fst snd] in *. exact IH.
  - discriminate.
Qed.

Lemma wp_run {A} C fl (p : prog A) f Q Cr :
  wp C fl p f Q Cr -> Q (fst (run C p f)) (snd (run C p f)).
Proof. intros W. eapply wp_exec; [exact W|apply run_exec]. Qed.

(** * Pointwise reasoning about memory *)

Definition feq (f g : flash) : Prop := forall o, f o = g o.

(** [g] is [f] with some of the units of a write of [us] at [off] done. *)
Definition partial (f : flash) (off : nat) (us : list N) (g : flash) : Prop :=
  forall o, g o = f o \/ (off <= o < off + length us /\ g o = nth (o - off) us 0%N).

Lemma put_units_in f off us o :
  off <= o < off + length us -> put_units f off us o = nth (o - off) us 0%N.
Proof.
  intros H. unfold put_units.
  destruct (Nat.leb_spec off o), (Nat.ltb_spec o (off + length us)); cbn [andb]; auto; lia.
Qed.
Lemma put_units_out f off us o :
  o < off \/ off + length us <= o -> put_units f off us o = f o.
Proof.
  intros H. unfold put_units.
  destruct (Nat.leb_spec off o), (Nat.ltb_spec o (off + length us)); cbn [andb]; auto; lia.
Qed.

Lemma put_units_partial f off us : partial f off us (put_units f off us).
Proof.
  intros o. destruct (le_lt_dec off o), (le_lt_dec (off + length us) o);
    try (left; apply put_units_out; lia).
  right; split; [lia|]. apply put_units_in; lia.
Qed.

Lemma partial_refl f off us : partial f off us f.
Proof. intros o; left; reflexivity. Qed.

Lemma partial_feq f off us g : feq g (put_units f off us) -> partial f off us g.
Proof. intros H o. rewrite H. apply put_units_partial. Qed.

Lemma partial_app_l f off a b g : partial f off a g -> partial f off (a ++ b) g.
Proof.
  intros H o. destruct (H o) as [E|[E1 E2]]; [left; auto|right].
  rewrite app_length, app_nth1 by lia. split; [lia|auto].
Qed.

Lemma partial_app_r f off a b f1 g :
  feq f1 (put_units f off a) -> partial f1 (off + length a) b g -> partial f off (a ++ b) g.
Proof.
  intros H1 H o. destruct (H o) as [E|[E1 E2]].
  - rewrite E. apply partial_app_l, partial_feq; auto.
  - right. rewrite app_length, app_nth2 by lia. split; [lia|]. rewrite E2. f_equal; lia.
Qed.

Lemma put_units_app f off a b f1 g :
  feq f1 (put_units f off a) -> feq g (put_units f1 (off + length a) b) ->
  feq g (put_units f off (a ++ b)).
Proof.
  intros H1 H2 o. rewrite H2.
  destruct (le_lt_dec (off + length a) o), (le_lt_dec (off + length a + length b) o).
  - rewrite !put_units_out by (rewrite ?app_length; lia). rewrite H1, put_units_out by lia. reflexivity.
  - rewrite put_units_in, put_units_in by (rewrite ?app_length; lia). rewrite app_nth2 by lia. f_equal; lia.
  - lia.
  - rewrite put_units_out by lia. rewrite H1. destruct (le_lt_dec off o).
    + rewrite !put_units_in by (rewrite ?app_length; lia). rewrite app_nth1 by lia. reflexivity.
    + rewrite !put_units_out by (rewrite ?app_length; lia). reflexivity.
Qed.

Lemma put_erased_in C f off n o :
  off <= o < off + n -> put_erased C f off n o = erased_unit C.
Proof.
  intros H. unfold put_erased.
  destruct (Nat.leb_spec off o), (Nat.ltb_spec o (off + n)); cbn [andb]; auto; lia.
Qed.
Lemma put_erased_out C f off n o :
  o < off \/ off + n <= o -> put_erased C f off n o = f o.
Proof.
  intros H. unfold put_erased.
  destruct (Nat.leb_spec off o), (Nat.ltb_spec o (off + n)); cbn [andb]; auto; lia.
Qed.

Lemma read_units_length f off n : length (read_units f off n) = n.
Proof. unfold read_units; rewrite map_length, seq_length; auto. Qed.

Lemma read_units_ext f g off n :
  (forall o, off <= o < off + n -> f o = g o) -> read_units f off n = read_units g off n.
Proof.
  intros H. unfold read_units. apply map_ext_in. intros o Ho. apply in_seq in Ho. apply H; lia.
Qed.

Lemma nth_read_units f off n i d : i < n -> nth i (read_units f off n) d = f (off + i).
Proof.
  intros H. unfold read_units.
  rewrite (nth_indep _ d (f 0)) by (rewrite map_length, seq_length; lia).
  rewrite map_nth, seq_nth by lia. reflexivity.
Qed.

Lemma read_units_eq f off us :
  (forall i, i < length us -> f (off + i) = nth i us 0%N) -> read_units f off (length us) = us.
Proof.
  intros H. apply (nth_ext _ _ 0%N 0%N); [apply read_units_length|].
  intros i Hi. rewrite read_units_length in Hi. rewrite nth_read_units by lia. auto.
Qed.

Lemma read_put_units f off us : read_units (put_units f off us) off (length us) = us.
Proof.
  apply read_units_eq. intros i Hi. rewrite put_units_in by lia. f_equal; lia.
Qed.

Lemma read_units_S f off n : read_units f off (S n) = f off :: read_units f (S off) n.
Proof. reflexivity. Qed.

Lemma read_units_app f off a b :
  read_units f off (a + b) = read_units f off a ++ read_units f (off + a) b.
Proof. unfold read_units. rewrite seq_app, map_app. reflexivity. Qed.

Lemma list_eqb_refl l : list_eqb l l = true.
Proof. induction l as [|x l IH]; cbn [list_eqb]; auto. rewrite N.eqb_refl; auto. Qed.

Lemma list_eqb_eq a : forall b, list_eqb a b = true <-> a = b.
Proof.
  induction a as [|x a IH]; intros [|y b]; cbn [list_eqb]; split; intros H; try congruence; auto.
  - apply andb_prop in H as [H1 H2]. apply N.eqb_eq in H1. apply IH in H2. congruence.
  - inversion H; subst. rewrite N.eqb_refl. apply IH; auto.
Qed.

Definition blank (C : cfg) (f : flash) (off n : nat) : Prop :=
  forall o, off <= o < off + n -> f o = erased_unit C.

Lemma blankb_spec C f off n : blankb C f off n = true <-> blank C f off n.
Proof.
  unfold blankb, blank, read_units. rewrite forallb_forall. split; intros H.
  - intros o Ho. symmetry. apply N.eqb_eq. apply H. apply in_map. apply in_seq; lia.
  - intros x Hx. apply in_map_iff in Hx as (o & <- & Ho). apply in_seq in Ho.
    apply N.eqb_eq. symmetry. apply H; lia.
Qed.

Lemma blankb_true C f off n : blank C f off n -> blankb C f off n = true.
Proof. apply blankb_spec. Qed.

Lemma blankb_one C f off : blankb C f off 1 = N.eqb (erased_unit C) (f off).
Proof. unfold blankb, read_units. cbn [seq map forallb]. apply andb_true_r. Qed.

Section Specs.
Variable C : cfg.
Variable fl : bool.
Notation WP := (wp C fl).
Notation DU := (dev_units C).

Ltac inrange := match goal with |- context [if ?a <=? ?b then _ else _] =>
  destruct (Nat.leb_spec a b); [|lia] end.

Lemma wp_fu_read f off n (Q : Z * list N -> flash -> Prop) (Cr : flash -> Prop) :
  off + n <= DU -> Cr f -> Q (OK, read_units f off n) f -> WP (fu_read off n) f Q Cr.
Proof.
  intros H1 H2 H3. unfold fu_read. cbn [wp is_write].
  cbn [fstep okcall]. inrange. cbn [fst snd]. intuition (auto; discriminate).
Qed.

Lemma wp_fu_blank f off n (Q : Z -> flash -> Prop) (Cr : flash -> Prop) :
  off + n <= DU -> Cr f -> Q (if blankb C f off n then OK else NOTBLANK) f ->
  WP (fu_blank off n) f Q Cr.
Proof.
  intros H1 H2 H3. unfold fu_blank. cbn [wp is_write].
  cbn [fstep okcall]. inrange. cbn [fst snd]. intuition (auto; discriminate).
Qed.

Lemma torn_program f off us g :
  off + length us <= DU -> blank C f off (length us) ->
  torn C (FProgram off us) f g -> partial f off us g.
Proof.
  intros H1 H2 H3 o. destruct (H3 o) as [H|H]; [left; auto|].
  cbn [fstep] in H. destruct (Nat.leb_spec (off + length us) DU); [|lia].
  rewrite blankb_true in H by auto. cbn [fst] in H. rewrite H. apply put_units_partial.
Qed.

Lemma wp_fu_program f off us (Q : Z -> flash -> Prop) (Cr : flash -> Prop) :
  off + length us <= DU -> blank C f off (length us) ->
  (forall g, partial f off us g -> Cr g) ->
  (forall g, feq g (put_units f off us) -> Q OK g) ->
  (fl = true -> forall rc g, rc <> OK -> partial f off us g -> Q rc g) ->
  WP (fu_program off us) f Q Cr.
Proof.
  intros H1 H2 H3 H4 H5. unfold fu_program.
  assert (Hf : Cr f) by (apply H3; intros o; left; reflexivity).
  assert (Hp : Cr (put_units f off us)) by (apply H3, put_units_partial).
  cbn [wp is_write okcall]. split; [split; [first [split; auto; intros; apply H2; lia | auto; lia | lia]|auto]|]. split; [|discriminate].
  cbn [fstep]. destruct (Nat.leb_spec (off + length us) DU); [|lia].
  rewrite blankb_true by auto. cbn [fst snd]. cbn [is_ok]. change (is_ok OK) with true. cbv iota.
  cbn [wp is_write okcall]. split; [split; [first [split; auto; intros; apply H2; lia | auto; lia | lia]|auto]|]. split.
  - cbn [fstep]. destruct (Nat.leb_spec (off + length us) DU); [|lia].
    rewrite blankb_true by auto. cbn [fst snd]. change (is_ok OK) with true. cbv iota.
    cbn [wp is_write okcall]. split; [split; [first [split; auto; intros; apply H2; lia | auto; lia | lia]|auto]|]. split; [|discriminate].
    cbn [fstep]. destruct (Nat.leb_spec (off + length us) DU); [|lia].
    rewrite read_put_units, list_eqb_refl. cbn [fst snd].
    split; [apply H4; intros o; reflexivity|auto].
  - intros _ g Hg. apply torn_program in Hg; auto. split; [auto|].
    intros Hfl rc Hrc. cbn [fst].
    destruct (is_ok rc) eqn:E; [apply Z.eqb_eq in E; congruence|].
    cbn [wp]. auto.
Qed.

Definition partial_erase (f : flash) (off n : nat) (g : flash) : Prop :=
  forall o, g o = f o \/ (off <= o < off + n /\ g o = erased_unit C).

Lemma wp_fu_erase f off n (Q : Z -> flash -> Prop) (Cr : flash -> Prop) :
  (off = 0 \/ off = c_pu C) -> n = c_pu C -> c_pu C <> 0 ->
  (forall g, partial_erase f off n g -> Cr g) ->
  (forall g, feq g (put_erased C f off n) -> Q OK g) ->
  (fl = true -> forall rc g, rc <> OK -> partial_erase f off n g -> Q rc g) ->
  WP (fu_erase off n) f Q Cr.
Proof.
  intros Hoff Hn' Hpu H3 H4 H5. unfold fu_erase.
  assert (Hn : n <> 0) by lia.
  assert (H1 : off + n <= DU) by (unfold dev_units; lia).
  assert (Ho1 : off mod c_pu C = 0) by (destruct Hoff as [-> | ->]; [apply Nat.mod_0_l|apply Nat.mod_same]; auto).
  assert (Ho2 : n mod c_pu C = 0) by (subst n; apply Nat.mod_same; auto).
  destruct (Nat.eqb_spec n 0); [congruence|].
  assert (PP : partial_erase f off n (put_erased C f off n)).
  { intros o. destruct (le_lt_dec off o), (le_lt_dec (off + n) o);
      try (left; apply put_erased_out; lia).
    right; split; [lia|apply put_erased_in; lia]. }
  assert (Hf : Cr f) by (apply H3; intros o; left; reflexivity).
  assert (Hp : Cr (put_erased C f off n)) by (apply H3; auto).
  cbn [wp is_write okcall]. split; [split; [first [split; auto; intros; apply H2; lia | auto; lia | lia]|auto]|]. split.
  - cbn [fstep]. destruct (Nat.leb_spec (off + n) DU); [|lia].
    rewrite Ho1, Ho2. cbn [Nat.eqb andb]. cbn [fst snd]. change (is_ok OK) with true. cbv iota.
    cbn [wp is_write okcall]. split; [split; [first [split; auto; intros; apply H2; lia | auto; lia | lia]|auto]|]. split; [|discriminate].
    cbn [fstep]. destruct (Nat.leb_spec (off + n) DU); [|lia].
    rewrite blankb_true by (intros o Ho; apply put_erased_in; lia).
    cbn [fst snd]. split; [apply H4; intros o; reflexivity|auto].
  - intros _ g Hg.
    assert (Pg : partial_erase f off n g).
    { intros o. destruct (Hg o) as [E|E]; [left; auto|].
      cbn [fstep] in E. destruct (Nat.leb_spec (off + n) DU); [|lia].
      rewrite Ho1, Ho2 in E. cbn [Nat.eqb andb fst] in E. rewrite E. apply PP. }
    split; [auto|]. intros Hfl rc Hrc. cbn [fst].
    destruct (is_ok rc) eqn:E; [apply Z.eqb_eq in E; congruence|].
    cbn [wp]. auto.
Qed.

(** * Bytes *)

(** Byte [b] of the device. *)
Definition fbyte (f : flash) (b : nat) : N := nth (b mod 8) (le_enc 8 (f (b / 8))) 0%N.
Definition rbytes (f : flash) (b n : nat) : list N := map (fbyte f) (seq b n).

Lemma rbytes_length f b n : length (rbytes f b n) = n.
Proof. unfold rbytes; rewrite map_length, seq_length; auto. Qed.

Lemma rbytes_app f b m n : rbytes f b (m + n) = rbytes f b m ++ rbytes f (b + m) n.
Proof. unfold rbytes. rewrite seq_app, map_app. reflexivity. Qed.

Lemma firstn_rbytes f b n k : firstn k (rbytes f b n) = rbytes f b (Nat.min k n).
Proof.
  destruct (le_lt_dec n k).
  - rewrite firstn_all2 by (rewrite rbytes_length; lia). f_equal; lia.
  - replace n with (k + (n - k)) at 1 by lia. rewrite rbytes_app.
    rewrite firstn_app_len by apply rbytes_length. f_equal; lia.
Qed.

Lemma skipn_rbytes f b n k : skipn k (rbytes f b n) = rbytes f (b + k) (n - k).
Proof.
  destruct (le_lt_dec n k).
  - rewrite skipn_all2 by (rewrite rbytes_length; lia). replace (n - k) with 0 by lia. reflexivity.
  - replace n with (k + (n - k)) at 1 by lia. rewrite rbytes_app.
    rewrite skipn_app_len by apply rbytes_length. reflexivity.
Qed.

Lemma unpack_read_units f o n : unpack (read_units f o n) = rbytes f (8 * o) (8 * n).
Proof.
  revert o; induction n as [|n IH]; intros o; [reflexivity|].
  rewrite read_units_S. change (unpack (?u :: ?us)) with (le_enc 8 u ++ unpack us).
  rewrite IH. replace (8 * S n) with (8 + 8 * n) by lia. rewrite rbytes_app.
  f_equal; [|f_equal; lia].
  apply (nth_ext _ _ 0%N 0%N); [rewrite le_enc_length, rbytes_length; auto|].
  intros i Hi. rewrite le_enc_length in Hi.
  unfold rbytes. rewrite (nth_indep (map (fbyte f) _) 0%N (fbyte f 0)) by (rewrite map_length, seq_length; auto).
  rewrite map_nth, seq_nth by auto. unfold fbyte.
  replace ((8 * o + i) mod 8) with i by lia. replace ((8 * o + i) / 8) with o by lia. reflexivity.
Qed.

Lemma rbytes_pack f o d : bytes_ok d ->
  read_units f o (units (length d)) = pack d -> rbytes f (8 * o) (length d) = d.
Proof.
  intros Hd H.
  assert (E : unpack (read_units f o (units (length d))) = unpack (pack d)) by congruence.
  rewrite unpack_read_units, unpack_pack in E by auto.
  assert (E2 : firstn (length d) (rbytes f (8 * o) (8 * units (length d))) =
               firstn (length d) (d ++ repeat 0%N (8 * units (length d) - length d)))
    by congruence.
  rewrite firstn_rbytes, firstn_app_len in E2 by auto.
  pose proof (units_spec (length d)). rewrite Nat.min_l in E2 by lia. exact E2.
Qed.

Lemma wp_fu_read_bytes f b n (Q : Z * list N -> flash -> Prop) (Cr : flash -> Prop) :
  b + n <= 8 * DU -> Cr f -> Q (OK, rbytes f b n) f -> WP (fu_read_bytes b n) f Q Cr.
Proof.
  intros H1 H2 H3. unfold fu_read_bytes.
  apply wp_bind.
  (* head *)
  assert (Hhead : forall (R : Z * list N * nat * nat -> flash -> Prop),
    (forall k ou, b + k = 8 * ou \/ k = n -> k <= n ->
       R (OK, rbytes f b k, n - k, ou) f) ->
    WP (if b mod 8 =? 0 then Ret (OK, [], n, b / 8)
        else do ' (rc, us) <- fu_read (b / 8) 1;;
             (if is_ok rc
              then Ret (OK, firstn (Nat.min (8 - b mod 8) n) (skipn (b mod 8) (unpack us)),
                        n - Nat.min (8 - b mod 8) n, S (b / 8))
              else Ret (rc, [], n, b / 8))) f R Cr).
  { intros R HR. destruct (Nat.eqb_spec (b mod 8) 0) as [E|E].
    - cbn [wp]. split; auto.
      replace n with (n - 0) at 1 by lia. apply (HR 0 (b / 8)); lia.
    - apply wp_bind. apply wp_fu_read; auto; [lia|].
      change (is_ok OK) with true. cbv iota. apply wp_ret; auto.
      rewrite unpack_read_units, skipn_rbytes, firstn_rbytes.
      replace (8 * (b / 8) + b mod 8) with b by lia.
      replace (Nat.min (Nat.min (8 - b mod 8) n) (8 * 1 - b mod 8)) with (Nat.min (8 - b mod 8) n) by lia.
      apply HR; lia. }
  apply Hhead. clear Hhead. intros k ou Hk Hkn.
  change (is_ok OK) with true. cbv iota.
  set (r := n - k).
  apply wp_bind.
  destruct (Nat.eqb_spec (r / 8) 0) as [Er|Er].
  - apply wp_ret; auto. change (is_ok OK) with true. cbv iota.
    destruct (Nat.eqb_spec (r mod 8) 0) as [Es|Es].
    + apply wp_ret; auto. rewrite app_nil_r. replace k with n by lia. exact H3.
    + apply wp_bind. apply wp_fu_read; auto; [lia|].
      change (is_ok OK) with true. cbv iota. apply wp_ret; auto.
      rewrite unpack_read_units, firstn_rbytes. cbn [app].
      replace (8 * ou) with (b + k) by lia.
      rewrite <- rbytes_app. replace (k + Nat.min (r mod 8) (8 * 1)) with n by lia. exact H3.
  - apply wp_bind. apply wp_fu_read; auto; [lia|]. apply wp_ret; auto.
    change (is_ok OK) with true. cbv iota.
    rewrite unpack_read_units.
    destruct (Nat.eqb_spec (r mod 8) 0) as [Es|Es].
    + apply wp_ret; auto. replace (8 * ou) with (b + k) by lia. rewrite <- rbytes_app.
      replace (k + 8 * (r / 8)) with n by lia. exact H3.
    + apply wp_bind. apply wp_fu_read; auto; [lia|].
      change (is_ok OK) with true. cbv iota. apply wp_ret; auto.
      rewrite unpack_read_units, firstn_rbytes.
      replace (8 * ou) with (b + k) by lia.
      replace (8 * (ou + r / 8)) with (b + k + 8 * (r / 8)) by lia.
      rewrite <- rbytes_app, <- rbytes_app.
      replace (k + (8 * (r / 8) + Nat.min (r mod 8) (8 * 1))) with n by lia. exact H3.
Qed.

Lemma wp_fu_program_bytes f off bs (Q : Z -> flash -> Prop) (Cr : flash -> Prop) :
  off + units (length bs) <= DU -> blank C f off (units (length bs)) ->
  (forall g, partial f off (pack bs) g -> Cr g) ->
  (forall g, feq g (put_units f off (pack bs)) -> Q OK g) ->
  (fl = true -> forall rc g, rc <> OK -> partial f off (pack bs) g -> Q rc g) ->
  WP (fu_program_bytes (off * 8) bs) f Q Cr.
Proof.
  intros H1 H2 H3 H4 H5. unfold fu_program_bytes.
  replace ((off * 8) mod 8) with 0 by lia. rewrite skipn_O.
  replace (off * 8 / 8) with off by lia.
  set (c := length bs / 8). set (r := length bs mod 8).
  assert (Hc : length (firstn (8 * c) bs) = 8 * c) by (rewrite firstn_length; unfold c; lia).
  assert (Hr : length (skipn (8 * c) bs) = r) by (rewrite skipn_length; unfold c, r; lia).
  assert (Hr2 : firstn r (skipn (8 * c) bs) = skipn (8 * c) bs) by (apply firstn_all2; lia).
  rewrite Hr2.
  assert (Hb : pack bs = pack (firstn (8 * c) bs) ++ pack (skipn (8 * c) bs)).
  { rewrite <- (firstn_skipn (8 * c) bs) at 1. apply (pack_app8 c); auto. }
  set (a := firstn (8 * c) bs) in *. set (t := skipn (8 * c) bs) in *.
  assert (La : length (pack a) = c) by (rewrite pack_length, Hc; apply units_mul8).
  assert (Lt : length (pack t) = units r) by (rewrite pack_length, Hr; auto).
  assert (Lb : length (pack bs) = c + units r) by (rewrite Hb, app_length; lia).
  assert (Lu : units (length bs) = c + units r) by (rewrite <- pack_length; auto).
  assert (Cf : Cr f) by (apply H3; intros o; left; auto).
  (* pieces of a partial write *)
  assert (PA : forall g, partial f off (pack a) g -> partial f off (pack bs) g).
  { intros g Hg o. destruct (Hg o) as [E|(E1 & E2)]; [left; auto|right].
    split; [lia|]. rewrite E2, Hb, app_nth1 by lia. reflexivity. }
  assert (PT : forall f1 g, feq f1 (put_units f off (pack a)) -> partial f1 (off + c) (pack t) g ->
                 partial f off (pack bs) g).
  { intros f1 g Hf1 Hg o. destruct (Hg o) as [E|(E1 & E2)].
    - rewrite E, Hf1. apply PA, put_units_partial.
    - right. split; [lia|]. rewrite E2, Hb, app_nth2 by lia. f_equal; lia. }
  apply wp_bind.
  assert (Hfirst : forall R : Z -> flash -> Prop,
     (forall g, feq g (put_units f off (pack a)) -> R OK g) ->
     (fl = true -> forall rc g, rc <> OK -> partial f off (pack a) g -> R rc g) ->
     WP (if c =? 0 then Ret OK else fu_program off (pack a)) f R Cr).
  { intros R R1 R2. destruct (Nat.eqb_spec c 0) as [E|E].
    - apply wp_ret; auto. apply R1. intros o. rewrite put_units_out; auto. lia.
    - apply wp_fu_program; auto; [lia|].
      intros o Ho. apply H2; lia. }
  apply Hfirst; clear Hfirst.
  - intros f1 Hf1. change (is_ok OK) with true. cbn [andb].
    destruct (Nat.eqb_spec r 0) as [E|E]; cbn [negb].
    + apply wp_ret.
      * apply H4. intros o. rewrite Hf1.
        assert (t = []) as -> by (destruct t; [auto|cbn in Hr; lia]).
        rewrite Hb, pack_nil, app_nil_r. reflexivity.
      * apply H3, PA. intros o; rewrite Hf1; apply put_units_partial.
    + assert (Ur : units r = 1) by (pose proof (units_spec r); unfold r in *; lia).
      apply wp_fu_program.
      * lia.
      * rewrite Lt. intros o Ho. rewrite Hf1, put_units_out by lia. apply H2; lia.
      * intros g Hg. apply H3. eapply PT; eauto.
      * intros g Hg. apply H4. intros o. rewrite Hg.
        destruct (le_lt_dec (off + c) o), (le_lt_dec (off + c + units r) o).
        -- rewrite !put_units_out by lia. rewrite Hf1, put_units_out by lia. reflexivity.
        -- rewrite put_units_in, put_units_in by lia. rewrite Hb, app_nth2 by lia. f_equal; lia.
        -- lia.
        -- rewrite put_units_out by lia. rewrite Hf1.
           destruct (le_lt_dec off o).
           ++ rewrite !put_units_in by lia. rewrite Hb, app_nth1 by lia. reflexivity.
           ++ rewrite !put_units_out by lia. reflexivity.
      * intros Hfl rc g Hrc Hg. apply H5; auto. eapply PT; eauto.
  - intros Hfl rc g Hrc Hg.
    destruct (is_ok rc) eqn:E; [apply Z.eqb_eq in E; congruence|]. cbn [andb].
    apply wp_ret; [apply H5; auto|apply H3; auto].
Qed.

End Specs.
