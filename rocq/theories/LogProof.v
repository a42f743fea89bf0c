(** Weakest preconditions with a crash condition for the log backend. *)
From Verif Require Import Base Flash BaseLemmas NvmSpec Store LogModel LogSpec LogRam.

Section Wp.
Variable C : lcfg.
Variable fl : bool.
Notation lstep := (lstep C).

(** A callback the backend may issue in memory [f]. *)
Definition lokcall (f : flash) (c : fcall) : Prop :=
  match c with
  | FRead off n | FBlank off n => off + n <= 2 * l_psz C
  | FVerify off bs => off + length bs <= 2 * l_psz C
  | FProgram off bs => off + length bs <= 2 * l_psz C /\ (off mod l_g C = 0 /\ length bs mod l_g C = 0) /\ forall o, off <= o < off + length bs -> f o = l_eb C
  | FErase off n => (off = 0 \/ off = l_psz C) /\ n = l_psz C
  end.
(** [lissues p f g c]: running p from f can issue callback c in memory g. *)
Inductive lissues {A} : prog A -> flash -> flash -> fcall -> Prop :=
| liss_now c k f : lissues (Call c k) f f c
| liss_ok c k f g c' : lissues (k (snd (lstep f c))) (fst (lstep f c)) g c' -> lissues (Call c k) f g c'
| liss_fault c k f f1 rc g c' :
    fl = true -> is_write c = true -> lfault C c f f1 -> rc <> OK ->
    lissues (k (rc, [])) f1 g c' -> lissues (Call c k) f g c'.

Fixpoint lwp {A} (p : prog A) (f : flash) (Q : A -> flash -> Prop) (Cr : flash -> Prop) : Prop :=
  match p with
  | Ret a => Q a f /\ Cr f
  | Call c k =>
      (lokcall f c /\ Cr f)
      /\ lwp (k (snd (lstep f c))) (fst (lstep f c)) Q Cr
      /\ (is_write c = true ->
            (forall f', ltorn C c f f' -> Cr f') /\
            (fl = true -> forall f' rc, lfault C c f f' -> rc <> OK -> lwp (k (rc, [])) f' Q Cr))
  end.

Lemma lwp_exec {A} (p : prog A) f Q Cr a f' : lwp p f Q Cr -> lexec C fl p f a f' -> Q a f'.
Proof.
  intros W E. revert W. induction E as [a f|c k f a f' E IH|c k f f1 rc a f' H1 H2 H3 H4 E IH];
    intros W; cbn [lwp] in W.
  - tauto.
  - apply IH; tauto.
  - apply IH. destruct W as (_ & _ & W). destruct (W H2) as [_ W']. apply W'; auto.
Qed.
Lemma lwp_init {A} (p : prog A) f Q Cr : lwp p f Q Cr -> Cr f.
Proof. destruct p; cbn [lwp]; tauto. Qed.
Lemma lwp_crash {A} (p : prog A) f Q Cr f' : lwp p f Q Cr -> lcrash C fl p f f' -> Cr f'.
Proof.
  intros W E. revert W.
  induction E as [p f|c k f f' H1 H2|c k f f' E IH|c k f f1 rc f' H1 H2 H3 H4 E IH]; intros W.
  - eapply lwp_init; eauto.
  - cbn [lwp] in W. destruct W as (_ & _ & W). apply W; auto.
  - cbn [lwp] in W. apply IH; tauto.
  - cbn [lwp] in W. destruct W as (_ & _ & W). destruct (W H2) as [_ W']. auto.
Qed.
Lemma lwp_issues {A} (p : prog A) f Q Cr g c : lwp p f Q Cr -> lissues p f g c -> lokcall g c.
Proof.
  intros W E. revert W.
  induction E as [c k f|c k f g c' E IH|c k f f1 rc g c' H1 H2 H3 H4 E IH]; intros W; cbn [lwp] in W.
  - tauto.
  - apply IH; tauto.
  - destruct W as (_ & _ & W). destruct (W H2) as [_ W']. auto.
Qed.
Lemma lwp_mono {A} (p : prog A) : forall f (Q Q' : A -> flash -> Prop) (Cr Cr' : flash -> Prop),
  lwp p f Q Cr -> (forall a g, Q a g -> Q' a g) -> (forall g, Cr g -> Cr' g) -> lwp p f Q' Cr'.
Proof.
  induction p as [a|c k IH]; intros f Q Q' Cr Cr' W HQ HC; cbn [lwp] in *.
  - destruct W; split; auto.
  - destruct W as (W1 & W2 & W3). split; [intuition auto|]. split; [eapply IH; eauto|].
    intros Hw. destruct (W3 Hw) as [W4 W5]. split; auto.
    intros Hf f' rc Ht Hr. eapply IH; eauto.
Qed.
Lemma lwp_bind {A B} (p : prog A) (k : A -> prog B) : forall f Q Cr,
  lwp p f (fun a g => lwp (k a) g Q Cr) Cr -> lwp (bind p k) f Q Cr.
Proof.
  induction p as [a|c kk IH]; intros f Q Cr W; cbn [lwp bind] in *.
  - tauto.
  - destruct W as (W1 & W2 & W3). split; [auto|]. split; [auto|].
    intros Hw. destruct (W3 Hw) as [W4 W5]. split; auto.
Qed.
Lemma lwp_ret {A} (a : A) f (Q : A -> flash -> Prop) (Cr : flash -> Prop) : Q a f -> Cr f -> lwp (Ret a) f Q Cr.
Proof. intros; cbn [lwp]; auto. Qed.

Hypothesis HC : lcfg_ok C.
Notation G := (l_g C).
Notation P := (l_psz C).
Notation lpart := (lpart C).

(** ** Parts of memory *)
Definition samep (p : bool) (f g : flash) : Prop := forall o, lpart p <= o < lpart p + P -> g o = f o.
Definition hd (f : flash) (p : bool) : list N := read_units f (lpart p) G.
Definition hblank (p : bool) (f : flash) : Prop := forall o, lpart p <= o < lpart p + G -> f o = l_eb C.
Definition pblank (p : bool) (f : flash) : Prop := forall o, lpart p <= o < lpart p + P -> f o = l_eb C.

Lemma sizes : 8 <= G /\ G <= P /\ 0 < l_atom C /\ G <= l_atom C.
Proof. destruct HC as (H1 & H2 & _ & H4 & _). lia. Qed.

Lemma read_ext f g off n : (forall o, off <= o < off + n -> g o = f o) -> read_units g off n = read_units f off n.
Proof. intros H. unfold read_units. apply map_ext_in. intros o I. apply in_seq in I. auto. Qed.
Lemma read_length f off n : length (read_units f off n) = n.
Proof. unfold read_units. rewrite map_length, seq_length. reflexivity. Qed.
Lemma hd_same f g p : samep p f g -> hd g p = hd f p.
Proof. intros S1. apply read_ext. intros o H. apply S1. pose proof sizes. lia. Qed.
Lemma lpart_le p : lpart p + P <= 2 * P.
Proof. destruct p; cbn [LogModel.lpart]; lia. Qed.
Lemma lblank_true f off n : lblankb C f off n = true <-> forall o, off <= o < off + n -> f o = l_eb C.
Proof.
  unfold lblankb. rewrite forallb_forall. split.
  - intros H o I. symmetry. apply N.eqb_eq, H. apply in_map_iff. exists o. split; auto. apply in_seq. lia.
  - intros H y I. apply in_map_iff in I as (o & <- & I). apply in_seq in I. apply N.eqb_eq. symmetry. apply H. lia.
Qed.
Lemma list_eqb_refl l : list_eqb l l = true.
Proof. induction l; cbn [list_eqb]; auto. rewrite N.eqb_refl. auto. Qed.
Lemma read_put f off bs : read_units (put_units f off bs) off (length bs) = bs.
Proof.
  apply nth_ext with (d := 0%N) (d' := 0%N); [apply read_length|]. intros i H. rewrite read_length in H.
  unfold read_units. rewrite (nth_indep _ 0%N (put_units f off bs 0)) by (rewrite map_length, seq_length; auto).
  rewrite map_nth, seq_nth by auto. unfold put_units.
  destruct (Nat.leb_spec off (off + i)); [|lia]. destruct (Nat.ltb_spec (off + i) (off + length bs)); [|lia].
  cbn [andb]. f_equal. lia.
Qed.
Lemma put_out f off bs o : o < off \/ off + length bs <= o -> put_units f off bs o = f o.
Proof. intros H. unfold put_units. destruct (Nat.leb_spec off o), (Nat.ltb_spec o (off + length bs)); cbn [andb]; auto; lia. Qed.

(** The header of a partition lies in one atom. *)
Lemma hdr_atom p o : lpart p <= o < lpart p + G -> o / l_atom C = lpart p / l_atom C.
Proof.
  intros H. destruct HC as (_ & _ & _ & H4 & H5 & _). pose proof sizes as (S1 & S2 & S3 & S4).
  assert (E : exists k, lpart p = k * l_atom C).
  { destruct p; cbn [LogModel.lpart]; [|exists 0; auto]. exists (P / l_atom C).
    pose proof (Nat.div_mod P (l_atom C) ltac:(lia)). lia. }
  destruct E as [k E]. rewrite E in *. rewrite Nat.div_mul by lia. symmetry.
  apply (Nat.div_unique o (l_atom C) k (o - k * l_atom C)); lia.
Qed.

(** ** Erase *)
Definition erased_some (p : bool) (f g : flash) : Prop :=
  samep (negb p) f g /\ (hd g p = hd f p \/ hblank p g).

Lemma lpart_mod p : lpart p mod P = 0.
Proof. pose proof sizes. destruct p; cbn [LogModel.lpart]; [apply Nat.mod_same|apply Nat.mod_0_l]; lia. Qed.
Lemma step_erase f p : lstep f (FErase (lpart p) P) = (put_blank C f (lpart p) P, (OK, [])).
Proof.
  pose proof sizes. cbn [LogModel.lstep]. destruct (Nat.leb_spec (lpart p + P) (2 * P)); [|pose proof (lpart_le p); lia].
  rewrite lpart_mod, Nat.mod_same by lia. reflexivity.
Qed.
Lemma put_blank_in f p o : lpart p <= o < lpart p + P -> put_blank C f (lpart p) P o = l_eb C.
Proof. intros H. unfold put_blank. destruct (Nat.leb_spec (lpart p) o), (Nat.ltb_spec o (lpart p + P)); cbn [andb]; auto; lia. Qed.
Lemma put_blank_out f p o : o < lpart p \/ lpart p + P <= o -> put_blank C f (lpart p) P o = f o.
Proof. intros H. unfold put_blank. destruct (Nat.leb_spec (lpart p) o), (Nat.ltb_spec o (lpart p + P)); cbn [andb]; auto; lia. Qed.
Lemma other_out p o : lpart (negb p) <= o < lpart (negb p) + P -> o < lpart p \/ lpart p + P <= o.
Proof. destruct p; cbn [negb LogModel.lpart]; lia. Qed.

Lemma torn_erase f p g : ltorn C (FErase (lpart p) P) f g -> erased_some p f g.
Proof.
  intros [S1 H]. rewrite step_erase in H. cbn [fst] in H. split.
  - intros o I. rewrite H. rewrite put_blank_out by (apply other_out; auto). destruct (S1 _); auto.
  - pose proof sizes. destruct (S1 (lpart p / l_atom C)) eqn:E.
    + right. intros o I. rewrite H, (hdr_atom p o I), E. apply put_blank_in. lia.
    + left. apply read_ext. intros o I. rewrite H, (hdr_atom p o I), E. auto.
Qed.
Lemma erased_refl p f : erased_some p f f.
Proof. split; [intros o I; auto|left; auto]. Qed.

Lemma wp_erase p f (Q : Z -> flash -> Prop) (Cr : flash -> Prop) :
  (forall g, erased_some p f g -> Cr g) ->
  (forall g, samep (negb p) f g -> pblank p g -> Q OK g) ->
  (fl = true -> forall g rc, rc <> OK -> erased_some p f g -> Q rc g) ->
  lwp (part_erase C p) f Q Cr.
Proof.
  intros HCr HQ HF. unfold part_erase, nl_erase. cbn [lwp].
  assert (B : pblank p (put_blank C f (lpart p) P)) by (intros o I; apply put_blank_in; auto).
  assert (S1 : samep (negb p) f (put_blank C f (lpart p) P)) by (intros o I; apply put_blank_out, other_out; auto).
  assert (C1 : Cr (put_blank C f (lpart p) P)).
  { apply HCr. split; auto. right. intros o I. apply B. pose proof sizes. lia. }
  split; [split; [split; [destruct p; cbn [LogModel.lpart]; auto|auto]|apply HCr, erased_refl]|].
  split.
  - rewrite step_erase. cbn [snd fst]. change (is_ok OK) with true. cbv iota. cbn [lwp].
    pose proof (lpart_le p) as LL. split; [split; [exact LL|exact C1]|].
    cbn [LogModel.lstep]. destruct (Nat.leb_spec (lpart p + P) (2 * P)); [|lia]. cbn [fst snd].
    replace (lblankb C (put_blank C f (lpart p) P) (lpart p) P) with true by (symmetry; apply lblank_true; exact B).
    split; [split; [apply HQ; auto|exact C1]|discriminate].
  - intros _. split; [intros g T; apply HCr, torn_erase, T|].
    intros F g rc T NE. cbn [fst]. apply is_ok_false in NE as NE'. rewrite NE'. cbn [lwp].
    assert (E : erased_some p f g) by (destruct T as [->|[T _]]; [apply erased_refl|apply torn_erase, T]).
    split; [apply HF; auto|apply HCr; auto].
Qed.

(** ** Programming data and header *)
Lemma wp_program off bs f (Q : Z -> flash -> Prop) (Cr : flash -> Prop) :
  off + length bs <= 2 * P -> off mod G = 0 /\ length bs mod G = 0 -> (forall o, off <= o < off + length bs -> f o = l_eb C) ->
  Cr f ->
  (forall g, ltorn C (FProgram off bs) f g -> Cr g) ->
  Q OK (put_units f off bs) ->
  (fl = true -> forall g rc, rc <> OK -> lfault C (FProgram off bs) f g -> Q rc g /\ Cr g) ->
  lwp (nl_program off bs) f Q Cr.
Proof.
  intros L AL B C0 CT QO QF. unfold nl_program.
  assert (SB : lstep f (FBlank off (length bs)) = (f, (OK, []))).
  { cbn [LogModel.lstep]. destruct (Nat.leb_spec (off + length bs) (2 * P)); [|lia].
    replace (lblankb C f off (length bs)) with true by (symmetry; apply lblank_true; exact B). reflexivity. }
  assert (SP : lstep f (FProgram off bs) = (put_units f off bs, (OK, []))).
  { cbn [LogModel.lstep]. destruct (Nat.leb_spec (off + length bs) (2 * P)); [|lia].
    replace (lblankb C f off (length bs)) with true by (symmetry; apply lblank_true; exact B). reflexivity. }
  assert (C1 : Cr (put_units f off bs)) by (apply CT; exists (fun _ => true); intros o; rewrite SP; reflexivity).
  cbn [lwp]. split; [split; [exact L|exact C0]|]. split; [|discriminate].
  rewrite SB. cbn [fst snd]. change (is_ok OK) with true. cbv iota. cbn [lwp].
  split; [split; [split; [exact L|split; [exact AL|exact B]]|exact C0]|].
  split.
  - rewrite SP. cbn [fst snd]. change (is_ok OK) with true. cbv iota. cbn [lwp].
    split; [split; [exact L|exact C1]|]. split; [|discriminate].
    cbn [LogModel.lstep]. destruct (Nat.leb_spec (off + length bs) (2 * P)); [|lia]. cbn [fst snd].
    rewrite read_put, list_eqb_refl. split; auto.
  - intros _. split; [exact CT|]. intros F g rc T NE. cbn [fst]. apply is_ok_false in NE as NE'. rewrite NE'.
    cbn [lwp]. apply QF; auto.
Qed.

(** [g] differs from [f] only in the data of partition [p]. *)
Definition data_some (p : bool) (f g : flash) : Prop := samep (negb p) f g /\ hd g p = hd f p.
(** [g] differs from [f] only in the header of partition [p]. *)
Definition rest_same (p : bool) (f g : flash) : Prop :=
  samep (negb p) f g /\ forall o, lpart p + G <= o < lpart p + P -> g o = f o.

Lemma torn_data f p bs g : length bs <= P - G -> (forall o, lpart p + G <= o < lpart p + G + length bs -> f o = l_eb C) ->
  ltorn C (FProgram (lpart p + G) bs) f g -> data_some p f g.
Proof.
  intros L B [S1 H]. pose proof sizes. pose proof (lpart_le p).
  assert (E : forall o, o < lpart p + G \/ lpart p + P <= o -> g o = f o).
  { intros o I. rewrite H. cbn [LogModel.lstep]. destruct (_ <=? _); [destruct (lblankb _ _ _ _)|]; cbn [fst];
      destruct (S1 _); auto. apply put_out. lia. }
  split; [intros o I; apply E; apply other_out in I; lia|apply read_ext; intros o I; apply E; lia].
Qed.

Lemma part_mod p : lpart p mod G = 0 /\ (lpart p + G) mod G = 0 /\ G mod G = 0.
Proof.
  destruct HC as (H1 & _ & H3 & _). assert (G <> 0) by lia. rewrite (Nat.add_mod (lpart p)), Nat.mod_same by auto.
  destruct p; cbn [LogModel.lpart]; [rewrite H3|rewrite Nat.mod_0_l by auto]; rewrite ?Nat.mod_0_l by auto; auto.
Qed.
Lemma wp_data p bs f (Q : Z -> flash -> Prop) (Cr : flash -> Prop) :
  length bs <= P - G -> length bs mod G = 0 -> (forall o, lpart p + G <= o < lpart p + P -> f o = l_eb C) ->
  (forall g, data_some p f g -> Cr g) ->
  (forall g, data_some p f g -> read_units g (lpart p + G) (length bs) = bs -> Q OK g) ->
  (fl = true -> forall g rc, rc <> OK -> data_some p f g -> Q rc g) ->
  lwp (nl_program (lpart p + G) bs) f Q Cr.
Proof.
  intros L AL B CT QO QF. pose proof sizes. pose proof (lpart_le p). destruct (part_mod p) as (PM1 & PM2 & PM3).
  assert (R : data_some p f f) by (split; [intros o I; auto|auto]).
  assert (B' : forall o, lpart p + G <= o < lpart p + G + length bs -> f o = l_eb C) by (intros; apply B; lia).
  apply wp_program; auto; try lia.
  - intros g T. apply CT. eapply torn_data; eauto.
  - apply QO; [|apply read_put]. apply torn_data with (bs := bs); auto. exists (fun _ => true). intros o.
    cbn [LogModel.lstep]. destruct (Nat.leb_spec (lpart p + G + length bs) (2 * P)); [|lia].
    replace (lblankb C f (lpart p + G) (length bs)) with true by (symmetry; apply lblank_true; exact B'). reflexivity.
  - intros F g rc NE T. assert (D : data_some p f g) by (destruct T as [->|[T _]]; auto; eapply torn_data; eauto).
    split; auto.
Qed.

Lemma torn_hdr f p bs g : length bs = G -> hblank p f -> ltorn C (FProgram (lpart p) bs) f g ->
  rest_same p f g /\ (hd g p = hd f p \/ (hd g p = bs /\ forall o, g o = put_units f (lpart p) bs o)).
Proof.
  intros L B [S1 H]. pose proof sizes. pose proof (lpart_le p).
  assert (SP : forall o, fst (lstep f (FProgram (lpart p) bs)) o = put_units f (lpart p) bs o).
  { intros o. cbn [LogModel.lstep]. rewrite L. destruct (Nat.leb_spec (lpart p + G) (2 * P)); [|lia].
    replace (lblankb C f (lpart p) G) with true by (symmetry; apply lblank_true; exact B). reflexivity. }
  assert (E : forall o, o < lpart p \/ lpart p + G <= o -> g o = f o).
  { intros o I. rewrite H, SP. destruct (S1 _); auto. apply put_out. lia. }
  split.
  - split; [intros o I; apply E; apply other_out in I; lia|intros o I; apply E; lia].
  - destruct (S1 (lpart p / l_atom C)) eqn:ES.
    + right. assert (A : forall o, g o = put_units f (lpart p) bs o).
      { intros o. rewrite H, SP. destruct (Nat.lt_ge_cases o (lpart p)) as [X1|X1]; [rewrite put_out by (left; exact X1); destruct (S1 (o / l_atom C)); auto|].
        destruct (Nat.lt_ge_cases o (lpart p + G)) as [X2|X2]; [rewrite (hdr_atom p o (conj X1 X2)), ES; auto|].
        rewrite put_out by (right; rewrite L; exact X2). destruct (S1 (o / l_atom C)); auto. }
      split; [|exact A]. unfold hd. rewrite <- (read_put f (lpart p) bs) at 1. rewrite L. apply read_ext. intros o I. apply A.
    + left. apply read_ext. intros o I. rewrite H, (hdr_atom p o I), ES. auto.
Qed.

Lemma wp_commit x p f (Q : Z -> flash -> Prop) (Cr : flash -> Prop) :
  length (hdr_bytes x) = G -> hblank p f ->
  (forall g, rest_same p f g -> hd g p = hd f p \/ hd g p = hdr_bytes x -> Cr g) ->
  (forall g, rest_same p f g -> hd g p = hdr_bytes x -> Q OK g) ->
  (fl = true -> forall g rc, rc <> OK -> rest_same p f g -> hd g p = hd f p -> Q rc g) ->
  lwp (part_commit C x p) f Q Cr.
Proof.
  intros L B CT QO QF. pose proof sizes. pose proof (lpart_le p) as LL. destruct (part_mod p) as (PM1 & PM2 & PM3).
  assert (R : rest_same p f f) by (split; intros o I; auto).
  unfold part_commit. cbn [lwp]. split; [split; [cbn [lokcall]; lia|apply CT; auto]|]. split; [|discriminate].
  cbn [LogModel.lstep]. destruct (Nat.leb_spec (lpart p + G) (2 * P)); [|lia]. cbn [fst snd].
  replace (lblankb C f (lpart p) G) with true by (symmetry; apply lblank_true; exact B).
  change (is_ok OK) with true. cbv iota.
  apply wp_program; rewrite ?L; auto; try lia.
  - intros g T. destruct (torn_hdr f p _ g L B T) as [T1 [T2|[T2 _]]]; apply CT; auto.
  - assert (T : ltorn C (FProgram (lpart p) (hdr_bytes x)) f (put_units f (lpart p) (hdr_bytes x))).
    { exists (fun _ => true). intros o. cbn [LogModel.lstep]. rewrite L. destruct (Nat.leb_spec (lpart p + G) (2 * P)); [|lia].
      replace (lblankb C f (lpart p) G) with true by (symmetry; apply lblank_true; exact B). reflexivity. }
    destruct (torn_hdr f p _ _ L B T) as [T1 _]. apply QO; auto. unfold hd. rewrite <- L. apply read_put.
  - intros F g rc NE T. assert (D : rest_same p f g /\ hd g p = hd f p).
    { destruct T as [->|[T [o N]]]; auto. destruct (torn_hdr f p _ g L B T) as [T1 [T2|[_ T2]]]; auto.
      exfalso. apply N. rewrite T2. cbn [LogModel.lstep]. rewrite L. destruct (Nat.leb_spec (lpart p + G) (2 * P)); [|lia].
      replace (lblankb C f (lpart p) G) with true by (symmetry; apply lblank_true; exact B). reflexivity. }
    destruct D. split; auto.
Qed.
End Wp.
