(** Proofs about the wolfCrypt callback. *)
From Verif Require Import CbModel CbSpec.
Local Open Scope N_scope.

Definition sup (i : info) : bool := offered true i.

Ltac expand :=
  unfold callback, std, std_raw, dma, kem_gen, encaps, decaps, hbs_gen, hbs_sign, hbs_verify, hbs_left,
    dsa_gen, dsa_sign, dsa_verify, dsa_check, with_len, simple, unavailable, map_ret, put_len, fix_badargs, fix_notimpl in *;
  cbn [r_ret r_calls r_stores a_rc a_len a_len2 app] in *.

(** One side of the callback makes at most one call; what comes of it. *)
Definition codes (rc ret : Z) : Prop :=
  ret = rc \/ (rc = BADARGS /\ ret = BAD_FUNC_ARG) \/ (rc = BUFFER_SIZE /\ ret = BUFFER_E)
  \/ (rc = NOTIMPL /\ ret = UNAVAILABLE).
Definition task_ok (d : bool) (i : info) (c : call) : Prop :=
  (fits i -> does c = asked i) /\
  t_keys (does c) = t_keys (asked i) /\ within (t_in (does c)) (t_in (asked i)) /\
  within (t_out (does c)) (t_out (asked i)) /\
  ((forall k n, i <> IX25519Gen k n) -> t_op (does c) = t_op (asked i)) /\
  (forall l s k, c = KDsaGen false l s k -> i = IDsaGen true k l s) /\
  (d = false -> by_dma c = false) /\ (d = true -> by_dma c = true \/ exists k, c = KEdGen k).
Definition ans_ok (d : bool) (i : info) (c : call) (a : answer) (ret : Z) (st : list (slot * N)) : Prop :=
  (ret = OK <-> succeeded c a) /\
  (ret = UNAVAILABLE -> not_done_here a) /\
  (a_rc a = UNAVAILABLE -> ret = UNAVAILABLE) /\
  (codes (a_rc a) ret \/ exists h k, c = KHbsLeft h k /\ (0 <= a_rc a)%Z /\ ret = OK) /\
  (d = false -> ret <> BADARGS /\ ret <> BUFFER_SIZE) /\
  (succeeded c a -> st = lengths i a) /\
  (a_rc a = BUFFER_SIZE -> by_dma c = false -> st = needed i a) /\
  (~ succeeded c a -> a_rc a <> BUFFER_SIZE -> st = []).
Definition side_ok (d : bool) (i : info) (ask : call -> answer) (o : outcome) : Prop :=
  (r_calls o = [] /\ r_stores o = [] /\ offered d i = false /\
     (r_ret o = UNAVAILABLE \/ (r_ret o = BAD_FUNC_ARG /\ exists k p n a b, i = IEccCheckPub k p n a b /\ 65536 <= n)))
  \/ (exists c, r_calls o = [c] /\ offered d i = true /\ task_ok d i c /\ ans_ok d i c (ask c) (r_ret o) (r_stores o)).

Lemma u16_id n : n < 65536 -> u16 n = n. Proof. unfold u16. apply N.mod_small. Qed.
Lemma u16_le n : u16 n <= n. Proof. unfold u16. apply N.mod_le. lia. Qed.
Lemma u16_room o : u16 (len_of o) <= room o. Proof. destruct o; cbn; [apply u16_le|reflexivity]. Qed.
Lemma bytes_idem p n : bytes_at p (if p =? 0 then 0 else n) = bytes_at p n.
Proof. unfold bytes_at. destruct (p =? 0); reflexivity. Qed.
Lemma bytes_le p m n : m <= n -> snd (bytes_at p m) <= snd (bytes_at p n).
Proof. intros H. unfold bytes_at. cbn. destruct (p =? 0); [lia|exact H]. Qed.
Lemma fst_bytes p m n : fst (bytes_at p m) = fst (bytes_at p n). Proof. reflexivity. Qed.

Ltac destruct_room := match goal with |- N.min _ _ <= _ => cbn [len_of room]; lia end.
Ltac wi := unfold within; repeat constructor; cbn [fst snd]; try reflexivity;
  try (apply bytes_le); try (apply u16_le); try (apply u16_room); try (destruct_room); try (rewrite ?bytes_idem; reflexivity);
  try (match goal with |- context [if ?b then _ else _] => destruct b end; lia).

Ltac zcase := repeat match goal with |- context [(?a =? ?b)%Z] => is_var a; destruct (Z.eqb_spec a b) as [?e|?e]; [subst a|]
   | |- context [(?a <=? ?b)%Z] => is_var b; destruct (Z.leb_spec a b) end.
Ltac codes_tac := unfold BADARGS, BAD_FUNC_ARG, BUFFER_SIZE, BUFFER_E, NOTIMPL, UNAVAILABLE, OK in *.

Ltac task_tac :=
  unfold task_ok; cbn [does asked t_keys t_in t_out t_op fits by_dma];
  repeat match goal with |- context [if ?b then mkTask _ _ _ _ else _] => is_var b; destruct b end;
  cbn [does asked t_keys t_in t_out t_op fits by_dma];
  split; [intros; repeat match goal with H : _ /\ _ |- _ => destruct H end;
          repeat match goal with o : option N |- _ => destruct o end; cbn [room len_of] in *;
          rewrite ?bytes_idem; rewrite ?u16_id by lia; try (rewrite N.min_l by lia); try reflexivity|];
  split; [reflexivity|]; split; [wi|]; split; [wi|];
  split; [intros HN; first [reflexivity|exfalso; eapply HN; reflexivity]|];
  split; [intros ? ? ? E; try discriminate E; try (injection E as <- <- <-; reflexivity)|];
  split; [intros E; try discriminate E; reflexivity|intros E; try discriminate E; eauto].

Ltac ans_tac :=
  unfold ans_ok, codes, not_done_here;
  match goal with |- context [a_rc (?f ?c)] => generalize (f c); intros [rc n1 n2] end;
  cbn [a_rc a_len a_len2 succeeded by_dma lengths needed];
  repeat match goal with o : option N |- _ => destruct o end; cbn [andb];
  zcase; cbn [orb andb]; codes_tac; cbn [Z.eqb Z.leb Z.compare Pos.eqb Pos.compare Pos.compare_cont orb andb];
  repeat split; intros; try lia; try reflexivity; try congruence; try tauto; eauto 8.

Ltac side_tac :=
  unfold side_ok;
  match goal with
  | |- context [IEccCheckPub _ _ ?n _ _] => idtac
  | |- context [IHash ?h ?k ?s _ _ _] => idtac
  | |- context [IGcm ?e _ _ _ _ _ _ _ _ _ _] => destruct e
  | _ => idtac end;
  expand;
  repeat match goal with
  | |- context [match ?a with Some _ => _ | None => _ end] =>
      is_var a; lazymatch type of a with option hbs => destruct a | option N => destruct a end
  | |- context [if ?b then _ else _] => is_var b; destruct b
  end; cbn [r_ret r_calls r_stores];
  first
  [ left; split; [reflexivity|split; [reflexivity|split; [reflexivity|left; reflexivity]]]
  | left; split; [reflexivity|split; [reflexivity|split; reflexivity]]
  | right; eexists; split; [reflexivity|split; [reflexivity|split; [solve [task_tac]|solve [ans_tac]]]]
  | idtac ].

Lemma sha3_offered d h k s i n g : offered d (IHash h k s i n g) = negb (is_sha3 h && negb (s =? 0) && k).
Proof. destruct h; cbn [offered is_sha3 andb]; try reflexivity. Qed.

Lemma std_side ask i : side_ok false i ask (std ask i).
Proof.
  destruct i.
  all: try (side_tac; fail).
  - (* public key check *)
    unfold side_ok. expand. destruct (N.ltb_spec 65535 publen) as [L|L]; cbn [r_ret r_calls r_stores].
    + left. split; [reflexivity|]. split; [reflexivity|]. cbn [offered].
      split; [apply N.ltb_ge; lia|]. right. split; [reflexivity|].
      do 5 eexists. split; [reflexivity|lia].
    + right. eexists. split; [reflexivity|]. cbn [offered]. split; [apply N.ltb_lt; lia|].
      rewrite u16_id by lia. split; [task_tac|ans_tac].
  - unfold side_ok. rewrite !sha3_offered. expand.
    destruct (is_sha3 h && negb (sha =? 0) && keccak); cbn [r_ret r_calls r_stores negb].
    + left. repeat split. left. reflexivity.
    + right. eexists. split; [reflexivity|]. split; [reflexivity|]. split; [task_tac|ans_tac].
Qed.

Definition dma_ok (i : info) (ask : call -> answer) (o : outcome) : Prop :=
  (r_calls o = [] /\ r_stores o = [] /\ r_ret o = UNAVAILABLE /\ offered true i = offered false i)
  \/ (exists c, r_calls o = [c] /\ offered true i = true /\ task_ok true i c /\ ans_ok true i c (ask c) (r_ret o) (r_stores o)).

Lemma dma_side ask i : dma_ok i ask (dma ask i).
Proof.
  destruct i.
  all: unfold dma_ok.
  all: try (side_tac; fail).
  all: try (left; repeat split; reflexivity).
  - destruct a as [x|]; expand; [|left; repeat split; reflexivity].
    right. exists (KHbsLeft x key).
    destruct (Z.leb_spec 0 (a_rc (ask (KHbsLeft x key)))); cbn [r_calls r_ret r_stores].
    all: split; [reflexivity|split; [reflexivity|split; [task_tac|]]].
    + unfold ans_ok, codes, not_done_here. destruct (ask (KHbsLeft x key)) as [rc n1 n2].
      cbn [a_rc a_len a_len2 succeeded by_dma lengths needed] in *. codes_tac.
      repeat split; intros; try lia; try reflexivity. right. eauto.
    + unfold ans_ok, codes, not_done_here. destruct (ask (KHbsLeft x key)) as [rc n1 n2].
      cbn [a_rc a_len a_len2 succeeded by_dma lengths needed] in *.
      zcase; codes_tac; repeat split; intros; try lia; try reflexivity; try congruence; eauto 8.
  - rewrite !sha3_offered. expand.
    destruct (is_sha3 h && negb (sha =? 0) && keccak); cbn [r_ret r_calls r_stores negb].
    + left. repeat split.
    + right. eexists. split; [reflexivity|]. split; [reflexivity|]. split; [task_tac|ans_tac].
Qed.

Lemma offered_dma i : offered false i = true -> offered true i = true.
Proof. destruct i; cbn [offered andb]; try discriminate; auto. Qed.

(** The whole callback. *)
Lemma callback_ok ask d i :
  let o := callback ask d i in
  (r_calls o = [] /\ r_stores o = [] /\ offered d i = false /\
     (r_ret o = UNAVAILABLE \/ (r_ret o = BAD_FUNC_ARG /\ exists k p n a b, i = IEccCheckPub k p n a b /\ 65536 <= n)))
  \/ (exists c, offered d i = true /\
       ((exists d', r_calls o = [c] /\ (d' = true -> d = true) /\ task_ok d' i c /\ ans_ok d' i c (ask [] c) (r_ret o) (r_stores o))
        \/ (exists c1, d = true /\ r_calls o = [c1; c] /\ not_done_here (ask [] c1) /\ task_ok true i c1 /\
              task_ok false i c /\ ans_ok false i c (ask [c1] c) (r_ret o) (r_stores o)))).
Proof.
  cbn zeta. unfold callback. destruct d.
  2:{ destruct (std_side (ask []) i) as [H|(c & E & O & T & A)]; [left; exact H|].
      right. exists c. split; [exact O|]. left. exists false. auto. }
  destruct (dma_side (ask []) i) as [(C & ST & R & O)|(c1 & C & O & T & A)].
  - (* the DMA side does not know it *)
    rewrite R, C, ST. rewrite Z.eqb_refl. cbn [app r_ret r_calls r_stores].
    destruct (std_side (ask []) i) as [(C2 & S2 & O2 & R2)|(c & C2 & O2 & T2 & A2)].
    + left. rewrite O, O2. auto.
    + right. exists c. rewrite O. split; [exact O2|]. left. exists false. auto.
  - set (oo := dma (ask []) i) in *. destruct (Z.eqb_spec (r_ret oo) UNAVAILABLE) as [E|E].
    2:{ right. exists c1. split; [exact O|]. left. exists true. auto. }
    pose proof A as A'. destruct A' as (_ & A2 & _ & _ & _ & A6 & _ & A8).
    pose proof (A2 E) as ND.
    assert (S1 : r_stores oo = []).
    { apply A8.
      - unfold succeeded. destruct ND as [ND|ND]; rewrite ND; destruct c1; cbn; try discriminate; intros X; apply X; reflexivity.
      - destruct ND as [ND|ND]; rewrite ND; discriminate. }
    rewrite C, S1 in *. cbn [app r_ret r_calls r_stores].
    destruct (std_side (ask [c1]) i) as [(C2 & S2 & O2 & R2)|(c & C2 & O2 & T2 & A3)].
    + right. exists c1. split; [exact O|]. left. exists true. rewrite C2, S2. split; [reflexivity|].
      split; [auto|]. split; [exact T|]. destruct R2 as [R2|(R2 & k & p & n & aa & bb & -> & L)].
      * rewrite R2. rewrite <- E. exact A.
      * cbn [offered] in O. apply N.ltb_lt in O. lia.
    + right. exists c. split; [exact O|]. right. exists c1. rewrite C2. cbn [app].
      repeat (split; [first [reflexivity|assumption]|]). exact A3.
Qed.
