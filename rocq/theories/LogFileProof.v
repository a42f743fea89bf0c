(** Proofs about the log file. *)
From Verif Require Import Base LogFileModel LogFileSpec.
Local Open Scope N_scope.

(** ** Digits *)
Lemma digits_ok : forall fuel n, n < 2 ^ N.of_nat fuel -> 0 < N.of_nat fuel ->
  digits fuel n <> [] /\ Forall (fun b => isdigit b = true) (digits fuel n).
Proof.
  induction fuel as [|k IH]; intros n H H0; [lia|]. cbn [digits].
  destruct (n <? 10) eqn:E.
  - split; [discriminate|]. constructor; [|constructor]. unfold isdigit. lia.
  - assert (B : n / 10 < 2 ^ N.of_nat k).
    { rewrite Nat2N.inj_succ, N.pow_succ_r' in H. apply N.div_lt_upper_bound; lia. }
    assert (K : 0 < N.of_nat k).
    { destruct k; [|lia]. cbn in H. apply N.ltb_ge in E. lia. }
    destruct (IH (n / 10) B K) as [_ F]. split.
    + intros X. apply app_eq_nil in X. destruct X; discriminate.
    + apply Forall_app. split; [exact F|]. constructor; [|constructor]. unfold isdigit.
      pose proof (N.mod_lt n 10). lia.
Qed.

Lemma read_digits_app : forall d acc rest, Forall (fun b => isdigit b = true) d ->
  read_digits acc (d ++ rest) = read_digits (fst (read_digits acc d)) rest.
Proof.
  induction d as [|b d IH]; intros acc rest F; cbn [app]; [reflexivity|].
  inversion F as [|? ? Hb Hd]; subst. cbn [read_digits]. rewrite Hb. apply IH; auto.
Qed.

Lemma digits_value : forall fuel n, n < 2 ^ N.of_nat fuel -> 0 < N.of_nat fuel ->
  fst (read_digits 0 (digits fuel n)) = n.
Proof.
  induction fuel as [|k IH]; intros n H H0; [lia|]. cbn [digits].
  destruct (n <? 10) eqn:E.
  - cbn [read_digits]. replace (isdigit (48 + n)) with true by (unfold isdigit; lia). cbn [fst]. lia.
  - assert (B : n / 10 < 2 ^ N.of_nat k).
    { rewrite Nat2N.inj_succ, N.pow_succ_r' in H. apply N.div_lt_upper_bound; lia. }
    assert (K : 0 < N.of_nat k).
    { destruct k; [|lia]. cbn in H. apply N.ltb_ge in E. lia. }
    rewrite read_digits_app by (apply digits_ok; auto). rewrite IH by auto.
    cbn [read_digits]. pose proof (N.mod_lt n 10).
    replace (isdigit (48 + n mod 10)) with true by (unfold isdigit; lia). cbn [fst].
    pose proof (N.div_mod' n 10). lia.
Qed.

Lemma dec_fuel : forall n, n < 2 ^ N.of_nat (S (N.to_nat (N.log2 n))).
Proof.
  intros n. rewrite Nat2N.inj_succ, N2Nat.id. destruct (N.eq_dec n 0) as [->|Z]; [reflexivity|].
  apply N.log2_spec. lia.
Qed.

Lemma dec_ok : forall n, dec n <> [] /\ Forall (fun b => isdigit b = true) (dec n).
Proof. intros n. apply digits_ok; [apply dec_fuel|lia]. Qed.

Lemma digit_space : forall b, isdigit b = true -> isspace b = false.
Proof. intros b. unfold isdigit, isspace. lia. Qed.

Lemma scan_dec : forall n rest, n < 2 ^ 64 ->
  match rest with b :: _ => isdigit b = false | [] => True end ->
  scan_u (dec n ++ rest) = Some (n, rest).
Proof.
  intros n rest H R. destruct (dec_ok n) as [D F].
  assert (V : fst (read_digits 0 (dec n)) = n) by (apply digits_value; [apply dec_fuel|lia]).
  assert (S : skip_ws (dec n ++ rest) = dec n ++ rest).
  { destruct (dec n) as [|b d]; [congruence|]. cbn [app skip_ws]. inversion F as [|? ? Hb Hd]; subst.
    rewrite digit_space by auto. reflexivity. }
  unfold scan_u. cbv zeta. rewrite S.
  destruct (dec n) as [|b d] eqn:E; [congruence|]. pose proof (Forall_inv F) as Hb. cbv beta in Hb.
  change ((b :: d) ++ rest) with (b :: d ++ rest).
  assert (X : (b =? 45) = false /\ (b =? 43) = false) by (unfold isdigit in Hb; lia).
  destruct X as [-> ->]. rewrite Hb. change (b :: d ++ rest) with ((b :: d) ++ rest).
  rewrite read_digits_app by auto. 
  replace (read_digits (fst (read_digits 0 (b :: d))) rest) with (n, rest).
  - destruct (2 ^ 64 <=? n) eqn:Q; [lia|]. reflexivity.
  - rewrite V. destruct rest as [|c r]; cbn [read_digits]; [reflexivity|]. rewrite R. reflexivity.
Qed.

(** ** Strings and sets *)
Lemma cstr_id : forall l, Forall (fun b => b <> 0) l -> cstr l = l.
Proof.
  induction l as [|b r IH]; intros F; cbn [cstr]; [reflexivity|]. inversion F; subst.
  destruct (b =? 0) eqn:E; [lia|]. rewrite IH; auto.
Qed.
Lemma cstr_zero : forall m k, Forall (fun b => b <> 0) m -> cstr (m ++ repeat 0 k) = m.
Proof.
  induction m as [|b r IH]; intros k F; cbn [app cstr].
  - destruct k; reflexivity.
  - inversion F; subst. destruct (b =? 0) eqn:E; [lia|]. rewrite IH; auto.
Qed.
Lemma span_exact : forall c s k rest, Forall (fun b => b <> c) s -> len s <= k ->
  match rest with b :: _ => b = c | [] => True end ->
  span c k (s ++ rest) = (s, rest).
Proof.
  induction s as [|b s IH]; intros k rest F L R; cbn [app].
  - destruct rest as [|b r]; cbn [span]; [reflexivity|]. subst. rewrite N.eqb_refl, orb_true_r. reflexivity.
  - cbn [span]. inversion F as [|? ? Hb Hs]; subst. unfold len in L. cbn [length] in L.
    destruct (k =? 0) eqn:E1; [lia|]. destruct (b =? c) eqn:E2; [lia|]. cbn [orb].
    rewrite IH; auto. unfold len. lia.
Qed.
Lemma scan_exact : forall c s k rest, s <> [] -> Forall (fun b => b <> c) s -> len s <= k ->
  match rest with b :: _ => b = c | [] => True end ->
  scan_set c k (s ++ rest) = Some (s, rest).
Proof. intros c s k rest Z F L R. unfold scan_set. rewrite span_exact; auto. destruct s; [congruence|reflexivity]. Qed.
Lemma lit_same : forall c r, lit c (c :: r) = Some r.
Proof. intros. cbn [lit]. rewrite N.eqb_refl. reflexivity. Qed.

Lemma eqs_refl : forall s, eqs s s = true.
Proof. induction s; cbn [eqs]; auto. rewrite N.eqb_refl; auto. Qed.
Lemma level_back : forall l, l <= 2 -> str_level (level_str l) = l.
Proof. intros l H. assert (C : l = 0 \/ l = 1 \/ l = 2) by lia. destruct C as [->|[->| ->]]; reflexivity. Qed.
Lemma level_ok : forall l, level_str l <> [] /\ len (level_str l) <= 31 /\
  Forall (fun b => b <> BAR /\ b <> 0 /\ b <> NL) (level_str l).
Proof.
  intros l. unfold level_str. destruct l as [|[[p|p|]|[p|p|]|]];
  (split; [discriminate|]; split; [unfold len; cbn [length]; lia|]; unfold BAR, NL; repeat constructor; lia).
Qed.

(** ** One line *)
(** A line of parts: what sscanf makes of it, whatever follows the newline that
    ends the message. *)
Definition text_of (t lv : N) (fi fu : list N) (n : N) (m : list N) : list N :=
  dec t ++ BAR :: level_str lv ++ BAR :: fi ++ COLON :: dec n ++ BAR :: fu ++ BAR :: m.

Lemma Forall_weaken : forall (P Q : N -> Prop) l, (forall b, P b -> Q b) -> Forall P l -> Forall Q l.
Proof. intros P Q l H F. eapply Forall_impl; eauto. Qed.

Lemma digits_clean : forall n, Forall (fun b => b <> 0 /\ b <> NL) (dec n).
Proof.
  intros n. destruct (dec_ok n) as [_ F]. eapply Forall_weaken; [|exact F].
  intros b H. unfold isdigit, NL in *. lia.
Qed.

Definition clean (l : list N) : Prop := Forall (fun b => b <> 0 /\ b <> NL) l.
Lemma text_clean : forall t lv fi fu n m, clean fi -> clean fu -> clean m -> clean (text_of t lv fi fu n m).
Proof.
  intros t lv fi fu n m A B C. unfold clean, text_of in *.
  assert (Z : BAR <> 0 /\ BAR <> NL) by (unfold BAR, NL; lia).
  assert (Z' : COLON <> 0 /\ COLON <> NL) by (unfold COLON, NL; lia).
  destruct (level_ok lv) as (_ & _ & L).
  repeat first [ apply Forall_app; split | apply Forall_cons; [assumption|] | assumption | apply digits_clean ].
  eapply Forall_weaken; [|exact L]. intros b Hb; cbv beta in Hb; tauto.
Qed.

Lemma scan_text : forall t lv fi fu n m tail,
  t < 2 ^ 64 -> n < 2 ^ 32 ->
  fi <> [] -> len fi <= 255 -> Forall (fun b => b <> 0 /\ b <> NL /\ b <> COLON) fi ->
  fu <> [] -> len fu <= 255 -> Forall (fun b => b <> 0 /\ b <> NL /\ b <> BAR) fu ->
  clean m -> len m <= 255 -> tail = [] \/ tail = [NL] ->
  scan_line (text_of t lv fi fu n m ++ tail) =
    Some (t, level_str lv, fi, n, fu, match m with [] => None | _ => Some m end).
Proof.
  intros t lv fi fu n m tail Ht Hn F0 F1 F2 U0 U1 U2 M1 M2 T.
  assert (CT : Forall (fun b => b <> 0) (text_of t lv fi fu n m ++ tail)).
  { apply Forall_app. split.
    - eapply Forall_weaken; [|apply text_clean; auto].
      + intros b Hb; cbv beta in Hb; tauto.
      + eapply Forall_weaken; [|exact F2]. intros b Hb; cbv beta in Hb; tauto.
      + eapply Forall_weaken; [|exact U2]. intros b Hb; cbv beta in Hb; tauto.
    - destruct T as [->| ->]; [constructor|]. constructor; [unfold NL; lia|constructor]. }
  unfold scan_line. rewrite cstr_id by exact CT. unfold text_of.
  rewrite <- !app_assoc, <- !app_comm_cons.
  rewrite scan_dec; [|exact Ht|unfold isdigit, BAR; lia]. rewrite lit_same.
  rewrite <- ?app_assoc, <- ?app_comm_cons.
  destruct (level_ok lv) as (L1 & L2 & L3).
  rewrite scan_exact; [|exact L1|eapply Forall_weaken; [|exact L3]; intros b Hb; cbv beta in Hb; tauto|exact L2|reflexivity].
  rewrite lit_same. rewrite <- ?app_assoc, <- ?app_comm_cons.
  rewrite scan_exact; [|exact F0|eapply Forall_weaken; [|exact F2]; intros b Hb; cbv beta in Hb; tauto|exact F1|reflexivity].
  rewrite lit_same. rewrite <- ?app_assoc, <- ?app_comm_cons.
  rewrite scan_dec; [|lia|unfold isdigit, BAR; lia]. rewrite lit_same.
  rewrite <- ?app_assoc, <- ?app_comm_cons.
  rewrite scan_exact; [|exact U0|eapply Forall_weaken; [|exact U2]; intros b Hb; cbv beta in Hb; tauto|exact U1|reflexivity].
  rewrite lit_same. rewrite N.mod_small by exact Hn.
  destruct m as [|b m'].
  - destruct T as [->| ->]; reflexivity.
  - rewrite scan_exact; [reflexivity|discriminate| |exact M2|destruct T as [->| ->]; [exact I|reflexivity]].
    eapply Forall_weaken; [|exact M1]. intros c Hc; cbv beta in Hc; tauto.
Qed.

(** ** Pieces *)
Lemma fgets_line : forall l k rest, Forall (fun b => b <> NL) l -> len l < k ->
  fgets k (l ++ NL :: rest) = (l ++ [NL], rest).
Proof.
  induction l as [|b l IH]; intros k rest F L; cbn [app fgets].
  - destruct (k =? 0) eqn:E; [unfold len in L; cbn [length] in L; lia|]. rewrite N.eqb_refl. reflexivity.
  - inversion F; subst. unfold len in L. cbn [length] in L.
    destruct (k =? 0) eqn:E; [lia|]. destruct (b =? NL) eqn:E2; [lia|].
    rewrite IH; auto. unfold len. lia.
Qed.

Lemma fgets_shrink : forall l k x r, fgets k l = (x, r) -> (length r <= length l)%nat.
Proof.
  induction l as [|b l IH]; intros k x r E; cbn [fgets] in E; [inversion E; subst; lia|].
  destruct (k =? 0); [inversion E; subst; lia|]. destruct (b =? NL); [inversion E; subst; cbn [length]; lia|].
  destruct (fgets (k - 1) l) as [y z] eqn:F. inversion E; subst. apply IH in F. cbn [length]. lia.
Qed.
Lemma fgets_less : forall b l x r, fgets 2047 (b :: l) = (x, r) -> (length r <= length l)%nat.
Proof.
  intros b l x r E. cbn [fgets] in E. change (2047 =? 0) with false in E. cbv iota in E.
  destruct (b =? NL); [inversion E; subst; lia|].
  destruct (fgets (2047 - 1) l) as [y z] eqn:F. inversion E; subst. eapply fgets_shrink; eauto.
Qed.

Lemma pieces_enough : forall f l, (length l <= f)%nat -> pieces f l = lines l.
Proof.
  assert (G : forall n f g l, (length l <= n)%nat -> (length l <= f)%nat -> (length l <= g)%nat -> pieces f l = pieces g l).
  { induction n as [|n IH]; intros f g l A B C.
    - destruct l; [|cbn [length] in A; lia]. destruct f, g; reflexivity.
    - destruct l as [|b l]; [destruct f, g; reflexivity|].
      destruct f as [|f]; [cbn [length] in B; lia|]. destruct g as [|g]; [cbn [length] in C; lia|].
      cbn [pieces]. destruct (fgets 2047 (b :: l)) as [x r] eqn:E. pose proof (fgets_less _ _ _ _ E).
      cbn [length] in *. f_equal. apply IH; lia. }
  intros f l H. unfold lines. apply (G (length l)); lia.
Qed.

Lemma lines_cons : forall l rest, Forall (fun b => b <> NL) l -> len l < 2047 ->
  lines (l ++ NL :: rest) = (l ++ [NL]) :: lines rest.
Proof.
  intros l rest F L. unfold lines at 1. destruct (length (l ++ NL :: rest)) as [|k] eqn:E.
  { rewrite app_length in E. cbn [length] in E. lia. }
  cbn [pieces]. rewrite fgets_line by auto.
  destruct (l ++ NL :: rest) eqn:Q; [destruct l; discriminate|]. f_equal.
  apply pieces_enough. rewrite <- Q, app_length in E. cbn [length] in E. lia.
Qed.

(** ** The file of a list of entries *)
Definition body (e : entry) : list N :=
  text_of (e_time e) (e_level e) (opt_str (e_file e)) (opt_str (e_func e)) (e_line e) (msg_text e).
Lemma format_body : forall e, format e = body e ++ [NL].
Proof.
  intros e. unfold format, body, text_of. rewrite <- !app_assoc, <- !app_comm_cons.
  rewrite <- !app_assoc, <- !app_comm_cons, <- !app_assoc, <- !app_comm_cons.
  rewrite <- !app_assoc, <- !app_comm_cons, <- !app_assoc, <- !app_comm_cons. reflexivity.
Qed.

Lemma message_text : forall M e, message_ok M e ->
  exists m, msg_text e = m /\ m <> [] /\ len m <= 255 /\ len m < M /\ clean m /\
    e_len e = len m /\ e_msg e = m ++ repeat 0 (N.to_nat (M - len m)).
Proof.
  intros M e (m & Z & L & LM & F & E1 & E2). exists m. repeat split; auto.
  unfold msg_text. rewrite E1, E2. destruct (len m <? 2 ^ 31) eqn:Q; [|lia].
  assert (G : firstn (N.to_nat (len m)) (m ++ repeat 0 (N.to_nat (M - len m))) = m).
  { unfold len. rewrite Nat2N.id, firstn_app, Nat.sub_diag, firstn_all. cbn [firstn]. apply app_nil_r. }
  rewrite G. apply cstr_id. eapply Forall_weaken; [|exact F]. intros b Hb; cbv beta in Hb; tauto.
Qed.

Lemma read_plain : forall M junk e tail, plain M e -> tail = [] \/ tail = [NL] ->
  read_round M junk (body e ++ tail) = Give e.
Proof.
  intros M junk e tail (Ht & Hl & Hn & (fi & E1 & F0 & F1 & F2) & (fu & E2 & U0 & U1 & U2) & MK) T.
  destruct (message_text _ _ MK) as (m & E3 & M0 & M1 & M2 & M3 & M4 & M5).
  unfold read_round, body. rewrite E1, E2, E3. cbn [opt_str].
  rewrite scan_text; auto. destruct m as [|b m'] eqn:Em; [congruence|]. rewrite <- Em in *.
  destruct (M <=? len m) eqn:Q; [lia|]. rewrite level_back by exact Hl. f_equal.
  destruct e as [t lv f1 f2 n ln mg]. cbn [e_time e_level e_file e_func e_line e_len e_msg] in *. subst. reflexivity.
Qed.

Lemma body_clean : forall M e, plain M e -> clean (body e).
Proof.
  intros M e (Ht & Hl & Hn & (fi & E1 & F0 & F1 & F2) & (fu & E2 & U0 & U1 & U2) & MK).
  destruct (message_text _ _ MK) as (m & E3 & M0 & M1 & M2 & M3 & M4 & M5).
  unfold body. rewrite E1, E2, E3. cbn [opt_str]. apply text_clean; auto;
  (eapply Forall_weaken; [|eassumption]; intros b Hb; cbv beta in Hb; tauto).
Qed.

Definition fits (e : entry) : Prop := len (format e) < 1024.
Lemma body_short : forall e, fits e -> len (body e) < 2047.
Proof. intros e. unfold fits. rewrite format_body. unfold len. rewrite app_length. cbn [length]. lia. Qed.

Lemma lines_all : forall M es rest, Forall (fun e => plain M e /\ fits e) es ->
  lines (concat (map format es) ++ rest) = map format es ++ lines rest.
Proof.
  induction es as [|e es IH]; intros rest F; cbn [map concat app]; [reflexivity|].
  inversion F as [|? ? [P Fi] R]; subst. rewrite format_body at 1. rewrite <- !app_assoc. cbn [app].
  rewrite lines_cons; [|eapply Forall_weaken; [|eapply body_clean; eauto]; intros b Hb; cbv beta in Hb; tauto|apply body_short; auto].
  rewrite IH by auto. rewrite format_body. reflexivity.
Qed.

Lemma walk_all : forall M junk cb es i, Forall (fun e => plain M e /\ fits e) es ->
  walk M junk cb i (map format es) = Some (shown cb es).
Proof.
  induction es as [|e es IH]; intros i F; cbn [map walk shown]; [reflexivity|].
  inversion F as [|? ? [P Fi] R]; subst. rewrite format_body, (read_plain M) by auto.
  destruct (Z.eqb (cb e) 0); [|reflexivity]. rewrite IH by auto. destruct (shown cb es); reflexivity.
Qed.

(** ** Histories *)
Definition good (M : N) (v : ev) : Prop := whole v /\ match v with Add e _ _ => plain M e | _ => True end.

Lemma step_inv : forall M v es file, good M v -> Forall (fun e => plain M e /\ fits e) es ->
  file = concat (map format es) ->
  step file v = concat (map format (logged_step es v)) /\ Forall (fun e => plain M e /\ fits e) (logged_step es v).
Proof.
  intros M v es file [W P] F ->. destruct v as [e k w|k t s|]; cbn [step logged_step].
  - unfold add_entry. destruct (negb k); [split; auto|].
    destruct (1024 <=? len (format e)) eqn:Q; [split; auto|].
    destruct w as [n|]; [|split; auto]. cbn [fst snd whole] in *.
    destruct (n =? len (format e)) eqn:E.
    + cbn [Z.eqb OK]. rewrite map_app, concat_app. cbn [map concat]. rewrite app_nil_r. split.
      * f_equal. apply N.eqb_eq in E. subst n. unfold len. rewrite Nat2N.id. apply firstn_all.
      * apply Forall_app. split; auto. constructor; [|constructor]. split; auto. unfold fits. lia.
    + destruct W as [->|W]; [|lia]. change (Z.eqb ABORTED OK) with false. cbv iota.
      change (N.to_nat 0) with 0%nat. cbn [firstn]. rewrite app_nil_r. split; auto.
  - unfold clear. destruct k, t; cbn [negb andb snd]; split; auto.
  - split; auto.
Qed.

Lemma run_inv : forall M h es file, Forall (good M) h -> Forall (fun e => plain M e /\ fits e) es ->
  file = concat (map format es) ->
  run file h = concat (map format (fold_left logged_step h es)) /\
  Forall (fun e => plain M e /\ fits e) (fold_left logged_step h es).
Proof.
  induction h as [|v h IH]; intros es file G F E; cbn [fold_left]; [split; auto|].
  inversion G as [|? ? Gv Gh]; subst. destruct (step_inv M v es _ Gv F eq_refl) as [A B].
  change (run (concat (map format es)) (v :: h)) with (run (step (concat (map format es)) v) h).
  apply IH; auto.
Qed.

Lemma file_of : forall M h, Forall (good M) h ->
  run [] h = concat (map format (logged h)) /\ Forall (fun e => plain M e /\ fits e) (logged h).
Proof. intros M h G. apply (run_inv M h [] []); auto. Qed.

Lemma clean_format : forall M e, plain M e -> fits e -> cstr (format e) = format e.
Proof.
  intros M e P Fi. apply cstr_id.
  rewrite format_body. apply Forall_app. split; [|constructor; [unfold NL; lia|constructor]].
  eapply Forall_weaken; [|eapply body_clean; eauto]. intros b Hb; cbv beta in Hb; tauto.
Qed.
Lemma export_all : forall M es i, Forall (fun e => plain M e /\ fits e) es ->
  put_all (fun _ => true) i (map format es) = (OK, concat (map format es)).
Proof.
  induction es as [|e es IH]; intros i F; cbn [map put_all concat]; [reflexivity|].
  inversion F as [|? ? [P Fi] R]; subst. rewrite IH by auto. f_equal. f_equal. eapply clean_format; eauto.
Qed.
Lemma export_some : forall M sink es i, Forall (fun e => plain M e /\ fits e) es ->
  exists k, (k <= length es)%nat /\ put_all sink i (map format es) = (if Nat.eqb k (length es) then OK else ABORTED, concat (map format (firstn k es))).
Proof.
  induction es as [|e es IH]; intros i F; cbn [map put_all concat length].
  - exists 0%nat. split; auto.
  - inversion F as [|? ? [P Fi] R]; subst. destruct (sink i).
    + destruct (IH (S i) R) as (k & L & E). exists (S k). split; [lia|]. rewrite E. cbn [Nat.eqb firstn map concat].
      rewrite (clean_format M) by auto. reflexivity.
    + exists 0%nat. split; [lia|]. reflexivity.
Qed.

(** ** Departures *)
Lemma iterate_one : forall M junk cb e, fits e -> 
  iterate M junk cb (run [] [Add e true (Some (len (format e)))]) true = walk M junk cb 0 (lines (format e)).
Proof.
  intros M junk cb e F. unfold run. cbn [fold_left step]. unfold add_entry. cbn [negb].
  unfold fits in F. destruct (1024 <=? len (format e)) eqn:Q; [lia|]. cbn [snd app].
  unfold len. rewrite Nat2N.id, firstn_all. reflexivity.
Qed.

(** A line that sscanf does not get through. *)
Lemma lines_one : forall l, Forall (fun b => b <> NL) l -> len l < 2047 -> lines (l ++ [NL]) = [l ++ [NL]].
Proof. intros l F L. rewrite lines_cons by auto. reflexivity. Qed.

Lemma scan_no_file : forall t lv rest, t < 2 ^ 64 -> clean rest ->
  scan_line (dec t ++ BAR :: level_str lv ++ BAR :: COLON :: rest ++ [NL]) = None.
Proof.
  intros t lv rest Ht C. unfold scan_line.
  destruct (level_ok lv) as (L1 & L2 & L3).
  rewrite cstr_id.
  2: { apply Forall_app. split; [eapply Forall_weaken; [|apply digits_clean]; intros b Hb; cbv beta in Hb; tauto|].
       constructor; [unfold BAR; lia|]. apply Forall_app. split; [eapply Forall_weaken; [|exact L3]; intros b Hb; cbv beta in Hb; tauto|].
       constructor; [unfold BAR; lia|]. constructor; [unfold COLON; lia|]. apply Forall_app. split.
       - eapply Forall_weaken; [|exact C]; intros b Hb; cbv beta in Hb; tauto.
       - constructor; [unfold NL; lia|constructor]. }
  rewrite scan_dec; [|exact Ht|unfold isdigit, BAR; lia]. rewrite lit_same.
  rewrite scan_exact; [|exact L1|eapply Forall_weaken; [|exact L3]; intros b Hb; cbv beta in Hb; tauto|exact L2|reflexivity].
  rewrite lit_same. reflexivity.
Qed.

Lemma span_over : forall c s k rest, Forall (fun b => b <> c) s -> k < len s ->
  exists b r, snd (span c k (s ++ rest)) = b :: r /\ b <> c.
Proof.
  induction s as [|b s IH]; intros k rest F L; [unfold len in L; cbn [length] in L; lia|].
  inversion F as [|? ? Hb Hs]; subst. cbn [app span]. destruct (k =? 0) eqn:E.
  - cbn [orb snd]. eauto.
  - destruct (b =? c) eqn:E2; [lia|]. cbn [orb].
    destruct (IH (k - 1) rest Hs) as (b' & r' & A & B).
    { unfold len in *. cbn [length] in L. lia. }
    destruct (span c (k - 1) (s ++ rest)) as [x y] eqn:Q. cbn [snd] in *. eauto.
Qed.

Lemma scan_long_file : forall t lv fi rest, t < 2 ^ 64 -> clean fi -> Forall (fun b => b <> COLON) fi ->
  255 < len fi -> clean rest ->
  scan_line (dec t ++ BAR :: level_str lv ++ BAR :: fi ++ COLON :: rest ++ [NL]) = None.
Proof.
  intros t lv fi rest Ht Cf Nf Lf C. unfold scan_line.
  destruct (level_ok lv) as (L1 & L2 & L3).
  rewrite cstr_id.
  2: { apply Forall_app. split; [eapply Forall_weaken; [|apply digits_clean]; intros b Hb; cbv beta in Hb; tauto|].
       constructor; [unfold BAR; lia|]. apply Forall_app. split; [eapply Forall_weaken; [|exact L3]; intros b Hb; cbv beta in Hb; tauto|].
       constructor; [unfold BAR; lia|]. apply Forall_app. split; [eapply Forall_weaken; [|exact Cf]; intros b Hb; cbv beta in Hb; tauto|].
       constructor; [unfold COLON; lia|]. apply Forall_app. split.
       - eapply Forall_weaken; [|exact C]; intros b Hb; cbv beta in Hb; tauto.
       - constructor; [unfold NL; lia|constructor]. }
  rewrite scan_dec; [|exact Ht|unfold isdigit, BAR; lia]. rewrite lit_same.
  rewrite scan_exact; [|exact L1|eapply Forall_weaken; [|exact L3]; intros b Hb; cbv beta in Hb; tauto|exact L2|reflexivity].
  rewrite lit_same. unfold scan_set.
  destruct (span_over COLON fi 255 (COLON :: rest ++ [NL]) Nf Lf) as (b & r & A & B).
  destruct (span COLON 255 (fi ++ COLON :: rest ++ [NL])) as [x y]. cbn [snd] in A. subst y.
  destruct x as [|x0 x1]; [reflexivity|]. cbn [lit]. destruct (b =? COLON) eqn:Q; [lia|]. reflexivity.
Qed.

(** The rest of a line after the colon. *)
Definition after (e : entry) : list N :=
  dec (e_line e) ++ BAR :: opt_str (e_func e) ++ BAR :: msg_text e.
Lemma body_after : forall e,
  body e = dec (e_time e) ++ BAR :: level_str (e_level e) ++ BAR :: opt_str (e_file e) ++ COLON :: after e.
Proof. reflexivity. Qed.
Lemma after_clean : forall e, clean (opt_str (e_func e)) -> clean (msg_text e) -> clean (after e).
Proof.
  intros e A B. unfold after, clean in *.
  assert (Z : BAR <> 0 /\ BAR <> NL) by (unfold BAR, NL; lia).
  repeat first [ apply Forall_app; split | apply Forall_cons; [assumption|] | assumption | apply digits_clean ].
Qed.

Lemma lost : forall M junk cb e, fits e -> clean (opt_str (e_file e)) -> clean (opt_str (e_func e)) ->
  clean (msg_text e) -> scan_line (body e ++ [NL]) = None ->
  iterate M junk cb (run [] [Add e true (Some (len (format e)))]) true = Some (OK, []).
Proof.
  intros M junk cb e F A B C S. rewrite iterate_one by auto. rewrite format_body.
  rewrite lines_one; [|eapply Forall_weaken; [|apply text_clean; eauto]; intros b Hb; cbv beta in Hb; tauto|apply body_short; auto].
  cbn [walk]. unfold read_round. rewrite S. reflexivity.
Qed.

Lemma forged : forall M junk e e' x, plain M e' ->
  e_time e < 2 ^ 64 -> e_level e <= 2 -> e_line e < 2 ^ 32 ->
  name_ok COLON (e_file e) -> name_ok BAR (e_func e) ->
  x <> [] -> len x <= 255 -> len x < M -> clean x ->
  msg_text e = x ++ NL :: body e' -> fits e ->
  iterate M junk (fun _ => OK) (run [] [Add e true (Some (len (format e)))]) true =
    Some (OK, [mkEntry (e_time e) (e_level e) (e_file e) (e_func e) (e_line e) (len x)
                 (x ++ repeat 0 (N.to_nat (M - len x))); e']).
Proof.
  intros M junk e e' x P Ht Hl Hn N1 N2 X0 X1 X2 X3 E F.
  set (e1 := mkEntry (e_time e) (e_level e) (e_file e) (e_func e) (e_line e) (len x)
                 (x ++ repeat 0 (N.to_nat (M - len x)))).
  assert (MO : message_ok M e1) by (exists x; repeat split; auto).
  assert (P1 : plain M e1) by (repeat split; auto).
  destruct (message_text _ _ MO) as (m & E3 & M0 & M1 & M2 & M3 & M4 & M5).
  assert (Mx : m = x).
  { cbn [e1 e_msg e_len] in M4, M5. rewrite M4 in M5. apply app_inv_tail in M5. auto. }
  assert (B : format e = body e1 ++ NL :: body e' ++ [NL]).
  { rewrite format_body. unfold body at 1 2. rewrite E, E3, Mx. unfold e1. cbn [e_time e_level e_file e_func e_line].
    unfold text_of. repeat (rewrite <- !app_assoc || rewrite <- !app_comm_cons). reflexivity. }
  assert (LB : len (body e1) < 2047 /\ len (body e') < 2047).
  { unfold fits in F. rewrite B in F. unfold len in *. rewrite app_length in F. cbn [length] in F.
    rewrite app_length in F. cbn [length] in F. lia. }
  rewrite iterate_one by auto. rewrite B.
  rewrite lines_cons; [|eapply Forall_weaken; [|eapply body_clean; eauto]; intros b Hb; cbv beta in Hb; tauto|tauto].
  rewrite lines_one; [|eapply Forall_weaken; [|eapply body_clean; eauto]; intros b Hb; cbv beta in Hb; tauto|tauto].
  cbn [walk]. rewrite !(read_plain M) by auto. reflexivity.
Qed.

Lemma empty_message : forall M junk e, e_time e < 2 ^ 64 -> e_level e <= 2 -> e_line e < 2 ^ 32 ->
  name_ok COLON (e_file e) -> name_ok BAR (e_func e) -> e_len e = 0 -> fits e ->
  iterate M junk (fun _ => OK) (run [] [Add e true (Some (len (format e)))]) true =
    if has_zero (junk 0%nat) then
      Some (OK, [mkEntry (e_time e) (e_level e) (e_file e) (e_func e) (e_line e) (len (cstr (junk 0%nat)))
                   (cstr (junk 0%nat) ++ repeat 0 (N.to_nat (M - len (cstr (junk 0%nat)))))])
    else None.
Proof.
  intros M junk e Ht Hl Hn (fi & E1 & F0 & F1 & F2) (fu & E2 & U0 & U1 & U2) Z F.
  assert (T : msg_text e = []) by (unfold msg_text; rewrite Z; reflexivity).
  rewrite iterate_one by auto. rewrite format_body.
  assert (CL : clean (body e)).
  { unfold body. rewrite E1, E2, T. cbn [opt_str]. apply text_clean; try constructor;
    (eapply Forall_weaken; [|eassumption]; intros b Hb; cbv beta in Hb; tauto). }
  rewrite lines_one; [|eapply Forall_weaken; [|exact CL]; intros b Hb; cbv beta in Hb; tauto|apply body_short; auto].
  cbn [walk]. unfold read_round, body. rewrite E1, E2, T. cbn [opt_str].
  rewrite scan_text; auto; [|constructor|unfold len; cbn [length]; lia].
  destruct (has_zero (junk 0%nat)); cbn [negb]; [|reflexivity].
  rewrite level_back by exact Hl. reflexivity.
Qed.

Lemma build_plain : forall M t lv fi fu n m, 2 <= M <= 256 -> t < 2 ^ 64 -> lv <= 2 -> n < 2 ^ 32 ->
  name_ok COLON fi -> name_ok BAR fu -> m <> [] -> clean m ->
  plain M (build_entry M t lv fi fu n (Some m) (len m)) /\
  msg_text (build_entry M t lv fi fu n (Some m) (len m)) = firstn (N.to_nat (M - 1)) m.
Proof.
  intros M t lv fi fu n m HM Ht Hl Hn N1 N2 M0 C. unfold build_entry. cbv zeta.
  replace (if 0 <? M then M - 1 else 0) with (M - 1) by (destruct (0 <? M) eqn:Q; lia).
  set (copy := if len m <? M - 1 then len m else M - 1).
  set (x := firstn (N.to_nat copy) m).
  assert (LX : len x = copy).
  { unfold x, copy, len. rewrite firstn_length. destruct (N.of_nat (length m) <? M - 1) eqn:Q; lia. }
  assert (XE : x = firstn (N.to_nat (M - 1)) m).
  { unfold x, copy. destruct (len m <? M - 1) eqn:Q; [|reflexivity].
    unfold len in *. rewrite !firstn_all2 by lia. reflexivity. }
  assert (CX : clean x).
  { unfold clean, x in *. apply Forall_forall. intros b Hb. rewrite Forall_forall in C. apply C.
    rewrite <- (firstn_skipn (N.to_nat copy) m). apply in_or_app. auto. }
  assert (CL : copy < M) by (unfold copy; destruct (len m <? M - 1) eqn:Q; lia).
  set (e := mkEntry t lv fi fu n copy (x ++ repeat 0 (N.to_nat (M - copy)))).
  assert (MO : message_ok M e).
  { exists x. rewrite LX. repeat split; auto; try lia.
    intros X. assert (len x = 0) by (rewrite X; reflexivity). assert (0 < len m) by (destruct m; [congruence|unfold len; cbn [length]; lia]).
    unfold copy in *. destruct (len m <? M - 1) eqn:Q; lia. }
  split; [repeat split; auto|].
  destruct (message_text _ _ MO) as (m' & E3 & _ & _ & _ & _ & M4 & M5). rewrite E3.
  cbn [e e_len e_msg] in M4, M5. rewrite M4 in M5. apply app_inv_tail in M5. congruence.
Qed.
