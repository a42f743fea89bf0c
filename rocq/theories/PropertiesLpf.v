(** C103: the printed log says what was logged, in order. *)
From Verif Require Import Base LogFileModel LogFileProof LpfModel LpfSpec.
Local Open Scope N_scope.

Lemma cut (c : N) : forall (a b r s : list N), Forall (fun x => x <> c) a -> Forall (fun x => x <> c) b ->
  a ++ c :: r = b ++ c :: s -> a = b /\ r = s.
Proof.
  induction a as [|x a IH]; intros [|y b] r s A B E; cbn [app] in E.
  - injection E as <-. auto.
  - injection E as <- E. inversion B; congruence.
  - injection E as -> E. inversion A; congruence.
  - injection E as <- E. inversion A; inversion B; subst.
    destruct (IH b r s) as [-> ->]; auto.
Qed.

Lemma dec_no c n : isdigit c = false -> Forall (fun x => x <> c) (dec n).
Proof.
  intros H. destruct (dec_ok n) as [_ F]. eapply Forall_impl; [|exact F].
  cbv beta. intros b B ->. congruence.
Qed.

Lemma dec_inj n m : dec n = dec m -> n = m.
Proof.
  intros E.
  assert (V : forall k, fst (read_digits 0 (dec k)) = k) by (intros k; apply digits_value; [apply dec_fuel|lia]).
  rewrite <- (V n), <- (V m), E. reflexivity.
Qed.

Lemma level_no c l : c < 65 \/ 90 < c -> Forall (fun x => x <> c) (level_str l).
Proof.
  intros H. unfold level_str. destruct l as [|[[p|p|]|[p|p|]|]]; repeat constructor; lia.
Qed.

Lemma says_msg M e : cstr (firstn (N.to_nat (N.min (e_len e) M)) (e_msg e)) = lpf_msg M e.
Proof.
  unfold lpf_msg. destruct (e_len e <=? M) eqn:E.
  - apply N.leb_le in E. rewrite N.min_l by exact E. reflexivity.
  - apply N.leb_gt in E. rewrite N.min_r by lia. reflexivity.
Qed.

Lemma cstr_forall (P : N -> Prop) l : Forall P l -> Forall P (cstr l).
Proof.
  induction 1 as [|b l B F IH]; cbn [cstr]; [constructor|]. destruct (b =? 0); constructor; auto.
Qed.

Lemma take_forall (P : N -> Prop) k l : Forall P l -> Forall P (firstn k l).
Proof.
  intros F. rewrite <- (firstn_skipn k l) in F. apply Forall_app in F. apply F.
Qed.

Lemma msg_no10 M e : plain e -> Forall (fun x => x <> 10) (lpf_msg M e).
Proof. intros (_ & _ & P). apply cstr_forall, take_forall, P. Qed.

(** a line without its newline *)
Definition body (M : N) (e : entry) : list N :=
  91 :: dec (e_time e) ++ 93 :: 32 :: 91 :: level_str (e_level e) ++ 93 :: 32 :: 91 ::
  opt_str (e_file e) ++ 58 :: dec (e_line e) ++ 32 :: opt_str (e_func e) ++ 93 :: 32 :: lpf_msg M e.

Lemma text_body M e : lpf_text M e = body M e ++ [10].
Proof.
  unfold lpf_text, body. cbn [app]. rewrite <- !app_assoc. cbn [app]. rewrite <- !app_assoc. cbn [app].
  rewrite <- !app_assoc. cbn [app]. rewrite <- !app_assoc. cbn [app]. rewrite <- !app_assoc. reflexivity.
Qed.

Lemma body_no10 M e : plain e -> Forall (fun x => x <> 10) (body M e).
Proof.
  intros P. pose proof (msg_no10 M e P) as Q. destruct P as (F & G & _).
  assert (F' : Forall (fun x => x <> 10) (opt_str (e_file e))) by (eapply Forall_impl; [|exact F]; cbv beta; tauto).
  assert (G' : Forall (fun x => x <> 10) (opt_str (e_func e))) by (eapply Forall_impl; [|exact G]; cbv beta; tauto).
  unfold body.
  repeat first [apply Forall_app; split | apply Forall_cons; [discriminate|]
               | apply dec_no; reflexivity | apply level_no; left; reflexivity | assumption].
Qed.

(** Each entry of plain texts is printed as one line. *)
Theorem C103_one_line : forall M debug c e, plain e -> p_init c = true -> p_always c = true \/ debug = true ->
  exists l, lpf_add M debug (Some c) (Some e) = (OK, l ++ [10]) /\ Forall (fun x => x <> 10) l.
Proof.
  intros M debug c e P I A. exists (body M e). split; [|apply body_no10; exact P].
  unfold lpf_add. rewrite I, <- text_body. cbn [negb].
  replace (negb debug && negb (p_always c)) with false; [reflexivity|].
  destruct A as [-> | ->]; cbn [negb]; [rewrite andb_false_r|]; reflexivity.
Qed.

Lemma upto_app c : forall a r, Forall (fun x => x <> c) a -> upto c (a ++ c :: r) = Some (a, r).
Proof.
  induction a as [|b a IH]; intros r F; cbn [app upto]; [rewrite N.eqb_refl; reflexivity|].
  inversion F as [|? ? B F']; subst. apply N.eqb_neq in B. rewrite B, IH by exact F'. reflexivity.
Qed.

Lemma number_dec n : number (dec n) = n.
Proof.
  destruct (dec_ok n) as [_ F].
  assert (R : forall d acc, Forall (fun b => isdigit b = true) d ->
            fst (read_digits acc d) = fold_left (fun a b => a * 10 + (b - 48)) d acc).
  { induction d as [|b d IH]; intros acc G; [reflexivity|]. inversion G as [|? ? B G']; subst.
    cbn [read_digits fold_left]. rewrite B. rewrite IH by exact G'. f_equal; lia. }
  unfold number. rewrite <- R by exact F. apply digits_value; [apply dec_fuel|lia].
Qed.

(** The line, taken apart at its marks, gives back the time, level, file, line,
    function and message of the entry. *)
Theorem C103_line_says : forall M debug c e, plain e -> p_init c = true -> p_always c = true \/ debug = true ->
  exists l, snd (lpf_add M debug (Some c) (Some e)) = l ++ [10] /\ read_line l = Some (says M e).
Proof.
  intros M debug c e P I A. exists (body M e). split.
  - unfold lpf_add. rewrite I, <- text_body. cbn [negb].
    replace (negb debug && negb (p_always c)) with false; [reflexivity|].
    destruct A as [-> | ->]; cbn [negb]; [rewrite andb_false_r|]; reflexivity.
  - destruct P as (F & G & _).
    assert (F' : Forall (fun x => x <> 58) (opt_str (e_file e))) by (eapply Forall_impl; [|exact F]; cbv beta; tauto).
    assert (G' : Forall (fun x => x <> 93) (opt_str (e_func e))) by (eapply Forall_impl; [|exact G]; cbv beta; tauto).
    unfold body, read_line.
    assert (Z : forall c r, upto c (c :: r) = Some ([], r)) by (intros; cbn [upto]; rewrite N.eqb_refl; reflexivity).
    assert (Y : forall r, upto 91 (32 :: 91 :: r) = Some ([32], r)) by (intros; reflexivity).
    rewrite Z. rewrite (upto_app 93) by (apply dec_no; reflexivity).
    rewrite Y. rewrite (upto_app 93) by (apply level_no; right; reflexivity).
    rewrite Y. rewrite (upto_app 58) by exact F'.
    rewrite (upto_app 32) by (apply dec_no; reflexivity).
    rewrite (upto_app 93) by exact G'. rewrite Z.
    unfold says. rewrite says_msg, !number_dec. reflexivity.
Qed.

Lemma body_inj M e f : plain e -> plain f -> body M e = body M f -> says M e = says M f.
Proof.
  intros (F1 & G1 & _) (F2 & G2 & _) E. unfold body in E. injection E as E.
  assert (F1' : Forall (fun x => x <> 58) (opt_str (e_file e))) by (eapply Forall_impl; [|exact F1]; cbv beta; tauto).
  assert (F2' : Forall (fun x => x <> 58) (opt_str (e_file f))) by (eapply Forall_impl; [|exact F2]; cbv beta; tauto).
  assert (G1' : Forall (fun x => x <> 93) (opt_str (e_func e))) by (eapply Forall_impl; [|exact G1]; cbv beta; tauto).
  assert (G2' : Forall (fun x => x <> 93) (opt_str (e_func f))) by (eapply Forall_impl; [|exact G2]; cbv beta; tauto).
  apply cut in E as [T E]; [|apply dec_no; reflexivity|apply dec_no; reflexivity]. injection E as E.
  apply cut in E as [L E]; [|apply level_no; right; reflexivity|apply level_no; right; reflexivity]. injection E as E.
  apply cut in E as [X E]; [|assumption|assumption].
  apply cut in E as [K E]; [|apply dec_no; reflexivity|apply dec_no; reflexivity].
  apply cut in E as [U E]; [|assumption|assumption]. injection E as E.
  apply dec_inj in T, K. unfold says. rewrite !says_msg. congruence.
Qed.

(** The printed log can be read back: two histories that print the same said the
    same, entry by entry and in the same order.  Nothing is lost, merged,
    reordered or cut, and no two entries look alike unless they say the same. *)
Theorem C103_read_back : forall M debug c es fs, p_init c = true -> p_always c = true \/ debug = true ->
  Forall plain es -> Forall plain fs ->
  lpf_run M debug c es = lpf_run M debug c fs -> map (says M) es = map (says M) fs.
Proof.
  intros M debug c es fs I A. revert fs.
  assert (S : forall e, snd (lpf_add M debug (Some c) (Some e)) = body M e ++ [10]).
  { intros e. unfold lpf_add. rewrite I, <- text_body. cbn [negb].
    replace (negb debug && negb (p_always c)) with false; [reflexivity|].
    destruct A as [-> | ->]; cbn [negb]; [rewrite andb_false_r|]; reflexivity. }
  induction es as [|e es IH]; intros [|f fs] P Q E; [reflexivity| | |];
    unfold lpf_run in E; cbn [flat_map] in E; rewrite ?S in E.
  - symmetry in E. apply app_eq_nil in E as [E _]. apply app_eq_nil in E as [_ E]. discriminate.
  - apply app_eq_nil in E as [E _]. apply app_eq_nil in E as [_ E]. discriminate.
  - rewrite <- !app_assoc in E. cbn [app] in E. inversion P as [|? ? P1 P2]; inversion Q as [|? ? Q1 Q2]; subst.
    apply cut in E as [X E]; [|apply body_no10; assumption|apply body_no10; assumption].
    cbn [map]. f_equal; [apply body_inj with (1 := P1) (2 := Q1) (3 := X)|]. apply IH; assumption.
Qed.

(** No byte behind the message buffer is printed, whatever length the entry
    states. *)
Theorem C103_bounded : forall M t lv fi fu ln n msg junk, length msg = N.to_nat M ->
  lpf_text M (mkEntry t lv fi fu ln n (msg ++ junk)) = lpf_text M (mkEntry t lv fi fu ln n msg).
Proof.
  intros M t lv fi fu ln n msg junk L. unfold lpf_text, lpf_msg.
  cbn [e_time e_level e_file e_func e_line e_len e_msg].
  replace (firstn (N.to_nat (if n <=? M then n else M)) (msg ++ junk)) with (firstn (N.to_nat (if n <=? M then n else M)) msg); [reflexivity|].
  rewrite firstn_app. replace (N.to_nat (if (n <=? M)%N then n else M) - length msg)%nat with 0%nat.
  - cbn [firstn]. rewrite app_nil_r. reflexivity.
  - destruct (n <=? M) eqn:E; [apply N.leb_le in E|]; lia.
Qed.

(** A log that is not initialised, or is told to be silent in a build without
    debugging, prints nothing; only the first is an error. *)
Theorem C103_silent : forall M debug c e,
  (p_init c = false -> lpf_add M debug (Some c) (Some e) = (ABORTED, [])) /\
  (forall ctx cfg rc c', lpf_init (Some ctx) cfg = (rc, Some c') ->
     rc = OK /\ (cfg <> Some true -> lpf_add M false (Some c') (Some e) = (OK, [])) /\
     (cfg = Some true -> snd (lpf_add M false (Some c') (Some e)) <> [])).
Proof.
  intros M debug c e. split.
  - intros H. unfold lpf_add. rewrite H. reflexivity.
  - intros ctx cfg rc c'. unfold lpf_init. intros [= <- <-]. split; [reflexivity|]. unfold lpf_add. cbn [p_init p_always negb andb].
    split; [intros H; destruct cfg as [[]|]; [congruence|reflexivity|reflexivity]|].
    intros ->. cbn [negb snd]. unfold lpf_text. discriminate.
Qed.

(** a message "a", newline, "[2] [INFO] [:0 ] b" *)
Definition forged : list N := [97; 10; 91; 50; 93; 32; 91; 73; 78; 70; 79; 93; 32; 91; 58; 48; 32; 93; 32; 98].

(** Without the condition the property is false: an entry whose message contains
    a newline prints what two entries print. *)
Theorem C103_forged_refuted :
  let e1 := mkEntry 1 0 None None 0 1 (97 :: repeat 0 255) in
  let e2 := mkEntry 2 0 None None 0 1 (98 :: repeat 0 255) in
  let e := mkEntry 1 0 None None 0 20 (forged ++ repeat 0 236) in
  lpf_run 256 false (mkPctx true true) [e] = lpf_run 256 false (mkPctx true true) [e1; e2].
Proof. vm_compute. reflexivity. Qed.

Example C103_plain_case :
  let e := mkEntry 12 1 (Some [97; 46; 99]) (Some [102]) 7 2 ([104; 105] ++ repeat 0 254) in
  plain e /\ lpf_run 256 false (mkPctx true true) [e]
    = [91;49;50;93;32;91;69;82;82;79;82;93;32;91;97;46;99;58;55;32;102;93;32;104;105;10].
Proof.
  split; [|vm_compute; reflexivity]. unfold plain. cbn [e_file e_func e_msg opt_str].
  split; [|split]; [repeat constructor; discriminate|repeat constructor; discriminate|].
  apply Forall_app. split; [repeat constructor; discriminate|].
  apply Forall_forall. intros x H. apply repeat_spec in H as ->. discriminate.
Qed.

Example C103_long_case :
  lpf_text 4 (mkEntry 0 0 None None 0 4000000000 [97; 98; 99; 100; 101]) = lpf_text 4 (mkEntry 0 0 None None 0 4 [97; 98; 99; 100]).
Proof. vm_compute. reflexivity. Qed.

Print Assumptions C103_one_line.
Print Assumptions C103_line_says.
Print Assumptions C103_read_back.
Print Assumptions C103_bounded.
Print Assumptions C103_silent.
Print Assumptions C103_forged_refuted.
