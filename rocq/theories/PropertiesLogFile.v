(** Property C68: the log file gives back the entries that were logged. *)
From Verif Require Import Base LogFileModel LogFileSpec LogFileProof.
Local Open Scope N_scope.

(** ** After any history of additions, failures, clears and restarts, iterating
    passes to the callback exactly the entries whose addition returned OK since the
    file was last emptied, in their order and with every field as it was, up to the
    entry at which the callback stops.  The entries must fit the text form, and a
    write that fails must have written nothing; [junk] is what the stack held. *)
Theorem C68_returns_partial : forall M junk cb h,
  Forall (fun v => whole v /\ match v with Add e _ _ => plain M e | _ => True end) h ->
  iterate M junk cb (run [] h) true = Some (shown cb (logged h)).
Proof.
  intros M junk cb h G. destruct (file_of M h G) as [E F]. unfold iterate. cbn [negb].
  rewrite E. rewrite <- (app_nil_r (concat _)). rewrite (lines_all M) by auto.
  change (lines []) with (@nil (list N)). rewrite app_nil_r. apply walk_all. auto.
Qed.
Print Assumptions C68_returns_partial.

(** An exported log is the text of these entries, one line each; if the output
    refuses a line, the lines before it have been written and the export is not
    answered OK. *)
Theorem C68_export_partial : forall M h,
  Forall (fun v => whole v /\ match v with Add e _ _ => plain M e | _ => True end) h ->
  export (fun _ => true) (run [] h) true = (OK, concat (map format (logged h))) /\
  forall sink, exists k, (k <= length (logged h))%nat /\
    snd (export sink (run [] h) true) = concat (map format (firstn k (logged h))) /\
    (fst (export sink (run [] h) true) = OK <-> k = length (logged h)).
Proof.
  intros M h G. destruct (file_of M h G) as [E F]. unfold export. cbn [negb].
  assert (Q : lines (run [] h) = map format (logged h)).
  { rewrite E. rewrite <- (app_nil_r (concat _)). rewrite (lines_all M) by auto. apply app_nil_r. }
  rewrite Q. split; [apply (export_all M); auto|].
  intros sink. destruct (export_some M sink (logged h) 0 F) as (k & L & P). exists k. split; auto.
  rewrite P. cbn [fst snd]. split; auto. destruct (Nat.eqb_spec k (length (logged h))); split; auto; [discriminate|contradiction].
Qed.
Print Assumptions C68_export_partial.

(** A message of one line given to wh_Log_AddMsg makes such an entry; what is kept
    of it are its first WOLFHSM_CFG_LOG_MSG_MAX - 1 bytes. *)
Theorem C68_message_partial : forall M t lv fi fu n m,
  2 <= M <= 256 -> t < 2 ^ 64 -> lv <= 2 -> n < 2 ^ 32 ->
  name_ok COLON fi -> name_ok BAR fu -> m <> [] -> Forall (fun b => b <> 0 /\ b <> NL) m ->
  let e := build_entry M t lv fi fu n (Some m) (len m) in
  plain M e /\ msg_text e = firstn (N.to_nat (M - 1)) m /\
  (e_time e, e_level e, e_file e, e_func e, e_line e) = (t, lv, fi, fu, n).
Proof.
  intros M t lv fi fu n m HM Ht Hl Hn N1 N2 M0 C e.
  destruct (build_plain M t lv fi fu n m) as [A B]; auto.
Qed.
Print Assumptions C68_message_partial.

(** ** Missing: a message with a newline.  Whoever chooses the text of a message
    can put any entry of any level into the log: one call that returned OK, two
    entries given back, the second one forged. *)
Theorem C68_newline_refuted : forall M junk e forged_entry x,
  plain M forged_entry ->
  e_time e < 2 ^ 64 -> e_level e <= 2 -> e_line e < 2 ^ 32 ->
  name_ok COLON (e_file e) -> name_ok BAR (e_func e) ->
  x <> [] -> len x <= 255 -> len x < M -> Forall (fun b => b <> 0 /\ b <> NL) x ->
  msg_text e = x ++ NL :: removelast (format forged_entry) -> len (format e) < 1024 ->
  iterate M junk (fun _ => OK) (run [] [Add e true (Some (len (format e)))]) true =
    Some (OK, [mkEntry (e_time e) (e_level e) (e_file e) (e_func e) (e_line e) (len x)
                 (x ++ repeat 0 (N.to_nat (M - len x))); forged_entry]).
Proof.
  intros M junk e e' x P Ht Hl Hn N1 N2 X0 X1 X2 X3 E F. rewrite format_body, removelast_last in E.
  apply forged; auto.
Qed.
Print Assumptions C68_newline_refuted.

(** An empty message is given back as whatever the stack held, and the stack is
    read beyond the array if it held no zero. *)
Theorem C68_empty_message_refuted : forall M junk e,
  e_time e < 2 ^ 64 -> e_level e <= 2 -> e_line e < 2 ^ 32 ->
  name_ok COLON (e_file e) -> name_ok BAR (e_func e) -> e_len e = 0 -> len (format e) < 1024 ->
  iterate M junk (fun _ => OK) (run [] [Add e true (Some (len (format e)))]) true =
    if has_zero (junk 0%nat) then
      Some (OK, [mkEntry (e_time e) (e_level e) (e_file e) (e_func e) (e_line e) (len (cstr (junk 0%nat)))
                   (cstr (junk 0%nat) ++ repeat 0 (N.to_nat (M - len (cstr (junk 0%nat)))))])
    else None.
Proof. intros. apply empty_message; auto. Qed.
Print Assumptions C68_empty_message_refuted.

(** An entry without a file name, or with one of more than 255 bytes, is accepted
    and never given back. *)
Theorem C68_file_name_refuted : forall M junk cb e,
  e_time e < 2 ^ 64 ->
  Forall (fun b => b <> 0 /\ b <> NL) (opt_str (e_func e)) ->
  Forall (fun b => b <> 0 /\ b <> NL) (msg_text e) ->
  len (format e) < 1024 ->
  opt_str (e_file e) = [] \/
  (255 < len (opt_str (e_file e)) /\ Forall (fun b => b <> 0 /\ b <> NL /\ b <> COLON) (opt_str (e_file e))) ->
  fst (add_entry [] e true (Some (len (format e)))) = OK /\
  iterate M junk cb (run [] [Add e true (Some (len (format e)))]) true = Some (OK, []).
Proof.
  intros M junk cb e Ht Cu Cm F C. split.
  { unfold add_entry. cbn [negb]. destruct (1024 <=? len (format e)) eqn:Q; [lia|]. rewrite N.eqb_refl. reflexivity. }
  destruct C as [E|[L NF]].
  - apply lost; auto; [rewrite E; constructor|]. rewrite body_after, E. cbn [app].
    rewrite <- !app_assoc, <- !app_comm_cons, <- !app_assoc. apply scan_no_file; auto. apply after_clean; auto.
  - assert (CF : clean (opt_str (e_file e))).
    { eapply Forall_weaken; [|exact NF]. intros b Hb; cbv beta in Hb; tauto. }
    apply lost; auto. rewrite body_after.
    repeat (rewrite <- !app_assoc || rewrite <- !app_comm_cons). apply scan_long_file; auto.
    + eapply Forall_weaken; [|exact NF]. intros b Hb; cbv beta in Hb; tauto.
    + apply after_clean; auto.
Qed.
Print Assumptions C68_file_name_refuted.

Module LogFileExamples.
(** "a.c", "f", "hi", "yo" and "C:\a.c". *)
Definition fa : list N := [97; 46; 99].
Definition fn : list N := [102].
Definition pad (M : N) (m : list N) : list N := m ++ repeat 0 (N.to_nat (M - len m)).
Definition mk (t lv : N) (fi fu m : list N) : entry := mkEntry t lv (Some fi) (Some fu) 12 (len m) (pad 256 m).
Definition hi : list N := [104; 105].
Definition yo : list N := [121; 111].
Definition e1 := mk 1700000000000000 0 fa fn hi.
Definition e2 := mk 5 2 fa fn yo.
Definition junk (i : nat) : list N := repeat 7 255 ++ [0].
Definition all (e : entry) : ev := Add e true (Some (len (format e))).
Definition show (h : list ev) := iterate 256 junk (fun _ => OK) (run [] h) true.
End LogFileExamples.
Import LogFileExamples.

Ltac plain_case :=
  unfold plain; cbn [e_time e_level e_line e_file e_func e1 e2 mk];
  repeat match goal with |- _ /\ _ => split end; try lia;
  [ exists fa | exists fn | eexists ];
  cbn [e_len e_msg e1 e2 mk]; repeat match goal with |- _ /\ _ => split end;
  try reflexivity; try discriminate;
  try (unfold len; cbn; lia);
  try (unfold fa, fn, hi, yo, NL, COLON, BAR; repeat constructor; lia).

Example C68_case : plain 256 e1 /\ plain 256 e2 /\
  Forall (fun v => whole v /\ match v with Add e _ _ => plain 256 e | _ => True end)
    [all e1; Clear true true true; all e2; Add e1 true None; Add e2 true (Some 0); Restart; all e1] /\
  show [all e1; Clear true true true; all e2; Add e1 true None; Add e2 true (Some 0); Restart; all e1] = Some (OK, [e2; e1]).
Proof.
  assert (P1 : plain 256 e1).
  { plain_case. }
  assert (P2 : plain 256 e2).
  { plain_case. }
  split; [exact P1|]. split; [exact P2|]. split; [|vm_compute; reflexivity].
  repeat (apply Forall_cons; [split; [cbn [whole all]; auto|cbn [all]; auto]|]). constructor.
Qed.

(** The conditions of the forgery: an INFO message that makes a security event. *)
Definition forging : entry := mk 9 0 fa fn (hi ++ NL :: removelast (format e2)).
Example C68_forged_case :
  msg_text forging = hi ++ NL :: removelast (format e2) /\ len (format forging) < 1024 /\
  show [all forging] = Some (OK, [mk 9 0 fa fn hi; e2]).
Proof. split; [vm_compute; reflexivity|]. split; vm_compute; reflexivity. Qed.

(** A file name with a colon is cut at it or hides the entry; an empty function
    name hides it; another level comes back as INFO. *)
Theorem C68_names_refuted : exists a b c d,
  Forall (fun e => fst (add_entry [] e true (Some (len (format e)))) = OK) [a; b; c; d] /\
  show [all a] = Some (OK, []) /\ e_file a = Some [67; 58; 92; 97; 46; 99] /\
  show [all b] = Some (OK, [mkEntry 5 0 (Some [97]) (Some fn) 7 2 (pad 256 hi)]) /\
    e_file b = Some [97; 58; 55; 124; 102; 124; 104; 105; 10] /\
  show [all c] = Some (OK, []) /\ e_func c = Some [] /\
  show [all d] = Some (OK, [mk 5 0 fa fn hi]) /\ e_level d = 3.
Proof.
  exists (mk 5 0 [67; 58; 92; 97; 46; 99] fn hi), (mk 5 0 [97; 58; 55; 124; 102; 124; 104; 105; 10] fn hi),
    (mk 5 0 fa [] hi), (mk 5 3 fa fn hi).
  split; [repeat constructor|]. repeat match goal with |- _ /\ _ => split end; vm_compute; reflexivity.
Qed.
Print Assumptions C68_names_refuted.

(** A write that was cut short, which the caller is told of, spoils the next entry:
    its addition returned OK, and the security event is given back as one entry of
    level INFO with another time and file name. *)
Theorem C68_short_write_refuted : exists n e',
  fst (add_entry [] e1 true (Some n)) = ABORTED /\
  fst (add_entry (run [] [Add e1 true (Some n)]) e2 true (Some (len (format e2)))) = OK /\
  show [Add e1 true (Some n); all e2] = Some (OK, [e']) /\
  e_level e2 = 2 /\ e_level e' = 0 /\ e_time e' = e_time e1 /\ e_file e' <> e_file e2.
Proof.
  exists 19. eexists. split; [vm_compute; reflexivity|]. split; [vm_compute; reflexivity|].
  split; [vm_compute; reflexivity|]. repeat split. cbn [e_file]. discriminate.
Qed.
Print Assumptions C68_short_write_refuted.

(** With WOLFHSM_CFG_LOG_MSG_MAX below 256 the reader's array is too small for what
    sscanf may store; with a larger one messages come back cut to 255 bytes. *)
Theorem C68_array_refuted :
  (exists e n, e_len e < 16 /\ e_msg e = pad 16 (firstn (N.to_nat (e_len e)) (e_msg e)) /\
     iterate 16 junk (fun _ => OK) (run [] [Add e true (Some n); all e]) true = None) /\
  (exists e, e_len e < 300 /\ e_len e = 260 /\
     exists e', iterate 300 junk (fun _ => OK) (run [] [all e]) true = Some (OK, [e']) /\ e_len e' = 255).
Proof.
  split.
  - exists (mkEntry 5 0 (Some fa) (Some fn) 12 10 (pad 16 (repeat 65 10))), 25.
    repeat match goal with |- _ /\ _ => split end; vm_compute; reflexivity.
  - exists (mkEntry 5 0 (Some fa) (Some fn) 12 260 (pad 300 (repeat 65 260))).
    split; [reflexivity|]. split; [reflexivity|].
    eexists. split; [vm_compute; reflexivity|reflexivity].
Qed.
Print Assumptions C68_array_refuted.
