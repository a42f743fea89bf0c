(** C92: an answer of the server is made of the request and its result. *)
From Coq Require Import String.
From Verif Require Import Base NvmSpec KdfModel KsReq SheModel AuthCodec LeakModel LeakProof.
Open Scope string_scope.
Open Scope nat_scope.
Open Scope list_scope.

(** The answers for which it is false, and the number of bytes of the server's
    stack that each carries. *)
Definition leaks : list (string * nat) :=
  [ ("_HandleRngDma", 16); ("_HandleMlDsaSignDma", 16); ("_HandleMlDsaVerifyDma", 16);
    ("refused She_SecureBootInit", 4); ("refused She_SecureBootUpdate", 4); ("refused She_SecureBootFinish", 4);
    ("refused She_LoadKey", 48); ("refused She_ExportRamKey", 112); ("refused She_InitRng", 4); ("refused She_Rnd", 16);
    ("refused She_ExtendSeed", 4); ("refused She_EncEcb", 4); ("refused She_EncCbc", 4); ("refused She_DecEcb", 4);
    ("refused She_DecCbc", 4); ("refused She_GenMac", 16) ].

(** ** Every other answer is the same whatever an earlier call left on the stack:
    it is decided by the values the handler computed and by the bytes of the
    request it overwrites. *)
Theorem C92_clean : forall a swap s1 s2 vals old,
  In a answers -> ~ In (a_name a) (map fst leaks) -> length vals = length (a_set a) ->
  answer a swap s1 vals old = answer a swap s2 vals old.
Proof.
  intros a swap s1 s2 vals old I NL L. assert (R : row_ok a = true) by (pose proof rows_ok as X; rewrite forallb_forall in X; apply X; exact I).
  apply clean_same; auto.
  assert (T : forallb (fun a => clean a || existsb (String.eqb (a_name a)) (map fst leaks)) answers = true) by (vm_compute; reflexivity).
  rewrite forallb_forall in T. specialize (T a I). apply orb_true_iff in T. destruct T as [T|T]; [exact T|].
  apply existsb_exists in T. destruct T as (n & IN & E). apply String.eqb_eq in E. subst n. contradiction.
Qed.
Print Assumptions C92_clean.
Definition ex_row : ans := mkA "_HandleEccVerify" 8 false [(0, 4); (4, 4)] [((0, 4), true); ((4, 4), true)].
Example C92_example : In ex_row answers /\ ~ In (a_name ex_row) (map fst leaks) /\
  answer ex_row true (repeat 9%N 8) [[1; 0; 0; 0]; [2; 1; 0; 0]]%N (repeat 7%N 12) = [0; 0; 0; 1; 0; 0; 1; 2]%N.
Proof.
  split; [|split; [|vm_compute; reflexivity]].
  - unfold answers. apply in_or_app. left. unfold crypto_ans. cbn [In]. unfold ex_row. tauto.
  - vm_compute. intros H. repeat (destruct H as [H|H]; [discriminate H|]). exact H.
Qed.

(** ** What is false, and how much: each of the sixteen answers shows as many
    bytes of the stack as [leaks] says, at places that do not depend on anything
    but the client's byte order, and depends on the stack through them alone. *)
Theorem C92_leak_refuted : forall name n, In (name, n) leaks -> 0 < n /\ exists a, In a answers /\ a_name a = name /\
  forall swap, exists pos : list (nat * nat), List.length pos = n /\ NoDup (map fst pos) /\ NoDup (map snd pos) /\
    (forall stack vals old p i, a_size a <= List.length old -> In (p, i) pos ->
       p < a_size a /\ nth p (answer a swap stack vals old) 0%N = nth i stack 0%N) /\
    (forall s1 s2 vals old, List.length vals = List.length (a_set a) -> (forall p i, In (p, i) pos -> nth i s1 0%N = nth i s2 0%N) ->
       answer a swap s1 vals old = answer a swap s2 vals old).
Proof.
  intros name n I.
  assert (T : forallb (fun ln => (0 <? snd ln) && existsb (fun a => String.eqb (fst ln) (a_name a) &&
      forallb (fun sw => Nat.eqb (List.length (shown a sw)) (snd ln) && distinct (map fst (shown a sw)) && distinct (map snd (shown a sw))) [true; false]) answers) leaks = true)
    by (vm_compute; reflexivity).
  rewrite forallb_forall in T. specialize (T _ I). cbn [fst snd] in T. apply andb_true_iff in T. destruct T as [T0 T]. apply Nat.ltb_lt in T0. split; [exact T0|].
  apply existsb_exists in T. destruct T as (a & IA & T). apply andb_true_iff in T. destruct T as [T1 T2]. apply String.eqb_eq in T1.
  assert (R : row_ok a = true) by (pose proof rows_ok as X; rewrite forallb_forall in X; apply X; exact IA).
  exists a. split; [exact IA|]. split; [symmetry; exact T1|]. intros swap. exists (shown a swap).
  rewrite forallb_forall in T2. assert (IS : In swap [true; false]) by (destruct swap; cbn; auto). specialize (T2 swap IS).
  apply andb_true_iff in T2. destruct T2 as [T2 T3]. apply andb_true_iff in T2. destruct T2 as [T2 T4]. apply Nat.eqb_eq in T2.
  split; [exact T2|]. split; [apply distinct_nodup; exact T4|]. split; [apply distinct_nodup; exact T3|]. split.
  - intros stack vals old p i LO IP. apply (shown_bytes a swap stack vals old p i R LO IP).
  - intros s1 s2 vals old L S. apply shown_all; auto.
Qed.
Print Assumptions C92_leak_refuted.

(** ** Anybody can ask: a SHE server without a UID, or whose secure boot has not
    succeeded, answers a request to export the RAM key with 116 bytes, of which
    112 are its stack, whatever the request held. *)
Theorem C92_refusal_refuted : forall h swap stack old,
  h_uidset h = false \/ h_sb h <> SbSuccess -> List.length stack = 116 -> 116 <= List.length old ->
  exists r, refusal h SExportRam swap stack old = Some r /\ List.length r = 116 /\ skipn 4 r = skipn 4 stack.
Proof.
  intros h swap stack old H LS LO. unfold refusal.
  assert (RF : refused SExportRam h = true) by (unfold refused; cbn; destruct (h_uidset h); cbn; [destruct H as [H|H]; [discriminate H|destruct (h_sb h); try reflexivity; congruence]|reflexivity]).
  rewrite RF. cbn [negb act_no nth_error refuse_ans option_map].
  set (a := mkA "refused She_ExportRamKey" 116 false [(0, 4)] _). set (vals := [_; _]).
  assert (R : row_ok a = true) by (vm_compute; reflexivity). assert (LA : List.length (answer a swap stack vals old) = 116) by (apply (answer_len a swap stack vals old R LO)).
  exists (answer a swap stack vals old). split; [reflexivity|]. split; [exact LA|].
  apply (nth_ext _ _ 0%N 0%N); [rewrite !skipn_length, LA, LS; reflexivity|]. intros k HK. rewrite skipn_length, LA in HK.
  rewrite !nth_skip. assert (I : In (4 + k, 4 + k) (shown a swap)).
  { assert (SH : shown a swap = map (fun i => (i, i)) (seq 4 112)) by (destruct swap; vm_compute; reflexivity). rewrite SH. apply in_map_iff. exists (4 + k). split; [reflexivity|apply in_seq; lia]. }
  apply (shown_bytes a swap stack vals old (4 + k) (4 + k) R LO I).
Qed.
Print Assumptions C92_refusal_refuted.
(** The case is that of every server after its start. *)
Example C92_refusal_example : h_uidset she_zero_ctx = false /\
  option_map (firstn 8) (refusal she_zero_ctx SExportRam true (map N.of_nat (seq 0 116)) (repeat 0%N 120)) = Some [255; 255; 247; 104; 4; 5; 6; 7]%N.
Proof. vm_compute. auto. Qed.
(** The other refusals: every refused request that has an answer gets one of the
    size of its own answer, which starts with the code. *)
Theorem C92_refusal_code : forall h q swap stack old r, 116 <= List.length old -> refusal h q swap stack old = Some r ->
  refused q h = true /\ 4 <= List.length r /\
  (let code := le_enc 4 (Z.to_N (SEQUENCE_ERROR mod 4294967296)) in firstn 4 r = if swap then rev code else code).
Proof.
  intros h q swap stack old r LO X. unfold refusal in X. destruct (refused q h); [|discriminate X]. cbn [negb] in X.
  destruct (act_no q) as [n|]; [|discriminate X]. destruct (nth_error refuse_ans n) as [a|] eqn:NE; [|discriminate X]. cbn [option_map] in X. injection X as <-.
  apply nth_error_In in NE. assert (T : forallb (fun a => row_ok a && code_first a && (a_size a <=? 116) && (4 <=? a_size a)) refuse_ans = true) by (vm_compute; reflexivity).
  rewrite forallb_forall in T. specialize (T a NE). apply andb_true_iff in T. destruct T as [T T4]. apply andb_true_iff in T. destruct T as [T T3]. apply andb_true_iff in T. destruct T as [T1 T2].
  apply Nat.leb_le in T3. apply Nat.leb_le in T4. split; [reflexivity|]. rewrite answer_len by (auto; lia). split; [exact T4|]. cbv zeta.
  rewrite answer_code by (auto; lia). vm_compute. destruct swap; reflexivity.
Qed.
Print Assumptions C92_refusal_code.
Example C92_refusal_code_example : exists r, refusal she_zero_ctx SRnd false (repeat 7%N 20) (repeat 0%N 120) = Some r /\ skipn 4 r = repeat 7%N 16.
Proof. exists ([104; 247; 255; 255] ++ repeat 7 16)%N. vm_compute. auto. Qed.
