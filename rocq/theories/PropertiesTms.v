(** C102: the memory transport stays inside its shared buffers. *)
From Coq Require Import List NArith Arith Bool Lia.
From Verif Require Import TmsModel TmsSpec.
Import ListNotations.
Open Scope N_scope.

Lemma pow16 w : 16 <= w -> 65536 <= 2 ^ w.
Proof. intros H. change 65536 with (2 ^ 16). apply N.pow_le_mono_r; [discriminate|exact H]. Qed.

Lemma sub_fits w a : 16 <= w -> 8 <= a < 65536 -> sub_size w a CSR = a - 8.
Proof.
  intros W A. unfold sub_size, CSR. pose proof (pow16 w W).
  replace (a + 2 ^ w - 8) with (a - 8 + 1 * 2 ^ w) by lia.
  rewrite N.mod_add by lia. apply N.mod_small. lia.
Qed.

Lemma sub_wraps w a : 16 < w -> a < 8 -> 65536 <= sub_size w a CSR.
Proof.
  intros W A. unfold sub_size, CSR.
  assert (H : 131072 <= 2 ^ w).
  { change 131072 with (2 ^ 17). apply N.pow_le_mono_r; [discriminate|lia]. }
  rewrite N.mod_small by lia. lia.
Qed.

Lemma clamp_le size cap len : 8 <= size -> clamp size cap len + 8 <= size.
Proof.
  intros H. unfold clamp, CSR.
  destruct (8 <? size) eqn:E; [apply N.ltb_lt in E|apply N.ltb_ge in E].
  - destruct (size - 8 <? _) eqn:F; [lia|apply N.ltb_ge in F; lia].
  - destruct (0 <? _) eqn:F; [lia|apply N.ltb_ge in F; lia].
Qed.

Ltac acc := unfold in_buffers, inside, CSR; cbn [a_at a_len]; lia.

(** A request is written into the request buffer, whatever its length, and
    nothing else of the shared memory is written or read but the two buffers. *)
Theorem C102_send_request : forall w c busy null len o rds wrs, 16 <= w -> roomy c ->
  tm_send_request w c busy null len = (o, rds, wrs) ->
  Forall (in_buffers c) rds /\ Forall (inside (c_req c) (c_req_size c)) wrs.
Proof.
  intros w c busy null len o rds wrs W [A B]. unfold tm_send_request.
  destruct (null && _); [intros [= <- <- <-]; split; constructor|].
  rewrite sub_fits by assumption.
  destruct (_ <? len) eqn:E; [intros [= <- <- <-]; split; constructor|]. apply N.ltb_ge in E.
  destruct busy; intros [= <- <- <-]; (split; [repeat constructor; acc|]); [constructor|].
  apply Forall_app. split; [|repeat constructor; acc].
  destruct (_ && _); repeat constructor; acc.
Qed.

Theorem C102_send_response : forall w c null len o rds wrs, 16 <= w -> roomy c ->
  tm_send_response w c null len = (o, rds, wrs) ->
  Forall (in_buffers c) rds /\ Forall (inside (c_resp c) (c_resp_size c)) wrs.
Proof.
  intros w c null len o rds wrs W [A B]. unfold tm_send_response.
  destruct (null && _); [intros [= <- <- <-]; split; constructor|].
  rewrite sub_fits by assumption.
  destruct (_ <? len) eqn:E; [intros [= <- <- <-]; split; constructor|]. apply N.ltb_ge in E.
  intros [= <- <- <-]. split; [repeat constructor; acc|].
  apply Forall_app. split; [|repeat constructor; acc].
  destruct (_ && _); repeat constructor; acc.
Qed.

Lemma recv_inside at_ other size osize ready null cap len o rds : 8 <= size -> 8 <= osize ->
  tm_recv at_ other size ready null cap len = (o, rds) ->
  Forall (fun a => inside at_ size a \/ inside other osize a) rds.
Proof.
  intros A B. unfold tm_recv.
  assert (P : forall k, Forall (fun a => inside at_ size a \/ inside other osize a)
                ([mkAcc at_ CSR; mkAcc other CSR] ++
                 (if negb null && negb (len =? 0) then [mkAcc (at_ + CSR) (clamp size k len)] else []))).
  { intros k. apply Forall_app. split.
    - constructor; [left; unfold inside, CSR; cbn [a_at a_len]; lia|].
      constructor; [right; unfold inside, CSR; cbn [a_at a_len]; lia|constructor].
    - pose proof (clamp_le size k len A). destruct (_ && _); constructor; [left|constructor].
      unfold inside, CSR in *. cbn [a_at a_len]. lia. }
  assert (Q : Forall (fun a => inside at_ size a \/ inside other osize a) [mkAcc at_ CSR; mkAcc other CSR]).
  { specialize (P 0). apply Forall_app in P. apply P. }
  destruct null, cap as [k|]; try (destruct (negb ready)); intros E; inversion E; subst;
    try exact Q; try constructor; try exact (P k); try exact (P 0);
    try (apply (Forall_inv (P 0))); try (apply (Forall_inv_tail (P 0)));
    try (apply (Forall_inv (P k))); try (apply (Forall_inv_tail (P k))).
Qed.

(** Receiving reads the two buffers only, whatever length the other side wrote
    into the control word. *)
Theorem C102_receive : forall c ready null cap len o rds, roomy c ->
  tm_recv_request c ready null cap len = (o, rds) \/ tm_recv_response c ready null cap len = (o, rds) ->
  Forall (in_buffers c) rds.
Proof.
  intros c ready null cap len o rds [A B] [E|E].
  - exact (recv_inside _ _ _ (c_resp_size c) _ _ _ _ _ _ (proj1 A) (proj1 B) E).
  - pose proof (recv_inside _ _ _ (c_req_size c) _ _ _ _ _ _ (proj1 B) (proj1 A) E) as P.
    eapply Forall_impl; [|exact P]. unfold in_buffers. intros a [?|?]; auto.
Qed.

(** What is copied out: the data behind the control word, at most the capacity
    of the destination, and all of a message that fits both. *)
Theorem C102_copied : forall c ready cap len rds, roomy c -> len <> 0 ->
  (tm_recv_request c ready false (Some cap) len = (Done, rds) ->
   exists n, In (mkAcc (c_req c + 8) n) rds /\ length rds = 3%nat /\ n <= cap /\ n <= len
             /\ (len <= cap -> len + 8 <= c_req_size c -> n = len)) /\
  (tm_recv_response c ready false (Some cap) len = (Done, rds) ->
   exists n, In (mkAcc (c_resp c + 8) n) rds /\ length rds = 3%nat /\ n <= cap /\ n <= len
             /\ (len <= cap -> len + 8 <= c_resp_size c -> n = len)).
Proof.
  intros c ready cap len rds [A B] N0. unfold tm_recv_request, tm_recv_response, tm_recv.
  replace (len =? 0) with false by (symmetry; apply N.eqb_neq; exact N0).
  assert (P : forall size, clamp size cap len <= cap /\ clamp size cap len <= len /\
                (len <= cap -> len + 8 <= size -> clamp size cap len = len)).
  { intros size. unfold clamp, CSR.
    destruct (8 <? size) eqn:E; [apply N.ltb_lt in E|apply N.ltb_ge in E];
      destruct (cap <? len) eqn:F; [apply N.ltb_lt in F|apply N.ltb_ge in F|apply N.ltb_lt in F|apply N.ltb_ge in F];
      match goal with |- context [?x <? ?y] => destruct (x <? y) eqn:G end;
      [apply N.ltb_lt in G|apply N.ltb_ge in G|apply N.ltb_lt in G|apply N.ltb_ge in G|
       apply N.ltb_lt in G|apply N.ltb_ge in G|apply N.ltb_lt in G|apply N.ltb_ge in G]; lia. }
  destruct ready; cbn [negb andb]; [|split; discriminate].
  split; intros E; inversion E; subst;
    [destruct (P (c_req_size c)) as (P1 & P2 & P3)|destruct (P (c_resp_size c)) as (P1 & P2 & P3)];
    (eexists; split; [right; right; left; reflexivity|]; split; [reflexivity|]; auto).
Qed.

(** A call that is refused or not ready writes nothing and reads at most the
    control words; while the server is busy no request is written, and without a
    new message none is copied out. *)
Theorem C102_refused : forall w c busy null len,
  (forall o rds wrs, tm_send_request w c busy null len = (o, rds, wrs) ->
     (busy = true -> o <> Done) /\ (o <> Done -> wrs = [])) /\
  (forall o rds wrs, tm_send_response w c null len = (o, rds, wrs) -> o <> Done -> wrs = []) /\
  (forall ready cap o rds, tm_recv_request c ready null cap len = (o, rds) \/ tm_recv_response c ready null cap len = (o, rds) ->
     (ready = false -> o <> Done) /\
     (o <> Done -> forall a, In a rds -> a = mkAcc (c_req c) 8 \/ a = mkAcc (c_resp c) 8)).
Proof.
  intros w c busy null len. split; [|split].
  - intros o rds wrs. unfold tm_send_request. destruct (null && _); [intros [= <- <- <-]; split; [discriminate|reflexivity]|].
    destruct (_ <? len); [intros [= <- <- <-]; split; [discriminate|reflexivity]|].
    destruct busy; intros [= <- <- <-]; split; try discriminate; try reflexivity; congruence.
  - intros o rds wrs. unfold tm_send_response. destruct (null && _); [intros [= <- <- <-]; reflexivity|].
    destruct (_ <? len); intros [= <- <- <-]; [reflexivity|congruence].
  - intros ready cap o rds H. unfold tm_recv_request, tm_recv_response, tm_recv in H.
    destruct null, cap as [k|], ready; cbn [negb] in H; destruct H as [H|H]; injection H as <- <-;
      (split; [discriminate || (intros; discriminate)|]); intros X a I; try congruence; cbn [In] in I; unfold CSR in I;
      intuition congruence.
Qed.

(** Clearing writes the two buffers, of any size, and nothing else. *)
Theorem C102_clear : forall c, Forall (in_buffers c) (tm_clear c) /\
  (tm_init c = true -> forall x, inside (c_req c) (c_req_size c) (mkAcc x 1) \/ inside (c_resp c) (c_resp_size c) (mkAcc x 1) ->
   exists a, In a (tm_clear c) /\ a_at a <= x < a_at a + a_len a).
Proof.
  intros c. unfold tm_clear. destruct (tm_init c).
  - split; [repeat constructor; acc|]. intros _ x [X|X]; unfold inside in X; cbn [a_at a_len] in X.
    + eexists. split; [left; reflexivity|]. cbn [a_at a_len]. lia.
    + eexists. split; [right; left; reflexivity|]. cbn [a_at a_len]. lia.
  - split; [constructor|discriminate].
Qed.

(** No message that fits is refused: with room for the control word, a request
    is taken exactly up to the rest of the buffer. *)
Theorem C102_accepts : forall w c len, 16 <= w -> roomy c ->
  (fst (fst (tm_send_request w c false false len)) = Done <-> len + 8 <= c_req_size c) /\
  (fst (fst (tm_send_response w c false len)) = Done <-> len + 8 <= c_resp_size c).
Proof.
  intros w c len W [A B]. unfold tm_send_request, tm_send_response. cbn [andb].
  rewrite !sub_fits by assumption. split.
  - destruct (_ <? len) eqn:E; [apply N.ltb_lt in E|apply N.ltb_ge in E]; cbn [fst]; split; try discriminate; try lia; reflexivity.
  - destruct (_ <? len) eqn:E; [apply N.ltb_lt in E|apply N.ltb_ge in E]; cbn [fst]; split; try discriminate; try lia; reflexivity.
Qed.

(** Without the condition the property is false, for every size too small for
    the control word: the configuration is taken, the room is computed modulo
    the size of a size_t, and a message of any length is written past the end
    of the buffer. *)
Theorem C102_small_buffer_refuted : forall w c len, 16 < w ->
  c_req c <> 0 -> c_resp c <> 0 -> 0 < c_req_size c < 8 -> 0 < c_resp_size c < 65536 -> 0 < len < 65536 ->
  tm_init c = true /\
  exists rds, tm_send_request w c false false len = (Done, rds, [mkAcc (c_req c + 8) len; mkAcc (c_req c) 8])
  /\ ~ inside (c_req c) (c_req_size c) (mkAcc (c_req c + 8) len).
Proof.
  intros w c len W R S A B L. split.
  - unfold tm_init. apply N.eqb_neq in R, S. rewrite R, S.
    replace (c_req_size c =? 0) with false by (symmetry; apply N.eqb_neq; lia).
    replace (c_resp_size c =? 0) with false by (symmetry; apply N.eqb_neq; lia). reflexivity.
  - unfold tm_send_request. cbn [andb negb].
    pose proof (sub_wraps w (c_req_size c) W (proj2 A)).
    replace (sub_size w (c_req_size c) CSR <? len) with false by (symmetry; apply N.ltb_ge; lia).
    replace (len =? 0) with false by (symmetry; apply N.eqb_neq; lia). cbn [negb app].
    eexists. split; [reflexivity|]. unfold inside. cbn [a_at a_len]. lia.
Qed.

Definition good_cfg := mkCfg 4096 8192 1296 1296.
Definition small_cfg := mkCfg 4096 4100 4 1296.

Example C102_roomy_case : roomy good_cfg /\ tm_init good_cfg = true
  /\ tm_send_request 64 good_cfg false false 1288 = (Done, [mkAcc 8192 8; mkAcc 4096 8], [mkAcc 4104 1288; mkAcc 4096 8])
  /\ tm_send_request 64 good_cfg false false 1289 = (BadArgs, [], [])
  /\ tm_recv_request good_cfg true false (Some 2000) 65535 = (Done, [mkAcc 4096 8; mkAcc 8192 8; mkAcc 4104 1288]).
Proof. unfold roomy. cbn [c_req_size c_resp_size good_cfg]. repeat split; try lia. Qed.

Example C102_small_case : tm_init small_cfg = true
  /\ snd (tm_send_request 32 small_cfg false false 65535) = [mkAcc 4104 65535; mkAcc 4096 8].
Proof. vm_compute. split; reflexivity. Qed.

Print Assumptions C102_send_request.
Print Assumptions C102_send_response.
Print Assumptions C102_receive.
Print Assumptions C102_copied.
Print Assumptions C102_refused.
Print Assumptions C102_clear.
Print Assumptions C102_accepts.
Print Assumptions C102_small_buffer_refuted.
