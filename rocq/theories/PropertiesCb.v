(** C72: what wolfCrypt asks of its callback is what the HSM is asked to do. *)
From Verif Require Import CbModel CbSpec CbProof.
Local Open Scope N_scope.

(** A client function that is called gets the operation, the parameters, the keys, the
    bytes and the room that wolfCrypt passed, as long as no length of a request that
    counts with 16 bits exceeds 65535. *)
Theorem C72_same_task ask d i c :
  In c (r_calls (callback ask d i)) -> fits i -> does c = asked i.
Proof.
  intros H F. destruct (callback_ok ask d i) as [(E & _)|(c0 & _ & [(d' & E & _ & T & _)|(c1 & _ & E & _ & T1 & T & _)])];
    rewrite E in H; cbn [In] in H.
  - destruct H.
  - destruct H as [<-|[]]. apply T. exact F.
  - destruct H as [<-|[<-|[]]]; [apply T1|apply T]; exact F.
Qed.
Print Assumptions C72_same_task.

(** Whatever the lengths: the same keys, and no buffer larger than wolfCrypt's. *)
Theorem C72_within ask d i c :
  In c (r_calls (callback ask d i)) ->
  t_keys (does c) = t_keys (asked i) /\ within (t_in (does c)) (t_in (asked i)) /\ within (t_out (does c)) (t_out (asked i))
  /\ ((forall k n, i <> IX25519Gen k n) -> t_op (does c) = t_op (asked i)).
Proof.
  intros H.
  assert (exists d', task_ok d' i c) as (d' & _ & T1 & T2 & T3 & T4 & _).
  { destruct (callback_ok ask d i) as [(E & _)|(c0 & _ & [(d' & E & _ & T & _)|(c1 & _ & E & _ & T1 & T & _)])];
      rewrite E in H; cbn [In] in H.
    - destruct H.
    - destruct H as [<-|[]]. eauto.
    - destruct H as [<-|[<-|[]]]; eauto. }
  auto.
Qed.
Print Assumptions C72_within.

(** The size wolfCrypt gives for a new ML-DSA key is passed on where the function has a
    parameter for it. *)
Theorem C72_mldsa_size ask d i l s k :
  In (KDsaGen false l s k) (r_calls (callback ask d i)) -> i = IDsaGen true k l s.
Proof.
  intros H.
  assert (exists d', task_ok d' i (KDsaGen false l s k)) as (d' & _ & _ & _ & _ & _ & T & _).
  { destruct (callback_ok ask d i) as [(E & _)|(c0 & _ & [(d' & E & _ & T & _)|(c1 & _ & E & _ & T1 & T & _)])];
      rewrite E in H; cbn [In] in H.
    - destruct H.
    - destruct H as [<-|[]]. eauto.
    - destruct H as [<-|[<-|[]]]; eauto. }
  eapply T. reflexivity.
Qed.
Print Assumptions C72_mldsa_size.

(** A client function is called exactly for what wolfHSM offers; for anything else
    wolfCrypt learns so, and nothing is stored. *)
Theorem C72_offered ask d i :
  let o := callback ask d i in
  (r_calls o <> [] <-> offered d i = true) /\
  (r_calls o = [] -> r_stores o = [] /\
     (r_ret o = UNAVAILABLE \/ (r_ret o = BAD_FUNC_ARG /\ exists k p n a b, i = IEccCheckPub k p n a b /\ 65536 <= n))).
Proof.
  cbn zeta. destruct (callback_ok ask d i) as [(E & S1 & O & R)|(c0 & O & [(d' & E & _)|(c1 & _ & E & _)])];
    rewrite E, O; (split; [split; [congruence|congruence]|intros X; try discriminate X; auto]).
Qed.
Print Assumptions C72_offered.

(** At most one client function does the work: a second one is called only if DMA is
    preferred and the first said that it does not do such things.  Without the
    preference no function works on the caller's buffers by address. *)
Theorem C72_once ask d i :
  let calls := r_calls (callback ask d i) in
  (length calls <= 2)%nat /\
  (forall c1 c2, calls = [c1; c2] ->
     d = true /\ not_done_here (ask [] c1) /\ by_dma c2 = false /\ (by_dma c1 = true \/ exists k, c1 = KEdGen k)) /\
  (d = false -> forall c, In c calls -> by_dma c = false).
Proof.
  cbn zeta. destruct (callback_ok ask d i) as [(E & S1 & O & R)|(c0 & O & [(d' & E & D & T & _)|(c1 & D & E & N1 & T1 & T & _)])];
    rewrite E; cbn [length In].
  - split; [lia|]. split; [discriminate|]. intros _ c [].
  - split; [lia|]. split; [discriminate|]. intros -> c [<-|[]].
    destruct T as (_ & _ & _ & _ & _ & _ & T & _). apply T. destruct d'; [discriminate (D eq_refl)|reflexivity].
  - split; [lia|]. split; [|intros ->; discriminate D].
    intros x y X. injection X as <- <-.
    destruct T as (_ & _ & _ & _ & _ & _ & T & _). destruct T1 as (_ & _ & _ & _ & _ & _ & _ & T1).
    auto.
Qed.
Print Assumptions C72_once.

Lemma last_call ask d i h c :
  r_calls (callback ask d i) = h ++ [c] ->
  exists d', (d = false -> d' = false) /\ task_ok d' i c /\
    ans_ok d' i c (ask h c) (r_ret (callback ask d i)) (r_stores (callback ask d i)).
Proof.
  intros H. destruct (callback_ok ask d i) as [(E & _)|(c0 & _ & [(d' & E & D & T & A)|(c1 & -> & E & _ & _ & T & A)])];
    rewrite E in H.
  - destruct h; discriminate H.
  - destruct h as [|a [|b h]]; try discriminate H. injection H as <-. exists d'. split; [|auto].
    intros ->. destruct d'; [discriminate (D eq_refl)|reflexivity].
  - destruct h as [|a [|b [|b2 h]]]; try discriminate H. injection H as <- <-. exists false. auto.
Qed.

(** wolfCrypt is told "done" exactly if the client function says so, and "do it
    yourself" only if the client function does not do such things: what the HSM refuses
    or fails to do is never handed to software.  Any other code is the client
    function's, or wolfCrypt's code for the same error. *)
Theorem C72_result ask d i h c :
  let o := callback ask d i in
  r_calls o = h ++ [c] ->
  (r_ret o = OK <-> succeeded c (ask h c)) /\
  (r_ret o = UNAVAILABLE -> not_done_here (ask h c)) /\
  (a_rc (ask h c) = UNAVAILABLE -> r_ret o = UNAVAILABLE) /\
  (r_ret o <> OK ->
     r_ret o = a_rc (ask h c)
     \/ (a_rc (ask h c) = BADARGS /\ r_ret o = BAD_FUNC_ARG)
     \/ (a_rc (ask h c) = BUFFER_SIZE /\ r_ret o = BUFFER_E)
     \/ (a_rc (ask h c) = NOTIMPL /\ r_ret o = UNAVAILABLE)) /\
  (d = false -> r_ret o <> BADARGS /\ r_ret o <> BUFFER_SIZE).
Proof.
  cbn zeta. intros H. destruct (last_call _ _ _ _ _ H) as (d' & D & _ & A1 & A2 & A3 & A4 & A5 & _).
  split; [exact A1|]. split; [exact A2|]. split; [exact A3|]. split; [|auto].
  intros N1. destruct A4 as [A4|(x & y & _ & _ & A4)]; [exact A4|contradiction].
Qed.
Print Assumptions C72_result.

(** The lengths wolfCrypt finds afterwards are those of the client function: after
    success, and if the room did not suffice (then as far as the function does not work
    by address); nothing is stored otherwise. *)
Theorem C72_lengths ask d i h c :
  let o := callback ask d i in
  r_calls o = h ++ [c] ->
  (succeeded c (ask h c) -> r_stores o = lengths i (ask h c)) /\
  (a_rc (ask h c) = BUFFER_SIZE -> by_dma c = false -> r_stores o = needed i (ask h c)) /\
  (~ succeeded c (ask h c) -> a_rc (ask h c) <> BUFFER_SIZE -> r_stores o = []).
Proof.
  cbn zeta. intros H. destruct (last_call _ _ _ _ _ H) as (d' & D & _ & _ & _ & _ & _ & _ & A). exact A.
Qed.
Print Assumptions C72_lengths.

(** A public key is asked for with all the room there is, up to what the request can
    say (65535 bytes). *)
Theorem C72_public_room ask d key out n :
  r_calls (callback ask d (IEccPub key out (Some n))) = [KEccPub key out (N.min n 65535)].
Proof. destruct d; reflexivity. Qed.
Print Assumptions C72_public_room.

Module CbExamples.
Definition says (rc : Z) (n : N) : list call -> call -> answer := fun _ _ => mkAns rc n 0.
(** ECDSA: a hash of 32 bytes signed with room for 72. *)
Example C72_sign_case :
  callback (says OK 70) true (IEccSign 1 2 32 3 (Some 72)) =
  mkOut OK [KEccSign 1 2 32 3 72] [(OutLen, 70)] /\ fits (IEccSign 1 2 32 3 (Some 72)).
Proof. split; [vm_compute; reflexivity|cbn; lia]. Qed.
(** ML-DSA key check: by DMA first, then without. *)
Example C72_fallback_case :
  callback (fun h _ => mkAns (if match h with [] => true | _ => false end then UNAVAILABLE else OK) 0 0) true (IDsaCheck true 1 2 1952) =
  mkOut OK [KDsaCheck true 1 2 1952; KDsaCheck false 1 2 1952] [].
Proof. vm_compute. reflexivity. Qed.
Example C72_refused_case :
  callback (says (-2006) 512) false (IRsa 1 2 3 256 4 (Some 16)) = mkOut BUFFER_E [KRsa 1 2 3 256 4 16] [(OutLen, 512)].
Proof. vm_compute. reflexivity. Qed.

(** A signature of 65608 bytes is verified as its first 72: whatever follows is
    ignored, and the result reported is that of another signature. *)
Theorem C72_verify_refuted :
  let i := IEccVerify 1 2 65608 3 32 4 in
  callback (says OK 0) false i = mkOut OK [KEccVerify 1 2 72 3 32 4] [] /\
  does (KEccVerify 1 2 72 3 32 4) <> asked i.
Proof. split; [vm_compute; reflexivity|vm_compute; discriminate]. Qed.
(** Room for 65536 bytes is passed on as room for none. *)
Theorem C72_room_refuted :
  let i := IEcdh 1 2 3 (Some 65536) in
  r_calls (callback (says OK 0) false i) = [KEcdh 1 2 3 0] /\ does (KEcdh 1 2 3 0) <> asked i.
Proof. split; [vm_compute; reflexivity|vm_compute; discriminate]. Qed.
(** By DMA, wolfCrypt sees wolfHSM's own code for wrong arguments. *)
Theorem C72_dma_code_refuted :
  r_ret (callback (says BADARGS 0) true (IRng 0 16)) = BADARGS /\
  r_ret (callback (says BADARGS 0) false (IRng 0 16)) = BAD_FUNC_ARG.
Proof. split; vm_compute; reflexivity. Qed.
(** By DMA, the length an Ed25519 signature needs is not told. *)
Theorem C72_dma_length_refuted :
  r_stores (callback (says BUFFER_SIZE 64) true (IEdSign 1 2 3 0 0 0 4 (Some 16))) = [] /\
  r_stores (callback (says BUFFER_SIZE 64) false (IEdSign 1 2 3 0 0 0 4 (Some 16))) = [(OutLen, 64)].
Proof. split; vm_compute; reflexivity. Qed.
End CbExamples.
Print Assumptions CbExamples.C72_verify_refuted.
Print Assumptions CbExamples.C72_room_refuted.
Print Assumptions CbExamples.C72_dma_code_refuted.
Print Assumptions CbExamples.C72_dma_length_refuted.
