(** Properties C10-C13: what client NVM requests can do to protected objects.

    [nvm_session max_read st qs s] (NvmReqModel.v) serves the requests [qs], each
    with its environment (lock, storage and DMA outcomes), from the store [s];
    it returns the responses and the final store.  [max_read] and [st] are
    build settings.  [race_free] excludes DMA adds whose object id is rewritten
    in client memory while the server handles them. *)
From Verif Require Import Base NvmSpec Flags Store NvmReqModel NvmReqProof.

Definition all_race_free (qs : list (nvm_env * nvm_request)) : Prop :=
  Forall (fun x => race_free (snd x)) qs.

(** ** C10 *)
Theorem C10_nonmodifiable_kept_partial : forall mx st qs s rs s' id m d,
  all_race_free qs ->
  sp_find s id = Some (m, d) -> has (m_flags m) F_NONMODIFIABLE = true ->
  nvm_session mx st qs s = (rs, s') ->
  sp_find s' id = Some (m, d).
Proof. intros. eapply session_nonmodifiable; eauto. Qed.
Print Assumptions C10_nonmodifiable_kept_partial.

(** ** C11: read responses hold only bytes of readable objects ... *)
Theorem C11_read_needs_exportable : forall mx st e s q a s' id off len,
  q = QRead id off len \/ q = QReadDma id off len ->
  nvm_handle mx st e q s = (a, s') -> rs_data a <> [] ->
  exists m d n, sp_find s id = Some (m, d) /\
    has (m_flags m) F_NONEXPORTABLE = false /\ has (m_flags m) F_TRUSTED = false /\
    rs_data a = firstn n (skipn off d) /\ n <= len /\ off + n <= length d.
Proof. exact handle_read_exportable. Qed.
Print Assumptions C11_read_needs_exportable.

(** ... and nothing at all that clients receive depends on protected bytes: two
    stores that differ only in the bytes (not the lengths) of non-exportable or
    trusted objects give the same responses to every session, racing or not. *)
Theorem C11_no_dependence : forall mx st qs s1 s2,
  Forall2 (fun o1 o2 => fst o1 = fst o2 /\ length (snd o1) = length (snd o2) /\
             (has (m_flags (fst o1)) F_NONEXPORTABLE = false /\ has (m_flags (fst o1)) F_TRUSTED = false ->
              snd o1 = snd o2)) s1 s2 ->
  fst (nvm_session mx st qs s1) = fst (nvm_session mx st qs s2).
Proof.
  intros mx st qs s1 s2 H. apply same_session.
  induction H as [|o1 o2 s1 s2 (A & B & D) H IH]; constructor; auto.
  repeat split; auto. unfold secret. intros E. apply Bool.orb_false_elim in E. auto.
Qed.
Print Assumptions C11_no_dependence.

(** ** C12: trusted objects never appear (racing or not) ... *)
Theorem C12_no_trusted_created : forall mx st qs s rs s' id m d,
  nvm_session mx st qs s = (rs, s') ->
  sp_find s' id = Some (m, d) -> has (m_flags m) F_TRUSTED = true ->
  sp_find s id = Some (m, d).
Proof. intros. eapply session_no_trusted; eauto. Qed.
Print Assumptions C12_no_trusted_created.

(** ... and, without races, never change or disappear. *)
Theorem C12_trusted_kept_partial : forall mx st qs s rs s' id m d,
  all_race_free qs ->
  nvm_session mx st qs s = (rs, s') -> has (m_flags m) F_TRUSTED = true ->
  (sp_find s' id = Some (m, d) <-> sp_find s id = Some (m, d)).
Proof. intros. eapply session_trusted; eauto. Qed.
Print Assumptions C12_trusted_kept_partial.

(** ** C13: destroy requests never remove a non-destroyable object; it stays as
    long as no add names its id. *)
Theorem C13_nondestroyable_partial : forall mx st qs s rs s' id m d,
  all_race_free qs ->
  Forall (fun x => match snd x with
                   | QAdd m1 _ | QAddDma m1 _ _ _ => m_id m1 <> id | _ => True end) qs ->
  sp_find s id = Some (m, d) -> has (m_flags m) F_NONDESTROYABLE = true ->
  nvm_session mx st qs s = (rs, s') ->
  sp_find s' id = Some (m, d).
Proof. intros. eapply session_nondestroyable_present; eauto. Qed.
Print Assumptions C13_nondestroyable_partial.

(** ** Concrete cases *)
Definition env_ok : nvm_env := mkEnv OK OK OK OK [100; 3; 0; 0]%N.
Definition pm (id fl : N) : meta := mkMeta id 0 fl 2 (repeat 0%N 24).
Definition ps : store :=
  [(pm 1 F_NONMODIFIABLE, [11; 12]%N); (pm 2 F_NONEXPORTABLE, [21; 22]%N);
   (pm 3 F_TRUSTED, [31; 32]%N); (pm 4 F_NONDESTROYABLE, [41; 42]%N); (pm 5 0, [51; 52]%N)].

(** A session that tries everything on each of them. *)
Definition pq : list (nvm_env * nvm_request) :=
  [(env_ok, QAdd (pm 1 0) [1; 1]%N); (env_ok, QDestroy 1 [1]%N); (env_ok, QRead 1 0 2);
   (env_ok, QRead 2 0 2); (env_ok, QReadDma 2 0 2);
   (env_ok, QRead 3 0 2); (env_ok, QAddDma (pm 3 0) (pm 3 0) [9]%N [9]%N); (env_ok, QDestroy 2 [5; 3]%N);
   (env_ok, QDestroy 2 [5; 4]%N); (env_ok, QAdd (pm 6 F_TRUSTED) [61; 62]%N);
   (env_ok, QAdd (pm 5 0) [53; 54]%N); (env_ok, QRead 5 1 9); (env_ok, QDestroy 1 [2]%N)].

Example C10_C13_case : all_race_free pq /\
  map rs_rc (fst (nvm_session 100 true pq ps)) =
    [ACCESS; ACCESS; OK; ACCESS; ACCESS; ACCESS; ACCESS; ACCESS; ACCESS; OK; OK; OK; OK] /\
  map rs_data (fst (nvm_session 100 true pq ps)) =
    [[]; []; [11; 12]%N; []; []; []; []; []; []; []; []; [54]%N; []] /\
  snd (nvm_session 100 true pq ps) =
    [(pm 1 F_NONMODIFIABLE, [11; 12]%N); (pm 3 F_TRUSTED, [31; 32]%N); (pm 4 F_NONDESTROYABLE, [41; 42]%N);
     (pm 6 0, [61; 62]%N); (pm 5 0, [53; 54]%N)].
Proof. vm_compute. repeat split; repeat constructor. Qed.

(** ** Refutations *)
(** C10 and C12 fail when the client rewrites the metadata between the policy
    check and the copy: one DMA add replaces the protected object. *)
Theorem C10_dma_double_fetch_refuted : exists s e q s' id m d,
  sp_find s id = Some (m, d) /\
  has (m_flags m) F_NONMODIFIABLE = true /\ has (m_flags m) F_TRUSTED = true /\
  snd (nvm_handle 100 true e q s) = s' /\ sp_find s' id = Some (pm id 0, [7; 7]%N) /\ d <> [7; 7]%N.
Proof.
  exists [(pm 1 (F_NONMODIFIABLE + F_TRUSTED), [11; 12]%N)], env_ok,
    (QAddDma (pm 9 0) (pm 1 0) [7; 7]%N [7; 7]%N), [(pm 1 0, [7; 7]%N)], 1%N,
    (pm 1 (F_NONMODIFIABLE + F_TRUSTED)), [11; 12]%N.
  vm_compute. repeat split; auto; congruence.
Qed.
Print Assumptions C10_dma_double_fetch_refuted.

(** C13 fails: overwriting the object with the flag cleared, then destroying it,
    succeeds with ordinary race-free requests. *)
Theorem C13_overwrite_then_destroy_refuted : exists s qs id m d,
  sp_find s id = Some (m, d) /\ has (m_flags m) F_NONDESTROYABLE = true /\ all_race_free qs /\
  map rs_rc (fst (nvm_session 100 true qs s)) = [OK; OK] /\
  sp_find (snd (nvm_session 100 true qs s)) id = None.
Proof.
  exists [(pm 4 F_NONDESTROYABLE, [41; 42]%N)],
    [(env_ok, QAdd (pm 4 0) [1; 1]%N); (env_ok, QDestroy 1 [4]%N)], 4%N, (pm 4 F_NONDESTROYABLE), [41; 42]%N.
  vm_compute. repeat split; repeat constructor.
Qed.
Print Assumptions C13_overwrite_then_destroy_refuted.

(** An add request whose size does not match its length field is answered OK
    although nothing is stored (wh_server_nvm.c 257-287). *)
Theorem C10_size_mismatch_reports_ok : forall mx st e m data s,
  m_len m <> N.of_nat (length data) -> nvm_handle mx st e (QAdd m data) s = (resp_rc OK, s).
Proof. intros. cbn [nvm_handle]. apply N.eqb_neq in H. rewrite H. reflexivity. Qed.
Print Assumptions C10_size_mismatch_reports_ok.
