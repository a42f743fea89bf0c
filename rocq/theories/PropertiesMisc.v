(** Properties C41 (log ring buffer) and C42 (DMA allow list). *)
From Verif Require Import Base RingBufModel DmaModel.

(** ** C41: after any history of additions and clears, iterating passes to the
    callback the last [capacity] entries added since the last clear, in order
    of addition, up to the point where the callback stops.  The number of
    additions between clears must stay below the range [W] of size_t. *)
Theorem C41_keeps_newest_partial : forall (A : Type) (zero : A) (W : N) (buffer : list A) ops cb,
  buffer <> [] ->
  (forall k, N.of_nat (length (added (firstn k ops))) < W)%N ->
  ring_iterate zero (log_run zero W (snd (ring_init buffer)) ops) cb =
  seen cb (last_n (length buffer) (added ops)).
Proof.
  intros A zero W buffer ops cb HB HW.
  assert (L : length buffer <> 0) by (destruct buffer; [congruence|discriminate]).
  assert (E : ring_init buffer = (OK, mkRing buffer (length buffer) 0 true)).
  { unfold ring_init. apply Nat.eqb_neq in L. rewrite L. reflexivity. }
  rewrite E. cbn [snd].
  assert (I : ring_inv zero (mkRing buffer (length buffer) 0 true) []).
  { split; [reflexivity|]. cbn [rg_cap rg_entries rg_count length]. repeat split; auto; try lia. }
  rewrite (inv_iterate zero _ (added ops)).
  - rewrite run_cap. reflexivity.
  - apply run_inv; auto.
Qed.
Print Assumptions C41_keeps_newest_partial.

(** Missing: when the count of additions wraps, iteration shows nothing although
    [W] entries were added and none was cleared. *)
Theorem C41_count_wrap_refuted : forall (A : Type) (zero : A) (W : N) (buffer : list A) ops cb,
  W <> 0%N -> buffer <> [] -> Forall (fun o => exists x, o = LAdd x) ops -> N.of_nat (length ops) = W ->
  ring_iterate zero (log_run zero W (snd (ring_init buffer)) ops) cb = (OK, []).
Proof.
  intros A zero W buffer ops cb HW HB HA HN.
  assert (L : length buffer <> 0) by (destruct buffer; [congruence|discriminate]).
  assert (E : ring_init buffer = (OK, mkRing buffer (length buffer) 0 true)).
  { unfold ring_init. apply Nat.eqb_neq in L. rewrite L. reflexivity. }
  rewrite E. cbn [snd]. rewrite Forall_forall in HA.
  destruct (run_count zero W ops (mkRing buffer (length buffer) 0 true)) as [I C]; auto.
  { cbn [rg_count]. lia. }
  unfold ring_iterate. rewrite I, C. cbn [negb rg_count]. rewrite N.add_0_l, HN, N.mod_same by auto. reflexivity.
Qed.
Print Assumptions C41_count_wrap_refuted.

Example C41_case :
  ring_iterate 0 (log_run 0 4294967296 (snd (ring_init [9; 9; 9]))
     [LAdd 1; LAdd 2; LClear; LAdd 3; LAdd 4; LAdd 5; LAdd 6; LAdd 7]) (fun _ => OK) = (OK, [5; 6; 7]) /\
  ring_iterate 0 (log_run 0 4294967296 (snd (ring_init [9; 9; 9])) [LAdd 1; LAdd 2; LAdd 3; LAdd 4])
     (fun x => if x =? 3 then ABORTED else OK) = (ABORTED, [2; 3]).
Proof. vm_compute. split; reflexivity. Qed.
Example C41_wrap_case :  (* a 3-bit size_t *)
  ring_iterate 0 (log_run 0 8 (snd (ring_init [9; 9; 9])) (map (fun n => LAdd n) (seq 1 8))) (fun _ => OK) = (OK, []).
Proof. vm_compute. reflexivity. Qed.

(** ** C42: an accepted address range lies inside one entry of the list for its
    direction, and every such range is accepted. *)
Theorem C42_accept_iff : forall UMAX l op addr size al,
  (size <= UMAX)%N -> sizes_ok UMAX al ->
  (op = RdPre /\ al = al_read l) \/ (op = WrPre /\ al = al_write l) ->
  (check_oper UMAX (Some l) op addr size = OK <-> (0 < size)%N /\ inside UMAX al addr size).
Proof.
  intros UMAX l op addr size al HS HA HO. rewrite <- (check_addr_iff UMAX al addr size HS HA).
  unfold check_oper. destruct HO as [[-> ->]|[-> ->]];
    destruct (N.eqb_spec size 0) as [->|]; [|tauto| |tauto]; unfold check_addr; cbn; tauto.
Qed.
Print Assumptions C42_accept_iff.

(** Every access the copy functions make to client memory is inside the allow
    list, whatever the address callback does; for writes, when no custom copy
    callback is registered. *)
Theorem C42_copy_inside_partial : forall UMAX D l client len copy_rc rc accs wr a n,
  d_allow D = Some l -> (len <= UMAX)%N -> sizes_ok UMAX (al_read l) -> sizes_ok UMAX (al_write l) ->
  (copy_from UMAX D client len copy_rc = (rc, accs) \/
   (d_copycb D = false /\ copy_to UMAX D client len copy_rc = (rc, accs))) ->
  In (Acc wr a n) accs ->
  inside UMAX (if wr then al_write l else al_read l) a n.
Proof.
  intros UMAX D l client len copy_rc rc accs wr a n HA HL HR HW HC HI.
  unfold copy_from, copy_to in HC. destruct (N.eqb_spec len 0) as [->|NZ].
  { destruct HC as [HC|[_ HC]]; injection HC as <- <-; destruct HI. }
  assert (P : forall op x al, process_addr UMAX D client len op = (OK, x) ->
     (op = RdPre /\ al = al_read l) \/ (op = WrPre /\ al = al_write l) -> inside UMAX al x len).
  { intros op x al E O. unfold process_addr in E.
    destruct (match d_cb D with None => (OK, client) | Some cb => cb op client len end) as [rc1 x1].
    destruct (is_ok rc1) eqn:R; cbn [negb] in E; [|injection E as E1 _; apply Z.eqb_neq in R; congruence].
    replace (0 <? len)%N with true in E by (symmetry; apply N.ltb_lt; lia). injection E as E <-. rewrite HA in E.
    apply (C42_accept_iff UMAX l op x1 len al) in E; [tauto|auto| |auto].
    destruct O as [[_ ->]|[_ ->]]; auto. }
  destruct HC as [HC|[NC HC]].
  - destruct (process_addr UMAX D client len RdPre) as [rc1 x] eqn:E. destruct (is_ok rc1) eqn:R; cbn [negb] in HC.
    2:{ injection HC as <- <-. destruct HI. }
    apply Z.eqb_eq in R; subst rc1.
    destruct (d_copycb D && _); injection HC as <- <-; destruct HI as [HI|[]]; injection HI as <- <- <-; eapply P; eauto.
  - rewrite NC in HC. destruct (process_addr UMAX D client len WrPre) as [rc1 x] eqn:E. destruct (is_ok rc1) eqn:R; cbn [negb] in HC.
    2:{ injection HC as <- <-. destruct HI. }
    apply Z.eqb_eq in R; subst rc1. cbn [andb] in HC. injection HC as <- <-. destruct HI as [HI|[]]; injection HI as <- <- <-; eapply P; eauto.
Qed.
Print Assumptions C42_copy_inside_partial.

(** Missing: a copy to the client through a custom copy callback is given the raw
    client address, although only the transformed one was checked. *)
Definition ex_allow : allow_list := mkAllow [(1000, 100)]%N [(2000, 100); (0, 0)]%N.
Definition ex_dma : dma_cfg := mkDma (Some (fun _ a _ => (OK, a + 2000)%N)) true (Some ex_allow).
Theorem C42_copy_callback_refuted : exists UMAX D l client len rc a n,
  d_allow D = Some l /\ sizes_ok UMAX (al_read l) /\ sizes_ok UMAX (al_write l) /\
  copy_to UMAX D client len OK = (rc, [Acc true a n]) /\ ~ inside UMAX (al_write l) a n.
Proof.
  exists 4294967295%N, ex_dma, ex_allow, 16%N, 8%N, OK, 16%N, 8%N.
  split; [reflexivity|]. split; [constructor; [cbn; lia|constructor]|].
  split; [constructor; [cbn; lia|constructor; [cbn; lia|constructor]]|]. split; [vm_compute; reflexivity|].
  intros [_ (x & sz & [E|[E|[]]] & H)]; injection E as <- <-.
  - specialize (H 16%N ltac:(lia)). lia.
  - specialize (H 16%N ltac:(lia)). lia.
Qed.
Print Assumptions C42_copy_callback_refuted.

Example C42_case :
  check_oper 4294967295 (Some ex_allow) RdPre 1010 90 = OK /\
  check_oper 4294967295 (Some ex_allow) RdPre 1010 91 = ACCESS /\
  check_oper 4294967295 (Some ex_allow) WrPre 1010 90 = ACCESS /\
  check_oper 4294967295 (Some ex_allow) WrPre 4294967290 90 = BADARGS /\
  copy_from 4294967295 (mkDma None false (Some ex_allow)) 1000 100 OK = (OK, [Acc false 1000 100]).
Proof. vm_compute. repeat split. Qed.
