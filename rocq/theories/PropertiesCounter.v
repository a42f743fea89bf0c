(** Properties C19 and C20: non-volatile counters.

    [counter_handle e client q s] serves one request, [csession] a history of
    requests by any clients in which requests may be cut by a power loss.
    [counter_value s client id] is the value stored for a counter. *)
From Verif Require Import Base NvmSpec Flags Store KeyId CounterModel CounterProof.
Local Open Scope N_scope.

(** ** C19: one increment adds one, saturating; it reports the stored value; a
    failed one changes nothing. *)
Theorem C19_increment : forall e client id s v rc x s',
  store_ok s -> counter_value s client id = Some v ->
  counter_handle e client (CInc id) s = ((rc, x), s') ->
  (rc = OK /\ x = N.min U32MAX (v + 1) /\ counter_value s' client id = Some x) \/ (rc <> OK /\ s' = s).
Proof.
  intros e client id s v rc x s' HS HV H. destruct (value_find _ _ _ _ HV) as (m & d & F & EV).
  destruct (inc_spec _ _ _ _ _ _ _ _ _ F (HS _ _ _ F) EV H) as [(A & B & C)|[A B]]; cbn [fst snd] in *; subst; auto.
Qed.
Print Assumptions C19_increment.

(** Initialisation stores the given value, reads report the stored value. *)
Theorem C19_init_read : forall e client id s rc x s',
  (forall v, v <= U32MAX -> counter_handle e client (CInit id v) s = ((rc, x), s') ->
     (rc = OK /\ x = v /\ counter_value s' client id = Some v) \/ (rc <> OK /\ s' = s)) /\
  (counter_handle e client (CRead id) s = ((rc, x), s') ->
     s' = s /\ (rc = OK -> counter_value s client id = Some x)).
Proof.
  intros. split; intros.
  - exact (init_spec _ _ _ _ _ _ _ H H0).
  - exact (read_spec _ _ _ _ _ _ H).
Qed.
Print Assumptions C19_init_read.

(** ** C19 over histories: as long as nobody re-initialises or destroys it, the
    counter is the start value plus the number of increments, saturated, where
    every acknowledged increment counts once and every interrupted one at most
    once.  In particular it never decreases and an acknowledged increment is
    never lost. *)
Theorem C19_history : forall client id evs s rs s' v,
  store_ok s -> counter_value s client id = Some v ->
  Forall (fun ev => ev_names ev client id && ev_ends ev = false) evs ->
  csession evs s = (rs, s') ->
  exists n, counter_value s' client id = Some (N.min U32MAX (v + n)) /\
    incs_ok client id evs rs <= n <= incs_ok client id evs rs + incs_cut client id evs.
Proof. exact session_count. Qed.
Print Assumptions C19_history.

(** ** C20: requests by one client on one id leave every other object alone. *)
Theorem C20_independent : forall e client q s a s',
  counter_handle e client q s = (a, s') ->
  (forall k, kid_type k <> KT_COUNTER -> sp_find s' k = sp_find s k) /\
  (forall client' id', client < 16 -> client' < 16 ->
     (client' <> client \/ forall id, named q = Some id -> id mod 256 <> id' mod 256) ->
     counter_value s' client' id' = counter_value s client' id').
Proof.
  intros e client q s a s' H. split.
  - intros k HK. eapply handle_other; eauto. intros id _ ->. apply HK. unfold counter_id. apply mk_type. reflexivity.
  - intros c' i' L L' D. unfold counter_value. erewrite handle_other; eauto.
    intros id EN E. unfold counter_id in E. apply mk_inj in E; try (auto; reflexivity).
    destruct E as (_ & E1 & E2). destruct D as [D|D]; [auto|]. apply (D id EN). auto.
Qed.
Print Assumptions C20_independent.

(** Concrete history: client 1 counts from 4294967293 up to saturation, with an
    interrupted increment, while client 2 uses its own counter 5. *)
Definition cok : cenv := mkCenv OK OK.
Definition ex_cevs : list cevent :=
  [CServe cok 2 (CInit 5 7); CServe cok 1 (CInc 5); CCut 1 (CInc 5) true; CServe cok 2 (CInc 5);
   CServe (mkCenv OK NOSPACE) 1 (CInc 5); CServe cok 1 (CInc 5); CServe cok 1 (CRead 5); CServe cok 2 (CRead 5)].
Definition ex_cs : store := snd (counter_handle cok 1 (CInit 5 4294967293) []).
Example C19_C20_case :
  store_ok ex_cs /\ counter_value ex_cs 1 5 = Some 4294967293 /\
  Forall (fun ev => ev_names ev 1 5 && ev_ends ev = false) ex_cevs /\
  fst (csession ex_cevs ex_cs) =
    [Some (OK, 7); Some (OK, 4294967294); None; Some (OK, 8); Some (OK, 4294967295);
     Some (OK, 4294967295); Some (OK, 4294967295); Some (OK, 8)].
Proof.
  split; [|vm_compute; repeat split; repeat constructor].
  intros id m d H. eapply (handle_ok cok 1 (CInit 5 4294967293) []); [|unfold ex_cs in H; reflexivity|].
  - intros i m1 d1 X. discriminate.
  - exact H.
Qed.

(** C20 does not extend to all 16-bit ids the API takes: only the low eight bits
    name the counter, so ids 1 and 257 are one counter. *)
Theorem C20_id_alias_refuted : exists client id1 id2 s,
  id1 <> id2 /\ id1 < 65536 /\ id2 < 65536 /\ counter_value s client id2 = Some 9 /\
  fst (counter_handle cok client (CInit id1 0) s) = (OK, 0) /\
  counter_value (snd (counter_handle cok client (CInit id1 0) s)) client id2 = Some 0.
Proof.
  exists 1, 257, 1, (snd (counter_handle cok 1 (CInit 1 9) [])). vm_compute. repeat split; congruence.
Qed.
Print Assumptions C20_id_alias_refuted.
