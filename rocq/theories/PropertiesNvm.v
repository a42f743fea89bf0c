(** NVM properties C01-C09.

    [life C f0 evs f ox] (NvmHistory.v) says that a device configured by [C],
    whose memory was [f0] when first powered, can show the history [evs]
    (latest event first), leaving memory [f] and, when powered, the session
    [ox].  The events are those of NvmSpec.v: completed operations with their
    results, operations cut short by a power loss at any point or by a write
    fault, and power cycles.  [Pre_ok C f0] says that [f0] holds no complete
    partition, as a new device does.  [compactions evs] counts the operations
    that may advance the 32-bit partition epoch. *)
From Verif Require Import Base Flash BaseLemmas FlashWp NvmFlashModel NvmSpec NvmInv
  NvmFlashProof NvmFlashOps NvmHistory NvmTheorems NvmSim.

(** ** C01: every answer is the one a map from ids to objects would give. *)
Theorem C01_nvm_is_a_map : forall C f0 evs o r f ox,
  cfg_ok C -> Pre_ok C f0 ->
  life C f0 (EvOp o r :: evs) f ox ->
  (compactions (EvOp o r :: evs) < 2 ^ 32)%N ->
  forallb (fun e => negb (is_cut e)) evs = true ->
  map_answer (map_after evs) o r.
Proof. intros. eapply life_map; eauto. Qed.
Print Assumptions C01_nvm_is_a_map.

(** ** C02: an interrupted add happened completely or not at all.  [qs] are
    questions asked after the restart [boots] (itself possibly interrupted any
    number of times); all are answered from one of the two stores. *)
Theorem C02_add_atomic : forall C f0 qs boots m data evs f ox o,
  o = OAdd m data \/ o = OAddR m data ->
  cfg_ok C -> Pre_ok C f0 ->
  life C f0 (asked qs ++ boots ++ EvCut o :: evs) f ox ->
  (compactions (asked qs ++ boots ++ EvCut o :: evs) < 2 ^ 32)%N ->
  forallb (fun q => is_query (fst q)) qs = true -> forallb is_boot boots = true ->
  exists s, sp_hist (cap_of C) evs s /\
    (answers (cap_of C) s qs \/ answers (cap_of C) (sp_add m (data_of data) s) qs).
Proof. intros * [-> | ->]; intros; [eapply life_add_cut|eapply life_addr_cut]; eauto. Qed.
Print Assumptions C02_add_atomic.

(** ** C03: an interrupted destroy (with its compaction and erase) happened
    completely or not at all. *)
Theorem C03_destroy_atomic : forall C f0 qs boots ids evs f ox,
  cfg_ok C -> Pre_ok C f0 ->
  life C f0 (asked qs ++ boots ++ EvCut (ODestroy ids) :: evs) f ox ->
  (compactions (asked qs ++ boots ++ EvCut (ODestroy ids) :: evs) < 2 ^ 32)%N ->
  forallb (fun q => is_query (fst q)) qs = true -> forallb is_boot boots = true ->
  exists s, sp_hist (cap_of C) evs s /\
    (answers (cap_of C) s qs \/ answers (cap_of C) (sp_destroy ids s) qs).
Proof. intros. eapply life_destroy_cut; eauto. Qed.
Print Assumptions C03_destroy_atomic.

(** ** C04: every life of a device is a history of a store with atomic
    operations, and a restart always succeeds. *)
Theorem C04_histories : forall C f0 evs f ox,
  cfg_ok C -> Pre_ok C f0 -> life C f0 evs f ox -> (compactions evs < 2 ^ 32)%N ->
  (exists s, sp_hist (cap_of C) evs s) /\
  (ox = None -> forall rc x f', exec C false (nf_init C) f (rc, x) f' -> rc = OK).
Proof.
  intros C f0 evs f ox HC P L Hn. split.
  - destruct (life_hist C HC _ _ _ _ P L Hn) as (s & H & _). eauto.
  - intros -> rc x f' E. eapply life_boots; eauto.
Qed.
Print Assumptions C04_histories.

(** ** C05: an operation that is refused, and every question, leaves memory and
    session as they were. *)
Theorem C05_refused_changes_nothing : forall C f0 evs f x o r x' f',
  cfg_ok C -> Pre_ok C f0 -> life C f0 evs f (Some x) -> (compactions evs + 1 < 2 ^ 32)%N ->
  op_ok o -> exec C false (op_run C x o) f (r, x') f' ->
  is_query o = true \/ (exists rc, r = RCode rc /\ rc <> OK) ->
  f' = f /\ x' = x.
Proof. intros. eapply life_refused; eauto. Qed.
Print Assumptions C05_refused_changes_nothing.

(** ** C06: the reported free space is exactly what the next add may use. *)
Theorem C06_available_exact : forall C f0 evs f x ab ao rb ro f1 x1 m data r x' f',
  cfg_ok C -> Pre_ok C f0 -> life C f0 evs f (Some x) -> (compactions evs + 1 < 2 ^ 32)%N ->
  exec C false (op_run C x OAvail) f (RAvail OK ab ao rb ro, x1) f1 ->
  op_ok (OAdd m data) -> exec C false (op_run C x (OAdd m data)) f (r, x') f' ->
  (r = RCode OK <-> length (data_of data) <= ab /\ 0 < ao).
Proof. intros. eapply life_avail_add; eauto. Qed.
Print Assumptions C06_available_exact.

(** Add-with-reclaim succeeds exactly when the stored objects and the new one
    fit in a compacted partition. *)
Theorem C06_reclaim_complete : forall C f0 evs m data r f ox,
  cfg_ok C -> Pre_ok C f0 -> life C f0 (EvOp (OAddR m data) r :: evs) f ox ->
  (compactions (EvOp (OAddR m data) r :: evs) < 2 ^ 32)%N ->
  exists s, sp_hist (cap_of C) evs s /\
    (r = RCode OK <-> fits (cap_of C) s (length (data_of data))) /\
    (r = RCode NOSPACE <-> ~ fits (cap_of C) s (length (data_of data))).
Proof. intros. eapply life_reclaim; eauto. Qed.
Print Assumptions C06_reclaim_complete.

(** ** C07: following list from 0 visits every object once, with the number of
    objects left, unless an object has id 0. *)
Theorem C07_list_enumerates_partial : forall C f0 evs f x,
  cfg_ok C -> Pre_ok C f0 -> life C f0 evs f (Some x) -> (compactions evs < 2 ^ 32)%N ->
  exists s, sp_hist (cap_of C) evs s /\ NoDup (map oid s) /\
    (sp_find s 0 = None -> forall fuel, length s < fuel ->
       enumerate (ask_list x) fuel 0 = countdown s).
Proof. intros. eapply life_list; eauto. Qed.
Print Assumptions C07_list_enumerates_partial.

(** ** C08: every callback stays inside the two partitions, programs only blank
    units and erases only a whole partition, also when callbacks fail. *)
Theorem C08_operation_bounds : forall C f0 evs f x o g c,
  cfg_ok C -> Pre_ok C f0 -> life C f0 evs f (Some x) -> (compactions evs + 1 < 2 ^ 32)%N ->
  op_ok o -> issues C true (op_run C x o) f g c -> okcall C g c.
Proof. intros. eapply life_bounds_op; eauto. Qed.
Print Assumptions C08_operation_bounds.

Theorem C08_boot_bounds : forall C f0 evs f g c,
  cfg_ok C -> Pre_ok C f0 -> life C f0 evs f None -> (compactions evs < 2 ^ 32)%N ->
  issues C true (nf_init C) f g c -> okcall C g c.
Proof. intros. eapply life_bounds_boot; eauto. Qed.
Print Assumptions C08_boot_bounds.

(** ** C09: a successful program through the unit layer means that every window
    reads back the bytes, that nothing else changed and that the place was
    blank, even on a device whose writes may silently fail. *)
Theorem C09_unit_program_partial : forall C f off bs f',
  bytes_ok bs -> vexec C (fu_program_bytes (8 * off) bs) f OK f' ->
  (forall b n, 8 * off <= b -> b + n <= 8 * off + length bs ->
     run C (fu_read_bytes b n) f' = (OK, firstn n (skipn (b - 8 * off) bs), f')) /\
  (forall o, o < off \/ off + units (length bs) <= o -> f' o = f o) /\
  (forall o, off <= o < off + units (length bs) -> f o = erased_unit C).
Proof. intros. eapply unit_program_ok; eauto. Qed.
Print Assumptions C09_unit_program_partial.

Theorem C09_unit_program_iff : forall C f off bs, bs <> [] ->
  (fst (run C (fu_program_bytes (8 * off) bs) f) = OK <->
   off + units (length bs) <= dev_units C /\
   (forall o, off <= o < off + units (length bs) -> f o = erased_unit C)).
Proof. intros. apply unit_program_iff; auto. Qed.
Print Assumptions C09_unit_program_iff.

(** At a byte offset that is not a multiple of 8 the call reports success and
    the bytes are not at that offset. *)
Theorem C09_unaligned_refuted : exists C f boff bs,
  bytes_ok bs /\ fst (run C (fu_program_bytes boff bs) f) = OK /\
  fst (run C (fu_read_bytes boff (length bs)) (snd (run C (fu_program_bytes boff bs) f))) <> (OK, bs).
Proof.
  exists C0, blank0, 1, [1; 2]%N. split; [repeat constructor|]. split; [vm_compute; reflexivity|].
  vm_compute. discriminate.
Qed.
Print Assumptions C09_unaligned_refuted.

(** ** Concrete cases *)

(** A life that boots, adds, overwrites, fills the directory, reclaims,
    destroys, is cut twice and restarts; its answers are computed. *)
Definition ex_acts : list action :=
  [ABoot; AOp (OAdd (mt 7 0) (Some [1;2;3]%N)); AOp (OAdd (mt 9 0) (Some [4]%N));
   AOp (OAdd (mt 7 0) (Some [5;6]%N)); AOp (OAdd (mt 8 0) (Some [9]%N));
   AOp (OAddR (mt 8 0) (Some [9]%N)); AOp (ORead 7 1 1); AOp (ORead 7 1 9);
   AOp (OMeta 9); AOp (OList 0); AOp OAvail;
   ACut (ODestroy [9]%N) 40; ABootCut 5; ABoot; AOp (ODestroy [9]%N); AOp (ORead 9 0 1);
   ACut (OAdd (mt 9 0) (Some [3;3;3;3;3;3;3;3;3]%N)) 14; ABoot; AOp (ORead 9 0 1); AOp OAvail].

Example ex_acts_ok : Forall action_ok ex_acts.
Proof.
  unfold ex_acts.
  repeat (constructor; [try exact I; cbn [action_ok op_ok];
    repeat split; first [vm_compute; reflexivity | repeat constructor]|]).
  constructor.
Qed.

Example ex_life : life C0 blank0 (snd (sim C0 blank0 ex_acts))
   (fst (fst (sim C0 blank0 ex_acts))) (snd (fst (sim C0 blank0 ex_acts))).
Proof. apply sim_life, ex_acts_ok. Qed.

Example ex_answers :
  map (fun e => match e with EvOp _ r => Some r | _ => None end) (rev (snd (sim C0 blank0 ex_acts))) =
  [None; Some (RCode OK); Some (RCode OK); Some (RCode OK); Some (RCode NOSPACE);
   Some (RCode OK); Some (RData OK [6]%N); Some (RData BADARGS []);
   Some (RMeta OK (Some (with_len (mt 9 0) 1))); Some (RList OK 3 9%N); Some (RAvail OK 24 0 0 0);
   None; None; None; Some (RCode OK); Some (RData NOTFOUND []);
   None; None; Some (RData NOTFOUND []); Some (RAvail OK 16 0 16 1)].
Proof. vm_compute. reflexivity. Qed.

(** C07 fails in general: with an object of id 0 beside object 5, following the
    returned ids never reaches object 5. *)
Definition ex_zero : list action :=
  [ABoot; AOp (OAdd (mt 0 0) (Some [1]%N)); AOp (OAdd (mt 5 0) (Some [2]%N)); AOp (ORead 5 0 1)].

Theorem C07_id_zero_refuted : exists C f0 evs f x,
  cfg_ok C /\ Pre_ok C f0 /\ life C f0 (EvOp (ORead 5 0 1) (RData OK [2%N]) :: evs) f (Some x) /\
  forall fuel n, ~ In (n, 5%N) (enumerate (ask_list x) fuel 0).
Proof.
  set (st := sim C0 blank0 ex_zero).
  assert (HA : Forall action_ok ex_zero).
  { unfold ex_zero. repeat (constructor; [try exact I; cbn [action_ok op_ok];
      repeat split; first [vm_compute; reflexivity | repeat constructor]|]). constructor. }
  pose proof (sim_life C0 blank0 ex_zero HA) as L. fold st in L.
  assert (exists x, snd (fst st) = Some x /\ ask_list x 0 = (1, 0%N)) as (x & E & A).
  { vm_compute. eexists. split; reflexivity. }
  assert (exists r, snd st = EvOp (ORead 5 0 1) (RData OK [2%N]) :: r) as (r & ER).
  { vm_compute. eexists. reflexivity. }
  exists C0, blank0, r, (fst (fst st)), x.
  split; [apply C0_ok|]. split; [apply blank0_pre|]. split; [rewrite <- ER, <- E; exact L|].
  induction fuel as [|k IH]; intros n; cbn [enumerate]; [intros []|].
  rewrite A. cbn [Nat.eqb]. intros [H|H]; [discriminate|]. eapply IH; eauto.
Qed.
Print Assumptions C07_id_zero_refuted.
