(** C70: NVM kept in a file keeps what C01-C05 promise.

    FileFlashSpec.v says what the bytes of a file are ([piece], [replaced],
    [sized], [flash_of]); [flife offmax C F0 evs F ox] (FileFlashModel.v) says that a
    server whose flash is a file, holding [F0] before the first start, can show the
    history [evs]. *)
From Verif Require Import Base BaseLemmas Flash FlashWp NvmFlashModel NvmSpec NvmInv NvmFlashProof NvmFlashOps NvmHistory
  NvmTheorems NvmSim FileFlashModel FileFlashSpec FileFlashProof.

(** ** Opening: the file gets its size, its contents stay *)
Theorem C70_init : forall offmax c opened w trunc F rc ox F1,
  init offmax c opened true w trunc F = (rc, ox, F1) ->
  (* an open device has the configured size, the old contents and erased bytes behind, and is locked *)
  (forall x, ox = Some x -> rc = OK /\ F1 = sized (2 * fc_part c) (fc_eb c) F /\ x = mkF (fc_part c) (fc_eb c) false) /\
  (ox = None -> rc <> OK) /\
  (* an attempt that fails or is interrupted does no harm *)
  sized (2 * fc_part c) (fc_eb c) F1 = sized (2 * fc_part c) (fc_eb c) F /\
  (* a file of the right size is left as it is *)
  (length F = 2 * fc_part c -> F1 = F) /\
  (* a size that does not fit offsets of 32 bits or an off_t is refused *)
  (rc = OK -> (N.of_nat (2 * fc_part c) <= N.min 4294967295 offmax)%N) /\
  (* if nothing fails and the size is representable the device opens *)
  (opened = true -> w = None -> trunc = true -> (N.of_nat (2 * fc_part c) <= N.min 4294967295 offmax)%N -> rc = OK).
Proof.
  intros offmax c opened w trunc F rc ox F1 E.
  assert (S : sized (2 * fc_part c) (fc_eb c) F1 = sized (2 * fc_part c) (fc_eb c) F).
  { pose proof (init_sized offmax c F opened w trunc) as H. rewrite E in H. exact H. }
  assert (O : forall x, ox = Some x -> rc = OK).
  { intros x ->. revert E. unfold init. destruct (negb opened); [discriminate|]. destruct (_ || _)%bool; [discriminate|]. cbn [negb]. destruct (_ <? _).
    - destruct (pfill _ _ _ _ _ _) as [[] F']; [|discriminate]. intros X. inversion X. auto.
    - destruct (_ <? _); [destruct trunc; [|discriminate]|]; intros X; inversion X; auto. }
  split; [|split; [|split; [exact S|split; [|split]]]].
  - intros x ->. pose proof (O x eq_refl) as ->. split; auto. apply (init_ok offmax c F x F1 opened w trunc). exact E.
  - intros ->. revert E. unfold init. destruct (negb opened); [intros X; inversion X; discriminate|]. destruct (_ || _)%bool; [intros X; inversion X; discriminate|]. cbn [negb].
    destruct (_ <? _).
    + destruct (pfill _ _ _ _ _ _) as [[] F']; [discriminate|]. intros X. inversion X. discriminate.
    + destruct (_ <? _); [destruct trunc; [discriminate|]|]; intros X; inversion X; discriminate.
  - intros L. revert E. unfold init. destruct (negb opened); [intros X; inversion X; auto|]. destruct (_ || _)%bool; [intros X; inversion X; auto|]. cbn [negb].
    unfold max_offset. cbn [f_part]. rewrite L, Nat.ltb_irrefl. intros X. inversion X. auto.
  - intros ->. revert E. unfold init. destruct (negb opened); [discriminate|]. unfold max_offset. cbn [f_part].
    destruct (N.ltb_spec 4294967295 (N.of_nat (2 * fc_part c))); [discriminate|]. destruct (N.ltb_spec offmax (N.of_nat (2 * fc_part c))); [discriminate|]. lia.
  - intros -> -> -> M. revert E. unfold init. unfold max_offset. cbn [negb f_part f_eb].
    replace (4294967295 <? N.of_nat (2 * fc_part c))%N with false by (symmetry; apply N.ltb_ge; lia).
    replace (offmax <? N.of_nat (2 * fc_part c))%N with false by (symmetry; apply N.ltb_ge; lia). cbn [orb].
    destruct (Nat.ltb_spec (length F) (2 * fc_part c)).
    + rewrite pfill_end; [|lia|exact I]. cbn [done_of]. rewrite Nat.eqb_refl. intros X. inversion X. auto.
    + destruct (_ <? _); intros X; inversion X; auto.
Qed.
Print Assumptions C70_init.

(** ** The callbacks, byte by byte.  The file has the size of the device; [w] and
    [ws] tell where reads and writes of the file fail, if they do. *)
Theorem C70_read : forall x w F off size,
  length F = max_offset x ->
  (max_offset x < off + size -> read x false w F off size = (BADARGS, [])) /\
  (off + size <= max_offset x ->
     read x false w F off size = (OK, piece F off size) \/ (w <> None /\ read x false w F off size = (ABORTED, []))).
Proof.
  intros x w F off size L. split.
  - intros H. unfold read. destruct (Nat.ltb_spec (max_offset x) (off + size)); [auto|lia].
  - intros H. destruct w as [k|].
    + destruct (Nat.le_gt_cases size k).
      * left.
        assert (E : read x false (Some k) F off size = read x false None F off size) by (unfold read; rewrite Nat.min_r by lia; reflexivity).
        rewrite E, read_exact by auto. destruct (Nat.ltb_spec (max_offset x) (off + size)); [lia|auto].
      * right. split; [discriminate|]. apply read_short; auto.
    + left. rewrite read_exact by auto. destruct (Nat.ltb_spec (max_offset x) (off + size)); [lia|auto].
Qed.
Print Assumptions C70_read.

(** Program and Erase: nothing outside the device, nothing while locked, nothing
    outside the range; success is exactly the whole range. *)
Definition writes_range (x : fctx) (F : list N) (off : nat) (d : list N) (rc : Z) (F' : list N) : Prop :=
  length F' = length F /\
  (max_offset x < off + length d -> rc = BADARGS /\ F' = F) /\
  (off + length d <= max_offset x -> d <> [] -> f_unlocked x = false -> rc = LOCKED /\ F' = F) /\
  (off + length d <= max_offset x -> f_unlocked x = true ->
     (rc = OK /\ F' = replaced F off d) \/
     (rc = ABORTED /\ exists k, k < length d /\ F' = replaced F off (firstn k d))).
Theorem C70_write : forall x w F off d n,
  length F = max_offset x ->
  writes_range x F off d (fst (program x w F off (length d) (Some d))) (snd (program x w F off (length d) (Some d))) /\
  writes_range x F off (repeat (f_eb x) n) (fst (erase x w F off n)) (snd (erase x w F off n)) /\
  (w = None -> f_unlocked x = true -> off + length d <= max_offset x -> fst (program x w F off (length d) (Some d)) = OK) /\
  (w = None -> f_unlocked x = true -> off + n <= max_offset x -> fst (erase x w F off n) = OK).
Proof.
  intros x w F off d n L.
  assert (P : forall dd, off + length dd <= max_offset x -> length (replaced F off dd) = length F) by (intros; apply replaced_length; lia).
  assert (DN : forall m, done_of w m <= m) by (intros m; unfold done_of; destruct w; lia).
  split; [|split; [|split]].
  - split; [|split; [|split]].
    + destruct (Nat.le_gt_cases (off + length d) (max_offset x)) as [Q|Q]; [destruct (f_unlocked x) eqn:U|].
      * rewrite program_exact by auto. cbn [snd]. apply P. rewrite firstn_length. lia.
      * unfold program. destruct (Nat.ltb_spec (max_offset x) (off + length d)); [lia|]. rewrite U. destruct (_ =? 0); reflexivity.
      * unfold program. destruct (Nat.ltb_spec (max_offset x) (off + length d)); [reflexivity|lia].
    + intros Q. unfold program. destruct (Nat.ltb_spec (max_offset x) (off + length d)); [auto|lia].
    + intros Q N0 U. unfold program. destruct (Nat.ltb_spec (max_offset x) (off + length d)); [lia|]. rewrite U.
      destruct (Nat.eqb_spec (length d) 0) as [Z|]; [destruct d; [congruence|discriminate]|auto].
    + intros Q U. rewrite program_exact by auto. cbn [fst snd]. destruct (Nat.eqb_spec (done_of w (length d)) (length d)) as [E|E].
      * left. rewrite E, firstn_all. auto.
      * right. split; auto. exists (done_of w (length d)). split; auto. specialize (DN (length d)). lia.
  - unfold writes_range. rewrite repeat_length. split; [|split; [|split]].
    + destruct (Nat.le_gt_cases (off + n) (max_offset x)) as [Q|Q]; [destruct (f_unlocked x) eqn:U|].
      * rewrite erase_exact by auto. cbn [snd]. apply P. rewrite repeat_length. specialize (DN n). lia.
      * unfold erase. destruct (Nat.ltb_spec (max_offset x) (off + n)); [lia|]. rewrite U. destruct (_ =? 0); reflexivity.
      * unfold erase. destruct (Nat.ltb_spec (max_offset x) (off + n)); [reflexivity|lia].
    + intros Q. unfold erase. destruct (Nat.ltb_spec (max_offset x) (off + n)); [auto|lia].
    + intros Q N0 U. unfold erase. destruct (Nat.ltb_spec (max_offset x) (off + n)); [lia|]. rewrite U.
      destruct (Nat.eqb_spec n 0) as [->|]; [contradiction N0; reflexivity|auto].
    + intros Q U. rewrite erase_exact by auto. cbn [fst snd]. destruct (Nat.eqb_spec (done_of w n) n) as [E|E].
      * left. rewrite E. auto.
      * right. split; auto. exists (done_of w n). specialize (DN n). split; [lia|]. rewrite firstn_repeat by lia. reflexivity.
  - intros -> U Q. rewrite program_exact by auto. cbn [done_of fst]. rewrite Nat.eqb_refl. reflexivity.
  - intros -> U Q. rewrite erase_exact by auto. cbn [done_of fst]. rewrite Nat.eqb_refl. reflexivity.
Qed.
Print Assumptions C70_write.

(** Verify and BlankCheck answer OK exactly when the bytes agree, whatever the reads
    in between do: a failing read is reported, never taken for agreement. *)
Theorem C70_check : forall x ws F off d n,
  length F = max_offset x ->
  (let rc := verify x ws F off (length d) (Some d) in
   (max_offset x < off + length d -> rc = BADARGS) /\
   (off + length d <= max_offset x ->
      (rc = OK -> piece F off (length d) = d) /\ (rc = NOTVERIFIED -> piece F off (length d) <> d) /\
      (rc = OK \/ rc = NOTVERIFIED \/ rc = ABORTED) /\
      ((forall i, ws i = None) -> piece F off (length d) = d -> rc = OK) /\
      ((forall i, ws i = None) -> piece F off (length d) <> d -> rc = NOTVERIFIED))) /\
  (let rc := blank_check x ws F off n in
   (max_offset x < off + n -> rc = BADARGS) /\
   (off + n <= max_offset x ->
      (rc = OK -> piece F off n = repeat (f_eb x) n) /\ (rc = NOTBLANK -> piece F off n <> repeat (f_eb x) n) /\
      (rc = OK \/ rc = NOTBLANK \/ rc = ABORTED) /\
      ((forall i, ws i = None) -> piece F off n = repeat (f_eb x) n -> rc = OK) /\
      ((forall i, ws i = None) -> piece F off n <> repeat (f_eb x) n -> rc = NOTBLANK))).
Proof.
  assert (VE : forall x ws F off d fuel fin doff, (forall i, ws i = None) ->
    verify_loop fuel x ws F off fin doff d = verify_loop fuel x (fun _ => None) F off fin doff d).
  { intros x ws F off d fuel. revert off. induction fuel as [|k IH]; intros off fin doff H; cbn [verify_loop]; auto. rewrite H. destruct (_ <? _); auto.
    destruct (read _ _ _ _ _ _). destruct (negb _); auto. destruct (list_eqb _ _); auto. }
  assert (BE : forall x ws F off fuel fin, (forall i, ws i = None) ->
    blank_loop fuel x ws F off fin = blank_loop fuel x (fun _ => None) F off fin).
  { intros x ws F off fuel. revert off. induction fuel as [|k IH]; intros off fin H; cbn [blank_loop]; auto. rewrite H. destruct (_ <? _); auto.
    destruct (read _ _ _ _ _ _). destruct (negb _); auto. destruct (list_eqb _ _); auto. }
  assert (K : forall a b : list N, (list_eqb a b = true /\ b = a) \/ (list_eqb a b = false /\ b <> a)).
  { intros a b. destruct (list_eqb a b) eqn:E; [left|right]; split; auto.
    - apply list_eqb_true in E. auto.
    - intros ->. rewrite (proj2 (list_eqb_true a a) eq_refl) in E. discriminate. }
  intros x ws F off d n L. split; cbv zeta.
  - split; [intros H; unfold verify; destruct (Nat.ltb_spec (max_offset x) (off + length d)); [auto|lia]|]. intros Q.
    pose proof (verify_exact x F off d L) as V. destruct (Nat.ltb_spec (max_offset x) (off + length d)); [lia|].
    assert (W : (forall i, ws i = None) -> verify x ws F off (length d) (Some d) = verify x (fun _ => None) F off (length d) (Some d)).
    { intros Hw. unfold verify. rewrite VE by auto. reflexivity. }
    destruct (K d (piece F off (length d))) as [[E P]|[E P]]; rewrite E in V;
      destruct (verify_any x ws F off (length d) (Some d) L) as [G|G]; rewrite ?V in G; rewrite G; (split; [|split; [|split; [auto|split]]]); try congruence; try discriminate; auto;
      intros Hw; rewrite (W Hw), V in G; auto; discriminate.
  - split; [intros H; unfold blank_check; destruct (Nat.ltb_spec (max_offset x) (off + n)); [auto|lia]|]. intros Q.
    pose proof (blank_exact x F off n L) as V. destruct (Nat.ltb_spec (max_offset x) (off + n)); [lia|].
    assert (W : (forall i, ws i = None) -> blank_check x ws F off n = blank_check x (fun _ => None) F off n).
    { intros Hw. unfold blank_check. rewrite BE by auto. reflexivity. }
    destruct (K (repeat (f_eb x) n) (piece F off n)) as [[E P]|[E P]]; rewrite E in V;
      destruct (blank_any x ws F off n L) as [G|G]; rewrite ?V in G; rewrite G; (split; [|split; [|split; [auto|split]]]); try congruence; try discriminate; auto;
      intros Hw; rewrite (W Hw), V in G; auto; discriminate.
Qed.
Print Assumptions C70_check.

(** What was written is read back, and everything else is as before. *)
Theorem C70_read_back : forall F off d o m,
  off + length d <= length F ->
  piece (replaced F off d) off (length d) = d /\ length (replaced F off d) = length F /\
  (o + m <= off \/ off + length d <= o -> piece (replaced F off d) o m = piece F o m).
Proof.
  intros F off d o m H. split; [apply piece_replaced_same, H|]. split; [apply replaced_length, H|]. intros D. apply piece_replaced_other; auto.
Qed.
Print Assumptions C70_read_back.

(** ** Under the NVM layer
    The life of a server with its NVM in a file answers as the map and the atomic
    store of C01 and C04 do, and starting again always succeeds. *)
Definition new_file (C : cfg) (F0 : list N) : Prop :=
  bytes_ok F0 /\ Pre_ok C (flash_of (sized (8 * dev_units C) (c_eb C) F0)).
Theorem C70_nvm_is_a_map : forall offmax C F0 evs o r F ox,
  cfg_ok C -> new_file C F0 ->
  flife offmax C F0 (EvOp o r :: evs) F ox ->
  (compactions (EvOp o r :: evs) < 2 ^ 32)%N ->
  forallb (fun e => negb (is_cut e)) evs = true ->
  map_answer (map_after evs) o r.
Proof.
  intros offmax C F0 evs o r F ox HC [B P] L N0 K. destruct (flife_life C HC offmax F0 _ F ox B L) as (f & LF & _). eapply life_map; eauto.
Qed.
Print Assumptions C70_nvm_is_a_map.
Theorem C70_histories : forall offmax C F0 evs F ox,
  cfg_ok C -> new_file C F0 -> flife offmax C F0 evs F ox -> (compactions evs < 2 ^ 32)%N ->
  (exists s, sp_hist (cap_of C) evs s) /\
  (ox = None -> (N.of_nat (8 * dev_units C) <= offmax)%N ->
    exists x F1, init offmax (fcfg_of C) true true None true F = (OK, Some x, F1) /\
      forall rc s F2, fexec (write_unlock (write_unlock x)) false (nf_init C) F1 (rc, s) F2 -> rc = OK).
Proof.
  intros offmax C F0 evs F ox HC [B P] L N0. destruct (flife_life C HC offmax F0 _ F ox B L) as (f & LF & RF & _). split.
  - destruct (life_hist C HC _ _ _ _ P LF N0) as (s & H & _). eauto.
  - intros -> M. pose proof (init_starts C HC offmax F M) as E. eexists _, _. split; [exact E|].
    intros rc s F2 X. change (write_unlock (write_unlock _)) with (ctx_of C) in X.
    pose proof HC as (_ & _ & EB). pose proof (pu_pos C HC) as PU.
    destruct (sim_exec C PU EB _ _ _ _ _ X None _ f RF I (safe_init C PU None)) as (f' & X' & _). eapply life_boots; eauto.
Qed.
Print Assumptions C70_histories.
(** An interrupted add or destroy happened completely or not at all. *)
Theorem C70_atomic : forall offmax C F0 qs boots o evs F ox,
  cfg_ok C -> new_file C F0 ->
  flife offmax C F0 (asked qs ++ boots ++ EvCut o :: evs) F ox ->
  (compactions (asked qs ++ boots ++ EvCut o :: evs) < 2 ^ 32)%N ->
  forallb (fun q => is_query (fst q)) qs = true -> forallb is_boot boots = true ->
  exists s, sp_hist (cap_of C) evs s /\
    (answers (cap_of C) s qs \/
     match o with
     | OAdd m data | OAddR m data => answers (cap_of C) (sp_add m (data_of data) s) qs
     | ODestroy ids => answers (cap_of C) (sp_destroy ids s) qs
     | _ => False
     end).
Proof.
  intros offmax C F0 qs boots o evs F ox HC [B P] L N0 Q BO. destruct (flife_life C HC offmax F0 _ F ox B L) as (f & LF & _).
  destruct (life_cut C HC _ _ _ _ _ _ _ P LF N0 Q BO) as (s & s' & H & SC & A). exists s. split; [exact H|].
  destruct SC as [->|[r ST]]; auto.
  destruct o; cbn [sp_step] in ST; intuition (subst; auto).
  all: try (destruct ST as [[? [? ->]]|[? ->]]; auto).
Qed.
Print Assumptions C70_atomic.

(** * Concrete cases *)
Module FileFlashExamples.
Fixpoint frun {A} (x : fctx) (p : prog A) (F : list N) : A * list N :=
  match p with
  | Ret a => (a, F)
  | Call c k => frun x (k (snd (dev x None F c))) (fst (dev x None F c))
  end.
Lemma frun_exec {A} x fl : forall (p : prog A) F, fexec x fl p F (fst (frun x p F)) (snd (frun x p F)).
Proof. induction p as [a|c k IH]; intros F; cbn [frun]; [constructor|]. apply fx_ok. apply IH. Qed.
Lemma frun_fexec {A B} x (p : prog (A * B)) F r a : r = frun x p F -> fst (fst r) = a -> fexec x false p F (a, snd (fst r)) (snd r).
Proof. intros -> <-. rewrite <- surjective_pairing. apply frun_exec. Qed.
Fixpoint fcut {A} (x : fctx) (n : nat) (p : prog A) (F : list N) : list N :=
  match n, p with
  | S k, Call c kk => fcut x k (kk (snd (dev x None F c))) (fst (dev x None F c))
  | _, _ => F
  end.
Lemma fcut_crash {A} x fl n : forall (p : prog A) F, fcrash x fl p F (fcut x n p F).
Proof. induction n as [|n IH]; intros p F; cbn [fcut]; [constructor|]. destruct p; [constructor|]. apply fc_next. apply IH. Qed.

Definition big : N := (2 ^ 63 - 1)%N.
(** A server whose file does not exist yet: it starts, stores an object, loses power
    while replacing it, starts again and reads. *)
Definition m5 : meta := mt 5 0.
Definition opn (F : list N) : list N := snd (init big (fcfg_of C0) true true None true F).
Definition b1 := frun (ctx_of C0) (nf_init C0) (opn []).
Definition s1 := snd (fst b1).
Definition a1 := frun (ctx_of C0) (op_run C0 s1 (OAdd m5 (Some [1; 2; 3]%N))) (snd b1).
Definition s2 := snd (fst a1).
Definition cut1 := fcut (ctx_of C0) 5 (op_run C0 s2 (OAdd m5 (Some [9; 9]%N))) (snd a1).
Definition b2 := frun (ctx_of C0) (nf_init C0) (opn cut1).
Definition s3 := snd (fst b2).
Definition r1 := frun (ctx_of C0) (op_run C0 s3 (ORead 5 0 3)) (snd b2).
Lemma starts F : init big (fcfg_of C0) true true None true F = (OK, Some (mkF (8 * c_pu C0) (c_eb C0) false), opn F).
Proof. unfold opn. rewrite (init_starts C0 C0_ok big F) by (vm_compute; discriminate). reflexivity. Qed.
Example C70_new : new_file C0 [].
Proof.
  split; [constructor|]. split; unfold hdr_bad; left; vm_compute; reflexivity.
Qed.
Example C70_case :
  flife big C0 [] [EvOp (ORead 5 0 3) (RData OK [1; 2; 3]%N); EvBoot; EvCut (OAdd m5 (Some [9; 9]%N));
                   EvOp (OAdd m5 (Some [1; 2; 3]%N)) (RCode OK); EvBoot] (snd r1) (Some (snd (fst r1))) /\
  length (snd r1) = 480 /\ snd r1 <> opn [].
Proof.
  assert (OP : forall d, bytes_ok d -> (N.of_nat (length d) < 65536)%N -> op_ok (OAdd m5 (Some d))).
  { intros d B H. repeat split; auto; try (vm_compute; reflexivity). repeat constructor. }
  split; [|split; [vm_compute; reflexivity|vm_compute; discriminate]].
  assert (L1 : flife big C0 [] [EvBoot] (snd b1) (Some s1)).
  { eapply fl_boot; [constructor|apply starts|]. change (write_unlock (write_unlock _)) with (ctx_of C0).
    apply (frun_fexec _ _ _ b1); [reflexivity|vm_compute; reflexivity]. }
  assert (L2 : flife big C0 [] [EvOp (OAdd m5 (Some [1; 2; 3]%N)) (RCode OK); EvBoot] (snd a1) (Some s2)).
  { eapply fl_op; [exact L1|apply OP; [repeat constructor|reflexivity]|].
    apply (frun_fexec _ _ _ a1); [reflexivity|vm_compute; reflexivity]. }
  assert (L3 : flife big C0 [] [EvCut (OAdd m5 (Some [9; 9]%N)); EvOp (OAdd m5 (Some [1; 2; 3]%N)) (RCode OK); EvBoot] cut1 None).
  { eapply fl_crash; [exact L2|apply OP; [repeat constructor|reflexivity]|]. apply fcut_crash. }
  assert (L4 : flife big C0 [] [EvBoot; EvCut (OAdd m5 (Some [9; 9]%N)); EvOp (OAdd m5 (Some [1; 2; 3]%N)) (RCode OK); EvBoot] (snd b2) (Some s3)).
  { eapply fl_boot; [exact L3|apply starts|]. change (write_unlock (write_unlock _)) with (ctx_of C0).
    apply (frun_fexec _ _ _ b2); [reflexivity|vm_compute; reflexivity]. }
  eapply fl_op; [exact L4|exact I|].
  apply (frun_fexec _ _ _ r1); [reflexivity|vm_compute; reflexivity].
Qed.
(** An open, unlocked device whose file has its size: the hypotheses of C70_read,
    C70_write and C70_check, with every answer they mention. *)
Example C70_ops_case :
  let x := mkF 8 255 true in let F := repeat 255%N 16 in
  length F = max_offset x /\
  program x None F 3 2 (Some [7; 8]%N) = (OK, repeat 255%N 3 ++ [7; 8]%N ++ repeat 255%N 11) /\
  program x (Some 1) F 3 2 (Some [7; 8]%N) = (ABORTED, repeat 255%N 3 ++ [7]%N ++ repeat 255%N 12) /\
  program (write_lock x) None F 3 2 (Some [7; 8]%N) = (LOCKED, F) /\
  program x None F 15 2 (Some [7; 8]%N) = (BADARGS, F) /\
  blank_check x (fun _ => None) F 0 16 = OK /\ verify x (fun _ => None) F 3 2 (Some [7; 8]%N) = NOTVERIFIED /\
  read x false (Some 3) F 0 16 = (ABORTED, []).
Proof. vm_compute. repeat split; reflexivity. Qed.
(** A file that was interrupted while it grew, and a larger one. *)
Example C70_init_case :
  init big (mkFC 8 255) true true (Some 3) true [1; 2]%N = (ABORTED, None, [1; 2; 255; 255; 255]%N) /\
  snd (init big (mkFC 8 255) true true None true [1; 2; 255; 255; 255]%N) = [1; 2]%N ++ repeat 255%N 14 /\
  snd (init big (mkFC 1 255) true true None true [1; 2; 3]%N) = [1; 2]%N.
Proof. vm_compute. repeat split; reflexivity. Qed.

(** ** The size is not checked if fstat fails: posixFlashFile_Init looks at the size
    only inside [if (rc == 0)], and the failure of fstat is not an error, so it
    answers OK for a file that has not the size of the device; reads inside the
    device then fail. *)
Theorem C70_fstat_refuted : exists offmax c F x,
  init offmax c true false None true F = (OK, Some x, F) /\
  length F <> max_offset x /\
  exists off size, off + size <= max_offset x /\ fst (read x false None F off size) = ABORTED.
Proof.
  exists big, (mkFC 8 255), [], (mkF 8 255 false). split; [reflexivity|]. split; [vm_compute; discriminate|]. exists 0, 16. split; [vm_compute; lia|reflexivity].
Qed.
Print Assumptions C70_fstat_refuted.
(** ** Programming is not refused on bytes that are not erased, as the simulated
    flash (C09) refuses it; the NVM layer checks first (wh_FlashUnit_Program). *)
Theorem C70_blank_refuted : exists x F off d,
  length F = max_offset x /\ f_unlocked x = true /\
  blank_check x (fun _ => None) F off (length d) = NOTBLANK /\
  program x None F off (length d) (Some d) = (OK, replaced F off d).
Proof. exists (mkF 1 255 true), [0; 0]%N, 0, [7]%N. repeat split; reflexivity. Qed.
Print Assumptions C70_blank_refuted.
End FileFlashExamples.
