(** C71: processes that share memory agree on where everything lies in it. *)
From Verif Require Import ShmModel ShmSpec ShmProof.
Local Open Scope N_scope.

(** Whatever processes run and however they take turns, fail or die: a process that
    uses an object finds the areas where the configuration of the server that made it
    puts them; they do not overlap and end inside the object; and a server finds its
    own configuration. *)
Theorem C71_layout : forall s k o v, reachable s ->
  (forall k' c p, y_proc s k' = PServer c p -> addressable c) ->
  uses (y_proc s k) o v ->
  exists k' c p, y_proc s k' = PServer c p /\ v = layout c /\
    (forall c0 p0, y_proc s k = PServer c0 p0 -> c0 = c) /\
    sound_view (o_size (obj_at (y_objs s) o)) v.
Proof.
  intros s k o v R AD U. pose proof (inv_reachable s R) as I.
  assert (SV : forall c, addressable c -> full c (obj_at (y_objs s) o) -> sound_view (o_size (obj_at (y_objs s) o)) (layout c)).
  { intros c A (F & _). rewrite F. fold (T c). rewrite total_nz by auto. unfold sound_view, layout; cbn. lia. }
  destruct U as [E|(c & E)].
  - destruct (i_cli s I k _ E) as [[L S] ->]. destruct (i_made s I o L S) as (k' & c & p & E' & F).
    exists k', c, p. rewrite (full_cview c _ F), (cview_layout c (AD _ _ _ E')).
    split; [auto|]. split; [auto|]. split; [rewrite E; discriminate|]. apply SV; auto. exact (AD _ _ _ E').
  - assert (exists p, y_proc s k = PServer c p /\ v = cview c /\ full c (obj_at (y_objs s) o)) as (p & E' & -> & F).
    { destruct E as [E|E]; eexists; (split; [exact E|]); destruct (i_srv s I k c _ E) as [[_ (_ & F & V & _)] _]; auto. }
    exists k, c, p. rewrite (cview_layout c (AD _ _ _ E')).
    split; [auto|]. split; [auto|]. split; [intros c0 p0 X; rewrite E' in X; injection X as <- <-; auto|].
    apply SV; auto. exact (AD _ _ _ E').
Qed.

(** Two processes that use the same object find the same areas, and at most one of
    them is a server. *)
Theorem C71_agree : forall s k1 k2 o v1 v2, reachable s ->
  uses (y_proc s k1) o v1 -> uses (y_proc s k2) o v2 ->
  v1 = v2 /\ (forall c1 c2 p1 p2, y_proc s k1 = PServer c1 p1 -> y_proc s k2 = PServer c2 p2 -> k1 = k2).
Proof.
  intros s k1 k2 o v1 v2 R U1 U2. pose proof (inv_reachable s R) as I.
  assert (V : forall k v, uses (y_proc s k) o v -> v = view_of (obj_at (y_objs s) o)).
  { intros k v [E|(c & [E|E])].
    - apply (i_cli s I k _ E).
    - destruct (i_srv s I k c _ E) as [[_ (_ & F & -> & _)] _]. symmetry. apply full_cview; auto.
    - destruct (i_srv s I k c _ E) as [[_ (_ & F & -> & _)] _]. symmetry. apply full_cview; auto. }
  split. { rewrite (V _ _ U1), (V _ _ U2). auto. }
  intros c1 c2 p1 p2 E1 E2.
  assert (W : forall k v c p, uses (y_proc s k) o v -> y_proc s k = PServer c p -> own p = Some o).
  { intros k v c p [E|(c' & [E|E])] X; rewrite E in X; try discriminate; injection X as <- <-; reflexivity. }
  eapply (i_own s I k1 k2); eauto.
Qed.

(** A server takes itself for connected only if some client has announced itself on
    the very object this server made. *)
Theorem C71_connected : forall s k c o v, reachable s ->
  y_proc s k = PServer c (SInit o v) -> exists k', announced (y_proc s k') o.
Proof. intros s k c o v R E. exact (i_conn s (inv_reachable s R) k c o v E). Qed.

(** Once a client uses an object, its name is gone: whatever happens then, with or
    without processes that write the header as they like, a process that has not
    opened the object never gets it. *)
Theorem C71_name_gone : forall s k o v acts k', reachable s ->
  y_proc s k = PClient (CInit o v) ->
  y_name (run acts s) <> Some o /\ (opened (y_proc (run acts s) k') o -> opened (y_proc s k') o \/ announced (y_proc s k') o).
Proof.
  intros s k o v acts k' R E. pose proof (inv_reachable s R) as I.
  assert (N : y_name s <> Some o) by (apply (i_unl s I k _ o E); reflexivity).
  assert (L : (o < length (y_objs s))%nat) by (destruct (i_cli s I k _ E) as [[L _] _]; auto).
  split; [apply run_name; auto|]. intros O. apply (run_touched acts s o k' L N). left; exact O.
Qed.

(** A process that uses an object keeps finding the areas where they were until it
    cleans up itself, even if another process writes whatever it likes over the
    header. *)
Theorem C71_view_kept : forall acts s k o v, uses (y_proc s k) o v -> ~ In (Act k Clean) acts -> uses (y_proc (run acts s) k) o v.
Proof. exact run_view. Qed.

(** One server and one client, no system call failing: whatever they have done so
    far, the server's 15 steps, then the client's 16, then one more of the server
    leave both connected on the layout of the configuration, in particular when the
    client started long before the server. *)
Theorem C71_pair_connects : forall s0 c acts, start s0 ->
  y_proc s0 0 = PServer c SUnlink -> y_proc s0 1 = PClient (CNone OK) ->
  c_req c <> 0 -> c_resp c <> 0 -> addressable c ->
  Forall (fun a => a = Act 0 (Go true) \/ a = Act 1 (Go true)) acts ->
  let s := run (acts ++ repeat (Act 0 (Go true)) 15 ++ repeat (Act 1 (Go true)) 16 ++ [Act 0 (Go true)]) s0 in
  y_proc s 0 = PServer c (SInit 0 (layout c)) /\ y_proc s 1 = PClient (CInit 0 (layout c)).
Proof.
  intros s0 c acts S P0 P1 Q R A F. apply pair_connects; auto.
  unfold mem_ok. rewrite (proj2 (N.eqb_neq _ _) Q), (proj2 (N.eqb_neq _ _) R). reflexivity.
Qed.

(** DMA: the server accepts an offset and a length exactly if they lie in its area,
    and then works on those very bytes. *)
Theorem C71_server_dma : forall dma size addr len, dma <> 0 -> 0 < size ->
  (fst (server_dma dma size addr len) = OK <-> addr + len <= size) /\
  (addr + len <= size -> server_dma dma size addr len = (OK, Some (dma + addr))) /\
  (forall p, snd (server_dma dma size addr len) = Some p -> dma <= p /\ p + len <= dma + size).
Proof.
  intros dma size addr len D S. unfold server_dma. rewrite (proj2 (N.eqb_neq _ _) D).
  rewrite (proj2 (N.eqb_neq size 0)) by lia. cbn [orb].
  destruct (N.ltb_spec size len); cbn [orb fst snd].
  { repeat split; try discriminate; lia. }
  destruct (N.ltb_spec (size - len) addr); cbn [fst snd].
  { repeat split; try discriminate; lia. }
  repeat split; auto; try lia; match goal with H : Some _ = Some _ |- _ => injection H as <-; lia | |- _ => intros x [= <-]; lia end.
Qed.

Definition apart (a la b lb : N) : Prop := a + la <= b \/ b + lb <= a.

(** A client's buffer outside the area, with a heap inside it: before the request the
    server is given an offset at which it finds the client's bytes, and nothing but
    the bytes the heap gave out changes; the server accepts that offset; and after
    the request, whatever the server has left in the area, the buffer holds what is
    at that offset, and nothing else of the client's has changed. *)
Theorem C71_dma_copied : forall dma size got m op addr len, dma <> 0 -> addr <> 0 -> 0 < len ->
  dma <= got -> got + len <= dma + size -> apart addr len dma size ->
  (op = ReadPre \/ op = WritePre) ->
  exists off m1, client_dma dma size true got m op addr len 0 = (OK, off, m1) /\
    off + len <= size /\
    (forall i, i < len -> m_shared m1 (off + i) = load dma size m (addr + i)) /\
    (forall a, a < got \/ got + len <= a -> load dma size m1 a = load dma size m a) /\
    forall sh, let m2 := mkCM sh (m_private m1) in
      (exists m3, client_dma dma size true got m2 WritePost addr len off = (OK, off, m3) /\
        (forall i, i < len -> load dma size m3 (addr + i) = sh (off + i)) /\
        (forall a, a < addr \/ addr + len <= a -> load dma size m3 a = load dma size m2 a)) /\
      client_dma dma size true got m2 ReadPost addr len off = (OK, off, m2).
Proof.
  intros dma size got m op addr len D A L G1 G2 AP OP.
  assert (NI : (negb (dma =? 0) && (0 <? size) && (len <? size) && (dma <=? addr) && (addr <? dma + size - len)) = false).
  { destruct AP as [P|P].
    - rewrite (proj2 (N.leb_gt dma addr)) by lia. rewrite !andb_false_r. reflexivity.
    - rewrite (proj2 (N.ltb_ge addr (dma + size - len))) by lia. apply andb_false_r. }
  assert (Z : (addr =? 0) || (len =? 0) = false).
  { rewrite (proj2 (N.eqb_neq _ _) A), (proj2 (N.eqb_neq len 0)) by lia. reflexivity. }
  exists (got - dma), (copy dma size m got addr (N.to_nat len) 0).
  assert (LC : forall a, load dma size (copy dma size m got addr (N.to_nat len) 0) a =
     if (got <=? a) && (a <? got + len) then load dma size m (addr + (a - got)) else load dma size m a).
  { intros a. rewrite load_copy.
    - rewrite N.add_0_r, N2Nat.id. reflexivity.
    - rewrite N2Nat.id. intros j k J K. destruct AP; lia. }
  split.
  { unfold client_dma. rewrite Z, NI. cbn zeta. cbn [negb andb]. rewrite (proj2 (N.eqb_neq got 0)) by lia.
    destruct OP as [-> | ->]; reflexivity. }
  split; [lia|]. split.
  { intros i LI. assert (X : load dma size (copy dma size m got addr (N.to_nat len) 0) (got + i) = m_shared (copy dma size m got addr (N.to_nat len) 0) (got - dma + i)).
    { unfold load, in_area. rewrite (proj2 (N.leb_le _ _)), (proj2 (N.ltb_lt _ _)) by lia. cbn. f_equal. lia. }
    rewrite <- X, LC. rewrite (proj2 (N.leb_le _ _)), (proj2 (N.ltb_lt _ _)) by lia. cbn. f_equal. lia. }
  split.
  { intros a [P|P]; rewrite LC.
    - rewrite (proj2 (N.leb_gt _ _)) by lia. reflexivity.
    - rewrite (proj2 (N.ltb_ge _ _)) by lia. rewrite andb_false_r. reflexivity. }
  intros sh. set (m2 := mkCM sh _). split.
  - exists (copy dma size m2 addr (dma + (got - dma)) (N.to_nat len) 0). split.
    { unfold client_dma. rewrite Z, NI. reflexivity. }
    replace (dma + (got - dma)) with got by lia.
    assert (LC2 : forall a, load dma size (copy dma size m2 addr got (N.to_nat len) 0) a =
       if (addr <=? a) && (a <? addr + len) then load dma size m2 (got + (a - addr)) else load dma size m2 a).
    { intros a. rewrite load_copy.
      - rewrite N.add_0_r, N2Nat.id. reflexivity.
      - rewrite N2Nat.id. intros j k J K. destruct AP; lia. }
    split.
    + intros i LI. rewrite LC2. rewrite (proj2 (N.leb_le _ _)), (proj2 (N.ltb_lt _ _)) by lia. cbn [andb].
      unfold load, in_area. rewrite (proj2 (N.leb_le _ _)), (proj2 (N.ltb_lt _ _)) by lia. cbn. f_equal. lia.
    + intros a [P|P]; rewrite LC2.
      * rewrite (proj2 (N.leb_gt _ _)) by lia. reflexivity.
      * rewrite (proj2 (N.ltb_ge _ _)) by lia. rewrite andb_false_r. reflexivity.
  - unfold client_dma. rewrite Z, NI. reflexivity.
Qed.

(** A buffer inside the area that ends before the last byte of it is not copied: the
    server is given its offset, accepts it and works on the buffer itself, with or
    without a heap. *)
Theorem C71_dma_in_place : forall dma size heap got m op addr len xf, dma <> 0 -> 0 < len ->
  dma <= addr -> addr + len < dma + size ->
  exists off, client_dma dma size heap got m op addr len xf =
      (OK, match op with ReadPre | WritePre => off | _ => xf end, m) /\
    dma + off = addr /\ off + len <= size.
Proof.
  intros dma size heap got m op addr len xf D L A B. exists (addr - dma). split; [|lia].
  unfold client_dma. rewrite (proj2 (N.eqb_neq addr 0)), (proj2 (N.eqb_neq len 0)) by lia. cbn [orb].
  rewrite (proj2 (N.eqb_neq _ _) D), (proj2 (N.ltb_lt 0 size)), (proj2 (N.ltb_lt len size)), (proj2 (N.leb_le dma addr)),
    (proj2 (N.ltb_lt addr (dma + size - len))) by lia. cbn. destruct op; reflexivity.
Qed.

Module ShmExamples.
Definition cfg : scfg := mkC 256 128 4096.
Definition cfg2 : scfg := mkC 512 512 0.
(** Processes 0 and 2 are servers, the others clients. *)
Definition s0 : sys :=
  mkSys None [] (fun k => if Nat.eqb k 0 then PServer cfg SUnlink else if Nat.eqb k 2 then PServer cfg2 SUnlink else PClient (CNone OK)).
Lemma s0_start : start s0.
Proof.
  split; [reflexivity|]. split; [reflexivity|]. intros k. unfold s0; cbn [y_proc].
  destruct (Nat.eqb k 0); [vm_compute; auto|]. destruct (Nat.eqb k 2); [vm_compute; auto|]. reflexivity.
Qed.
Definition go (k n : nat) : list action := repeat (Act k (Go true)) n.
Lemma go_honest : forall k n, Forall honest (go k n).
Proof. intros. apply Forall_forall. intros a H. apply repeat_spec in H. subst. exact I. Qed.
Ltac honest := repeat apply Forall_app; repeat split; try apply go_honest; repeat constructor.

(** The hypotheses are met: server and client connected through object 0. *)
Example C71_met :
  let s := run (go 1 3 ++ go 0 15 ++ go 1 16 ++ go 0 1) s0 in
  reachable s /\ uses (y_proc s 0) 0 (layout cfg) /\ uses (y_proc s 1) 0 (layout cfg) /\
  y_proc s 0 = PServer cfg (SInit 0 (layout cfg)) /\ y_proc s 1 = PClient (CInit 0 (layout cfg)) /\ addressable cfg /\
  o_size (obj_at (y_objs s) 0) = 4544.
Proof.
  cbn zeta. split. { exists s0, (go 1 3 ++ go 0 15 ++ go 1 16 ++ go 0 1). split; [exact s0_start|]. split; [|reflexivity].
    repeat (apply Forall_app; split); apply go_honest. }
  split; [right; exists cfg; right; vm_compute; reflexivity|]. split; [left; vm_compute; reflexivity|].
  repeat split; vm_compute; reflexivity.
Qed.

(** Not so: that an object has one client.  Two clients that open it before the first
    removes the name both take it for theirs, and share one request buffer. *)
Theorem C71_one_client_refuted :
  exists s o v, reachable s /\ y_proc s 1 = PClient (CInit o v) /\ y_proc s 3 = PClient (CInit o v).
Proof.
  set (acts := go 0 15 ++ go 1 4 ++ go 3 4 ++ go 1 12 ++ go 3 12).
  exists (run acts s0), O, (layout cfg). split.
  { exists s0, acts. split; [exact s0_start|]. split; [|reflexivity]. unfold acts. repeat (apply Forall_app; split); apply go_honest. }
  split; vm_compute; reflexivity.
Qed.

(** Not so: that a server which came up can be reached.  A client that has opened the
    object of an earlier server removes the name after a new server has made its own
    object: then no client ever connects to the new server, whatever anyone does. *)
Theorem C71_reachable_refuted :
  exists s o v, reachable s /\ y_proc s 2 = PServer cfg2 (SMapped o v) /\
  forall acts, Forall honest acts ->
    (forall k v', y_proc (run acts s) k <> PClient (CInit o v')) /\
    (forall v', y_proc (run acts s) 2 <> PServer cfg2 (SInit o v')).
Proof.
  set (pre := go 0 15 ++ go 1 11 ++ go 2 15 ++ go 1 5).
  assert (RP : reachable (run pre s0)).
  { exists s0, pre. split; [exact s0_start|]. split; [|reflexivity]. unfold pre. repeat (apply Forall_app; split); apply go_honest. }
  assert (PR : forall k, y_proc (run pre s0) k = if Nat.eqb k 0 then PServer cfg (SMapped 0 (layout cfg)) else
     if Nat.eqb k 2 then PServer cfg2 (SMapped 1 (layout cfg2)) else
     if Nat.eqb k 1 then PClient (CInit 0 (layout cfg)) else PClient (CNone OK)).
  { intros k. destruct k as [|[|[|k]]]; vm_compute; reflexivity. }
  assert (NT : forall k, ~ touched (y_proc (run pre s0) k) 1).
  { intros k. rewrite PR. destruct (Nat.eqb k 0); [|destruct (Nat.eqb k 2); [|destruct (Nat.eqb k 1)]];
      intros [(q & [= <-] & X)|(q & [= <-] & X)]; cbn in X; try contradiction; discriminate. }
  assert (LN : length (y_objs (run pre s0)) = 2%nat) by (vm_compute; reflexivity).
  assert (NM : y_name (run pre s0) = None) by (vm_compute; reflexivity).
  exists (run pre s0), 1%nat, (layout cfg2). split; [exact RP|]. split; [rewrite PR; reflexivity|].
  intros acts F.
  assert (NT' : forall k, ~ touched (y_proc (run acts (run pre s0)) k) 1).
  { intros k T0. apply (NT k). apply (run_touched acts (run pre s0) 1 k); [lia|congruence|exact T0]. }
  split.
  - intros k v' E. apply (NT' k). left. exists (CInit 1 v'). split; [exact E|reflexivity].
  - intros v' E.
    assert (R' : reachable (run acts (run pre s0))).
    { destruct RP as (s1 & a1 & S1 & F1 & ->). exists s1, (a1 ++ acts). split; auto. split; [apply Forall_app; auto|]. rewrite run_app. auto. }
    destruct (i_conn _ (inv_reachable _ R') 2%nat cfg2 1%nat v' E) as (k & A). apply (NT' k). right; exact A.
Qed.

(** Not so: that a server's areas lie in its object whatever the other side does.  A
    process that writes the header between the server's publishing it and reading it
    again makes the server place its areas outside. *)
Theorem C71_hostile_refuted :
  exists s0 acts o v, start s0 /\ y_proc (run acts s0) 0 = PServer cfg (SMapped o v) /\
  o_size (obj_at (y_objs (run acts s0)) o) < v_resp v + v_resplen v.
Proof.
  exists s0, (go 0 9 ++ [Rogue 0 (mkH 2 65535 65535 4096 0 0)] ++ go 0 6), O,
    (mkV 4544 65599 131134 4096 65535 65535).
  split; [exact s0_start|]. split; vm_compute; reflexivity.
Qed.

(** The hypotheses of the DMA theorems are met. *)
Example C71_dma_met :
  apart 1000 32 65536 4096 /\ (65536 <= 65600 /\ 65600 + 32 <= 65536 + 4096) /\
  client_dma 65536 4096 false 0 (mkCM (fun k => k) (fun k => k)) ReadPre 65600 32 0 = (OK, 64, mkCM (fun k => k) (fun k => k)).
Proof. split; [left; lia|]. split; [lia|]. vm_compute. reflexivity. Qed.

(** Not so: that every buffer inside the area is used in place.  One that ends exactly
    where the area ends is not recognised, and without a heap refused. *)
Theorem C71_area_end_refuted : forall m,
  exists dma size addr len, dma <= addr /\ addr + len = dma + size /\ 0 < len /\
  client_dma dma size false 0 m ReadPre addr len 0 = (NOTREADY, 0, m).
Proof. intros m. exists 65536, 4096, 69600, 32. repeat split; try lia; vm_compute; try reflexivity; discriminate. Qed.

(** Not so: that the server sees no buffer where the client gave none.  A null buffer
    with a length is sent as offset 0, which the server takes for the first bytes of
    the area. *)
Theorem C71_null_refuted : forall m heap got,
  exists dma size len, 0 < len /\
  client_dma dma size heap got m WritePre 0 len 0 = (OK, 0, m) /\
  server_dma dma size 0 len = (OK, Some dma).
Proof. intros m heap got. exists 65536, 4096, 32. repeat split; vm_compute; reflexivity. Qed.
End ShmExamples.

Print Assumptions C71_layout.
Print Assumptions C71_agree.
Print Assumptions C71_connected.
Print Assumptions C71_name_gone.
Print Assumptions C71_view_kept.
Print Assumptions C71_pair_connects.
Print Assumptions C71_server_dma.
Print Assumptions C71_dma_copied.
Print Assumptions C71_dma_in_place.
Print Assumptions ShmExamples.C71_one_client_refuted.
Print Assumptions ShmExamples.C71_reachable_refuted.
Print Assumptions ShmExamples.C71_hostile_refuted.
Print Assumptions ShmExamples.C71_area_end_refuted.
Print Assumptions ShmExamples.C71_null_refuted.
