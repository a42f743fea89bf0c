(** What the cache operations do to what is found under an id. *)
From Verif Require Import Base NvmSpec Flags KeyId Store NvmReqModel KsModel.
Local Open Scope N_scope.

Definition flat (c : cache) : list slot := c_reg c ++ c_big c.
(** No key is cached twice (id 0 marks an empty slot). *)
Definition nz_ids (l : list slot) : list N := filter (fun i => negb (N.eqb i 0)) (map sl_id l).
Definition wf_cache (c : cache) : Prop := NoDup (nz_ids (flat c)).

Lemma find_app_l {A} (p : A -> bool) l1 l2 : find p (l1 ++ l2) =
  match find p l1 with Some x => Some x | None => find p l2 end.
Proof. induction l1 as [|x l IH]; cbn [app find]; auto. destruct (p x); auto. Qed.
Lemma cfind_flat c id : cfind c id = find (is_id id) (flat c).
Proof. unfold cfind, flat. rewrite find_app_l. reflexivity. Qed.

Lemma upd_some p f : forall l l', upd p f l = Some l' ->
  exists a x b, l = a ++ x :: b /\ l' = a ++ f x :: b /\ p x = true /\ find p l = Some x.
Proof.
  induction l as [|y l IH]; cbn [upd find]; intros l' H; [discriminate|].
  destruct (p y) eqn:E.
  - injection H as <-. exists [], y, l. auto.
  - destruct (upd p f l) eqn:U; [|discriminate]. injection H as <-.
    destruct (IH _ eq_refl) as (a & x & b & -> & -> & P & F). exists (y :: a), x, b. auto.
Qed.
Lemma upd_none p f l : upd p f l = None <-> find p l = None.
Proof.
  induction l as [|y l IH]; cbn [upd find]; [tauto|]. destruct (p y); [split; discriminate|].
  rewrite <- IH. destruct (upd p f l); split; auto; discriminate.
Qed.

(** One slot replaced. *)
Definition repl (c c' : cache) (x y : slot) : Prop :=
  exists a b, flat c = a ++ x :: b /\ flat c' = a ++ y :: b.

Lemma nz_app a b : nz_ids (a ++ b) = nz_ids a ++ nz_ids b.
Proof. unfold nz_ids. rewrite map_app, filter_app. reflexivity. Qed.
Lemma nz_cons x b : nz_ids (x :: b) = (if N.eqb (sl_id x) 0 then [] else [sl_id x]) ++ nz_ids b.
Proof. unfold nz_ids. cbn [map filter]. destruct (N.eqb (sl_id x) 0); reflexivity. Qed.
Lemma in_nz i l : In i (nz_ids l) <-> i <> 0 /\ exists s, In s l /\ sl_id s = i.
Proof.
  unfold nz_ids. rewrite filter_In, in_map_iff, Bool.negb_true_iff, N.eqb_neq.
  split; [intros [(s & E & I) N]|intros (N & s & I & E)]; split; eauto.
Qed.
Lemma find_none_nz i l : i <> 0 -> (find (is_id i) l = None <-> ~ In i (nz_ids l)).
Proof.
  intros NZ. rewrite in_nz. split.
  - intros F (_ & s & I & E). apply (find_none _ _ F) in I. unfold is_id in I. apply N.eqb_neq in I. auto.
  - intros H. destruct (find (is_id i) l) as [s|] eqn:F; auto. exfalso. apply H. split; auto. exists s.
    apply find_some in F as [I P]. split; auto. apply N.eqb_eq, P.
Qed.
Lemma find_in_id i l s : find (is_id i) l = Some s -> In s l /\ sl_id s = i.
Proof. intros F. apply find_some in F as [I P]. split; auto. apply N.eqb_eq, P. Qed.

Lemma wf_repl c c' x y : wf_cache c -> repl c c' x y ->
  sl_id y = 0 \/ sl_id y = sl_id x \/ cfind c (sl_id y) = None -> wf_cache c'.
Proof.
  unfold wf_cache. intros W (a & b & E & E') H. rewrite cfind_flat in H. rewrite E in W, H. rewrite E'.
  rewrite nz_app, nz_cons in W |- *.
  assert (WA : NoDup (nz_ids a ++ nz_ids b)).
  { destruct (N.eqb (sl_id x) 0); auto. apply NoDup_remove_1 in W. exact W. }
  destruct (N.eqb_spec (sl_id y) 0) as [Z|NZ]; [exact WA|]. cbn [app].
  apply NoDup_Add with (a := sl_id y) (l := nz_ids a ++ nz_ids b); [apply Add_app|]. split; auto.
  rewrite <- nz_app. destruct H as [H|[H|H]]; [congruence| |].
  - rewrite nz_app. destruct (N.eqb_spec (sl_id x) 0); [congruence|]. cbn [app] in W. rewrite H. apply NoDup_remove_2 in W. exact W.
  - apply (find_none_nz _ _ NZ) in H. rewrite nz_app, nz_cons in H. rewrite nz_app, in_app_iff in *.
    rewrite !in_app_iff in H. tauto.
Qed.

Lemma find_repl c c' x y j : wf_cache c -> wf_cache c' -> repl c c' x y -> j <> 0 ->
  cfind c' j = if N.eqb j (sl_id y) then Some y else if N.eqb j (sl_id x) then None else cfind c j.
Proof.
  intros W W' (a & b & E & E') NZ. unfold wf_cache in *. rewrite !cfind_flat. rewrite E in *. rewrite E' in *.
  rewrite !find_app_l. cbn [find]. unfold is_id at 2 5.
  destruct (N.eqb_spec j (sl_id y)) as [->|NY].
  - rewrite N.eqb_refl. destruct (find (is_id (sl_id y)) a) eqn:F; auto. exfalso.
    rewrite nz_app, nz_cons in W'. destruct (N.eqb_spec (sl_id y) 0); [contradiction|]. cbn [app] in W'.
    apply NoDup_remove_2 in W'. apply W'. apply in_app_iff. left. apply in_nz. split; auto.
    apply find_in_id in F as [I S]. eauto.
  - destruct (N.eqb_spec (sl_id y) j); [congruence|].
    destruct (N.eqb_spec j (sl_id x)) as [->|NX].
    + assert (NI : ~ In (sl_id x) (nz_ids a ++ nz_ids b)).
      { rewrite nz_app, nz_cons in W. destruct (N.eqb_spec (sl_id x) 0); [contradiction|]. cbn [app] in W.
        apply NoDup_remove_2 in W. exact W. }
      rewrite in_app_iff in NI.
      replace (find (is_id (sl_id x)) a) with (@None slot).
      * apply find_none_nz; auto.
      * symmetry. apply find_none_nz; auto.
    + destruct (N.eqb_spec (sl_id x) j); [congruence|]. reflexivity.
Qed.

(** Changing the slot of an id. *)
Lemma cupd_repl id f c s : cfind c id = Some s -> repl c (cupd id f c) s (f s).
Proof.
  unfold cfind, cupd, repl, flat. intros F.
  destruct (upd (is_id id) f (c_reg c)) as [r|] eqn:U.
  - destruct (upd_some _ _ _ _ U) as (a & x & b & E & E' & _ & FX). rewrite FX in F. injection F as <-.
    exists a, (b ++ c_big c). cbn [c_reg c_big]. rewrite E, E', <- !app_assoc. auto.
  - apply upd_none in U. rewrite U in F.
    destruct (upd (is_id id) f (c_big c)) as [r|] eqn:U2.
    + destruct (upd_some _ _ _ _ U2) as (a & x & b & E & E' & _ & FX). rewrite FX in F. injection F as <-.
      exists (c_reg c ++ a), b. cbn [c_reg c_big]. rewrite E, E', <- !app_assoc. auto.
    + apply upd_none in U2. congruence.
Qed.
Lemma cupd_none id f c : cfind c id = None -> cupd id f c = c.
Proof.
  unfold cfind, cupd. intros F. destruct (find (is_id id) (c_reg c)) eqn:F1; [discriminate|].
  rewrite (proj2 (upd_none _ f _) F1), (proj2 (upd_none _ f _) F). reflexivity.
Qed.
Lemma cfind_id c id s : cfind c id = Some s -> sl_id s = id.
Proof. rewrite cfind_flat. intros F. apply find_in_id in F as [_ E]. exact E. Qed.

Lemma cupd_wf id f c : wf_cache c -> (forall s, sl_id s = id -> sl_id (f s) = id \/ sl_id (f s) = 0) -> wf_cache (cupd id f c).
Proof.
  intros W H. destruct (cfind c id) as [s|] eqn:F; [|rewrite cupd_none; auto].
  pose proof (cfind_id _ _ _ F) as I.
  apply (wf_repl c _ s (f s) W (cupd_repl _ _ _ _ F)). destruct (H s I); [right; left; congruence|left; auto].
Qed.
Lemma cupd_find id f c j : wf_cache c -> j <> 0 -> (forall s, sl_id s = id -> sl_id (f s) = id) ->
  cfind (cupd id f c) j = if N.eqb j id then option_map f (cfind c j) else cfind c j.
Proof.
  intros W NZ H. destruct (cfind c id) as [s|] eqn:F.
  - pose proof (cfind_id _ _ _ F) as I.
    rewrite (find_repl c (cupd id f c) s (f s) j W (cupd_wf _ _ _ W (fun s E => or_introl (H s E))) (cupd_repl _ _ _ _ F) NZ).
    rewrite (H s I), I. destruct (N.eqb_spec j id) as [->|]; auto. rewrite F. reflexivity.
  - rewrite cupd_none by auto. destruct (N.eqb_spec j id) as [->|]; auto. rewrite F. reflexivity.
Qed.

Lemma evict_wf c id : wf_cache c -> wf_cache (evict c id).
Proof. intros W. apply cupd_wf; auto. Qed.
Lemma evict_find c id j : wf_cache c -> j <> 0 ->
  cfind (evict c id) j = if N.eqb j id then None else cfind c j.
Proof.
  intros W NZ. unfold evict. destruct (cfind c id) as [s|] eqn:F.
  - pose proof (cfind_id _ _ _ F) as I.
    rewrite (find_repl c (cupd id evict_slot c) s (evict_slot s) j W (evict_wf _ _ W) (cupd_repl _ _ _ _ F) NZ).
    rewrite I. change (sl_id (evict_slot s)) with 0. destruct (N.eqb_spec j 0); [contradiction|]. reflexivity.
  - rewrite cupd_none by auto. destruct (N.eqb_spec j id) as [->|]; auto.
Qed.

Lemma mark_wf b id c : wf_cache c -> wf_cache (mark b id c).
Proof. intros W. apply cupd_wf; auto. Qed.
Lemma mark_find b id c j : wf_cache c -> j <> 0 ->
  cfind (mark b id c) j = if N.eqb j id then option_map (fun s => mkSlot (sl_meta s) (sl_buf s) b) (cfind c j) else cfind c j.
Proof. intros W NZ. apply cupd_find; auto. Qed.

(** Obtaining a slot. *)
Lemma place_repl s l l' : place s l = Some l' ->
  exists a x b, l = a ++ x :: b /\ l' = a ++ s :: b /\ (sl_id x = 0 \/ sl_comm x = true).
Proof.
  unfold place. intros H. destruct (upd (is_id 0) (fun _ => s) l) eqn:U.
  - injection H as <-. destruct (upd_some _ _ _ _ U) as (a & x & b & E & E' & P & _). exists a, x, b.
    split; auto. split; auto. left. apply N.eqb_eq, P.
  - destruct (upd_some _ _ _ _ H) as (a & x & b & E & E' & P & _). exists a, x, b. auto.
Qed.
Lemma alloc_repl C sz s c c' : alloc C sz s c = Some c' ->
  exists x, repl c c' x s /\ (sl_id x = 0 \/ sl_comm x = true).
Proof.
  unfold alloc, repl, flat. destruct (sz <=? bufsz C).
  - destruct (place s (c_reg c)) as [r|] eqn:P; cbn [option_map]; [|discriminate]. intros H; injection H as <-.
    destruct (place_repl _ _ _ P) as (a & x & b & E & E' & V). exists x. split; auto.
    exists a, (b ++ c_big c). cbn [c_reg c_big]. rewrite E, E', <- !app_assoc. auto.
  - destruct (place s (c_big c)) as [r|] eqn:P; cbn [option_map]; [|discriminate]. intros H; injection H as <-.
    destruct (place_repl _ _ _ P) as (a & x & b & E & E' & V). exists x. split; auto.
    exists (c_reg c ++ a), b. cbn [c_reg c_big]. rewrite E, E', <- !app_assoc. auto.
Qed.
Lemma alloc_wf C sz s c c' : wf_cache c -> alloc C sz s c = Some c' -> (sl_id s = 0 \/ cfind c (sl_id s) = None) -> wf_cache c'.
Proof. intros W A H. destruct (alloc_repl _ _ _ _ _ A) as (x & R & _). apply (wf_repl c c' x s); auto. tauto. Qed.

Lemma in_flat_find c s : wf_cache c -> In s (flat c) -> sl_id s <> 0 -> cfind c (sl_id s) = Some s.
Proof.
  rewrite cfind_flat. unfold wf_cache. intros W I NZ. apply in_split in I as (a & b & E). rewrite E in *.
  rewrite find_app_l. cbn [find]. unfold is_id at 2. rewrite N.eqb_refl.
  rewrite nz_app, nz_cons in W. destruct (N.eqb_spec (sl_id s) 0); [contradiction|]. cbn [app] in W.
  apply NoDup_remove_2 in W. rewrite in_app_iff in W.
  replace (find (is_id (sl_id s)) a) with (@None slot); auto. symmetry. apply find_none_nz; auto.
Qed.

Definition dropped (o o' : option slot) : Prop := o' = None /\ exists s, o = Some s /\ sl_comm s = true.

Lemma alloc_find C sz s c c' j : wf_cache c -> alloc C sz s c = Some c' -> (sl_id s = 0 \/ cfind c (sl_id s) = None) -> j <> 0 ->
  (j = sl_id s /\ cfind c' j = Some s) \/
  (j <> sl_id s /\ (cfind c' j = cfind c j \/ dropped (cfind c j) (cfind c' j))).
Proof.
  intros W A H NZ. pose proof (alloc_wf _ _ _ _ _ W A H) as W'. destruct (alloc_repl _ _ _ _ _ A) as (x & R & V).
  rewrite (find_repl c c' x s j W W' R NZ). destruct (N.eqb_spec j (sl_id s)); [left; auto|]. right. split; auto.
  destruct (N.eqb_spec j (sl_id x)) as [->|]; auto. right. split; auto.
  destruct V as [V|V]; [contradiction|]. exists x. split; auto. apply in_flat_find; auto.
  destruct R as (a & b & E & _). rewrite E. apply in_elt.
Qed.

(** When no slot is obtained: every slot of that size is in use by an
    uncommitted key. *)
Lemma place_none s l : place s l = None <-> Forall (fun x => sl_id x <> 0 /\ sl_comm x = false) l.
Proof.
  unfold place. destruct (upd (is_id 0) (fun _ => s) l) eqn:U.
  - split; [discriminate|]. intros F. destruct (upd_some _ _ _ _ U) as (a & x & b & -> & _ & P & _).
    apply Forall_elt in F as [F _]. exfalso. apply F. apply N.eqb_eq, P.
  - apply upd_none in U. rewrite upd_none. split.
    + intros F. apply Forall_forall. intros x I. split.
      * apply (find_none _ _ U) in I. apply N.eqb_neq, I.
      * apply (find_none _ _ F) in I. exact I.
    + intros F. destruct (find sl_comm l) eqn:G; auto. apply find_some in G as [I P].
      rewrite Forall_forall in F. destruct (F _ I). congruence.
Qed.
