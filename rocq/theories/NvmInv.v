(** Entries of a partition directory, the RAM directory they give, and the pure
    part of the proofs about nfMemDirectory_Parse and lookups. *)
From Verif Require Import Base Flash BaseLemmas NvmFlashModel NvmSpec.

(** What a directory slot that is not free can hold: a completed object, an
    object whose data is not complete, an object whose metadata is not complete. *)
Inductive entry :=
| EUsed (ep : N) (m : meta) (d : list N)
| EData (ep : N) (m : meta)
| EMeta.

Definition esize (e : entry) : nat :=
  match e with
  | EUsed _ _ d => units (length d)
  | EData _ m => units (N.to_nat (m_len m))
  | EMeta => 0
  end.
Definition total (es : list entry) : nat := fold_right (fun e n => esize e + n) 0 es.

Lemma total_app a b : total (a ++ b) = total a + total b.
Proof.
  unfold total. induction a as [|e a IH]; cbn [app fold_right]; [auto|]. rewrite IH; lia.
Qed.
Lemma total_cons e b : total (e :: b) = esize e + total b.
Proof. reflexivity. Qed.

Ltac tup := repeat match goal with
  | |- Some _ = Some _ => f_equal
  | |- (_, _) = (_, _) => f_equal
  end; try reflexivity; try lia.

Section Inv.
Variable C : cfg.
Notation OC := (c_oc C).
Definition dmax : nat := c_pu C - data_offset C.

Definition crcm (m : meta) : N := if c_crc C then crc16 CRC_INIT (meta_bytes m) else 0%N.
Definition crcd (d : list N) : N := if c_crc C then crc16 CRC_INIT d else 0%N.

(** RAM image of an entry whose data starts at [start]. *)
Definition raw (start : nat) (e : entry) : mobj :=
  match e with
  | EUsed ep m d => mkMO (mkMS Used ep start (units (length d)) (crcm m) (crcd d)) m
  | EData ep m => mkMO (mkMS DataBad ep start 0 (crcm m) 0) m
  | EMeta => mkMO (ms_zero MetaBad) meta_zero
  end.
Definition free_obj : mobj := mkMO (ms_zero Free) meta_zero.

Definition eused (e : entry) : bool := match e with EUsed _ _ _ => true | _ => false end.
Definition eid (e : entry) : N := match e with EUsed _ m _ => m_id m | _ => 0%N end.

(** [e] is a completed object with id [id]. *)
Definition is_id (id : N) (e : entry) : bool := eused e && N.eqb (eid e) id.
(** Object [e] is replaced by a later one of [r], or its id is in [K]. *)
Definition dead (K : list N) (e : entry) (r : list entry) : bool :=
  eused e && (existsb (is_id (eid e)) r || existsb (N.eqb (eid e)) K).

Fixpoint mk (K : list N) (start : nat) (es : list entry) : list mobj :=
  match es with
  | [] => []
  | e :: r => (if dead K e r then set_st (raw start e) DataBad else raw start e)
              :: mk K (start + esize e) r
  end.

(** Objects that are current. *)
Fixpoint livek (K : list N) (es : list entry) : store :=
  match es with
  | [] => []
  | e :: r => match e with
              | EUsed _ m d => if dead K e r then livek K r else (m, d) :: livek K r
              | _ => livek K r
              end
  end.
Definition live (es : list entry) : store := livek [] es.

(** Entries that can be reclaimed and the units they hold. *)
Fixpoint nbad (K : list N) (es : list entry) : nat :=
  match es with
  | [] => 0
  | e :: r => (if eused e && negb (dead K e r) then 0 else 1) + nbad K r
  end.
Fixpoint ubad (K : list N) (es : list entry) : nat :=
  match es with
  | [] => 0
  | e :: r => (if eused e && negb (dead K e r) then 0 else esize e) + ubad K r
  end.

Definition frees (es : list entry) : list mobj := repeat free_obj (OC - length es).
Definition dir_of (es : list entry) : mdir :=
  mkMD (mk [] 0 es ++ frees es) (length es) (total es) (nbad [] es) (ubad [] es) dmax.

Lemma mk_length K start es : length (mk K start es) = length es.
Proof. revert start; induction es as [|e r IH]; intros; cbn [mk length]; auto. Qed.

(** ** Accounting *)
Lemma nbad_live K es : nbad K es + length (livek K es) = length es.
Proof.
  induction es as [|e r IH]; cbn [nbad livek length]; [auto|].
  destruct e as [ep m d|ep m|]; cbn [eused andb]; [|lia|lia].
  destruct (dead K (EUsed ep m d) r); cbn [negb length]; lia.
Qed.
Lemma ubad_live K es : ubad K es + sp_units (livek K es) = total es.
Proof.
  unfold sp_units, total in *.
  induction es as [|e r IH]; cbn [ubad livek fold_right]; [auto|].
  destruct e as [ep m d|ep m|]; cbn [eused andb]; [|lia|lia].
  destruct (dead K (EUsed ep m d) r); cbn [negb fold_right snd]; cbn [esize]; lia.
Qed.

(** ** Appending an entry *)
Lemma dead_snoc K e r x : eused x = false -> dead K e (r ++ [x]) = dead K e r.
Proof.
  intros H. unfold dead. rewrite existsb_app. cbn [existsb]. unfold is_id at 2. rewrite H.
  cbn [andb]. rewrite !orb_false_r. reflexivity.
Qed.
Lemma dead_snoc_used K e r x : eused x = true -> dead K e (r ++ [x]) = dead (eid x :: K) e r.
Proof.
  intros H. unfold dead. rewrite existsb_app. cbn [existsb]. unfold is_id at 2. rewrite H.
  cbn [andb]. rewrite orb_false_r. rewrite (N.eqb_sym (eid x) (eid e)).
  rewrite <- orb_assoc. reflexivity.
Qed.

Definition Ksnoc (K : list N) (x : entry) : list N := if eused x then eid x :: K else K.
Lemma dead_snoc_gen K e r x : dead K e (r ++ [x]) = dead (Ksnoc K x) e r.
Proof.
  unfold Ksnoc. destruct (eused x) eqn:E; [apply dead_snoc_used|apply dead_snoc]; auto.
Qed.

Lemma mk_snoc K es x : forall start,
  mk K start (es ++ [x]) =
  mk (Ksnoc K x) start es
  ++ [if dead K x [] then set_st (raw (start + total es) x) DataBad else raw (start + total es) x].
Proof.
  induction es as [|e r IH]; intros start; cbn [app mk].
  - cbn [total fold_right]. rewrite Nat.add_0_r. reflexivity.
  - rewrite IH, dead_snoc_gen. cbn [app]. rewrite total_cons, !Nat.add_assoc. reflexivity.
Qed.
Lemma livek_snoc K es x :
  livek K (es ++ [x]) = livek (Ksnoc K x) es ++ livek K [x].
Proof.
  induction es as [|e r IH]; cbn [app]; [reflexivity|].
  destruct e as [ep m d|ep m|]; cbn [livek] in *; rewrite ?dead_snoc_gen; auto.
  rewrite IH. destruct (dead (Ksnoc K x) (EUsed ep m d) r); reflexivity.
Qed.
Lemma nbad_snoc K es x : nbad K (es ++ [x]) = nbad (Ksnoc K x) es + nbad K [x].
Proof.
  induction es as [|e r IH]; cbn [app nbad] in *; [reflexivity|].
  rewrite dead_snoc_gen, IH. lia.
Qed.
Lemma ubad_snoc K es x : ubad K (es ++ [x]) = ubad (Ksnoc K x) es + ubad K [x].
Proof.
  induction es as [|e r IH]; cbn [app ubad] in *; [reflexivity|].
  rewrite dead_snoc_gen, IH. lia.
Qed.

(** ** Killing ids = filtering *)
Lemma dead_cons_K id K e r :
  dead (id :: K) e r = dead K e r || (eused e && N.eqb (eid e) id).
Proof.
  unfold dead. cbn [existsb]. destruct (eused e); cbn [andb]; [|reflexivity].
  destruct (existsb (is_id (eid e)) r), (N.eqb (eid e) id), (existsb (N.eqb (eid e)) K); reflexivity.
Qed.

Lemma livek_cons id K es :
  livek (id :: K) es = sp_destroy [id] (livek K es).
Proof.
  induction es as [|e r IH]; [reflexivity|].
  destruct e as [ep m d|ep m|]; cbn [livek]; auto.
  rewrite dead_cons_K. cbn [eused eid andb].
  destruct (dead K (EUsed ep m d) r); cbn [orb]; auto.
  unfold sp_destroy. cbn [filter]. unfold oid at 1. cbn [fst existsb].
  rewrite orb_false_r. destruct (N.eqb (m_id m) id); cbn [negb].
  - apply IH.
  - exact (f_equal (cons (m, d)) IH).
Qed.

Lemma live_snoc_used es ep m d :
  live (es ++ [EUsed ep m d]) = sp_destroy [m_id m] (live es) ++ [(m, d)].
Proof.
  unfold live. rewrite livek_snoc. cbn [Ksnoc eused eid]. rewrite livek_cons. reflexivity.
Qed.
Lemma live_snoc_bad es x : eused x = false -> live (es ++ [x]) = live es.
Proof.
  intros H. unfold live. rewrite livek_snoc. unfold Ksnoc. rewrite H.
  destruct x; try discriminate; cbn [livek]; apply app_nil_r.
Qed.

(** ** Live objects have distinct ids *)
Lemma livek_in K es m d : In (m, d) (livek K es) ->
  exists l ep r, es = l ++ EUsed ep m d :: r /\ dead K (EUsed ep m d) r = false.
Proof.
  induction es as [|e r IH]; cbn [livek]; [intros []|].
  assert (T : In (m, d) (livek K r) ->
     exists l ep r0, e :: r = l ++ EUsed ep m d :: r0 /\ dead K (EUsed ep m d) r0 = false).
  { intros H. destruct (IH H) as (l & ep & r0 & E & D). exists (e :: l), ep, r0. subst; auto. }
  destruct e as [ep0 m0 d0|ep0 m0|]; auto.
  destruct (dead K (EUsed ep0 m0 d0) r) eqn:D; auto.
  intros [E|H]; [|auto]. inversion E; subst. exists [], ep0, r. auto.
Qed.

Lemma livek_nodup K es : NoDup (map oid (livek K es)).
Proof.
  induction es as [|e r IH]; cbn [livek]; [constructor|].
  destruct e as [ep m d|ep m|]; auto.
  destruct (dead K (EUsed ep m d) r) eqn:D; auto.
  cbn [map]. constructor; auto. intros H. apply in_map_iff in H as ((m' & d') & E & Hin).
  destruct (livek_in _ _ _ _ Hin) as (l & ep' & r' & -> & _).
  unfold dead in D. cbn [eused eid andb] in D. apply orb_false_elim in D as [D _].
  rewrite existsb_app in D. apply orb_false_elim in D as [_ D]. cbn [existsb] in D.
  apply orb_false_elim in D as [D _]. unfold is_id in D. cbn [eused eid andb] in D.
  unfold oid in E; cbn [fst] in E. rewrite E, N.eqb_refl in D. discriminate.
Qed.

(** ** Lookup *)
Lemma raw_used start e : o_used (raw start e) = eused e.
Proof. destruct e; reflexivity. Qed.
Lemma raw_id start ep m d : o_id (raw start (EUsed ep m d)) = m_id m.
Proof. reflexivity. Qed.
Lemma set_st_used o : o_used (set_st o DataBad) = false.
Proof. reflexivity. Qed.

Lemma find_idx_mk K id tl : forall es start i n, n = length es ->
  match find_idx (mk K start es ++ tl) i n id with
  | Some j => exists l ep m d r, es = l ++ EUsed ep m d :: r /\ j = i + length l /\ m_id m = id
                /\ dead K (EUsed ep m d) r = false
                /\ sp_find (livek K es) id = Some (m, d)
  | None => sp_find (livek K es) id = None
  end.
Proof.
  induction es as [|e r IH]; intros start i n ->; cbn [mk app length find_idx]; [destruct tl; reflexivity|].
  specialize (IH (start + esize e) (S i) (length r) eq_refl).
  assert (T : forall (b : bool), livek K (e :: r) = livek K r ->
     match find_idx (mk K (start + esize e) r ++ tl) (S i) (length r) id with
     | Some j => exists l ep m d r0, e :: r = l ++ EUsed ep m d :: r0 /\ j = i + length l /\ m_id m = id
                /\ dead K (EUsed ep m d) r0 = false /\ sp_find (livek K (e :: r)) id = Some (m, d)
     | None => sp_find (livek K (e :: r)) id = None
     end).
  { intros _ EL. rewrite EL. destruct (find_idx _ (S i) (length r) id) as [j|]; auto.
    destruct IH as (l & ep & m & d & r0 & -> & -> & H1 & H2 & H3).
    exists (e :: l), ep, m, d, r0. cbn [length app]. repeat split; auto; lia. }
  destruct (dead K e r) eqn:D.
  - rewrite set_st_used. cbn [andb]. apply (T true).
    destruct e; cbn [livek]; rewrite ?D; reflexivity.
  - rewrite raw_used. destruct e as [ep m d|ep m|]; cbn [eused andb]; try (apply (T true); reflexivity).
    rewrite raw_id. destruct (N.eqb_spec (m_id m) id) as [E|E].
    + exists [], ep, m, d, r. cbn [length app livek]. rewrite D. cbn [sp_find]. unfold oid; cbn [fst].
      rewrite E, N.eqb_refl. repeat split; auto; lia.
    + cbn [livek] in *. rewrite D. cbn [sp_find]. unfold oid at 1 2; cbn [fst].
      destruct (N.eqb_spec (m_id m) id); [congruence|].
      destruct (find_idx _ (S i) (length r) id) as [j|]; auto.
      destruct IH as (l & ep' & m' & d' & r0 & -> & -> & H1 & H2 & H3).
      exists (EUsed ep m d :: l), ep', m', d', r0. cbn [length app]. repeat split; auto; lia.
Qed.

Lemma find_obj_dir es id :
  match find_obj (dir_of es) id with
  | Some j => exists l ep m d r, es = l ++ EUsed ep m d :: r /\ j = length l /\ m_id m = id
                /\ dead [] (EUsed ep m d) r = false
                /\ sp_find (live es) id = Some (m, d)
  | None => sp_find (live es) id = None
  end.
Proof.
  unfold find_obj, dir_of. cbn [d_objs d_nfo].
  apply (find_idx_mk [] id (frees es) es 0 0 (length es) eq_refl).
Qed.

(** The RAM object of an entry. *)
Lemma mk_app K a b : forall start,
  mk K start (a ++ b) = firstn (length a) (mk K start (a ++ b)) ++ mk K (start + total a) b.
Proof.
  induction a as [|e a IH]; intros start; cbn [app length].
  - rewrite firstn_O. cbn [total fold_right app]. rewrite Nat.add_0_r. reflexivity.
  - cbn [mk]. cbn [firstn app]. f_equal. rewrite IH at 1. rewrite total_cons, Nat.add_assoc. reflexivity.
Qed.

Lemma nth_app_at {A} (a b : list A) n d : length a = n -> nth n (a ++ b) d = nth 0 b d.
Proof. intros <-. rewrite app_nth2, Nat.sub_diag; auto. Qed.

Lemma nth_mk K start l e r tl d :
  nth (length l) (mk K start (l ++ e :: r) ++ tl) d =
  if dead K e r then set_st (raw (start + total l) e) DataBad else raw (start + total l) e.
Proof.
  rewrite app_nth1 by (rewrite mk_length, app_length; cbn [length]; lia).
  rewrite mk_app, nth_app_at; [reflexivity|].
  rewrite firstn_length, mk_length, app_length; cbn [length]; lia.
Qed.

(** ** AddObject's incremental update of the directory *)
Lemma upd_nth_at {A} (a : list A) x y b n : length a = n -> upd_nth n y (a ++ x :: b) = a ++ y :: b.
Proof.
  intros H. unfold upd_nth. rewrite firstn_app_len, skipn_app_len by auto. reflexivity.
Qed.

Lemma mk_kill_none K id : forall es start, sp_find (livek K es) id = None ->
  mk (id :: K) start es = mk K start es.
Proof.
  induction es as [|e r IH]; intros start H; cbn [mk]; [reflexivity|].
  rewrite dead_cons_K.
  destruct (dead K e r) eqn:D; cbn [orb].
  - rewrite IH; auto. destruct e; cbn [livek] in H; rewrite ?D in H; auto.
  - destruct e as [ep m d|ep m|]; cbn [eused eid andb]; cbn [livek] in H; rewrite ?D in H;
      try (rewrite IH by auto; reflexivity).
    cbn [sp_find] in H. unfold oid in H at 1; cbn [fst] in H.
    destruct (N.eqb (m_id m) id); [discriminate|]. rewrite IH; auto.
Qed.

(** Exactly one entry changes when its id is killed. *)
Lemma mk_kill_one K l ep m d r : forall start,
  dead K (EUsed ep m d) r = false ->
  mk (m_id m :: K) start (l ++ EUsed ep m d :: r) =
  upd_nth (length l) (set_st (raw (start + total l) (EUsed ep m d)) DataBad)
          (mk K start (l ++ EUsed ep m d :: r)).
Proof.
  induction l as [|e l IH]; intros start D.
  - cbn [app length mk]. rewrite D. cbn [total fold_right]. rewrite Nat.add_0_r.
    unfold upd_nth. cbn [firstn skipn app]. rewrite dead_cons_K. cbn [eused eid]. rewrite N.eqb_refl.
    rewrite orb_true_r. f_equal.
    apply mk_kill_none.
    destruct (sp_find (livek K r) (m_id m)) as [[m' d']|] eqn:F; auto. exfalso.
    assert (Hin : In (m', d') (livek K r) /\ m_id m' = m_id m).
    { clear - F. induction (livek K r) as [|o s IH]; cbn [sp_find] in F; [discriminate|].
      destruct (N.eqb_spec (oid o) (m_id m)) as [E|E].
      - inversion F; subst. split; [left; auto|exact E].
      - destruct (IH F); split; [right; auto|auto]. }
    destruct Hin as [Hin E]. destruct (livek_in _ _ _ _ Hin) as (l & ep' & r' & -> & _).
    unfold dead in D. cbn [eused eid andb] in D. apply orb_false_elim in D as [D _].
    rewrite existsb_app in D. apply orb_false_elim in D as [_ D]. cbn [existsb] in D.
    unfold is_id at 1 in D. cbn [eused eid andb] in D. rewrite E, N.eqb_refl in D. discriminate.
  - cbn [app length mk]. rewrite IH by auto. rewrite total_cons, Nat.add_assoc.
    unfold upd_nth. cbn [firstn skipn app]. f_equal.
    rewrite dead_cons_K. destruct (dead K e (l ++ EUsed ep m d :: r)) eqn:De; [reflexivity|].
    cbn [orb]. destruct (eused e) eqn:Eu; cbn [andb]; [|reflexivity].
    destruct (N.eqb_spec (eid e) (m_id m)) as [E|E]; [|reflexivity]. exfalso.
    unfold dead in De. rewrite Eu in De. cbn [andb] in De. apply orb_false_elim in De as [De _].
    rewrite existsb_app in De. apply orb_false_elim in De as [_ De]. cbn [existsb] in De.
    unfold is_id at 1 in De. cbn [eused eid andb] in De. rewrite E, N.eqb_refl in De. discriminate.
Qed.

Lemma dead_cons_notid id K e r : eused e && N.eqb (eid e) id = false ->
  dead (id :: K) e r = dead K e r.
Proof. intros H. rewrite dead_cons_K, H. apply orb_false_r. Qed.

(** Same facts for the counters. *)
Lemma bad_kill_none K id : forall es, sp_find (livek K es) id = None ->
  nbad (id :: K) es = nbad K es /\ ubad (id :: K) es = ubad K es.
Proof.
  induction es as [|e r IH]; intros H; cbn [nbad ubad]; [auto|].
  rewrite dead_cons_K.
  destruct (dead K e r) eqn:D; cbn [orb].
  - destruct IH as [-> ->]; auto. destruct e; cbn [livek] in H; rewrite ?D in H; auto.
  - destruct e as [ep m d|ep m|]; cbn [eused eid andb]; cbn [livek] in H; rewrite ?D in H;
      try (destruct IH as [-> ->]; auto; fail).
    cbn [sp_find] in H. unfold oid in H at 1; cbn [fst] in H.
    destruct (N.eqb (m_id m) id); [discriminate|]. destruct IH as [-> ->]; auto.
Qed.

Lemma dead_false_later K ep m d r : dead K (EUsed ep m d) r = false ->
  sp_find (livek K r) (m_id m) = None.
Proof.
  intros D. destruct (sp_find (livek K r) (m_id m)) as [[m' d']|] eqn:F; auto. exfalso.
  assert (Hin : In (m', d') (livek K r) /\ m_id m' = m_id m).
  { clear - F. induction (livek K r) as [|o s IH]; cbn [sp_find] in F; [discriminate|].
    destruct (N.eqb_spec (oid o) (m_id m)) as [E|E].
    - inversion F; subst. split; [left; auto|exact E].
    - destruct (IH F); split; [right; auto|auto]. }
  destruct Hin as [Hin E]. destruct (livek_in _ _ _ _ Hin) as (l & ep' & r' & -> & _).
  unfold dead in D. cbn [eused eid andb] in D. apply orb_false_elim in D as [D _].
  rewrite existsb_app in D. apply orb_false_elim in D as [_ D]. cbn [existsb] in D.
  unfold is_id at 1 in D. cbn [eused eid andb] in D. rewrite E, N.eqb_refl in D. discriminate.
Qed.

Lemma bad_kill_one K l ep m d r :
  dead K (EUsed ep m d) r = false ->
  nbad (m_id m :: K) (l ++ EUsed ep m d :: r) = S (nbad K (l ++ EUsed ep m d :: r)) /\
  ubad (m_id m :: K) (l ++ EUsed ep m d :: r)
    = ubad K (l ++ EUsed ep m d :: r) + units (length d).
Proof.
  intros D. induction l as [|e l [IH1 IH2]]; cbn [app nbad ubad].
  - rewrite dead_cons_K, D. cbn [eused eid andb orb]. rewrite N.eqb_refl. cbn [negb].
    destruct (bad_kill_none K (m_id m) r) as [-> ->]; [eapply dead_false_later; eauto|].
    cbn [esize]. lia.
  - rewrite IH1, IH2. rewrite dead_cons_K.
    destruct (dead K e (l ++ EUsed ep m d :: r)) eqn:De; cbn [orb]; [lia|].
    destruct (eused e) eqn:Eu; cbn [andb]; [|lia].
    destruct (N.eqb_spec (eid e) (m_id m)) as [E|E]; [|lia]. exfalso.
    unfold dead in De. rewrite Eu in De. cbn [andb] in De. apply orb_false_elim in De as [De _].
    rewrite existsb_app in De. apply orb_false_elim in De as [_ De]. cbn [existsb] in De.
    unfold is_id at 1 in De. cbn [eused eid andb] in De. rewrite E, N.eqb_refl in De. discriminate.
Qed.

(** The directory AddObject leaves in RAM is the one a reload would build. *)
Lemma add_dir es ep m d :
  length es < OC ->
  (let old := find_obj (dir_of es) (m_id m) in
   let dd := dir_of es in
   let os := upd_nth (d_nfo dd)
               (mkMO (mkMS Used ep (d_nfd dd) (units (length d)) (crcm m) (crcd d)) m) (d_objs dd) in
   let '(os, re, rd) :=
      match old with
      | Some i => let o := nth i os mo_zero in
                  (upd_nth i (set_st o DataBad) os, S (d_rent dd), d_rdata dd + s_count (o_st o))
      | None => (os, d_rent dd, d_rdata dd)
      end in
   mkMD os (S (d_nfo dd)) (d_nfd dd + units (length d)) re rd (d_max dd))
  = dir_of (es ++ [EUsed ep m d]).
Proof.
  intros Hlen. cbv zeta.
  pose proof (find_obj_dir es (m_id m)) as F.
  set (x := EUsed ep m d).
  assert (Hos : upd_nth (d_nfo (dir_of es))
       (mkMO (mkMS Used ep (d_nfd (dir_of es)) (units (length d)) (crcm m) (crcd d)) m)
       (d_objs (dir_of es)) = mk [] 0 es ++ raw (total es) x :: frees (es ++ [x])).
  { unfold dir_of. cbn [d_nfo d_objs d_nfd]. unfold frees.
    replace (OC - length es) with (S (OC - length (es ++ [x]))) by (rewrite app_length; cbn [length]; lia).
    cbn [repeat]. rewrite upd_nth_at by apply mk_length. reflexivity. }
  rewrite Hos. clear Hos.
  replace (dir_of (es ++ [x])) with
    (mkMD (mk [] 0 (es ++ [x]) ++ frees (es ++ [x])) (length (es ++ [x])) (total (es ++ [x]))
          (nbad [] (es ++ [x])) (ubad [] (es ++ [x])) dmax) by reflexivity.
  rewrite mk_snoc, nbad_snoc, ubad_snoc, total_app, app_length.
  cbn [Ksnoc eused eid x total fold_right esize length].
  cbn [nbad ubad]. change (dead [] x []) with false. change (eused x) with true.
  cbn [negb andb]. cbv iota. cbn [Nat.add].
  rewrite <- app_assoc. cbn [app].
  set (tl := raw (total es) x :: frees (es ++ [x])).
  destruct (find_obj (dir_of es) (m_id m)) as [j|].
  - destruct F as (l & ep' & m' & d' & r & E & -> & Eid & D & _).
    assert (Hn : nth (length l) (mk [] 0 es ++ tl) mo_zero = raw (total l) (EUsed ep' m' d'))
      by (rewrite E, nth_mk, D; reflexivity).
    assert (HU : upd_nth (length l) (set_st (raw (total l) (EUsed ep' m' d')) DataBad)
              (mk [] 0 es ++ tl) = mk [m_id m'] 0 es ++ tl).
    { clearbody tl. rewrite E, mk_kill_one by auto. cbn [Nat.add].
      set (M := mk [] 0 (l ++ EUsed ep' m' d' :: r)).
      assert (HM : length l < length M) by (unfold M; rewrite mk_length, app_length; cbn [length]; lia).
      unfold upd_nth. rewrite firstn_app, skipn_app.
      replace (length l - length M) with 0 by lia. rewrite firstn_O, skipn_O, app_nil_r.
      rewrite <- app_assoc. f_equal. destruct (skipn (length l) M) eqn:Es.
      - exfalso. assert (H : length (skipn (length l) M) = 0) by (rewrite Es; auto).
        rewrite skipn_length in H. lia.
      - reflexivity. }
    rewrite Hn, HU. destruct (bad_kill_one [] l ep' m' d' r D) as [N1 N2].
    rewrite <- E in N1, N2. rewrite <- Eid. rewrite N1, N2. unfold dir_of.
    cbn [d_nfo d_nfd d_rent d_rdata d_max s_count o_st raw].
    f_equal; lia.
  - destruct (bad_kill_none [] (m_id m) es F) as [-> ->].
    rewrite mk_kill_none by auto. unfold dir_of. cbn [d_nfo d_nfd d_rent d_rdata d_max].
    f_equal; lia.
Qed.

(** ** Parsing a directory read back from flash *)
Fixpoint raws (start : nat) (es : list entry) : list mobj :=
  match es with [] => [] | e :: r => raw start e :: raws (start + esize e) r end.
Fixpoint killK (K : list N) (start : nat) (es : list entry) : list mobj :=
  match es with
  | [] => []
  | e :: r => (if eused e && existsb (N.eqb (eid e)) K then set_st (raw start e) DataBad else raw start e)
              :: killK K (start + esize e) r
  end.
Lemma killK_nil start es : killK [] start es = raws start es.
Proof.
  revert start; induction es as [|e r IH]; intros; cbn [killK raws existsb]; auto.
  rewrite andb_false_r, IH; auto.
Qed.
Lemma killK_length K start es : length (killK K start es) = length es.
Proof. revert start; induction es as [|e r IH]; intros; cbn [killK length]; auto. Qed.
Lemma killK_snoc K x : forall es start,
  killK K start (es ++ [x]) = killK K start es ++ 
   [if eused x && existsb (N.eqb (eid x)) K then set_st (raw (start + total es) x) DataBad
    else raw (start + total es) x].
Proof.
  induction es as [|e r IH]; intros start; cbn [app killK].
  - cbn [total fold_right]. rewrite Nat.add_0_r. reflexivity.
  - rewrite IH, total_cons, Nat.add_assoc. reflexivity.
Qed.

(** forward pass *)
Fixpoint nb0 (es : list entry) : nat :=
  match es with [] => 0 | e :: r => (if eused e then 0 else 1) + nb0 r end.
Fixpoint ub0 (es : list entry) : nat :=
  match es with [] => 0 | e :: r => (if eused e then 0 else esize e) + ub0 r end.

Lemma parse_fwd_raws mx fr : (fr = [] \/ exists k, fr = free_obj :: k) ->
  forall es nfo nfd re rd,
  parse_fwd mx (raws nfd es ++ fr) nfo nfd re rd
  = Some (nfo + length es, nfd + total es, re + nb0 es, rd + ub0 es).
Proof.
  intros Hfr. induction es as [|e r IH]; intros nfo nfd re rd.
  - cbn [raws app length total fold_right nb0 ub0]. rewrite !Nat.add_0_r.
    destruct Hfr as [->|[k ->]]; reflexivity.
  - rewrite total_cons. cbn [raws app length nb0 ub0].
    destruct e as [ep m d|ep m|]; cbn [parse_fwd raw o_st s_st s_start s_count eused o_len o_meta esize ms_zero].
    + rewrite IH. tup.
    + unfold o_len; cbn [o_meta]. rewrite IH. tup.
    + rewrite Nat.add_0_r. rewrite IH. tup.
Qed.

(** One inner loop kills one id. *)
Fixpoint kcount (id : N) (l : list mobj) : nat :=
  match l with [] => 0 | o :: r => (if o_used o && N.eqb (o_id o) id then 1 else 0) + kcount id r end.
Fixpoint kunits (id : N) (l : list mobj) : nat :=
  match l with [] => 0
  | o :: r => (if o_used o && N.eqb (o_id o) id then s_count (o_st o) else 0) + kunits id r end.
Definition kill1 (id : N) (o : mobj) : mobj :=
  if o_used o && N.eqb (o_id o) id then set_st o DataBad else o.

Lemma kcount_app id a b : kcount id (a ++ b) = kcount id a + kcount id b.
Proof. induction a as [|o a IH]; cbn [app kcount]; [auto|]. rewrite IH; lia. Qed.
Lemma kunits_app id a b : kunits id (a ++ b) = kunits id a + kunits id b.
Proof. induction a as [|o a IH]; cbn [app kunits]; [auto|]. rewrite IH; lia. Qed.

Lemma dd_inner_spec id : forall A B re rd,
  dd_inner (length A) id (A ++ B, re, rd)
  = (map (kill1 id) A ++ B, re + kcount id A, rd + kunits id A).
Proof.
  intros A. induction A as [|o A IH] using rev_ind; intros B re rd.
  - cbn [length dd_inner map app kcount kunits]. rewrite !Nat.add_0_r. reflexivity.
  - rewrite app_length. cbn [length]. rewrite Nat.add_1_r. cbn [dd_inner].
    rewrite <- app_assoc. cbn [app]. rewrite nth_app_at by auto. cbn [nth].
    rewrite map_app, kcount_app, kunits_app. cbn [map kcount kunits]. unfold kill1 at 2.
    destruct (o_used o && N.eqb (o_id o) id) eqn:E.
    + rewrite upd_nth_at by auto. rewrite IH. rewrite <- app_assoc. cbn [app].
      tup.
    + rewrite IH. rewrite <- app_assoc. cbn [app]. tup.
Qed.

Lemma map_kill1_killK id K : forall es start,
  map (kill1 id) (killK K start es) = killK (id :: K) start es.
Proof.
  induction es as [|e r IH]; intros start; cbn [killK map existsb]; [reflexivity|].
  rewrite IH. f_equal. unfold kill1.
  destruct (eused e) eqn:Eu; cbn [andb].
  - destruct (existsb (N.eqb (eid e)) K) eqn:Ek.
    + rewrite set_st_used. cbn [andb]. rewrite orb_true_r. reflexivity.
    + rewrite raw_used, Eu. cbn [andb]. rewrite orb_false_r.
      destruct e; try discriminate. reflexivity.
  - rewrite raw_used, Eu. reflexivity.
Qed.

Fixpoint kc (id : N) (K : list N) (es : list entry) : nat :=
  match es with [] => 0
  | e :: r => (if eused e && negb (existsb (N.eqb (eid e)) K) && N.eqb (eid e) id then 1 else 0) + kc id K r end.
Fixpoint ku (id : N) (K : list N) (es : list entry) : nat :=
  match es with [] => 0
  | e :: r => (if eused e && negb (existsb (N.eqb (eid e)) K) && N.eqb (eid e) id then esize e else 0) + ku id K r end.
Lemma kcount_killK id K : forall es start,
  kcount id (killK K start es) = kc id K es /\ kunits id (killK K start es) = ku id K es.
Proof.
  induction es as [|e r IH]; intros start; cbn [killK kcount kunits kc ku]; [auto|].
  destruct (IH (start + esize e)) as [-> ->].
  destruct e as [ep m d|ep m|]; cbn [eused andb]; [|auto|auto].
  cbn [eid]. destruct (existsb (N.eqb (m_id m)) K); cbn [negb andb].
  - rewrite set_st_used. auto.
  - rewrite raw_used. cbn [eused andb]. rewrite raw_id. destruct (N.eqb (m_id m) id); auto.
Qed.

(** Entries already counted once the ids of K have been killed. *)
Fixpoint nbK (K : list N) (es : list entry) : nat :=
  match es with [] => 0
  | e :: r => (if eused e && negb (existsb (N.eqb (eid e)) K) then 0 else 1) + nbK K r end.
Fixpoint ubK (K : list N) (es : list entry) : nat :=
  match es with [] => 0
  | e :: r => (if eused e && negb (existsb (N.eqb (eid e)) K) then 0 else esize e) + ubK K r end.
Lemma nbK_nil es : nbK [] es = nb0 es /\ ubK [] es = ub0 es.
Proof.
  induction es as [|e r [IH1 IH2]]; cbn [nbK ubK nb0 ub0 existsb negb]; [auto|].
  rewrite andb_true_r, IH1, IH2; auto.
Qed.
Lemma nbK_cons id K es : nbK (id :: K) es = nbK K es + kc id K es
                       /\ ubK (id :: K) es = ubK K es + ku id K es.
Proof.
  induction es as [|e r [IH1 IH2]]; cbn [nbK ubK kc ku existsb]; [auto|].
  rewrite IH1, IH2. destruct (eused e); cbn [andb]; [|lia].
  destruct (existsb (N.eqb (eid e)) K), (N.eqb (eid e) id); cbn [orb negb andb]; lia.
Qed.

Lemma nbK_app K a b : nbK K (a ++ b) = nbK K a + nbK K b /\ ubK K (a ++ b) = ubK K a + ubK K b.
Proof.
  induction a as [|e a [IH1 IH2]]; cbn [app nbK ubK]; [auto|]. rewrite IH1, IH2; lia.
Qed.

Lemma Ksnoc_dup K x : forall es start, eused x = true -> existsb (N.eqb (eid x)) K = true ->
  mk (eid x :: K) start es = mk K start es /\ nbad (eid x :: K) es = nbad K es
  /\ ubad (eid x :: K) es = ubad K es.
Proof.
  intros es start Hu HK. revert start.
  assert (T : forall e r, dead (eid x :: K) e r = dead K e r).
  { intros e r. unfold dead. cbn [existsb]. destruct (N.eqb_spec (eid e) (eid x)) as [->|]; [|reflexivity].
    rewrite HK, !orb_true_r. reflexivity. }
  induction es as [|e r IH]; intros start; cbn [mk nbad ubad]; [auto|].
  rewrite T. destruct (IH (start + esize e)) as (-> & -> & ->). auto.
Qed.

Lemma dd_outer_spec : forall es K B re rd,
  dd_outer (length es) (killK K 0 es ++ B, re + nbK K es, rd + ubK K es)
  = (mk K 0 es ++ B, re + nbad K es, rd + ubad K es).
Proof.
  intros es. induction es as [|x es IH] using rev_ind; intros K B re rd.
  - reflexivity.
  - rewrite app_length. cbn [length]. rewrite Nat.add_1_r. cbn [dd_outer].
    rewrite killK_snoc, mk_snoc, nbad_snoc, ubad_snoc.
    destruct (nbK_app K es [x]) as [N1 N2]. rewrite N1, N2. clear N1 N2.
    cbn [nbK ubK nbad ubad]. rewrite !Nat.add_0_r. cbn [Nat.add].
    rewrite <- !app_assoc. cbn [app].
    rewrite nth_app_at by apply killK_length. cbn [nth].
    assert (Dx : dead K x [] = eused x && existsb (N.eqb (eid x)) K) by reflexivity.
    rewrite Dx. unfold Ksnoc.
    destruct (eused x) eqn:Eu; cbn [andb].
    + destruct (existsb (N.eqb (eid x)) K) eqn:Ek; cbn [negb].
      * rewrite set_st_used. destruct (Ksnoc_dup K x es 0 Eu Ek) as (-> & -> & ->).
        replace (re + (nbK K es + 1)) with ((re + 1) + nbK K es) by lia.
        replace (rd + (ubK K es + esize x)) with ((rd + esize x) + ubK K es) by lia.
        rewrite IH. tup.
      * rewrite raw_used, Eu.
        assert (Ei : o_id (raw (total es) x) = eid x) by (destruct x; try discriminate; reflexivity).
        rewrite Ei.
        rewrite <- (killK_length K 0 es) at 1.
        assert (L : length es = length (killK K 0 es)) by (rewrite killK_length; auto).
        rewrite L at 1. rewrite dd_inner_spec, map_kill1_killK.
        destruct (kcount_killK (eid x) K es 0) as [-> ->].
        destruct (nbK_cons (eid x) K es) as [M1 M2].
        replace (re + (nbK K es + 0) + kc (eid x) K es) with (re + nbK (eid x :: K) es) by lia.
        replace (rd + (ubK K es + 0) + ku (eid x) K es) with (rd + ubK (eid x :: K) es) by lia.
        rewrite killK_length, IH. tup.
    + rewrite raw_used, Eu.
      replace (re + (nbK K es + 1)) with ((re + 1) + nbK K es) by lia.
      replace (rd + (ubK K es + esize x)) with ((rd + esize x) + ubK K es) by lia.
      rewrite IH. tup.
Qed.

(** Free entries are left alone by the duplicate search. *)
Lemma dd_outer_frees k : forall A re rd,
  dd_outer (length A + k) (A ++ repeat free_obj k, re, rd)
  = dd_outer (length A) (A ++ repeat free_obj k, re, rd).
Proof.
  intros A re rd.
  assert (H : forall j B, j <= k -> B = A ++ repeat free_obj k ->
     dd_outer (length A + j) (B, re, rd) = dd_outer (length A) (B, re, rd)).
  { induction j as [|j IH]; intros B Hj HB; [rewrite Nat.add_0_r; auto|].
    rewrite Nat.add_succ_r. cbn [dd_outer].
    assert (E : nth (length A + j) B mo_zero = free_obj).
    { subst B. rewrite app_nth2 by lia.
      replace (length A + j - length A) with j by lia.
      assert (In (nth j (repeat free_obj k) mo_zero) (repeat free_obj k)) by (apply nth_In; rewrite repeat_length; lia).
      apply repeat_spec in H; auto. }
    rewrite E. cbn [o_used free_obj]. apply IH; auto; lia. }
  apply H; auto.
Qed.

Lemma parse_raws es a b c e :
  length es <= OC -> total es <= dmax ->
  parse (mkMD (raws 0 es ++ frees es) a b c e dmax) = (OK, dir_of es).
Proof.
  intros H1 H2. unfold parse. cbn [d_max d_objs].
  rewrite parse_fwd_raws.
  2:{ unfold frees. destruct (OC - length es); cbn [repeat]; eauto. }
  cbn [Nat.add]. rewrite app_length. unfold frees at 1 2. rewrite repeat_length.
  assert (L : length (raws 0 es) = length es) by (rewrite <- killK_nil, killK_length; auto).
  rewrite dd_outer_frees, L.
  rewrite <- killK_nil. destruct (nbK_nil es) as [<- <-].
  pose proof (dd_outer_spec es [] (repeat free_obj (OC - length es)) 0 0) as D. cbn [Nat.add] in D.
  rewrite D. unfold dir_of, frees. f_equal. f_equal. lia.
Qed.

End Inv.
