(** The unchecked NVM interface of src/wh_nvm.c as the upper layers see it: the
    abstract store of NvmSpec.v, which NvmTheorems.v proves the flash backend to
    implement.  A call that writes takes its return code from the environment:
    OK means done, any other code means that nothing changed (C01, C05). *)
From Verif Require Import Base NvmSpec.

(** wh_Nvm_GetMetadata, wh_Nvm_AddObject, wh_Nvm_DestroyObjects, wh_Nvm_Read:
    wh_nvm.c 257-270, 315-342, 366-379. *)
Definition nv_meta (s : store) (id : N) : Z * meta :=
  match sp_find s id with Some (m, _) => (OK, m) | None => (NOTFOUND, meta_zero) end.
Definition nv_add (r : Z) (m : meta) (d : list N) (s : store) : Z * store :=
  if is_ok r then (OK, sp_add m d s) else (r, s).
Definition nv_destroy (r : Z) (ids : list N) (s : store) : Z * store :=
  if is_ok r then (OK, sp_destroy ids s) else (r, s).

(** wh_Nvm_Read is [sp_read]. *)

(** These are the steps of the proved store. *)
Lemma nv_add_step K s m data rc s' :
  sp_step K s (OAdd m data) (RCode rc) s' \/ sp_step K s (OAddR m data) (RCode rc) s' ->
  nv_add rc m (data_of data) s = (rc, s').
Proof.
  cbn [sp_step]. unfold nv_add.
  intros [[(_ & E & ->)|[E ->]]|[(_ & E & ->)|(_ & E & ->)]]; injection E as ->; reflexivity.
Qed.
Lemma nv_destroy_step K s ids rc s' :
  sp_step K s (ODestroy ids) (RCode rc) s' -> nv_destroy rc ids s = (rc, s').
Proof. cbn [sp_step]. intros [E ->]. injection E as ->. reflexivity. Qed.
Lemma nv_meta_step K s id rc m s' :
  sp_step K s (OMeta id) (RMeta rc m) s' ->
  s' = s /\ fst (nv_meta s id) = rc /\ (rc = OK -> m = Some (snd (nv_meta s id))).
Proof.
  cbn [sp_step]. unfold nv_meta. intros [E ->]. destruct (sp_find s id) as [[m' d]|]; injection E as -> ->;
    cbn [fst snd]; repeat split; auto. discriminate.
Qed.

Lemma find_destroy ids id : forall s, sp_find (sp_destroy ids s) id =
  if existsb (N.eqb id) ids then None else sp_find s id.
Proof.
  induction s as [|o s IH]; cbn [sp_destroy filter sp_find].
  - destruct (existsb _ _); reflexivity.
  - fold (sp_destroy ids s). destruct (existsb (N.eqb (oid o)) ids) eqn:E; cbn [negb sp_find].
    + rewrite IH. destruct (N.eqb_spec (oid o) id) as [<-|]; auto. rewrite E. reflexivity.
    + rewrite IH. destruct (N.eqb_spec (oid o) id) as [<-|]; auto. rewrite E. reflexivity.
Qed.

Lemma find_app s o id : sp_find (s ++ [o]) id =
  match sp_find s id with Some x => Some x | None => if N.eqb (oid o) id then Some o else None end.
Proof. induction s as [|x s IH]; cbn [app sp_find]; auto. destruct (N.eqb (oid x) id); auto. Qed.

Lemma find_add m d s id : sp_find (sp_add m d s) id =
  if N.eqb id (m_id m) then Some (with_len m (N.of_nat (length d)), d) else sp_find s id.
Proof.
  unfold sp_add. rewrite find_app, find_destroy. cbn [existsb]. unfold oid; cbn [fst].
  change (m_id (with_len m (N.of_nat (length d)))) with (m_id m).
  rewrite (N.eqb_sym (m_id m) id). destruct (N.eqb_spec id (m_id m)); cbn [orb]; auto.
  destruct (sp_find s id); auto.
Qed.

Lemma is_ok_iff rc : is_ok rc = true <-> rc = OK.
Proof. apply Z.eqb_eq. Qed.
Lemma is_ok_false rc : is_ok rc = false <-> rc <> OK.
Proof. apply Z.eqb_neq. Qed.

Lemma find_id s id o : sp_find s id = Some o -> m_id (fst o) = id.
Proof.
  induction s as [|x s IH]; cbn [sp_find]; [discriminate|].
  destruct (N.eqb_spec (oid x) id) as [E|]; auto. intros H; injection H as <-. exact E.
Qed.

(** What a store answers under an id after a write. *)
Lemma nv_add_find r m d s rc s' id : nv_add r m d s = (rc, s') ->
  sp_find s' id = if is_ok rc && N.eqb id (m_id m) then Some (with_len m (N.of_nat (length d)), d) else sp_find s id.
Proof.
  unfold nv_add. destruct (is_ok r) eqn:E; intros H; injection H as <- <-.
  - change (is_ok OK) with true. cbn [andb]. apply find_add.
  - rewrite E. reflexivity.
Qed.
Lemma nv_destroy_find r ids s rc s' id : nv_destroy r ids s = (rc, s') ->
  sp_find s' id = if is_ok rc && existsb (N.eqb id) ids then None else sp_find s id.
Proof.
  unfold nv_destroy. destruct (is_ok r) eqn:E; intros H; injection H as <- <-.
  - change (is_ok OK) with true. cbn [andb]. apply find_destroy.
  - rewrite E. reflexivity.
Qed.
Lemma nv_add_rc r m d s : fst (nv_add r m d s) = r.
Proof. unfold nv_add. destruct (is_ok r) eqn:E; auto. apply is_ok_iff in E. auto. Qed.
