(** Specification of the NVM object store, independent of any representation:
    an ordered list of objects (oldest first) with distinct identifiers. *)
From Verif Require Import Base.

Definition object : Type := (meta * list N)%type.
Definition store : Type := list object.
Definition oid (o : object) : N := m_id (fst o).

(** The object stored under [id]. *)
Fixpoint sp_find (s : store) (id : N) : option object :=
  match s with
  | [] => None
  | o :: r => if N.eqb (oid o) id then Some o else sp_find r id
  end.

(** Remove every object whose id is listed. *)
Definition sp_destroy (ids : list N) (s : store) : store :=
  filter (fun o => negb (existsb (N.eqb (oid o)) ids)) s.

(** Store [d] under the id of [m], replacing any previous object of that id.
    The recorded length is the length of the data. *)
Definition sp_add (m : meta) (d : list N) (s : store) : store :=
  sp_destroy [m_id m] s ++ [(with_len m (N.of_nat (length d)), d)].

(** Read [len] bytes at [off] of object [id]. *)
Definition sp_read (s : store) (id : N) (off len : nat) : Z * list N :=
  match sp_find s id with
  | None => (NOTFOUND, [])
  | Some (_, d) =>
      if (off <? length d) && (len <=? length d - off)
      then (OK, firstn len (skipn off d)) else (BADARGS, [])
  end.

(** Flash units taken by the data of the objects. *)
Definition sp_units (s : store) : nat :=
  fold_right (fun o n => units (length (snd o)) + n) 0 s.

(** Objects stored after the one with id [id]. *)
Fixpoint sp_after (s : store) (id : N) : store :=
  match s with
  | [] => []
  | o :: r => if N.eqb (oid o) id then r else sp_after r id
  end.

(** Enumeration by id: cursor 0 starts at the first object, cursor i continues
    after object i.  Answer: number of objects left, and the id of the next. *)
Definition sp_list (s : store) (start : N) : nat * N :=
  let rest := if N.eqb start 0 then s else sp_after s start in
  match rest with
  | [] => (0, 0%N)
  | o :: _ => (length rest, oid o)
  end.

(** * Operations, results and the abstract transition relation *)

Inductive nvm_op :=
| OAdd (m : meta) (data : option (list N))      (* wh_Nvm_AddObject *)
| OAddR (m : meta) (data : option (list N))     (* wh_Nvm_AddObjectWithReclaim *)
| ODestroy (ids : list N)                       (* wh_Nvm_DestroyObjects *)
| ORead (id : N) (off len : nat)                (* wh_Nvm_Read *)
| OMeta (id : N)                                (* wh_Nvm_GetMetadata *)
| OList (start : N)                             (* wh_Nvm_List *)
| OAvail.                                       (* wh_Nvm_GetAvailable *)

Inductive nvm_res :=
| RCode (rc : Z)
| RData (rc : Z) (bs : list N)
| RMeta (rc : Z) (m : option meta)
| RList (rc : Z) (count : nat) (id : N)
| RAvail (rc : Z) (avail_bytes avail_objs reclaim_bytes reclaim_objs : nat).

Definition data_of (data : option (list N)) : list N :=
  match data with Some d => d | None => [] end.

(** Arguments of the C types: 16-bit fields, a 24-byte label, bytes, a 16-bit
    data length. *)
Definition op_ok (o : nvm_op) : Prop :=
  match o with
  | OAdd m data | OAddR m data =>
      meta_ok m /\ bytes_ok (data_of data) /\ (N.of_nat (length (data_of data)) < 65536)%N
  | _ => True
  end.

(** Capacity of the device: object slots and data units. *)
Record capacity := mkCap { cap_objs : nat; cap_units : nat }.

(** There is room for one more object of [n] bytes beside those stored. *)
Definition fits (K : capacity) (s : store) (n : nat) : Prop :=
  length s < cap_objs K /\ sp_units s + units n <= cap_units K.

(** One completed operation. *)
Definition sp_step (K : capacity) (s : store) (o : nvm_op) (r : nvm_res) (s' : store) : Prop :=
  match o with
  | OAdd m data =>
      (fits K s (length (data_of data)) /\ r = RCode OK /\ s' = sp_add m (data_of data) s) \/
      (r = RCode NOSPACE /\ s' = s)
  | OAddR m data =>
      (fits K s (length (data_of data)) /\ r = RCode OK /\ s' = sp_add m (data_of data) s) \/
      (~ fits K s (length (data_of data)) /\ r = RCode NOSPACE /\ s' = s)
  | ODestroy ids => r = RCode OK /\ s' = sp_destroy ids s
  | ORead id off len => r = RData (fst (sp_read s id off len)) (snd (sp_read s id off len)) /\ s' = s
  | OMeta id =>
      r = match sp_find s id with
          | Some (m, _) => RMeta OK (Some m) | None => RMeta NOTFOUND None end /\ s' = s
  | OList start =>
      (exists n id, r = RList OK n id /\
         ((forall o, In o s -> oid o <> 0%N) -> (n, id) = sp_list s start)) /\ s' = s
  | OAvail =>
      (exists ab ao rb ro, r = RAvail OK ab ao rb ro
         /\ ab + rb = 8 * (cap_units K - sp_units s) /\ ao + ro = cap_objs K - length s) /\ s' = s
  end.

(** An operation cut short: not started, or completed. *)
Definition sp_cut (K : capacity) (s : store) (o : nvm_op) (s' : store) : Prop :=
  s' = s \/ exists r, sp_step K s o r s'.

(** What a user can observe and do over the life of a device. *)
Inductive event :=
| EvBoot                            (* power on, initialisation succeeds *)
| EvBootCut                         (* power lost or write fault during initialisation *)
| EvOp (o : nvm_op) (r : nvm_res)   (* operation completed with result r *)
| EvCut (o : nvm_op)                (* power lost or write fault during the operation *)
| EvOff.                            (* power removed between operations *)

(** [sp_hist K evs s]: the history [evs] (latest first) is one a store with
    atomic operations can show, and leaves the objects [s]. *)
Inductive sp_hist (K : capacity) : list event -> store -> Prop :=
| sph_nil : sp_hist K [] []
| sph_boot evs s : sp_hist K evs s -> sp_hist K (EvBoot :: evs) s
| sph_bootcut evs s : sp_hist K evs s -> sp_hist K (EvBootCut :: evs) s
| sph_off evs s : sp_hist K evs s -> sp_hist K (EvOff :: evs) s
| sph_op evs s o r s' : sp_hist K evs s -> sp_step K s o r s' -> sp_hist K (EvOp o r :: evs) s'
| sph_cut evs s o s' : sp_hist K evs s -> sp_cut K s o s' -> sp_hist K (EvCut o :: evs) s'.

(** Operations that may compact the store (and so advance the 32-bit epoch of
    the partitions), and their number in a history. *)
Definition compacts (o : nvm_op) : N :=
  match o with ODestroy _ | OAddR _ _ => 1%N | _ => 0%N end.
Fixpoint compactions (evs : list event) : N :=
  match evs with
  | [] => 0%N
  | EvOp o _ :: r | EvCut o :: r => (compacts o + compactions r)%N
  | _ :: r => compactions r
  end.

(** ** The same life seen as a map from ids to objects *)
Definition map_state := N -> option object.

(** Effect of a history without cuts on the map. *)
Fixpoint map_after (evs : list event) : map_state :=
  match evs with
  | [] => fun _ => None
  | EvOp (OAdd m data) (RCode rc) :: r | EvOp (OAddR m data) (RCode rc) :: r =>
      if is_ok rc
      then fun id => if N.eqb id (m_id m)
                     then Some (with_len m (N.of_nat (length (data_of data))), data_of data)
                     else map_after r id
      else map_after r
  | EvOp (ODestroy ids) (RCode rc) :: r =>
      if is_ok rc
      then fun id => if existsb (N.eqb id) ids then None else map_after r id
      else map_after r
  | _ :: r => map_after r
  end.

(** The answer a map gives to an operation. *)
Definition map_answer (M : map_state) (o : nvm_op) (r : nvm_res) : Prop :=
  match o with
  | ORead id off len =>
      r = match M id with
          | None => RData NOTFOUND []
          | Some (_, d) => if (off <? length d) && (len <=? length d - off)
                           then RData OK (firstn len (skipn off d)) else RData BADARGS []
          end
  | OMeta id => r = match M id with Some (m, _) => RMeta OK (Some m) | None => RMeta NOTFOUND None end
  | OAdd _ _ | OAddR _ _ => r = RCode OK \/ r = RCode NOSPACE
  | ODestroy _ => r = RCode OK
  | OList _ | OAvail => True
  end.

Definition is_cut (e : event) : bool := match e with EvCut _ => true | _ => false end.
(** Events of a power cycle. *)
Definition is_boot (e : event) : bool :=
  match e with EvBoot | EvBootCut | EvOff => true | _ => false end.

(** Questions that do not ask for a change. *)
Definition is_query (o : nvm_op) : bool :=
  match o with ORead _ _ _ | OMeta _ | OList _ | OAvail => true | _ => false end.

(** All these questions were answered from the objects [s]. *)
Definition answers (K : capacity) (s : store) (qs : list (nvm_op * nvm_res)) : Prop :=
  forall o r, In (o, r) qs -> sp_step K s o r s.
Definition asked (qs : list (nvm_op * nvm_res)) : list event :=
  map (fun q => EvOp (fst q) (snd q)) qs.

(** Following the ids returned by list until it reports none left. *)
Fixpoint enumerate (ask : N -> nat * N) (fuel : nat) (start : N) : list (nat * N) :=
  match fuel with
  | 0 => []
  | S k => let '(n, id) := ask start in
           if n =? 0 then [] else (n, id) :: enumerate ask k id
  end.
