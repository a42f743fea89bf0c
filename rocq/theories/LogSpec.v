(** Specification of the log backend: a store with atomic operations.  Objects,
    operations and events are those of NvmSpec.v. *)
From Verif Require Import Base NvmSpec.

(** Object slots, bytes, and the granularity to which sizes are rounded up. *)
Record lcap := mkLcap { lk_objs : nat; lk_bytes : nat; lk_gran : nat }.

Definition round_up (g n : nat) : nat := g * ((n + g - 1) / g).
(** Bytes taken by an object of [n] bytes: metadata (32 bytes) and data. *)
Definition obj_bytes (g n : nat) : nat := round_up g 32 + round_up g n.
Definition used (g : nat) (s : store) : nat := fold_right (fun o n => obj_bytes g (length (snd o)) + n) 0 s.

(** There is room for [n] bytes under [id] when the object now there is removed. *)
Definition lfits (K : lcap) (s : store) (id : N) (n : nat) : Prop :=
  length (sp_destroy [id] s) < lk_objs K /\
  used (lk_gran K) (sp_destroy [id] s) + obj_bytes (lk_gran K) n <= lk_bytes K.
(** What add-with-reclaim asks for beforehand. *)
Definition lroom (K : lcap) (s : store) (n : nat) : Prop :=
  length s < lk_objs K /\ n <= lk_bytes K - used (lk_gran K) s.

Definition lg_step (K : lcap) (s : store) (o : nvm_op) (r : nvm_res) (s' : store) : Prop :=
  match o with
  | OAdd m data =>
      (lfits K s (m_id m) (length (data_of data)) /\ r = RCode OK /\ s' = sp_add m (data_of data) s) \/
      (~ lfits K s (m_id m) (length (data_of data)) /\ r = RCode NOSPACE /\ s' = s)
  | OAddR m data =>
      (lfits K s (m_id m) (length (data_of data)) /\ lroom K s (length (data_of data)) /\
        r = RCode OK /\ s' = sp_add m (data_of data) s) \/
      (~ (lfits K s (m_id m) (length (data_of data)) /\ lroom K s (length (data_of data))) /\
        r = RCode NOSPACE /\ s' = s)
  | ODestroy ids => r = RCode OK /\ s' = sp_destroy ids s
  | ORead id off len =>
      r = match sp_find s id with
          | None => RData NOTFOUND []
          | Some (_, d) => if off + len <=? length d then RData OK (firstn len (skipn off d)) else RData BADARGS []
          end /\ s' = s
  | OMeta id =>
      r = match sp_find s id with Some (m, _) => RMeta OK (Some m) | None => RMeta NOTFOUND None end /\ s' = s
  | OList start => r = RList OK (fst (sp_list s start)) (snd (sp_list s start)) /\ s' = s
  | OAvail => r = RAvail OK (lk_bytes K - used (lk_gran K) s) (lk_objs K - length s) 0 0 /\ s' = s
  end.

(** Arguments: no object id 0. *)
Definition lop_ok (o : nvm_op) : Prop :=
  op_ok o /\ match o with
             | OAdd m _ | OAddR m _ => m_id m <> 0%N
             | ODestroy ids => ~ In 0%N ids
             | _ => True
             end.

Definition lg_cut (K : lcap) (s : store) (o : nvm_op) (s' : store) : Prop :=
  s' = s \/ exists r, lg_step K s o r s'.

(** [lg_hist K evs s]: the history [evs], latest first, is one a store with
    atomic operations can show, and leaves the objects [s]. *)
Inductive lg_hist (K : lcap) : list event -> store -> Prop :=
| lgh_nil : lg_hist K [] []
| lgh_boot evs s : lg_hist K evs s -> lg_hist K (EvBoot :: evs) s
| lgh_bootcut evs s : lg_hist K evs s -> lg_hist K (EvBootCut :: evs) s
| lgh_off evs s : lg_hist K evs s -> lg_hist K (EvOff :: evs) s
| lgh_op evs s o r s' : lg_hist K evs s -> lg_step K s o r s' -> lg_hist K (EvOp o r :: evs) s'
| lgh_cut evs s o s' : lg_hist K evs s -> lg_cut K s o s' -> lg_hist K (EvCut o :: evs) s'.

(** The answer a map from ids to objects gives ([map_after] of NvmSpec.v is the
    map after a history). *)
Definition lmap_answer (M : map_state) (o : nvm_op) (r : nvm_res) : Prop :=
  match o with
  | ORead id off len =>
      r = match M id with
          | None => RData NOTFOUND []
          | Some (_, d) => if off + len <=? length d then RData OK (firstn len (skipn off d)) else RData BADARGS []
          end
  | OMeta id => r = match M id with Some (m, _) => RMeta OK (Some m) | None => RMeta NOTFOUND None end
  | OAdd _ _ | OAddR _ _ => r = RCode OK \/ r = RCode NOSPACE
  | ODestroy _ => r = RCode OK
  | OList _ | OAvail => True
  end.

(** Operations that write, of which each advances the 32-bit epoch. *)
Fixpoint writes (evs : list event) : N :=
  match evs with
  | [] => 0%N
  | EvOp o _ :: r | EvCut o :: r => ((if is_query o then 0 else 1) + writes r)%N
  | _ :: r => writes r
  end.
(** All these questions were answered from the objects [s]. *)
Definition lg_answers (K : lcap) (s : store) (qs : list (nvm_op * nvm_res)) : Prop :=
  forall o r, In (o, r) qs -> lg_step K s o r s.
