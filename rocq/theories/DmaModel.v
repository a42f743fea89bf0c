(** DMA address checking: src/wh_dma.c 40-132 and src/wh_server_dma.c 33-206.
    [UMAX] is UINTPTR_MAX.  Addresses and sizes are numbers up to [UMAX]. *)
From Verif Require Import Base.
Local Open Scope N_scope.

(** whDmaOper: wh_dma.h; the four valid operations and an invalid one. *)
Inductive dma_oper := RdPre | RdPost | WrPre | WrPost | BadOper.

(** whDmaAddr and whDmaAddrAllowList: start address and size of each entry. *)
Definition addr_list : Type := list (N * N).
Record allow_list := mkAllow { al_read : addr_list; al_write : addr_list }.

Section Dma.
Variable UMAX : N.

(** _checkAddrAgainstAllowList: wh_dma.c 50-88. *)
Fixpoint check_entries (al : addr_list) (start fin : N) : Z :=
  match al with
  | [] => ACCESS
  | (a, sz) :: r =>
      if sz =? 0 then check_entries r start fin else
      if UMAX - sz <? a then check_entries r start fin else
      if (a <=? start) && (fin <=? a + sz) then OK else check_entries r start fin
  end.
Definition check_addr (al : addr_list) (addr size : N) : Z :=
  if size =? 0 then BADARGS else
  if UMAX - size <? addr then BADARGS else
  check_entries al addr (addr + size).

(** _checkMemOperAgainstAllowList and wh_Dma_CheckMemOperAgainstAllowList:
    wh_dma.c 91-132.  [None] is a NULL allow list. *)
Definition check_oper (al : option allow_list) (op : dma_oper) (addr size : N) : Z :=
  if size =? 0 then BADARGS else
  match op with
  | BadOper => BADARGS
  | _ => match al with
         | None => OK
         | Some l => match op with
                     | RdPre => check_addr (al_read l) addr size
                     | WrPre => check_addr (al_write l) addr size
                     | _ => OK
                     end
         end
  end.

(** The server's DMA configuration: the address callback (a return code and the
    transformed address, per operation), whether a copy callback is registered,
    and the allow list. *)
Record dma_cfg := mkDma {
  d_cb : option (dma_oper -> N -> N -> Z * N);
  d_copycb : bool;
  d_allow : option allow_list }.

(** wh_Server_DmaProcessClientAddress: wh_server_dma.c 88-121. *)
Definition process_addr (D : dma_cfg) (client len : N) (op : dma_oper) : Z * N :=
  let '(rc, x) := match d_cb D with None => (OK, client) | Some cb => cb op client len end in
  if negb (is_ok rc) then (rc, x) else
  if 0 <? len then (check_oper (d_allow D) op x len, x) else (OK, x).

(** Accesses to client memory made by the server. *)
Inductive access := Acc (write : bool) (addr len : N).

(** whServerDma_CopyFromClient: wh_server_dma.c 123-165.  [copy_rc] is the result
    of a copy callback. *)
Definition copy_from (D : dma_cfg) (client len : N) (copy_rc : Z) : Z * list access :=
  if len =? 0 then (BADARGS, []) else
  let '(rc, x) := process_addr D client len RdPre in
  if negb (is_ok rc) then (rc, []) else
  let acc := [Acc false x len] in
  if d_copycb D && negb (is_ok copy_rc) then (copy_rc, acc) else
  (fst (process_addr D client len RdPost), acc).

(** whServerDma_CopyToClient: wh_server_dma.c 167-206.  Note line 190: the copy
    callback is given the client's address, not the transformed one. *)
Definition copy_to (D : dma_cfg) (client len : N) (copy_rc : Z) : Z * list access :=
  if len =? 0 then (BADARGS, []) else
  let '(rc, x) := process_addr D client len WrPre in
  if negb (is_ok rc) then (rc, []) else
  let acc := [Acc true (if d_copycb D then client else x) len] in
  if d_copycb D && negb (is_ok copy_rc) then (copy_rc, acc) else
  (fst (process_addr D client len WrPost), acc).

(** ** Specification *)
(** Every byte of the range is a byte of one and the same entry, and the range
    does not wrap. *)
Definition inside (al : addr_list) (addr len : N) : Prop :=
  addr + len <= UMAX /\
  exists a sz, In (a, sz) al /\ forall b, addr <= b < addr + len -> a <= b < a + sz /\ a + sz <= UMAX.

(** Sizes are of type size_t. *)
Definition sizes_ok (al : addr_list) : Prop := Forall (fun e => snd e <= UMAX) al.

(** ** Proofs *)
Lemma check_entries_ok al start fin : start < fin -> sizes_ok al ->
  (check_entries al start fin = OK <->
   exists a sz, In (a, sz) al /\ a + sz <= UMAX /\ a <= start /\ fin <= a + sz).
Proof.
  intros L. induction al as [|[a sz] al IH]; intros HS; cbn [check_entries].
  { split; [discriminate|]. intros (a & sz & [] & _). }
  inversion HS as [|? ? S1 S2]; subst. cbn [snd] in S1. specialize (IH S2).
  assert (SKIP : ~ (a + sz <= UMAX /\ a <= start /\ fin <= a + sz) ->
    (check_entries al start fin = OK <->
     exists a0 sz0, In (a0, sz0) ((a, sz) :: al) /\ a0 + sz0 <= UMAX /\ a0 <= start /\ fin <= a0 + sz0)).
  { intros NO. rewrite IH. split; intros (a0 & s0 & I & R); exists a0, s0.
    - split; [right; auto|auto].
    - destruct I as [E|I]; [injection E as <- <-; tauto|auto]. }
  destruct (N.eqb_spec sz 0) as [->|NZ]; [apply SKIP; lia|].
  destruct (N.ltb_spec (UMAX - sz) a); [apply SKIP; lia|].
  destruct (N.leb_spec a start); cbn [andb]; [|apply SKIP; lia].
  destruct (N.leb_spec fin (a + sz)); [|apply SKIP; lia].
  split; auto. intros _. exists a, sz. split; [left; auto|lia].
Qed.

Lemma check_addr_iff al addr size : size <= UMAX -> sizes_ok al ->
  (check_addr al addr size = OK <-> 0 < size /\ inside al addr size).
Proof.
  intros HS HA. unfold check_addr, inside. destruct (N.eqb_spec size 0) as [->|NZ].
  { split; [discriminate|lia]. }
  destruct (N.ltb_spec (UMAX - size) addr) as [L|L].
  { split; [discriminate|lia]. }
  rewrite check_entries_ok by (auto; lia). split.
  - intros (a & sz & I & B & C & D). repeat split; [lia|lia|]. exists a, sz. split; auto. intros; lia.
  - intros (_ & _ & a & sz & I & B). exists a, sz. split; auto.
    pose proof (B addr ltac:(lia)). pose proof (B (addr + size - 1) ltac:(lia)). lia.
Qed.
End Dma.
