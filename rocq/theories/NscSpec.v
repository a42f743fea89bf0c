(** What it means that each answer crosses the bridge once. *)
From Verif Require Import NscModel.

(** A Send that reported success, with the bytes the veneer left and the size it
    reported. *)
Definition sent_ok (x : step) (d b : list N) (n : N) : Prop :=
  what x = Send d /\ rc x = OK /\ ran x = Some (0%Z, b, n).
(** Nothing crossed the bridge or was handed over in this call. *)
Definition quiet (x : step) : Prop := ran x = None /\ given x = None /\ what x <> Init.
Definition between (tr : list step) (i j : nat) (P : step -> Prop) : Prop :=
  forall k x, i < k < j -> nth_error tr k = Some x -> P x.

(** The client is in use, and the answer that is not yet handed over. *)
Definition use_step (u : bool) (x : step) : bool :=
  match what x with Init => true | Cleanup => false | _ => u end.
Definition in_use (tr : list step) : bool := fold_left use_step tr false.
Definition owe_step (o : option (list N)) (x : step) : option (list N) :=
  match what x with
  | Init => None
  | Send _ => match ran x with
              | Some (_, b, n) => if (rc x =? OK)%Z then Some (firstn (N.to_nat n) b) else o
              | None => o
              end
  | Recv _ => match given x with Some _ => None | None => o end
  | Cleanup => o
  end.
Definition owed (tr : list step) : option (list N) := fold_left owe_step tr None.

(** The calls of the packet layer that reached the veneer. *)
Definition reached (l : list (option step)) : Prop := exists t x, In (Some t) l /\ ran t = Some x.
Definition not_abort (x : ccall) : Prop := match x with CAbort => False | _ => True end.
(** A client's context before it is initialised; the packet layer after. *)
Definition fresh (c : cl) : Prop := initialized c = false /\ last_rsp_size c = 0%nat.
Definition opened (MTU : nat) {W} (w : W) : cst W := mkCst W false (cl_init MTU) w.
