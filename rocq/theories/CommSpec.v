(** What the packet layer promises, in terms of the outcomes of the client's
    calls only (C15, C17). *)
From Verif Require Import Base TimeoutModel CommModel.
Local Open Scope N_scope.

(** A request went out, with this sequence number: *out_seq was written. *)
Definition accepted (o : cout) (q : N) : Prop := exists rc p, o = OSend rc (Some q) p.

(** A response was delivered: the outputs of the receive are set and the code is
    OK, or BUFFER_SIZE when the caller's buffer was too small for it. *)
Definition delivered (o : cout) (q : N) : Prop :=
  exists r, o = ORecv r /\ (r_rc r = OK \/ r_rc r = BUFFER_SIZE) /\ r_seq r = Some q /\ r_size r <> None.

(** The request in flight is over: answered, timed out, abandoned by the caller,
    or the context was closed or opened again. *)
Definition over_with (o : cout) : Prop :=
  (exists q, delivered o q) \/
  (exists r, o = ORecv r /\ r_rc r = TIMEOUT) \/
  o = OAbort OK \/ (exists rc, o = OCleanup rc) \/ o = OInit.

(** The same, or a failure that the caller must treat as fatal. *)
Definition over_or_fatal (o : cout) : Prop :=
  over_with o \/ exists r, o = ORecv r /\ r_rc r = ABORTED.

(** The environment does not use the code TIMEOUT itself: neither the transport's
    Recv nor the application's expiry callback returns it. *)
Definition env_ok (e : ccall) : Prop :=
  match e with
  | CRecv trc _ _ app _ _ _ =>
      trc <> TIMEOUT /\ match app with Some (rc, ex, _) => rc <> TIMEOUT /\ ex <> TIMEOUT | None => True end
  | _ => True
  end.

(** [j]-th outcome. *)
Definition at_ (tr : list cout) (j : nat) (P : cout -> Prop) : Prop :=
  exists o, nth_error tr j = Some o /\ P o.
