(** What a transport promises: an ideal one-place exchange. *)
From Verif Require Import MemModel.
Local Open Scope N_scope.

(** The request in flight (sent, not answered), whether the server has received
    it, the answer last sent, whether the client still waits for it, and whether the
    call in progress on either side must not report NOTREADY. *)
Record chan := mkCh { flight : option (list N); seen : bool; answer : option (list N); want : bool;
                      cl_must : bool; sv_must : bool }.
Definition empty : chan := mkCh None false None false false false.
Definition is_some {A} (o : option A) : bool := match o with Some _ => true | None => false end.

(** Which events are right in a state of the exchange, and what they do.
    A call that starts when it can succeed does succeed: it does not return
    NOTREADY. *)
Definition chan_step (c : chan) (e : ev) (c' : chan) : Prop :=
  match e with
  | EvCall Client _ => c' = mkCh (flight c) (seen c) (answer c) (want c) (negb (is_some (flight c))) (sv_must c)
  | EvCall Server (Some _) => c' = mkCh (flight c) (seen c) (answer c) (want c) (cl_must c) true
  | EvCall Server None => c' = mkCh (flight c) (seen c) (answer c) (want c) (cl_must c) (is_some (flight c))
  | EvSent Client d => flight c = None /\ c' = mkCh (Some d) false None true false (sv_must c)
  | EvGot Server cap len d => exists q, flight c = Some q /\ len = length q /\ d = firstn cap q /\
      c' = mkCh (flight c) true (answer c) (want c) (cl_must c) (sv_must c)
  | EvSent Server d => flight c <> None /\ seen c = true /\ c' = mkCh None false (Some d) (want c) (cl_must c) false
  | EvGot Client cap len d => exists r, flight c = None /\ answer c = Some r /\ want c = true /\ len = length r /\ d = firstn cap r /\
      c' = mkCh None (seen c) (answer c) false (cl_must c) (sv_must c)
  | EvErr Client rc => (rc = NOTREADY /\ cl_must c = false \/ rc = BADARGS) /\ c' = c
  | EvErr Server rc => (rc = NOTREADY /\ sv_must c = false \/ rc = BADARGS) /\ c' = c
  | EvAbort => c' = mkCh (flight c) (seen c) (answer c) false (cl_must c) (sv_must c)
  end.
Inductive chan_run : chan -> list ev -> chan -> Prop :=
| cr_nil c : chan_run c [] c
| cr_cons c e c1 es c2 : chan_step c e c1 -> chan_run c1 es c2 -> chan_run c (e :: es) c2.

(** In terms of positions in the sequence of events. *)
Definition sent_at (w : who) (tr : list ev) (k : nat) : Prop := exists d, nth_error tr k = Some (EvSent w d).
