(** What the TCP transport is used for: messages in both directions, read off the
    sequence of calls. *)
From Verif Require Import TcpModel.

(** Messages whose send was reported done, and messages received, in order. *)
Definition reqs_sent (tr : list tev) : list (list N) :=
  flat_map (fun e => match e with (SendReq _ _ d, Some (rc, _)) => if is_ok rc then [d] else [] | _ => [] end) tr.
Definition reqs_got (tr : list tev) : list (list N) :=
  flat_map (fun e => match e with (RecvReq _ _ _ _, Some (rc, Some m)) => if is_ok rc then [m] else [] | _ => [] end) tr.
Definition resps_sent (tr : list tev) : list (list N) :=
  flat_map (fun e => match e with (SendResp _ d, Some (rc, _)) => if is_ok rc then [d] else [] | _ => [] end) tr.
Definition resps_got (tr : list tev) : list (list N) :=
  flat_map (fun e => match e with (RecvResp _ _ _, Some (rc, Some m)) => if is_ok rc then [m] else [] | _ => [] end) tr.

(** How the transport is called: the receive buffers hold a message of the largest
    size, messages are bytes, and whoever is told NOTREADY by a send repeats it with the
    same message ([p], [q]: what client and server have to repeat). *)
Definition same (p : option (list N)) (d : list N) : Prop := match p with Some m => d = m | None => True end.
Definition next (o : option (Z * option (list N))) (d : list N) : option (list N) :=
  match o with Some (rc, _) => if Z.eqb rc NOTREADY then Some d else None | None => None end.
Fixpoint well_used (MTU : nat) (p q : option (list N)) (tr : list tev) : Prop :=
  match tr with
  | [] => True
  | (SendReq _ _ d, o) :: tr' => same p d /\ bytes_ok d /\ well_used MTU (next o d) q tr'
  | (SendResp _ d, o) :: tr' => same q d /\ bytes_ok d /\ well_used MTU p (next o d) tr'
  | (RecvResp _ _ cap, _) :: tr' => (MTU <= cap)%nat /\ well_used MTU p q tr'
  | (RecvReq _ _ _ cap, _) :: tr' => (MTU <= cap)%nat /\ well_used MTU p q tr'
  end.
