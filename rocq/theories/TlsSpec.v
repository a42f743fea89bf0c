(** What is relied on from the TLS transport: read off the calls, their results and
    what happens outside. *)
From Verif Require Import TlsModel.

(** Object numbers of the world are in use below [w_next]; descriptors are not negative. *)
Definition ids_ok (w : world) : Prop :=
  (forall fd p, zget fd (w_open w) = Some p -> (0 <= fd)%Z) /\
  (forall i x, nget i (w_ctx w) = Some x -> (i < w_next w)%nat) /\
  (forall i s, nget i (w_ssl w) = Some s -> (i < w_next w)%nat).

(** Nothing opened is left open, nothing of others was closed, freed or used. *)
Definition nothing_left (w w' : world) : Prop :=
  w_open w' = w_open w /\ w_ctx w' = w_ctx w /\ w_ssl w' = w_ssl w /\ w_stray w' = w_stray w.

(** [p] is who the configuration asks for: its certificate verifies against the
    configured CA, or it holds the configured pre-shared key. *)
Definition authentic (issued : N -> N -> bool) (cfg : tlscfg) (p : peer) : Prop :=
  (exists ca c, g_ca cfg = Some ca /\ p_cert p = Some c /\ issued ca c = true)
  \/ (g_psk cfg = true /\ p_psk p = true).

(** Messages handed to the caller, records read and written, in order. *)
Definition msgs {O} (tr : list (O * (Z * option (list N)))) : list (list N) :=
  flat_map (fun e => match snd (snd e) with Some d => [d] | None => [] end) tr.
Definition got (l : list ev) : list (list N) :=
  flat_map (fun e => match e with Got _ _ d => [d] | _ => [] end) l.
Definition recs_in (l : list ev) : list (list N) :=
  flat_map (fun e => match e with RecIn _ r => [r] | _ => [] end) l.
Definition recs_out (l : list ev) : list (list N) :=
  flat_map (fun e => match e with RecOut _ r => [r] | _ => [] end) l.
Definition told (l : list ev) : list bool :=
  flat_map (fun e => match e with Told b => [b] | _ => [] end) l.

(** Messages whose send was reported done. *)
Definition reqs_sent (tr : list (cop * (Z * option (list N)))) : list (list N) :=
  flat_map (fun e => match e with (CSend _ _ _ _ _ d, (rc, _)) => if is_ok rc then [d] else [] | _ => [] end) tr.
Definition resps_sent (tr : list (sop * (Z * option (list N)))) : list (list N) :=
  flat_map (fun e => match e with (SSend _ _ d, (rc, _)) => if is_ok rc then [d] else [] | _ => [] end) tr.

(** How a sender behaves: a send that is not ready is repeated with the same message,
    and after a send that failed nothing is sent; messages are of at most [m] bytes. *)
Inductive todo := Free | Again (d : list N) | Stop.
Definition may (t : todo) (d : list N) : Prop :=
  match t with Free => True | Again e => d = e | Stop => False end.
Definition after (rc : Z) (d : list N) : todo :=
  if Z.eqb rc OK then Free else if Z.eqb rc NOTREADY then Again d else Stop.
Fixpoint c_sends_ok (m : nat) (t : todo) (tr : list (cop * (Z * option (list N)))) : Prop :=
  match tr with
  | [] => True
  | (CSend _ _ _ _ _ d, (rc, _)) :: r => may t d /\ (length d <= m)%nat /\ c_sends_ok m (after rc d) r
  | _ :: r => c_sends_ok m t r
  end.
Fixpoint s_sends_ok (m : nat) (t : todo) (tr : list (sop * (Z * option (list N)))) : Prop :=
  match tr with
  | [] => True
  | (SSend _ _ d, (rc, _)) :: r => may t d /\ (length d <= m)%nat /\ s_sends_ok m (after rc d) r
  | _ :: r => s_sends_ok m t r
  end.

Definition prefix {A} (a b : list A) : Prop := exists r, b = a ++ r.

(** All messages come from one peer, on one TLS connection. *)
Definition one_source (l : list ev) : Prop :=
  forall i p d j q e, In (Got i p d) l -> In (Got j q e) l -> i = j /\ p = q.

(** What was logged between [w] and [w']. *)
Definition new_log (w w' : world) : list ev := skipn (length (w_log w)) (w_log w').
