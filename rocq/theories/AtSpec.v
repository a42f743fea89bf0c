(** * Specification: what any history of requests about users must look like (C77)

    Requests as if answered one at a time, in the order of their answers. *)

From Coq Require Import List NArith Bool.
From Verif Require Import AtModel.
Import ListNotations.

(** Who is logged in (the user's flag and the connection's session) and everyone's
    credential. *)
Record book := mkBook {
  online : nat -> bool;
  secret : nat -> option (list N);
  who : nat -> option nat
}.

Section Spec.
Context (h : pin -> list N) (admin : nat -> bool) (may : nat -> op -> bool).

(** Before it is logged in a connection may only log in; afterwards it may log out
    and do what its user may. *)
Definition allowed (b : book) (i : nat) (o : op) : bool :=
  match who b i, o with
  | None, Login _ _ => true
  | None, _ => false
  | Some _, Logout _ => true
  | Some w, _ => may w o
  end.

(** The credential presented is the one on record. *)
Definition right (b : book) (u : nat) (now : option pin) : Prop :=
  match now, secret b u with
  | Some p, Some c => c = h p
  | None, None => True
  | _, _ => False
  end.

(** The user of connection [i] may change [u]. *)
Definition over (b : book) (i u : nat) : Prop :=
  exists w, who b i = Some w /\ (w = u \/ admin w = true).

Inductive answered (b : book) (i : nat) : op -> res -> book -> Prop :=
| a_err : forall o, answered b i o Err b
| a_denied : forall o, allowed b i o = false -> answered b i o Denied b
| a_login : forall u p,
    allowed b i (Login u p) = true -> who b i = None ->
    secret b u = Some (h p) -> online b u = false ->
    answered b i (Login u p) LoggedIn
      (mkBook (upd (online b) u true) (secret b) (upd (who b) i (Some u)))
| a_login_no : forall u p,
    allowed b i (Login u p) = true ->
    ~ (who b i = None /\ secret b u = Some (h p) /\ online b u = false) ->
    answered b i (Login u p) Refused b
| a_logout : forall u w,
    allowed b i (Logout u) = true -> who b i = Some w -> w = u \/ admin w = true ->
    answered b i (Logout u) Done
      (mkBook (upd (online b) u false) (secret b)
              (if Nat.eqb w u then upd (who b) i None else who b))
| a_logout_no : forall u,
    allowed b i (Logout u) = true -> ~ over b i u -> answered b i (Logout u) Refused b
| a_set : forall u now new,
    allowed b i (SetCred u now new) = true -> over b i u -> right b u now ->
    answered b i (SetCred u now new) Done
      (mkBook (online b)
              (upd (secret b) u (match new with Some n => Some (h n) | None => None end)) (who b))
| a_set_no : forall u now new,
    allowed b i (SetCred u now new) = true -> ~ (over b i u /\ right b u now) ->
    answered b i (SetCred u now new) Refused b
| a_work : forall n, allowed b i (Work n) = true -> answered b i (Work n) Done b.

Inductive history : book -> list (nat * op * res) -> book -> Prop :=
| h_nil : forall b, history b [] b
| h_cons : forall b i o r b1 rest b2,
    answered b i o r b1 -> history b1 rest b2 -> history b ((i, o, r) :: rest) b2.

(** Two books that say the same. *)
Definition agree (a b : book) : Prop :=
  (forall u, online a u = online b u) /\ (forall u, secret a u = secret b u) /\
  (forall i, who a i = who b i).

(** From a history alone: the credential [u] was last given, and the user that
    connection [i] is logged in as. *)
Definition current (c : nat -> option (list N)) (tr : list (nat * op * res)) : nat -> option (list N) :=
  fold_left (fun c e => match e with
                        | (_, SetCred u _ new, Done) =>
                            upd c u (match new with Some n => Some (h n) | None => None end)
                        | _ => c
                        end) tr c.
Definition session (i : nat) (tr : list (nat * op * res)) : option nat :=
  fold_left (fun w e => match e with
                        | (j, Login u _, LoggedIn) => if Nat.eqb j i then Some u else w
                        | (j, Logout u, Done) =>
                            match w with
                            | Some x => if Nat.eqb j i && Nat.eqb x u then None else w
                            | None => None
                            end
                        | _ => w
                        end) tr None.

End Spec.

(** Nobody logged in. *)
Definition closed (c : nat -> option (list N)) : book :=
  mkBook (fun _ => false) c (fun _ => None).
