(** * Model: logins and user management of several connections at once (C77)

    The user table and the scratch buffer a stored credential is read into are
    global in src/wh_auth_base.c (60, 93-99); the lock that is to protect them,
    and the session, are fields of the auth context a server is given
    (wolfhsm/wh_auth.h 208-215).  Several servers may be given one auth context,
    or each its own; contexts of their own may use one mutex or several
    (src/wh_lock.c 40-105: the mutex is whatever the configuration points to).

    Simplifications: users are not added or deleted and permissions do not change
    (C33-C36, C56 are about those, with requests one at a time); every user has a
    PIN or no credential; a copy into or comparison with the scratch buffer is
    one step; the scratch buffer is [None] when zeroed. *)

From Coq Require Import List NArith Bool.
Import ListNotations.

Definition pin := list N.

(** A request: those about users, and any other ([Work], with the group and
    action it needs a permission for). *)
Inductive op :=
| Login (u : nat) (p : pin)
| Logout (u : nat)
| SetCred (u : nat) (now new : option pin)
| Work (what : nat).

(** How it was answered.  [Err]: the lock or the storage failed. *)
Inductive res := LoggedIn | Done | Refused | Denied | Err.

(** wh_auth_base.c 60 users[] (the active flags), 112-113 or the NVM objects (the
    credentials), 99 s_auth_base_cred_buf; wh_auth.h 210 the session of each
    context. *)
Record sh := mkSh {
  act : nat -> bool;
  cred : nat -> option (list N);
  buf : option (list N);
  sess : nat -> option nat
}.

Definition upd {A} (f : nat -> A) (i : nat) (x : A) : nat -> A :=
  fun j => if Nat.eqb j i then x else f j.

Definition set_act u b s := mkSh (upd (act s) u b) (cred s) (buf s) (sess s).
Definition set_cred u c s := mkSh (act s) (upd (cred s) u c) (buf s) (sess s).
Definition set_buf b s := mkSh (act s) (cred s) b (sess s).
Definition set_sess c w s := mkSh (act s) (cred s) (buf s) (upd (sess s) c w).

Inductive val := VNone | VSome (n : nat) | VBool (b : bool) | VFail.

(** What happens inside one locked section, step by step.  A step sees whether
    the storage fails now. *)
Inductive prog :=
| Ret (r : res)
| Do (f : bool -> sh -> sh * val) (k : val -> prog).

Section Auth.
(** The hash of a PIN (wh_auth_base.c 491-508), who is an administrator, which
    user may do what, the auth context of each server, the mutex of each context. *)
Context (h : pin -> list N) (admin : nat -> bool) (may : nat -> op -> bool)
        (ctx : nat -> nat) (mutex : nat -> nat).

Definition get_sess (i : nat) (_ : bool) (s : sh) : sh * val :=
  (s, match sess s (ctx i) with None => VNone | Some w => VSome w end).
Definition has_cred (u : nat) (_ : bool) (s : sh) : sh * val :=
  (s, VBool (match cred s u with None => false | Some _ => true end)).
(** wh_auth_base.c 227-267: under the NVM lock, so one step. *)
Definition load (u : nat) (fail : bool) (s : sh) : sh * val :=
  if fail then (s, VFail)
  else match cred s u with
       | None => (s, VNone)
       | Some c => (set_buf (Some c) s, VSome 0)
       end.
Definition same_bytes (a b : list N) : bool := if list_eq_dec N.eq_dec a b then true else false.
Definition compare (p : pin) (_ : bool) (s : sh) : sh * val :=
  (s, VBool (match buf s with Some c => same_bytes c (h p) | None => false end)).
Definition wipe (_ : bool) (s : sh) : sh * val := (set_buf None s, VNone).
Definition is_active (u : nat) (_ : bool) (s : sh) : sh * val := (s, VBool (act s u)).

(** src/wh_auth.c 119-153 wh_Auth_Login; wh_auth_base.c 627-677 wh_Auth_BaseLogin
    with 514-560 wh_Auth_BaseCheckPin. *)
Definition login (i u : nat) (p : pin) : prog :=
  Do (get_sess i) (fun w =>
  match w with
  | VSome _ => Ret Refused
  | _ =>
    Do (has_cred u) (fun c =>
    match c with
    | VBool true =>
      Do (load u) (fun l =>
      Do (match l with VSome _ => compare p | _ => fun _ s => (s, VBool false) end) (fun eq =>
      Do wipe (fun _ =>
      match l with
      | VFail => Ret Err
      | _ =>
        match eq with
        | VBool true =>
          Do (is_active u) (fun a =>
          match a with
          | VBool true => Ret Refused
          | _ => Do (fun _ s => (set_act u true s, VNone)) (fun _ =>
                 Do (fun _ s => (set_sess (ctx i) (Some u) s, VNone)) (fun _ =>
                 Ret LoggedIn))
          end)
        | _ => Ret Refused
        end
      end)))
    | _ => Ret Refused
    end)
  end).

(** wh_auth.c 156-179 wh_Auth_Logout; wh_auth_base.c 679-703. *)
Definition logout (i u : nat) : prog :=
  Do (get_sess i) (fun w =>
  match w with
  | VSome w =>
    if Nat.eqb w u || admin w then
      Do (fun _ s => (set_act u false s, VNone)) (fun _ =>
      Do (fun _ s => ((if Nat.eqb w u then set_sess (ctx i) None s else s), VNone)) (fun _ =>
      Ret Done))
    else Ret Refused
  | _ => Ret Refused
  end).

(** wh_auth.c 509-533; wh_auth_base.c 984-1155.  (A load that fails is reported
    as WH_ERROR_ACCESS there, 1053-1057; here as [Err].) *)
Definition store_new (u : nat) (had : bool) (new : option pin) : prog :=
  match new with
  | Some n =>
      Do (fun _ s => (set_buf (Some (h n)) s, VNone)) (fun _ =>
      Do (fun fail s => if fail then (s, VFail) else (set_cred u (buf s) s, VNone)) (fun r =>
      Do wipe (fun _ => match r with VFail => Ret Err | _ => Ret Done end)))
  | None =>
      Do (fun fail s => if had then if fail then (s, VFail) else (set_cred u None s, VNone)
                        else (s, VNone)) (fun r =>
      Do wipe (fun _ => match r with VFail => Ret Err | _ => Ret Done end))
  end.
Definition setcred (i u : nat) (now new : option pin) : prog :=
  Do (get_sess i) (fun w =>
  match w with
  | VSome w =>
    if Nat.eqb w u || admin w then
      Do (has_cred u) (fun c =>
      match c with
      | VBool true =>
          match now with
          | None => Ret Refused
          | Some p =>
            Do (load u) (fun l =>
            match l with
            | VSome _ =>
                Do (compare p) (fun eq =>
                match eq with
                | VBool true => store_new u true new
                | _ => Do wipe (fun _ => Ret Refused)
                end)
            | _ => Do wipe (fun _ => Ret Err)
            end)
          end
      | _ =>
          match now with
          | None => store_new u false new
          | Some _ => Ret Refused
          end
      end)
    else Ret Refused
  | _ => Ret Refused
  end).

Definition body (i : nat) (o : op) : prog :=
  match o with
  | Login u p => login i u p
  | Logout u => logout i u
  | SetCred u now new => setcred i u now new
  | Work _ => Ret Done
  end.

(** wh_auth.c 206-286 wh_Auth_CheckRequestAuthorization. *)
Definition passes (w : option nat) (o : op) : bool :=
  match w, o with
  | None, Login _ _ => true
  | None, _ => false
  | Some _, Logout _ => true
  | Some w, _ => may w o
  end.

(** ** Servers

    src/wh_server.c 557-757: each request passes the gate, in a locked section of
    its own, and then its handler runs, which for a request about users is a
    second locked section. *)
Inductive phase :=
| Idle
| GateW (o : op)               (* about to take the lock for the gate *)
| GateIn (o : op)              (* in the gate *)
| GateOut (o : op) (ok : bool) (* decided, about to release *)
| BodyW (o : op)               (* passed, about to start *)
| BodyIn (o : op) (p : prog).  (* in the handler's section *)

Record sys := mkSys {
  shared : sh;
  own : nat -> option nat;     (* each mutex: the server that holds it *)
  ph : nat -> phase;
  todo : nat -> list op;
  trace : list (nat * op * res) (* requests answered, in order *)
}.

Definition set_ph i p s := mkSys (shared s) (own s) (upd (ph s) i p) (todo s) (trace s).
Definition set_own l w s := mkSys (shared s) (upd (own s) l w) (ph s) (todo s) (trace s).
Definition set_sh x s := mkSys x (own s) (ph s) (todo s) (trace s).
Definition answer i o r s :=
  mkSys (shared s) (own s) (upd (ph s) i Idle) (todo s) (trace s ++ [(i, o, r)]).

(** One step of server [i].  [v]: the lock or the storage fails now.  A lock that
    is held has to be waited for ([None]). *)
Definition step (i : nat) (v : bool) (s : sys) : option sys :=
  let l := mutex (ctx i) in
  match ph s i with
  | Idle =>
      match todo s i with
      | [] => None
      | o :: rest =>
          Some (set_ph i (GateW o) (mkSys (shared s) (own s) (ph s) (upd (todo s) i rest) (trace s)))
      end
  | GateW o =>
      if v then Some (answer i o Err s)
      else match own s l with
           | None => Some (set_own l (Some i) (set_ph i (GateIn o) s))
           | Some _ => None
           end
  | GateIn o => Some (set_ph i (GateOut o (passes (sess (shared s) (ctx i)) o)) s)
  | GateOut o ok =>
      Some (set_own l None (if ok then set_ph i (BodyW o) s else answer i o Denied s))
  | BodyW o =>
      match o with
      | Work _ => Some (answer i o Done s)
      | _ => if v then Some (answer i o Err s)
             else match own s l with
                  | None => Some (set_own l (Some i) (set_ph i (BodyIn o (body i o)) s))
                  | Some _ => None
                  end
      end
  | BodyIn o (Do f k) =>
      let '(x, y) := f v (shared s) in
      Some (set_sh x (set_ph i (BodyIn o (k y)) s))
  | BodyIn o (Ret r) => Some (set_own l None (answer i o r s))
  end.

Fixpoint run (sc : list (nat * bool)) (s : sys) : option sys :=
  match sc with
  | [] => Some s
  | (i, v) :: rest => match step i v s with None => None | Some s' => run rest s' end
  end.

(** Nobody logged in, everybody with the credentials [c]. *)
Definition start (c : nat -> option (list N)) (q : nat -> list op) : sys :=
  mkSys (mkSh (fun _ => false) c None (fun _ => None)) (fun _ => None) (fun _ => Idle) q [].

End Auth.
