(** * Specification: servers sharing one NVM (C76)

    Everything here is said of what a request handler does, as a list of lock
    calls and accesses, or of the states a set of servers goes through; nothing
    refers to how a handler is written. *)

From Coq Require Import List ZArith Lia Bool.
From Verif Require Import Base LkModel.
Import ListNotations.
Local Open Scope Z_scope.

(** ** One request on its own *)

Inductive ev := EAcq (l : lk) | ERel (l : lk) | EUse (a : acc).

(** What a handler does when its moves are answered by [o], and whether it
    reaches its reply. *)
Fixpoint trace (p : prog) (o : list Z) : list ev * bool :=
  match p with
  | Ret _ => ([], true)
  | Rel l k => let '(t, b) := trace k o in (ERel l :: t, b)
  | Acq l k =>
      match o with
      | [] => ([], false)
      | v :: o' => let '(t, b) := trace (k v) o' in
                   ((if v =? 0 then EAcq l :: t else t), b)
      end
  | Use a _ k =>
      match o with
      | [] => ([], false)
      | v :: o' => let '(t, b) := trace (k v) o' in (EUse a :: t, b)
      end
  | Env k =>
      match o with
      | [] => ([], false)
      | v :: o' => trace (k v) o'
      end
  end.

Definition lk_eqb (a b : lk) : bool :=
  match a, b with Nvm, Nvm | Vc, Vc => true | _, _ => false end.

(** Is lock [l] held after [t]? *)
Definition held (l : lk) (t : list ev) : bool :=
  fold_left (fun h e => match e with
                        | EAcq l' => if lk_eqb l l' then true else h
                        | ERel l' => if lk_eqb l l' then false else h
                        | EUse _ => h
                        end) t false.

(** The lock that protects an access. *)
Definition guard (a : acc) : lk := match a with VGet | VPut => Vc | _ => Nvm end.

(** Nothing shared is touched without its lock. *)
Definition guarded (t : list ev) : Prop :=
  forall pre a post, t = pre ++ EUse a :: post -> held (guard a) pre = true.
(** A server never waits for a lock it holds itself. *)
Definition no_self_wait (t : list ev) : Prop :=
  forall pre l post, t = pre ++ EAcq l :: post -> held l pre = false.
(** A server never waits for any lock while it holds the verify cache's. *)
Definition ordered (t : list ev) : Prop :=
  forall pre l post, t = pre ++ EAcq l :: post -> held Vc pre = false.
(** Only a lock that is held is released. *)
Definition paired (t : list ev) : Prop :=
  forall pre l post, t = pre ++ ERel l :: post -> held l pre = true.

(** How many times the NVM lock is taken. *)
Definition visits_of (t : list ev) : nat :=
  length (filter (fun e => match e with EAcq Nvm => true | _ => false end) t).

(** How many separate times a request may take the lock.  A request with one
    visit does everything it does to the store in that one visit. *)
Definition visits (q : req) : nat :=
  match q with
  | KeyGenDma _ => 2        (* store; evict if the public key cannot be sent *)
  | UseKey _ => 2           (* load; evict if asked *)
  | Rsa _ => 3              (* load, load again for the other usage; evict *)
  | Ecdh _ _ _ => 5         (* two loads, store the secret, two evictions *)
  | CmacOp _ => 2           (* load, load again for the other usage *)
  | Hkdf _ _ => 2           (* load; store *)
  | CmacKdf _ _ _ => 3      (* two loads; store *)
  | StsVerify _ => 2        (* load; evict if asked *)
  | AuthAdd _ _ => 3        (* credential, index, credential back out *)
  | AuthDelete _ _ => 3     (* index, credential, index back *)
  | AuthCred _ => 2         (* read the old one; write the new one *)
  | EccMakePub _ | EccCheckPub _ => 0
  | _ => 1
  end.

(** The two requests that touch the store without the lock. *)
Definition unlocked_req (q : req) : bool :=
  match q with EccMakePub _ | EccCheckPub _ => true | _ => false end.

(** The two requests that, with the global verify cache, take only its lock. *)
Definition cache_only (g : bool) (q : req) : bool :=
  match q with CertCacheClear | CertCacheEnable => g | _ => false end.

(** ** Several servers *)

Definition same {X} (s1 s2 : sys X) : Prop :=
  store_of s1 = store_of s2 /\ nvm_own s1 = nvm_own s2 /\ vc_own s1 = vc_own s2 /\
  forall i, srv s1 i = srv s2 i.

Definition free {X} (s : sys X) : Prop := nvm_own s = None /\ vc_own s = None.

Definition idle (t : server) : Prop := cur t = None.
Definition finished {X} (s : sys X) : Prop :=
  forall i, idle (srv s i) /\ todo (srv s i) = [].

(** A turn: server [i] alone moves, from and to a state in which no lock is
    held.  A turn begun on an idle server handles one request of its queue,
    and to its end if that request takes at most one visit; a turn begun in the
    middle of a request stays in it. *)
Definition turn {X} (sem : nat -> acc -> Z -> X -> Z * X) (g : bool)
    (i : nat) (vs : list Z) (s s' : sys X) : Prop :=
  run sem g (map (pair i) vs) s = Some s' /\
  free s /\ free s' /\
  match cur (srv s i) with
  | None => exists q, todo (srv s i) = q :: todo (srv s' i) /\
                      ((visits q <= 1)%nat -> idle (srv s' i))
  | Some _ => todo (srv s' i) = todo (srv s i)
  end.

Inductive in_turns {X} (sem : nat -> acc -> Z -> X -> Z * X) (g : bool) :
    sys X -> list (nat * list Z) -> sys X -> Prop :=
| turns_nil : forall s, in_turns sem g s [] s
| turns_cons : forall s i vs s1 rest s2,
    turn sem g i vs s s1 -> in_turns sem g s1 rest s2 ->
    in_turns sem g s ((i, vs) :: rest) s2.

(** Requests handled whole, one at a time: every turn begins and ends with that
    server idle and takes exactly the first request of its queue. *)
Inductive one_at_a_time {X} (sem : nat -> acc -> Z -> X -> Z * X) (g : bool) :
    sys X -> sys X -> Prop :=
| one_nil : forall s, one_at_a_time sem g s s
| one_cons : forall s i vs q s1 s2,
    run sem g (map (pair i) vs) s = Some s1 ->
    free s -> free s1 ->
    idle (srv s i) -> idle (srv s1 i) ->
    todo (srv s i) = q :: todo (srv s1 i) ->
    one_at_a_time sem g s1 s2 ->
    one_at_a_time sem g s s2.
