(** Timeouts and locks: src/wh_timeout.c 36-173 with port/posix/posix_timeout.c
    40-165, and src/wh_lock.c 36-115 with port/posix/posix_lock.c 37-145.
    Times are microseconds in a uint64_t; the clock reading is an argument. *)
From Verif Require Import Base.
Local Open Scope N_scope.

Definition U64 : N := 2 ^ 64.

(** whTimeout plus posixTimeoutContext: wh_timeout.h 119-126.  [t_cb] says that
    a callback table is configured (the posix one). *)
Record timer := mkT { t_init : bool; t_cb : bool; t_limit : N; t_start : N; t_run : bool }.

(** wh_Timeout_Init: wh_timeout.c 36-72, posixTimeout_Init: posix_timeout.c
    49-64.  No configuration gives the no-op timeout. *)
Definition timeout_init (cfg : option N) : timer :=
  match cfg with
  | None => mkT true false 0 0 false
  | Some lim => mkT true true lim 0 false
  end.

(** wh_Timeout_Set: wh_timeout.c 93-109, posixTimeout_Set: posix_timeout.c 82-97. *)
Definition timeout_set (lim : N) (t : timer) : Z * timer :=
  if negb (t_init t) then (BADARGS, t)
  else if negb (t_cb t) then (OK, t)
  else (OK, mkT true true lim (t_start t) (t_run t)).

(** wh_Timeout_Start: wh_timeout.c 111-127, posixTimeout_Start: posix_timeout.c
    99-118.  A clock reading of zero stands for a failed clock_gettime. *)
Definition timeout_start (now : N) (t : timer) : Z * timer :=
  if negb (t_init t) then (BADARGS, t)
  else if negb (t_cb t) then (OK, t)
  else if now =? 0 then (ABORTED, mkT true true (t_limit t) 0 (t_run t))
  else (OK, mkT true true (t_limit t) now true).

(** wh_Timeout_Stop: wh_timeout.c 129-145, posixTimeout_Stop: posix_timeout.c 120-136. *)
Definition timeout_stop (t : timer) : Z * timer :=
  if negb (t_init t) then (BADARGS, t)
  else if negb (t_cb t) then (OK, t)
  else (OK, mkT true true (t_limit t) 0 false).

(** posixTimeout_Expired: posix_timeout.c 138-163: (return code, *expired). *)
Definition posix_expired (now : N) (t : timer) : Z * Z :=
  if negb (t_run t) || (t_limit t =? 0) then (OK, 0%Z)
  else if now =? 0 then (ABORTED, 0%Z)
  else (OK, if t_limit t <=? (now + U64 - t_start t) mod U64 then 1%Z else 0%Z).

(** wh_Timeout_Expired: wh_timeout.c 147-173.  [app] is what the application's
    expired callback does when there is one and it is called: its return code,
    the value it leaves in *expired, and the clock reading if it restarts the
    timer. *)
Definition timeout_expired (app : option (Z * Z * option N)) (now : N) (t : timer) : Z * timer :=
  if negb (t_init t) || negb (t_cb t) then (0%Z, t)
  else
    let '(rc, ex) := posix_expired now t in
    if negb (is_ok rc) then (rc, t)
    else if Z.eqb ex 0 then (0%Z, t)
    else match app with
         | None => (ex, t)
         | Some (rc', ex', restart) =>
             let t' := match restart with Some n => snd (timeout_start n t) | None => t end in
             if negb (is_ok rc') then (rc', t') else (ex', t')
         end.

(** Calls on one timer, with the clock reading of each. *)
Inductive tcall :=
| TSet (lim : N) | TStart (now : N) | TStop | TExpired (now : N).
Definition tcall_step (c : tcall) (t : timer) : Z * timer :=
  match c with
  | TSet lim => timeout_set lim t
  | TStart now => timeout_start now t
  | TStop => timeout_stop t
  | TExpired now => timeout_expired None now t
  end.
Fixpoint trun (cs : list tcall) (t : timer) : list (tcall * Z) * timer :=
  match cs with
  | [] => ([], t)
  | c :: cs' => let '(rc, t1) := tcall_step c t in
                let '(tr, t2) := trun cs' t1 in ((c, rc) :: tr, t2)
  end.

(** ** Locks *)
(** The mutex of posixLockContext.  The kind comes from the attributes in the
    configuration: error checking, or normal (the default attributes). *)
Inductive mkind := MErrorCheck | MNormal.
Record plock := mkL { l_init : bool;      (* whLock.initialized *)
                      l_cb : bool;        (* whLock.cb is set *)
                      l_minit : bool;     (* posixLockContext.initialized *)
                      l_owner : option nat }.

(** wh_Lock_Init: wh_lock.c 36-68, posixLock_Init: posix_lock.c 37-70;
    [mrc] is the return code of pthread_mutex_init: 0, EINVAL (22) or other. *)
Definition lock_init (cb : bool) (mrc : Z) (l : plock) : Z * plock :=
  if negb cb then (OK, mkL true false (l_minit l) (l_owner l))
  else if l_minit l then (OK, mkL true true true (l_owner l))
  else if Z.eqb mrc 0 then (OK, mkL true true true None)
  else (if Z.eqb mrc 22 then BADARGS else ABORTED, mkL (l_init l) false false (l_owner l)).

(** Outcome of a call: it returns a code, or the calling thread blocks, or the
    behaviour is undefined (POSIX: unlocking a normal mutex one does not own). *)
Inductive lout := LRet (rc : Z) | LBlocked | LUndefined.

(** wh_Lock_Acquire: wh_lock.c 84-102, posixLock_Acquire: posix_lock.c 96-122,
    pthread_mutex_lock as POSIX specifies it. *)
Definition lock_acquire (k : mkind) (me : nat) (l : plock) : lout * plock :=
  if negb (l_init l) then (LRet BADARGS, l)
  else if negb (l_cb l) then (LRet OK, l)
  else if negb (l_minit l) then (LRet NOTREADY, l)
  else match l_owner l with
       | None => (LRet OK, mkL (l_init l) (l_cb l) (l_minit l) (Some me))
       | Some o =>
           if Nat.eqb o me
           then match k with MErrorCheck => (LRet ABORTED, l) | MNormal => (LBlocked, l) end
           else (LBlocked, l)
       end.

(** wh_Lock_Release: wh_lock.c 104-122, posixLock_Release: posix_lock.c 124-150. *)
Definition lock_release (k : mkind) (me : nat) (l : plock) : lout * plock :=
  if negb (l_init l) then (LRet BADARGS, l)
  else if negb (l_cb l) then (LRet OK, l)
  else if negb (l_minit l) then (LRet NOTREADY, l)
  else match l_owner l with
       | Some o =>
           if Nat.eqb o me then (LRet OK, mkL (l_init l) (l_cb l) (l_minit l) None)
           else match k with MErrorCheck => (LRet LOCKED, l) | MNormal => (LUndefined, l) end
       | None => match k with MErrorCheck => (LRet LOCKED, l) | MNormal => (LUndefined, l) end
       end.

(** A schedule: which thread makes which call. *)
Inductive lcall := LAcq | LRel.
Definition lock_step (k : mkind) (me : nat) (c : lcall) (l : plock) : lout * plock :=
  match c with LAcq => lock_acquire k me l | LRel => lock_release k me l end.
Fixpoint lrun (k : mkind) (cs : list (nat * lcall)) (l : plock) : list (nat * lcall * lout) :=
  match cs with
  | [] => []
  | (me, c) :: cs' => let '(o, l1) := lock_step k me c l in (me, c, o) :: lrun k cs' l1
  end.
