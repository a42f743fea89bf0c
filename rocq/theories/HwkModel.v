(** * The hardware keystore front end

    src/wh_hwkeystore.c, with the lock of src/wh_lock.c: calls of the application
    and the server, and the callbacks they make, in order.  Simplifications: a lock
    configuration has all its callbacks or none is given (wh_lock.c also allows
    single ones to be missing); what the callbacks answer is an argument. *)
From Verif Require Import Base NvmSpec.

(** whHwKeystoreCb: which callbacks are there; wh_hwkeystore.h 111-115. *)
Record hcb := mkHcb { cb_init : bool; cb_clean : bool; cb_get : bool }.
(** whHwKeystoreConfig: 129-136. [hc_lock]: lockConfig has callbacks. *)
Record hconf := mkHc { hc_cb : option hcb; hc_lock : bool }.
(** whHwKeystoreContext: 118-126. [h_lock]: zero, or initialized with callbacks or
    without (wh_lock.c 37-69). *)
Record hctx := mkH { h_cb : option hcb; h_lock : option bool; h_up : bool }.
Definition h_zero : hctx := mkH None None false.

(** What happens outside: callbacks of the back end and of the lock. *)
Inductive cbev :=
| BInit (rc : Z) | BClean | BGet (key : N) | LInit (rc : Z) | LClean | LAcquire (rc : Z) | LRelease (rc : Z).

Section Hwk.
Variable ts : bool.              (* WOLFHSM_CFG_THREADSAFE *)

(** wh_HwKeystore_Init: wh_hwkeystore.c 39-81; [lrc], [brc]: answers of the lock's and
    the back end's init. *)
Definition hw_init (conf : option hconf) (lrc brc : Z) (h : hctx) : Z * hctx * list cbev :=
  match conf with
  | Some (mkHc (Some cb) lk) =>
      if negb (cb_get cb) then (BADARGS, h, []) else
      let called := ts && lk in
      let l := if called then [LInit lrc] else [] in
      if called && negb (is_ok lrc) then (lrc, h_zero, l) else
      let h1 := mkH (Some cb) (if ts then Some lk else None) true in
      if cb_init cb
      then if negb (is_ok brc) then (brc, h_zero, l ++ [BInit brc] ++ if called then [LClean] else [])
           else (OK, h1, l ++ [BInit brc])
      else (OK, h1, l)
  | _ => (BADARGS, h, [])
  end.
(** wh_HwKeystore_Cleanup: 83-110; wh_Lock_Cleanup (wh_lock.c 71-85) always says OK. *)
Definition hw_cleanup (null : bool) (brc : Z) (h : hctx) : Z * hctx * list cbev :=
  if null then (BADARGS, h, []) else
  let b := match h_cb h with Some cb => cb_clean cb | None => false end in
  let l := match h_lock h with Some true => ts | _ => false end in
  (if b then brc else OK, h_zero, (if b then [BClean] else []) ++ (if l then [LClean] else [])).
(** wh_Lock_Acquire and wh_Lock_Release: wh_lock.c 87-125. *)
Definition lock_rc (h : hctx) (rc : Z) : Z := match h_lock h with None => BADARGS | Some false => OK | Some true => rc end.
Definition lock_ev (h : hctx) (e : cbev) : list cbev := match h_lock h with Some true => [e] | _ => [] end.
(** wh_HwKeystore_GetKey: 112-144; [arc], [rrc]: answers of acquire and release, [grc]:
    answer of the back end. *)
Definition hw_get (args_ok : bool) (key : N) (arc grc rrc : Z) (h : hctx) : Z * list cbev :=
  let get := match h_cb h with Some cb => cb_get cb | None => false end in
  if negb args_ok || negb (h_up h) || negb get then (BADARGS, []) else
  if negb ts then (grc, [BGet key]) else
  let a := lock_rc h arc in
  if negb (is_ok a) then (a, lock_ev h (LAcquire arc)) else
  (if is_ok grc then lock_rc h rrc else grc, lock_ev h (LAcquire arc) ++ [BGet key] ++ lock_ev h (LRelease rrc)).

(** ** Histories of one context *)
Inductive hcall :=
| HInit (conf : option hconf) (lrc brc : Z)
| HClean (null : bool) (brc : Z)
| HGet (args_ok : bool) (key : N) (arc grc rrc : Z).
Definition hw_do (k : hcall) (h : hctx) : Z * hctx * list cbev :=
  match k with
  | HInit conf lrc brc => hw_init conf lrc brc h
  | HClean null brc => hw_cleanup null brc h
  | HGet ok key arc grc rrc => let '(rc, evs) := hw_get ok key arc grc rrc h in (rc, h, evs)
  end.
Fixpoint hw_run (ks : list hcall) (h : hctx) : list (Z * list cbev) * hctx :=
  match ks with
  | [] => ([], h)
  | k :: r => let '(rc, h1, evs) := hw_do k h in let '(t, h2) := hw_run r h1 in ((rc, evs) :: t, h2)
  end.
End Hwk.

(** ** Threads
    Several threads, each bound to the same keystore (wh_hwkeystore.h 37-43), call
    GetKey; one may call Cleanup.  One step is one call of a callback or one access
    to the context.  [lk]: the lock has callbacks and works (mutual exclusion). *)
Inductive pc := Idle | Checked | Locked | Inside | Left.
(** [t_run]: initialized is set; [t_torn]: the back end's Cleanup has run;
    [t_clean]: how far the call of Cleanup is. *)
Inductive cpc := CNone | CTorn | CUnlocked | CDone.
Record tst := mkT { t_pc : nat -> pc; t_own : option nat; t_run : bool; t_clean : cpc }.
Definition at_ (f : nat -> pc) (i : nat) (p : pc) : nat -> pc := fun j => if Nat.eqb j i then p else f j.
Definition t_start : tst := mkT (fun _ => Idle) None true CNone.
Definition t_torn (s : tst) : bool := match t_clean s with CNone => false | _ => true end.
Inductive tstep (lk : bool) : tst -> tst -> Prop :=
(** 117-121: the checks, before the lock is taken *)
| t_check s i : t_pc s i = Idle -> t_run s = true ->
    tstep lk s (mkT (at_ (t_pc s) i Checked) (t_own s) (t_run s) (t_clean s))
(** 123-128; a lock that was cleaned up is not initialized, and refuses *)
| t_acquire s i : t_pc s i = Checked -> (lk = true -> t_own s = None) -> t_clean s = CNone \/ t_clean s = CTorn ->
    tstep lk s (mkT (at_ (t_pc s) i Locked) (if lk then Some i else t_own s) (t_run s) (t_clean s))
| t_refused s i : t_pc s i = Checked ->
    tstep lk s (mkT (at_ (t_pc s) i Idle) (t_own s) (t_run s) (t_clean s))
(** 130 *)
| t_enter s i : t_pc s i = Locked -> tstep lk s (mkT (at_ (t_pc s) i Inside) (t_own s) (t_run s) (t_clean s))
| t_leave s i : t_pc s i = Inside -> tstep lk s (mkT (at_ (t_pc s) i Left) (t_own s) (t_run s) (t_clean s))
(** 132-141 *)
| t_release s i : t_pc s i = Left ->
    tstep lk s (mkT (at_ (t_pc s) i Idle) (if lk then None else t_own s) (t_run s) (t_clean s))
(** 93-95, 101, 108: Cleanup takes no lock *)
| t_tear s : t_clean s = CNone -> t_run s = true -> tstep lk s (mkT (t_pc s) (t_own s) (t_run s) CTorn)
| t_unlock s : t_clean s = CTorn -> tstep lk s (mkT (t_pc s) None (t_run s) CUnlocked)
| t_zero s : t_clean s = CUnlocked -> tstep lk s (mkT (t_pc s) (t_own s) false CDone).
Inductive treach (lk : bool) : tst -> Prop :=
| tr_start : treach lk t_start
| tr_step s s' : treach lk s -> tstep lk s s' -> treach lk s'.
