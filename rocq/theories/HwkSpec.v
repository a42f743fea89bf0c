(** What a back end and a lock may expect of the hardware keystore, as a monitor of
    the callbacks, and when a keystore is in use. *)
From Verif Require Import Base NvmSpec HwkModel.

(** The back end is up, the lock is initialized, the lock is held. *)
Record mon := mkM { m_back : bool; m_lock : bool; m_held : bool }.
Definition mon0 : mon := mkM false false false.
Definition need (b : bool) (m : mon) : option mon := if b then Some m else None.
(** [None]: a callback that must not happen. *)
Definition watch (m : mon) (e : cbev) : option mon :=
  match e with
  | BInit rc => need (negb (m_back m)) (mkM (is_ok rc) (m_lock m) (m_held m))
  | BClean => need (m_back m && negb (m_held m)) (mkM false (m_lock m) (m_held m))
  | BGet _ => need (m_back m && (m_held m || negb (m_lock m))) m
  | LInit rc => need (negb (m_lock m)) (mkM (m_back m) (is_ok rc) false)
  | LClean => need (m_lock m && negb (m_held m)) (mkM (m_back m) false false)
  | LAcquire rc => need (m_lock m && negb (m_held m)) (mkM (m_back m) (m_lock m) (is_ok rc))
  | LRelease _ => need (m_held m) (mkM (m_back m) (m_lock m) false)
  end.
Fixpoint watch_all (es : list cbev) (m : mon) : option mon :=
  match es with [] => Some m | e :: r => match watch m e with Some m1 => watch_all r m1 | None => None end end.

(** A transcript: the calls, their codes, their callbacks. *)
Definition entry : Type := hcall * (Z * list cbev).
(** In use: an Init has succeeded since the last Cleanup. *)
Definition used1 (u : bool) (x : entry) : bool :=
  match fst x with HInit _ _ _ => is_ok (fst (snd x)) | HClean null _ => null && u | HGet _ _ _ _ _ => u end.
Definition used (t : list entry) : bool := fold_left used1 t false.
(** A lock was asked for by the Init that put it into use. *)
Definition guarded1 (g : bool) (x : entry) : bool :=
  match x with
  | (HInit (Some conf) _ _, (rc, _)) => is_ok rc && hc_lock conf
  | (HInit None _ _, _) => false
  | (HClean null _, _) => null && g
  | (HGet _ _ _ _ _, _) => g
  end.
Definition guarded (t : list entry) : bool := fold_left guarded1 t false.
(** Nobody initializes a keystore that is in use. *)
Fixpoint careful (t : list entry) (u : bool) : Prop :=
  match t with
  | [] => True
  | x :: r => (match fst x with HInit _ _ _ => u = false | _ => True end) /\ careful r (used1 u x)
  end.
(** A back end without an init callback is up once Init has succeeded, one without a
    cleanup callback is down once Cleanup is called. *)
Definition settle (m : mon) (x : entry) : mon :=
  match fst x with
  | HInit _ _ _ => mkM (is_ok (fst (snd x))) (m_lock m) (m_held m)
  | HClean false _ => mkM false (m_lock m) (m_held m)
  | _ => m
  end.
Fixpoint obeys (t : list entry) (m : mon) : option mon :=
  match t with
  | [] => Some m
  | x :: r => match watch_all (snd (snd x)) m with Some m1 => obeys r (settle m1 x) | None => None end
  end.
