(** What the counter calls mean to a caller, said of the values of counters; no
    packets and no labels here. *)
From Verif Require Import Base NvmSpec Flags Store NvmReqModel KeyId CounterModel EndianModel EndianProof NvcModel NvcSpec CtcModel.
Local Open Scope N_scope.

(** The value of counter [id] of [client] on a server of byte order [sb]: the
    first four bytes of the label of its object, as an integer. *)
Definition value (sb : bool) (s : store) (client id : N) : option N :=
  match sp_find s (counter_id client id) with Some (m, _) => Some (dec sb (firstn 4 (m_label m))) | None => None end.
Definition MAX32 : N := 4294967295.

(** The counter a call is about. *)
Definition about (c : ccall) : N := match c with CtInit id _ | CtReset id | CtInc id | CtRead id | CtDestroy id => id end.
(** Arguments of the C types; the calls refuse the id 0. *)
Definition cargs (c : ccall) : Prop := about c < 65536 /\ match c with CtInit _ v => v < 4294967296 | _ => True end.
Definition cenv_ok (e : cenv) : Prop := i32 (ce_lock e) /\ i32 (ce_nvm e).

(** The effect of a call on its counter: the code, the new value, and the value
    the caller is told. *)
Definition counts (e : cenv) (c : ccall) (v : option N) : Z * option N * option N :=
  if negb (Z.eqb (ce_lock e) OK) then (ce_lock e, v, None) else
  match c with
  | CtInit _ n => if Z.eqb (ce_nvm e) OK then (OK, Some n, Some n) else (ce_nvm e, v, None)
  | CtReset _ => if Z.eqb (ce_nvm e) OK then (OK, Some 0, Some 0) else (ce_nvm e, v, None)
  | CtInc _ =>
      match v with
      | None => (NOTFOUND, None, None)
      | Some n => if n =? MAX32 then (OK, Some n, Some n)
                  else if Z.eqb (ce_nvm e) OK then (OK, Some (n + 1), Some (n + 1)) else (ce_nvm e, Some n, None)
      end
  | CtRead _ => match v with None => (NOTFOUND, None, None) | Some n => (OK, Some n, Some n) end
  | CtDestroy _ => if Z.eqb (ce_nvm e) OK then (OK, None, None) else (ce_nvm e, v, None)
  end.

(** ** Histories *)
(** Counter calls and NVM calls by any clients, of any byte order. *)
Inductive cev := EvC (cb : bool) (client : N) (c : ccall) (e : cenv) (L : nlink) | EvN (v : event).
Definition cev_ok (sid : N) (x : cev) : Prop :=
  match x with EvC _ _ c e _ => cargs c /\ cenv_ok e | EvN v => event_ok sid v end.
(** The event leaves the counter alone or increments or reads it: no init, reset
    or destroy of it, and no NVM call that stores or destroys under its id. *)
Definition only_counts (sb : bool) (k : N) (x : cev) : Prop :=
  match x with
  | EvC _ client c _ _ => match c with CtInc _ | CtRead _ => True | _ => counter_id client (about c) <> k end
  | EvN v => ~ names sb k v
  end.
Section Run.
Variable DL : nat.
Variable build sb : bool.
Variable sid : N.
Definition cev_step (x : cev) (s : store) : option ccout * store :=
  match x with
  | EvC cb client c e L => let '(o, s') := ccall_do sb cb client c e L s in (Some o, s')
  | EvN v => (None, snd (call DL build sb sid (v_big v) (v_id v) (v_call v) (v_env v) (v_link v) (v_mem v) s))
  end.
(** The increments of counter object [k]: those that were sent, and the values
    told to the callers whose call succeeded. *)
Definition inc_of (k : N) (x : cev) : bool :=
  match x with EvC _ client (CtInc id) _ _ => negb (id =? 0) && (counter_id client id =? k) | _ => false end.
Definition sent (x : cev) : bool := match x with EvC _ _ _ _ L => Z.eqb (k_send L) OK | _ => false end.
Fixpoint history (k : N) (xs : list cev) (s : store) : list N * store :=
  match xs with
  | [] => ([], s)
  | x :: r =>
      let '(o, s1) := cev_step x s in
      let '(ts, s2) := history k r s1 in
      (match o with
       | Some o => if inc_of k x && Z.eqb (co_rc o) OK then match co_val o with Some v => v :: ts | None => ts end else ts
       | None => ts
       end, s2)
  end.
End Run.
Definition sent_incs (k : N) (xs : list cev) : nat := length (filter (fun x => inc_of k x && sent x) xs).
(** Tickets: each one above all before it, until the counter is full. *)
Inductive rising : N -> list N -> Prop :=
| rising_nil v : rising v []
| rising_more v t ts : v < t \/ (v = MAX32 /\ t = MAX32) -> rising t ts -> rising v (t :: ts).
