(** The whole key system: several server contexts (one per connection), each
    with its own key cache, sharing one NVM context with the global key cache
    (wolfhsm/wh_nvm.h, wolfhsm/wh_server.h).  A history is any interleaving of
    client requests and resets; every request runs under one hold of the NVM
    lock.  The client a server context is connected to is given with each
    request, so reconnections are covered.  A power loss in the middle of a
    request is the request completed or absent (C05), followed by a reset. *)
From Verif Require Import Base NvmSpec Flags KeyId Store NvmReqModel CounterModel KsModel KsReq.
Local Open Scope N_scope.

Record sys := mkSys { y_st : store; y_glob : cache; y_loc : nat -> cache }.

Inductive sev :=
| SKey (i : nat) (client : N) (e : kenv) (q : kreq)     (* key and crypto requests *)
| SNvm (e : nvm_env) (q : nvm_request)                  (* NVM requests of any client *)
| SCounter (client : N) (e : cenv) (q : counter_req)    (* counter requests *)
| SServer (i : nat)                                     (* server context i is set up again *)
| SReset.                                               (* the device restarts *)

(** A cache as wh_Server_Init and wh_Nvm_Init leave it: all slots zero. *)
Definition empty_cache (c : cache) : cache :=
  mkCache (map (fun _ => slot_zero) (c_reg c)) (map (fun _ => slot_zero) (c_big c)).

Definition ks_of (Y : sys) (i : nat) : ks := mkKs (y_st Y) (y_glob Y) (y_loc Y i).
Definition put_ks (Y : sys) (i : nat) (S : ks) : sys :=
  mkSys (k_st S) (k_glob S) (fun x => if Nat.eqb x i then k_loc S else y_loc Y x).

Section Sys.
Variable C : kscfg.
Variable crypt : cop -> list N -> list N -> Z * list N.
Variable pub : N -> list N -> Z * list N.
Variable ots : list N -> list N -> option (list N * list N).
Variable gcm_enc : list N -> list N -> N -> list N -> option (list N).
Variable gcm_dec : list N -> list N -> N -> list N -> option (list N).
Variable she_count : list N -> N.
Variable max_read : nat.

(** The answer to a key request, and the next state. *)
Definition sys_step (ev : sev) (Y : sys) : option kresp * sys :=
  match ev with
  | SKey i client e q =>
      let '(r, S1) := ks_step C crypt pub ots gcm_enc gcm_dec she_count e client q (ks_of Y i) in
      (Some r, put_ks Y i S1)
  | SNvm e q =>
      (None, mkSys (snd (nvm_handle max_read (have_st C) e q (y_st Y))) (y_glob Y) (y_loc Y))
  | SCounter client e q =>
      (None, mkSys (snd (counter_handle e client q (y_st Y))) (y_glob Y) (y_loc Y))
  | SServer i =>
      (None, mkSys (y_st Y) (y_glob Y) (fun x => if Nat.eqb x i then empty_cache (y_loc Y x) else y_loc Y x))
  | SReset =>
      (None, mkSys (y_st Y) (empty_cache (y_glob Y)) (fun x => empty_cache (y_loc Y x)))
  end.
Fixpoint sys_run (evs : list sev) (Y : sys) : list (option kresp) * sys :=
  match evs with
  | [] => ([], Y)
  | ev :: r => let '(a, Y1) := sys_step ev Y in
               let '(rs, Y2) := sys_run r Y1 in (a :: rs, Y2)
  end.
Definition sys_after (evs : list sev) (Y : sys) : sys := snd (sys_run evs Y).
End Sys.

(** A freshly started device: [n] server contexts' worth of empty caches. *)
Definition zero_cache (r b : nat) : cache := mkCache (repeat slot_zero r) (repeat slot_zero b).
Definition fresh_sys (st : store) (r b : nat) : sys := mkSys st (zero_cache r b) (fun _ => zero_cache r b).
