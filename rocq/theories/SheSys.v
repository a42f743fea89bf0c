(** The SHE extension inside the key system of KsSys.v: every server context has
    its own SHE context (whServerContext.she), zeroed when the server context is
    set up.  A history is any interleaving of SHE requests with key, NVM and
    counter requests of any client on any server context, and restarts. *)
From Verif Require Import Base NvmSpec Flags KeyId Store NvmReqModel CounterModel KsModel KsReq KsSys SheModel.
Local Open Scope N_scope.

Record hsys := mkHsys { hy_ks : sys; hy_she : nat -> she }.

Inductive hev :=
| HShe (i : nat) (client : N) (e : senv) (q : sreq)     (* SHE request on server context i *)
| HSys (ev : sev).                                      (* everything else *)

Section Sys.
Variable C : kscfg.
Variable crypt : cop -> list N -> list N -> Z * list N.
Variable pub : N -> list N -> Z * list N.
Variable ots : list N -> list N -> option (list N * list N).
Variable gcm_enc : list N -> list N -> N -> list N -> option (list N).
Variable gcm_dec : list N -> list N -> N -> list N -> option (list N).
Variable max_read : nat.
Variable aes : list N -> list N -> list N.
Variable cbc_enc cbc_dec : list N -> list N -> list N.
Variable cmac : list N -> list N -> list N.
Variable use_op : sop -> list N -> list N -> option (list N).

Definition upd_she (f : nat -> she) (i : nat) (h : she) : nat -> she := fun x => if Nat.eqb x i then h else f x.

(** The answer to a SHE request, and the next state. *)
Definition hstep (ev : hev) (Y : hsys) : option sresp * hsys :=
  match ev with
  | HShe i client e q =>
      let '(r, h, S1) := she_step C aes cbc_enc cbc_dec cmac use_op e client q (hy_she Y i) (ks_of (hy_ks Y) i) in
      (Some r, mkHsys (put_ks (hy_ks Y) i S1) (upd_she (hy_she Y) i h))
  | HSys ev =>
      let K := snd (sys_step C crypt pub ots gcm_enc gcm_dec she_count max_read ev (hy_ks Y)) in
      (None, mkHsys K (match ev with
                       | SServer i => upd_she (hy_she Y) i she_zero_ctx
                       | SReset => fun _ => she_zero_ctx
                       | _ => hy_she Y
                       end))
  end.
Fixpoint hafter (evs : list hev) (Y : hsys) : hsys :=
  match evs with [] => Y | ev :: r => hafter r (snd (hstep ev Y)) end.
End Sys.

(** A freshly started device. *)
Definition fresh_hsys (st : store) (r b : nat) : hsys := mkHsys (fresh_sys st r b) (fun _ => she_zero_ctx).
