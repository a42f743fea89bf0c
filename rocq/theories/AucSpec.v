(** What the authentication calls mean to their callers: which request of the
    authentication manager a call stands for, and how its answer is reported. *)
From Verif Require Import Base NvmSpec EndianModel NvcModel NvcSpec AuthModel AuthCodec AuthSpec AuthSys AucModel.

(** Permissions name at most two keys; unused places are empty. *)
Definition as_sent (p : perms) : perms :=
  mkP (p_group p) (p_act p) (N.min (p_count p) 2)
      (map (fun i => if (N.of_nat i <? p_count p)%N then nth i (p_keys p) 0%N else 0%N) [0; 1]).
(** Two structures that grant the same. *)
Definition same_perms (p q : perms) : Prop := p_group p = p_group q /\ p_act p = p_act q /\ key_ids p = key_ids q.

Definition meaning (k : acall) : areq :=
  match k with
  | UcLogin method name data => ALogin method name data
  | UcLogout uid => ALogout uid
  | UcAdd name p method cred => AuthModel.AAdd name (as_sent p) method cred
  | UcDelete uid => ADelete uid
  | UcGet name => AGet name
  | UcSetPerm uid p => ASetPerm uid (as_sent p)
  | UcSetCred uid method old new => ASetCred uid method old new
  end.

(** Arguments of the C types; a name is a C string. *)
Definition cname (n : list N) : Prop := Forall (fun b => 0 < b < 256)%N n.
Definition u16 (v : N) : Prop := (v < 65536)%N.
Definition acall_ok (k : acall) : Prop :=
  match k with
  | UcLogin method name _ => u16 method /\ cname name
  | UcLogout uid | UcDelete uid => u16 uid
  | UcAdd name p method _ => u16 method /\ cname name /\ perms_wf p
  | UcGet name => cname name
  | UcSetPerm uid p => u16 uid /\ perms_wf p
  | UcSetCred uid method _ _ => u16 uid /\ u16 method
  end.
Definition aenv_ok (e : aenv) : Prop :=
  i32 (ae_lock e) /\ i32 (ae_rd e) /\ i32 (ae_w1 e) /\ i32 (ae_w2 e) /\ i32 (ae_w3 e).

(** Names of 1 to 31 bytes; credentials that fit into a packet of [CD] bytes: the
    code of the calls that are not sent. *)
Definition bad_name (n : list N) : Prop := n = [] \/ 31 < length n.
Definition refused (CD : nat) (k : acall) (code : Z) : Prop :=
  match k with
  | UcLogin _ name data => (bad_name name \/ CD < 36 + length data) /\ code = BADARGS
  | UcAdd name _ _ cred => bad_name name /\ code = BADARGS \/ ~ bad_name name /\ CD < 510 + length cred /\ code = BUFFER_SIZE
  | UcGet name => bad_name name /\ code = BADARGS
  | UcSetCred _ _ old new => (CD < 8 + 2 * length old \/ CD < 8 + 2 * length new) /\ code = BUFFER_SIZE
  | _ => False
  end.

(** How an answer of the manager is reported. *)
Definition reported (k : acall) (r : aresp) (o : aout) : Prop :=
  ao_rc o = OK /\ ao_out o = Some (ar_rc r) /\
  match k with
  | UcLogin _ _ _ | UcAdd _ _ _ _ => ao_id o = Some (ar_id r) /\ ao_perm o = None
  | UcGet _ => ao_id o = Some (ar_id r) /\ exists p, ao_perm o = Some p /\ same_perms p (ar_perm r)
  | _ => ao_id o = None /\ ao_perm o = None
  end.
(** The call ended with code [rc] and no answer; a login call sets the user id to
    none when it has sent its request. *)
Definition silent (k : acall) (sent : bool) (rc : Z) (o : aout) : Prop :=
  ao_rc o = rc /\ ao_out o = None /\ ao_perm o = None /\
  ao_id o = match k with UcLogin _ _ _ => if sent then Some 0%N else None | _ => None end.

(** Where a request carries credentials, and how many bytes. *)
Definition secret_at (k : acall) : nat :=
  match k with UcLogin _ _ _ => 36 | UcAdd _ _ _ _ => 510 | UcSetCred _ _ _ _ => 8 | _ => 0 end.
Definition secrets (k : acall) : list N :=
  match k with UcLogin _ _ d => d | UcAdd _ _ _ d => d | UcSetCred _ _ a b => a ++ b | _ => [] end.
(** None of them is in a packet buffer any more. *)
Definition gone (k : acall) (buf : list N) : Prop :=
  forall i, i < length (secrets k) -> nth (secret_at k + i) buf 0%N = 0%N.

(** ** Histories *)
(** A call by a client with packets of [CD] bytes and byte order [cb], or any
    other event of the authentication manager. *)
Inductive bev := BCall (CD : nat) (cb : bool) (c : nat) (k : acall) (e : aenv) (L : alink) | BOther (ev : aev).
Section History.
Variables (nvm crypto certs : bool) (sha : list N -> list N) (verify : list N -> list N -> bool).
Variables (max_read : nat) (have_st : bool).
Variable SD : nat.               (* packet size of the server *)
Variable sb : bool.              (* the server is big endian *)
Definition bev_ok (b : bev) : Prop :=
  match b with
  | BCall CD _ _ k e _ => 510 <= CD /\ CD <= SD /\ acall_ok k /\ aenv_ok e
  | BOther ev => ev_wf ev
  end.
(** Users are added with a credential. *)
Definition bev_cred (b : bev) : Prop :=
  match b with BCall _ _ _ (UcAdd _ _ _ c) _ _ => c <> [] | BCall _ _ _ _ _ _ => True | BOther ev => with_credential ev end.
Definition bev_step (b : bev) (Y : asys) : asys :=
  match b with
  | BCall CD cb c k e L => snd (acall_do nvm crypto certs sha verify CD SD sb cb true c k e L Y)
  | BOther ev => snd (auth_step nvm crypto certs sha verify max_read have_st ev Y)
  end.
Fixpoint bev_run (bs : list bev) (Y : asys) : asys :=
  match bs with [] => Y | b :: r => bev_run r (bev_step b Y) end.
End History.
(** The requests of a history, in order: a call that is refused or not sent is
    none, any other is its meaning. *)
Inductive means : list bev -> list aev -> Prop :=
| means_nil : means [] []
| means_none CD cb c k e L bs evs : (exists code, refused CD k code) \/ l_send L <> OK -> means bs evs ->
    means (BCall CD cb c k e L :: bs) evs
| means_call CD cb c k e L bs evs : (forall code, ~ refused CD k code) -> l_send L = OK -> means bs evs ->
    means (BCall CD cb c k e L :: bs) (EReq c e (meaning k) :: evs)
| means_other ev bs evs : means bs evs -> means (BOther ev :: bs) (ev :: evs).
