(** What users of the authentication manager rely on, stated on the events and
    answers of a run: the user database as the answers describe it, what an
    administrator granted, and which requests a session may make. *)
From Verif Require Import Base NvmSpec NvmReqModel ServerModel AuthModel AuthOps.
Local Open Scope N_scope.

(** A user: name, permissions, and the credential last set with its method. *)
Definition entry : Type := list N * perms * option (N * list N).
Definition users_db : Type := N -> option entry.
Definition no_users : users_db := fun _ => None.
Definition put (S : users_db) (uid : N) (v : option entry) : users_db := fun x => if x =? uid then v else S x.
Definition credential (m : N) (c : list N) : option (N * list N) := match c with [] => None | _ => Some (m, c) end.

(** The database as the answers describe it: a request answered OK has its
    effect, any other has none; a restart keeps the users when NVM is configured. *)
Definition answered_ok (a : option aresp) : bool := match a with Some r => is_ok (ar_rc r) | None => false end.
Definition answer_id (a : option aresp) : N := match a with Some r => ar_id r | None => 0 end.
Definition described (nvm : bool) (ev : aev) (a : option aresp) (S : users_db) : users_db :=
  match ev with
  | EReq _ _ (AAdd raw p m c) | EAdd _ raw p m c =>
      if answered_ok a then put S (answer_id a) (Some (uname raw, clamp p, credential m c)) else S
  | EReq _ _ (ADelete uid) => if answered_ok a then put S uid None else S
  | EReq _ _ (ASetPerm uid p) =>
      if answered_ok a then put S uid (option_map (fun x => (fst (fst x), clamp p, snd x)) (S uid)) else S
  | EReq _ _ (ASetCred uid m _ c) =>
      if answered_ok a then put S uid (option_map (fun x => (fst x, credential m c)) (S uid)) else S
  | EBoot => if nvm then S else no_users
  | _ => S
  end.

(** Login data answers a credential. *)
Definition matches (crypto : bool) (sha : list N -> list N) (verify : list N -> list N -> bool) (m : N) (cred data : list N) : Prop :=
  if m =? METHOD_PIN then (if crypto then sha data = sha cred else data = cred) else verify cred data = true.

(** ** Permissions *)
(** [a] grants nothing [b] does not grant; group 14 is the administrator flag. *)
Definition within (a b : perms) : Prop :=
  (forall g, (g <= NGROUPS)%nat -> grp a g <> 0 -> grp b g <> 0) /\
  (forall g w n, (g < NGROUPS)%nat -> (w < AWORDS)%nat -> N.testbit (act a g w) n = true -> N.testbit (act b g w) n = true) /\
  (forall k, In k (key_ids a) -> In k (key_ids b)).
(** A logged-in session acts as an administrator when the permissions it logged in with,
    or those its user has now, carry the administrator flag. *)
Definition acts_as_admin (Y : asys) (c : nat) : bool :=
  negb (u_id (as_sess Y c) =? 0) &&
  (is_admin (u_perm (as_sess Y c)) || is_admin (b_perm (user_at (as_db Y) (u_id (as_sess Y c))))).

(** What a session may ask for: without a user, the communication group and the
    login; with a user, the logout and every action whose group flag and action
    bit are set. *)
Definition may_use (s : sess) (group action : N) : Prop :=
  if u_id s =? 0 then group = GROUP_COMM \/ group = GROUP_AUTH /\ action = ACT_LOGIN
  else group = GROUP_AUTH /\ action = ACT_LOGOUT \/
       (exists g, (g < 14)%nat /\ N.land (N.shiftr group 8) 255 = N.of_nat g /\ grp (u_perm s) g <> 0 /\ action < 256 /\
          N.testbit (act (u_perm s) g (N.to_nat (action / 32))) (action mod 32) = true).

(** No user a session holds is deleted, or given other permissions by another
    session. *)
Definition undisturbing (ev : aev) (a : option aresp) (Y : asys) : Prop :=
  match ev with
  | EReq _ _ (ADelete uid) => answered_ok a = true -> forall x, u_id (as_sess Y x) <> uid
  | EReq c _ (ASetPerm uid _) => answered_ok a = true -> forall x, x <> c -> u_id (as_sess Y x) <> uid
  | _ => True
  end.

Section Runs.
Variables (nvm crypto certs : bool) (sha : list N -> list N) (verify : list N -> list N -> bool).
Variables (max_read : nat) (have_st : bool).
Notation auth_step := (auth_step nvm crypto certs sha verify max_read have_st).

(** The database described by a whole run from state [Y]. *)
Fixpoint describes (evs : list aev) (Y : asys) (S : users_db) : users_db :=
  match evs with
  | [] => S
  | ev :: r => let '(a, Y1) := auth_step ev Y in describes r Y1 (described nvm ev a S)
  end.

(** The permissions given by the server's own program or by a session that acts
    as an administrator. *)
Definition grant (ev : aev) (a : option aresp) (Y : asys) : list perms :=
  match ev with
  | EAdd _ _ p _ _ => if answered_ok a then [p] else []
  | EReq c _ (AAdd _ p _ _) | EReq c _ (ASetPerm _ p) => if answered_ok a && acts_as_admin Y c then [p] else []
  | _ => []
  end.
Fixpoint grants (evs : list aev) (Y : asys) : list perms :=
  match evs with
  | [] => []
  | ev :: r => let '(a, Y1) := auth_step ev Y in grant ev a Y ++ grants r Y1
  end.

(** Nobody who acts as an administrator makes a request, nor does the server's
    own program add users. *)
Fixpoint no_admin (evs : list aev) (Y : asys) : Prop :=
  match evs with
  | [] => True
  | ev :: r =>
      match ev with EReq c _ _ => acts_as_admin Y c = false | EAdd _ _ _ _ _ => False | _ => True end /\
      no_admin r (snd (auth_step ev Y))
  end.

(** Logouts are of the session's own user, and no user is deleted while a
    session holds it. *)
Fixpoint orderly (evs : list aev) (Y : asys) : Prop :=
  match evs with
  | [] => True
  | ev :: r =>
      match ev with
      | EReq c _ (ALogout uid) => uid = u_id (as_sess Y c)
      | EReq _ _ (ADelete uid) => answered_ok (fst (auth_step ev Y)) = true -> forall x, u_id (as_sess Y x) <> uid
      | _ => True
      end /\ orderly r (snd (auth_step ev Y))
  end.

Fixpoint undisturbed (evs : list aev) (Y : asys) : Prop :=
  match evs with
  | [] => True
  | ev :: r => undisturbing ev (fst (auth_step ev Y)) Y /\ undisturbed r (snd (auth_step ev Y))
  end.

(** The database is exactly [S], credentials included: with NVM the credential
    of user [uid] is the object 0xFE00 + [uid], its method in the last byte of
    the label. *)
Definition stored_cred (D : adb) (uid : N) : option (N * list N) :=
  match sp_find (a_st D) (INDEX_ID + uid) with
  | Some (m, d) => Some (nth (LABEL_LEN - 1) (m_label m) 0, d)
  | None => None
  end.
Definition stored_form (x : option (N * list N)) : option (N * list N) :=
  option_map (fun '(m, c) => (m, if (m =? METHOD_PIN) && crypto then sha c else c)) x.
Definition shows (Y : asys) (S : users_db) : Prop :=
  as_up Y = true /\
  forall uid, 1 <= uid -> uid <= N.of_nat MAX_USERS ->
  match S uid with
  | None => b_id (user_at (as_db Y) uid) = 0
  | Some (name, p, v) =>
      let u := user_at (as_db Y) uid in
      b_id u = uid /\ b_name u = name /\ b_perm u = p /\ stored_cred (as_db Y) uid = stored_form v
  end.
End Runs.

(** A device whose NVM has never held a user. *)
Definition factory (st : store) : Prop := forall id, reserved id -> sp_find st id = None.
(** Users are added with a credential. *)
Definition with_credential (ev : aev) : Prop :=
  match ev with EReq _ _ (AAdd _ _ _ c) | EAdd _ _ _ _ c => c <> [] | _ => True end.
(** A delete whose credential erase and whose rollback both fail. *)
Definition no_double_fault (ev : aev) : Prop :=
  match ev with EReq _ e (ADelete _) => ae_w2 e = OK \/ ae_w3 e = OK | _ => True end.
