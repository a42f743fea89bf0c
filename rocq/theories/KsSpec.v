(** Vocabulary for stating the key properties. *)
From Verif Require Import Base NvmSpec Flags KeyId NvmReqModel CounterModel KsModel KsReq KsSys.
Local Open Scope N_scope.

Section Spec.
Variable C : kscfg.

(** The server id of the key a client names. *)
Definition key_of (client id : N) : N := from_client (kc C) KT_CRYPTO client id.

(** Requests for key [k] that create, replace, change or remove it. *)
Definition replaces (client : N) (q : kreq) (k : N) : Prop :=
  match q with
  | KCache id _ _ _ | KCacheRandom id _ _ _ | KCacheDma id _ _ _ | KImport id _ _ _ | KSignGen id _ _
  | KErase id | KRevoke id | KSign id _ _ => key_of client id = k
  | _ => False
  end.
(** Requests that drop the cached copy of [k]. *)
Definition evicts (client : N) (q : kreq) (k : N) : Prop :=
  match q with KEvict id | KCryptoEvict id => key_of client id = k | _ => False end.
(** Requests that write the cached copy of [k] to NVM. *)
Definition commits (client : N) (q : kreq) (k : N) : Prop :=
  match q with KCommit id => key_of client id = k | _ => False end.
(** NVM requests for the object [k]. *)
Definition nvm_writes (q : nvm_request) (k : N) : Prop :=
  match q with
  | QAdd m _ => m_id m = k
  | QAddDma _ m2 _ _ => m_id m2 = k
  | QDestroy count ids => In k (firstn count ids)
  | _ => False
  end.

(** The copy of key [k] in the cache that server context [i] uses for it, and
    the object in NVM. *)
Definition cached (Y : sys) (i : nat) (k : N) : option slot :=
  cfind (if k_global (kc C) && N.eqb (kid_user k) 0 then y_glob Y else y_loc Y i) k.
Definition in_nvm (Y : sys) (k : N) : option (meta * list N) := sp_find (y_st Y) k.
(** The key as server context [i] sees it: cached copy, else the object in NVM. *)
Definition key_now (Y : sys) (i : nat) (k : N) : option (meta * list N) :=
  match cached Y i k with Some s => Some (sl_meta s, sl_buf s) | None => in_nvm Y k end.

(** States a device can be in: started with NVM contents [st] whose recorded
    lengths are right, then any history. *)
Definition nvm_sane (st : store) : Prop :=
  forall id m d, id <> 0 -> sp_find st id = Some (m, d) -> m_len m = N.of_nat (length d).
End Spec.

Definition reachable C crypt pub ots gcm_enc gcm_dec she_count max_read (Y : sys) : Prop :=
  exists st r b evs, nvm_sane st /\ Y = sys_after C crypt pub ots gcm_enc gcm_dec she_count max_read evs (fresh_sys st r b).
