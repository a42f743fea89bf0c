(** Specification of certificate verification with the cache (C43). *)
From Verif Require Import Base NvmSpec Flags Store NvmReqModel CertModel.

(** The certificate stored under an id. *)
Definition root_now (s : store) (id : N) : list bytes :=
  match sp_find s id with Some (m, d) => [firstn (N.to_nat (m_len m)) d] | None => [] end.
Definition roots_now (s : store) (ids : list N) : list bytes := flat_map (root_now s) ids.

Section Wolf.
Variable World : Type.
Variable vrfy : World -> list bytes -> bytes -> Z.
Variable parse : bytes -> Z * bool.
Variable der : bytes -> Z + (nat * nat).
Variable digest : bytes -> bytes.

(** The certificates of a chain: consecutive DER sequences. *)
Inductive splits : bytes -> list bytes -> Prop :=
| splits_nil : splits [] []
| splits_cons b h len cs : der b = inr (h, len) -> 2 + h + len <= length b ->
    splits (skipn (2 + h + len) b) cs -> splits b (firstn (2 + h + len) b :: cs).

(** A CA certificate. *)
Definition is_ca (c : bytes) : Prop := parse c = (0%Z, true).

(** [c] is anchored in the certificates [R]: wolfSSL verified it, in a world of
    [P], with nothing in its certificate manager but [R] and CA certificates that
    are anchored in [R] themselves. *)
Inductive anchored (P : World -> Prop) (R : list bytes) : bytes -> Prop :=
| anchored_intro w T c : P w ->
    (forall t, In t T -> In t R \/ (anchored P R t /\ is_ca t)) ->
    vrfy w T c = SUCCESS -> anchored P R c.

(** What the code relies on in wolfSSL: failures are never reported by the code 0
    (1 is success), parsing errors are negative. *)
Variable load : World -> list bytes -> bytes -> Z.
Definition wolf_codes : Prop :=
  (forall w T c, vrfy w T c <> 0%Z /\ load w T c <> 0%Z) /\
  (forall b rc, der b = inl rc -> (rc < 0)%Z).

Notation ev := (cenv World * nat * creq)%type.

(** The chain does not change while the server reads it. *)
Definition steady (q : creq) : Prop :=
  match q with CVerify true mem _ _ => forall i p, mem i p = mem 0 0 | _ => True end.

(** Ids of NVM objects a request may write, outside the certificate requests. *)
Definition other_writes (q : creq) (id : N) : Prop :=
  match q with
  | CNvm _ (QAdd m _) => m_id m = id
  | CNvm _ (QAddDma _ m2 _ _) => m_id m2 = id
  | CNvm _ (QDestroy n ids) => In id (firstn n ids)
  | COther i _ => i = id
  | _ => False
  end.
(** Ids a certificate request may write. *)
Definition cert_writes (q : creq) (id : N) : Prop :=
  match q with CAdd _ i _ _ _ _ | CErase i => i = id | _ => False end.

Variable global : bool.
Notation cache_of := (cache_of global).

(** Once a verification of cache [k] has named a root, the root is changed only
    by AddTrusted and EraseTrusted through the same cache, with its lock
    working. *)
Fixpoint undisturbed (k : nat) (seen : list N) (evs : list ev) : Prop :=
  match evs with
  | [] => True
  | (e, c, q) :: r =>
      (forall id, In id seen -> ~ other_writes q id) /\
      (forall id, In id seen -> cert_writes q id -> cache_of c = k /\ ce_evict World e = OK) /\
      undisturbed k (match q with CVerify _ _ ids _ => if cache_of c =? k then ids ++ seen else seen | _ => seen end) r
  end.

(** All chains steady; the cache lock works when roots change. *)
Definition steady_run (evs : list ev) : Prop :=
  Forall (fun x : ev => let '(e, c, q) := x in steady q) evs.
(** No other thread serves a request in the middle of a verification. *)
Definition quiet (evs : list ev) : Prop :=
  Forall (fun x : ev => let '(e, c, q) := x in global = true -> forall i p, ce_mid World e i p = []) evs.
Definition evict_works (evs : list ev) : Prop :=
  Forall (fun x : ev => let '(e, c, q) := x in forall id, cert_writes q id -> ce_evict World e = OK) evs.

(** Nothing in [l] changes one of the roots [ids] through cache [k] or restarts
    the server or, if [strict], empties the cache. *)
Definition no_change (strict : bool) (k : nat) (ids : list N) (l : list litem) : Prop :=
  Forall (fun it => match it with
                    | LRoot j id => ~ (j = k /\ In id ids)
                    | LFlush j => strict = true -> j <> k
                    | LBoot => False
                    | _ => True
                    end) l.

(** In the log [l], newest first, a certificate with digest [h] was verified
    with roots among [ids], and since then none of those roots was changed (and,
    if [strict], the cache was not emptied). *)
Definition verified_before (strict : bool) (k : nat) (h : bytes) (ids : list N) (l : list litem) : Prop :=
  exists newer c ids0 older, l = newer ++ LVer k c ids0 :: older /\
    digest c = h /\ incl ids0 ids /\ no_change strict k ids0 newer.
End Wolf.

Definition no_slots (C : vcache) : Prop := Forall (eq None) (vc_slots C).
