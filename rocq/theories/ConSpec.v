(** What the connection calls mean: whose requests a server takes the ones of a
    connection for. *)
From Verif Require Import Base NvmSpec EndianModel EndianProof NvcModel ConModel.

(** Numbers a client may claim: 1 to 15, and 0 where 0 does not mean shared keys. *)
Definition claimable (global : bool) (id : N) : Prop := (id <= 15)%N /\ (global = true -> id <> 0%N).
(** The number in the packet a client of byte order [cb] sends. *)
Definition number (cb : bool) (p : list N) : N := dec cb (firstn 4 p).

(** The connection as its users see it: open or not, and the number claimed last;
    no bytes, no buffers. *)
Record seen := mkSn { se_open : bool; se_id : N }.
(** The number an event claims, when it reaches the server. *)
Definition claims (SD : nat) (v : nevent) : option N :=
  match v with
  | NvCall _ cid CnInit L => if Z.eqb (nl_send L) OK && (4 <=? SD) then Some cid else None
  | NvPacket cb a p _ _ => if N.eqb a 1 && (length p <=? SD) then Some (number cb p) else None
  | _ => None
  end.
Definition closes (SD : nat) (v : nevent) : bool :=
  match v with
  | NvDrop _ _ => true
  | NvCall _ _ CnClose L => Z.eqb (nl_send L) OK
  | NvPacket _ a p _ _ => N.eqb a 3 && (length p <=? SD)
  | _ => false
  end.
Inductive follows (global : bool) (SD : nat) : nevent -> seen -> seen -> Prop :=
| fo_open s : follows global SD NvOpen s (mkSn true (se_id s))
| fo_close v s : se_open s = true -> closes SD v = true -> follows global SD v s (mkSn false (se_id s))
| fo_claim v s id : se_open s = true -> claims SD v = Some id -> claimable global id -> follows global SD v s (mkSn true id)
| fo_refused v s id : se_open s = true -> claims SD v = Some id -> ~ claimable global id -> follows global SD v s s
| fo_closed v s : se_open s = false -> v <> NvOpen -> follows global SD v s s
| fo_other v s : v <> NvOpen -> closes SD v = false -> claims SD v = None -> follows global SD v s s.
Inductive follow (global : bool) (SD : nat) : list nevent -> seen -> seen -> Prop :=
| fw_nil s : follow global SD [] s s
| fw_cons v vs s s' s'' : follows global SD v s s' -> follow global SD vs s' s'' -> follow global SD (v :: vs) s s''.

(** Well-formed events: a claim has a whole number in it; the numbers of clients
    are bytes (whCommClientConfig.client_id). *)
Definition event_whole (v : nevent) : Prop :=
  match v with
  | NvCall _ cid _ _ => (cid < 256)%N
  | NvPacket _ a p _ _ => (a = 1%N -> 4 <= length p) /\ Forall (fun b => b < 256)%N p
  | _ => True
  end.

(** Contents of a build that the structure can carry. *)
Definition u32 (v : N) : Prop := (v < 4294967296)%N.
Definition build_ok (b : build) : Prop :=
  length (b_version b) = 9 /\ length (b_build b) = 9 /\
  u32 (b_comm b) /\ u32 (b_objects b) /\ u32 (b_keys b) /\ u32 (b_keylen b) /\ u32 (b_bigkeys b) /\ u32 (b_biglen b) /\
  u32 (b_callbacks b) /\ u32 (b_dma b).

(** What a call on an open connection does when both packets arrive. *)
Inductive outcome (global : bool) (sid : N) (b : build) (cid : N) (forget : bool) : ncall -> conn -> nout -> conn -> Prop :=
| oc_init S buf : claimable global cid ->
    outcome global sid b cid forget CnInit S (mkNo OK (Some (cid, sid)) None None) (mkCn true cid (n_user S) buf)
| oc_init_refused S buf : ~ claimable global cid ->
    outcome global sid b cid forget CnInit S (mkNo ABORTED None None None) (mkCn true (n_client S) (n_user S) buf)
| oc_info S buf : outcome global sid b cid forget CnInfo S (mkNo OK None (Some (mkIf b 1 2 3 4)) None) (mkCn true (n_client S) (n_user S) buf)
| oc_close S buf : outcome global sid b cid forget CnClose S (mkNo OK None None None) (mkCn false (n_client S) (if forget then 0%N else n_user S) buf)
| oc_echo S d buf : outcome global sid b cid forget (CnEcho d) S (mkNo OK None None (Some d)) (mkCn true (n_client S) (n_user S) buf).
