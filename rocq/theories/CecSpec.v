(** What a certificate call of a client means. *)
From Verif Require Import Base NvmSpec EndianModel EndianProof NvcModel NvcSpec KsReq KeyId CecModel.

Definition u16 (v : N) : Prop := (v < 65536)%N.
(** Arguments within their C types. *)
Definition key_ok (key : option (N * N)) : Prop := match key with Some (f, i) => u16 f /\ u16 i | None => True end.
Definition args_ok (c : ccall) : Prop :=
  match c with
  | KAdd id acc fl _ _ => u16 id /\ u16 acc /\ u16 fl
  | KErase id | KRead id _ => u16 id
  | KVerify _ root key => u16 root /\ key_ok key
  | KMulti _ roots key => Forall u16 roots /\ key_ok key
  | KInit | KClear | KEnable _ => True
  end.
(** Calls a client refuses by itself: no certificate, no root, too many roots,
    too much for one packet, no place for the verdict. *)
Definition refused (DL MAX : nat) (want : bool) (c : ccall) : Prop :=
  match c with
  | KAdd _ _ _ _ cert => cert = [] \/ DL < 36 + length cert
  | KVerify cert _ _ => want = false \/ cert = [] \/ DL < 12 + length cert
  | KMulti cert roots _ =>
      want = false \/ cert = [] \/ roots = [] \/ MAX < length roots \/ DL < 16 + 2 * length roots + length cert
  | _ => False
  end.

(** A label: its first 24 bytes, zeroes after them. *)
Definition label24 (l : option (list N)) : list N :=
  match l with Some l => firstn 24 l ++ repeat 0%N (24 - length l) | None => repeat 0%N 24 end.
(** What the server is asked to do: the caller's own arguments; a cached key is
    the calling client's. *)
Definition asks (K : kcfg) (cid : N) (c : ccall) : sop :=
  let verify cert roots key :=
    match key with
    | None => SVerify cert roots 0 2016 (from_client K KT_CRYPTO cid 0)
    | Some (kfl, id) => SVerify cert roots 1 kfl (from_client K KT_CRYPTO cid id)
    end in
  match c with
  | KInit => SInit
  | KAdd id acc fl label cert => SAdd id acc fl (label24 label) cert
  | KErase id => SErase id
  | KRead id _ => SRead id
  | KVerify cert root key => verify cert [root] key
  | KMulti cert roots key => verify cert roots key
  | KClear => SClear
  | KEnable v => SEnable (if N.eqb v 0 then 0%N else 1%N)
  end.
(** What the caller is told of the server's result: its code; the key of a
    verification that asked for one; the whole certificate, or only its length
    when it does not fit. *)
Inductive told (K : kcfg) : ccall -> sres -> cout -> Prop :=
| told_cert id cap r : sr_rc r = OK -> (sr_len r <= N.of_nat cap)%N ->
    told K (KRead id cap) r (mkCo OK (Some OK) None (Some (sr_len r)) (Some (sr_data r)))
| told_small id cap r : sr_rc r = OK -> (N.of_nat cap < sr_len r)%N ->
    told K (KRead id cap) r (mkCo OK (Some BUFFER_SIZE) None (Some (sr_len r)) None)
| told_large id cap r : sr_rc r = BUFFER_SIZE ->
    told K (KRead id cap) r (mkCo OK (Some BUFFER_SIZE) None (Some (sr_len r)) None)
| told_unread id cap r : sr_rc r <> OK -> sr_rc r <> BUFFER_SIZE ->
    told K (KRead id cap) r (mkCo OK (Some (sr_rc r)) None None None)
| told_verdict cert root r : told K (KVerify cert root None) r (mkCo OK (Some (sr_rc r)) None None None)
| told_key cert root k r : told K (KVerify cert root (Some k)) r (mkCo OK (Some (sr_rc r)) (Some (to_client K (sr_key r))) None None)
| told_verdict_m cert roots r : told K (KMulti cert roots None) r (mkCo OK (Some (sr_rc r)) None None None)
| told_key_m cert roots k r : told K (KMulti cert roots (Some k)) r (mkCo OK (Some (sr_rc r)) (Some (to_client K (sr_key r))) None None)
| told_code c r : match c with KInit | KAdd _ _ _ _ _ | KErase _ | KClear | KEnable _ => True | _ => False end ->
    told K c r (mkCo OK (Some (sr_rc r)) None None None).

(** A result within the types of C; what a read leaves fits a reply. *)
Definition res_ok (DL : nat) (c : ccall) (r : sres) : Prop :=
  i32 (sr_rc r) /\ (sr_len r < 4294967296)%N /\
  match c with
  | KRead _ _ => sr_rc r = OK -> sr_len r = N.of_nat (length (sr_data r)) /\ 8 + length (sr_data r) <= DL
  | _ => True
  end.
(** Does the call take the NVM lock? *)
Definition takes_lock (global : bool) (c : ccall) : Prop :=
  match c with KInit => False | KClear | KEnable _ => global = false | _ => True end.
(** Packets whose request is all there. *)
Definition whole (a : N) (n : nat) : Prop := (a = 3%N \/ a = 4%N) -> 2 <= n.
