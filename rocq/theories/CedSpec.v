(** What a certificate call by address means. *)
From Verif Require Import Base NvmSpec EndianModel EndianProof NvcModel NvcSpec KsReq KeyId CecModel CecSpec CedModel.

(** Arguments within their C types. *)
Definition dargs_ok (c : dcall) : Prop :=
  match c with
  | DAdd id acc fl _ len => u16 id /\ u16 acc /\ u16 fl /\ (len < 4294967296)%N
  | DRead id len => u16 id /\ (len < 4294967296)%N
  | DVerify len root key => u16 root /\ (len < 4294967296)%N /\ key_ok key
  | DMulti len roots key => Forall u16 roots /\ u16 (N.of_nat (length roots)) /\ (len < 4294967296)%N /\ key_ok key
  end.
(** Calls a client refuses by itself. *)
Definition drefused (MAX : nat) (MAXCERT : N) (want : bool) (c : dcall) : Prop :=
  match c with
  | DAdd _ _ _ _ len => (MAXCERT < len)%N
  | DRead _ _ => False
  | DVerify _ _ _ => want = false
  | DMulti _ roots _ => want = false \/ roots = [] \/ MAX < length roots
  end.
(** What the server is asked to do: the caller's arguments and the address the
    buffer was mapped to; the roots, and zeroes up to the largest number. *)
Definition dasks (MAX : nat) (K : kcfg) (cid addr : N) (c : dcall) : dop :=
  let verify len n roots key :=
    match key with
    | None => OVerify addr len n roots 0 2016 (from_client K KT_CRYPTO cid 0)
    | Some (kfl, id) => OVerify addr len n roots 1 kfl (from_client K KT_CRYPTO cid id)
    end in
  match c with
  | DAdd id acc fl label len => OAdd id acc fl (label24 label) addr len
  | DRead id len => ORead id addr len
  | DVerify len root key => verify len 1%N [root] key
  | DMulti len roots key => verify len (N.of_nat (length roots)) (roots ++ repeat 0%N (MAX - length roots)) key
  end.
(** What the caller is told: the server's code, and the key if one was asked for;
    a read returns the code of unmapping its buffer. *)
Definition dtold (K : kcfg) (want : bool) (post : Z) (c : dcall) (rc : Z) (key : N) (o : cout) : Prop :=
  co_ret o = (match c with DRead _ _ => post | _ => OK end) /\
  co_rc o = (if want then Some rc else None) /\
  co_key o = (match c with DVerify _ _ (Some _) | DMulti _ _ (Some _) => Some (to_client K key) | _ => None end) /\
  co_len o = None /\ co_cert o = None.
