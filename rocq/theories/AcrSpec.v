(** What a verdict on an attribute certificate means. *)
From Verif Require Import Base NvmSpec CecSpec AcrModel.

(** The lengths an NVM keeps are those of its objects. *)
Definition lens_ok (st : store) : Prop := forall id m d, sp_find st id = Some (m, d) -> m_len m = N.of_nat (length d).
(** [root] names a stored certificate that can be read and parsed and has a key,
    and the library accepts [cert] with that key. *)
Definition accepted {Key} (max_cert : nat) (parse : list N -> Z * option Key) (check : list N -> Key -> Z)
    (st : store) (cert : list N) (root : N) : Prop :=
  exists m d k, sp_find st root = Some (m, d) /\ 0 < length d <= max_cert /\ parse d = (OK, Some k) /\ check cert k = OK.
(** The certificate of a call: the caller's, or what is at the address its buffer
    was mapped to. *)
Definition names (addr : N) (mem : list N) (c : acall) (cert : list N) (root : N) : Prop :=
  match c with
  | APkt cert' root' => cert = cert' /\ root = root'
  | AMem len root' => root = root' /\ N.of_nat (length cert) = len /\
      exists a b, mem = a ++ cert ++ b /\ N.of_nat (length a) = addr
  end.
Definition aargs_ok (c : acall) : Prop :=
  match c with APkt _ root => u16 root | AMem len root => (len < 4294967296)%N /\ u16 root end.
Definition arefused (DL : nat) (want : bool) (c : acall) : Prop :=
  want = false \/ match c with APkt cert root => root = 0%N \/ cert = [] \/ DL < 8 + length cert | AMem _ _ => False end.
