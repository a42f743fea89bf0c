(** What C69 asks of the slots of stateful signature keys. *)
From Verif Require Import Base StatefulModel.
Local Open Scope N_scope.

(** The slot layout documented at wh_crypto.c 498-511: magic, the lengths of public
    key, private key and parameters, a zero, then parameters, public key and private
    key, one after the other, and nothing else. *)
Definition magic_bytes (kd : kind) : list N := match kd with Lms => [1; 83; 77; 76] | Xmss => [1; 83; 77; 88] end.
Definition two (n : nat) : list N := [N.of_nat n mod 256; N.of_nat n / 256].
Definition named (kd : kind) (par : list N) : list N := match kd with Lms => par | Xmss => par ++ [0] end.
Definition layout (kd : kind) (par pub priv : list N) : list N :=
  magic_bytes kd ++ two (length pub) ++ two (length priv) ++ two (length (named kd par)) ++ [0; 0] ++
  named kd par ++ pub ++ priv.

(** A slot that holds these bytes: they are the first of its buffer, and its
    metadata says how many they are. *)
Definition holds (sl : slot) (b : list N) : Prop := s_len sl = N.of_nat (length b) /\ exists tail, s_buf sl = b ++ tail.

Section Lib.
Variable tab : kind -> list N -> option (N * N).
Variable lib_sign : kind -> list N -> list N -> list N -> list N -> option (list N * list N).
Variable cap : N.

(** A key of a parameter set the library knows, with keys of that set's sizes,
    that fits a big cache slot. *)
Definition proper (kd : kind) (par pub priv : list N) : Prop :=
  tab kd par = Some (N.of_nat (length pub), N.of_nat (length priv)) /\ priv <> [] /\
  match kd with Lms => length par = 3%nat | Xmss => Forall (fun b => b <> 0) par end /\
  N.of_nat (length (layout kd par pub priv)) <= cap /\ cap < 65536.

(** The library does not change the size of the private key. *)
Definition lib_sized : Prop := forall kd par pub v msg sg v',
  lib_sign kd par pub v msg = Some (sg, v') -> length v' = length v.

(** Private keys that can follow one another: by making signatures with the same
    parameters and public key. *)
Inductive follows (kd : kind) (par pub : list N) : list N -> list N -> Prop :=
| f_same v : follows kd par pub v v
| f_next v msg sg v1 v2 : lib_sign kd par pub v msg = Some (sg, v1) -> follows kd par pub v1 v2 -> follows kd par pub v v2.
End Lib.

(** The sizes a slot's header declares, added up (little-endian fields at 4, 6
    and 8). *)
Definition at16 (o : nat) (b : list N) : N := nth o b 0 + 256 * nth (S o) b 0.
Definition declared (b : list N) : N := 12 + at16 8 b + at16 4 b + at16 6 b.

(** The signatures handed out in a history: message and signature, in order. *)
Fixpoint made (os : list op) (answers : list ans) : list (list N * list N) :=
  match os, answers with
  | OSign _ _ msg _ _ :: r, ASig _ (Some sg) :: t => (msg, sg) :: made r t
  | _ :: r, _ :: t => made r t
  | _, _ => []
  end.

(** A use of the private key: the key, the message, the signature, the next key. *)
Record use := mkUse { u_key : list N; u_msg : list N; u_sig : list N; u_next : list N }.

(** The requests' answers that do not sign: the public key is [pub], the count is
    that of a private key following [v0]; no access outside a slot. *)
Definition plain_answer (lib_sign : kind -> list N -> list N -> list N -> list N -> option (list N * list N))
  (lib_left : kind -> list N -> list N -> N) (kd : kind) (par pub v0 : list N) (a : ans) : Prop :=
  match a with
  | ASig rc sg => rc = OK <-> sg <> None
  | ALeft x => exists v, x = Val (lib_left kd par v) /\ follows lib_sign kd par pub v0 v
  | APub x => x = Val pub \/ x = Fail NOSPACE
  | ANone => True
  | AWild => False
  end.

(** The states of one key: the NVM object holds a private key [p], the slot, if the
    key is cached, the same or a later one. *)
Definition key_at (lib_sign : kind -> list N -> list N -> list N -> list N -> option (list N * list N))
  (kd : kind) (par pub p q : list N) (s : kstate) : Prop :=
  q_nvm s = Some (layout kd par pub p) /\ follows lib_sign kd par pub p q /\
  match q_slot s with Some sl => holds sl (layout kd par pub q) | None => p = q end.
