(** What C68 asks of the log file. *)
From Verif Require Import Base LogFileModel.
Local Open Scope N_scope.

(** A name that can be told apart from its neighbours: not empty, at most 255
    bytes, without zero, newline and the separator that follows it. *)
Definition name_ok (sep : N) (o : option (list N)) : Prop :=
  exists s, o = Some s /\ s <> [] /\ len s <= 255 /\ Forall (fun b => b <> 0 /\ b <> NL /\ b <> sep) s.

(** A message of one line: not empty, at most 255 bytes, in an array of [M] bytes
    filled up with zeros. *)
Definition message_ok (M : N) (e : entry) : Prop :=
  exists m, m <> [] /\ len m <= 255 /\ len m < M /\ Forall (fun b => b <> 0 /\ b <> NL) m /\
    e_len e = len m /\ e_msg e = m ++ repeat 0 (N.to_nat (M - len m)).

(** Entries the text form can hold. *)
Definition plain (M : N) (e : entry) : Prop :=
  e_time e < 2 ^ 64 /\ e_level e <= 2 /\ e_line e < 2 ^ 32 /\
  name_ok COLON (e_file e) /\ name_ok BAR (e_func e) /\ message_ok M e.

(** A write that is done as a whole or not at all. *)
Definition whole (v : ev) : Prop :=
  match v with Add e _ (Some n) => n = 0 \/ n = len (format e) | _ => True end.

(** The entries of the calls that returned OK since the file was last emptied. *)
Definition logged_step (l : list entry) (v : ev) : list entry :=
  match v with
  | Add e k w => if Z.eqb (fst (add_entry [] e k w)) OK then l ++ [e] else l
  | Clear locked trunc _ => if locked && trunc then [] else l
  | Restart => l
  end.
Definition logged (h : list ev) : list entry := fold_left logged_step h [].

(** What a callback sees of a list: everything up to the entry it stops at. *)
Fixpoint shown (cb : entry -> Z) (l : list entry) : Z * list entry :=
  match l with
  | [] => (OK, [])
  | e :: r => if Z.eqb (cb e) 0 then (fst (shown cb r), e :: snd (shown cb r)) else (cb e, [e])
  end.
