(** What a reader of the printed log relies on. *)
From Verif Require Import Base LogFileModel.
Local Open Scope N_scope.

(** what an entry says: time, level, file, line, function and message; the
    message up to its first zero byte, at most its stated length *)
Definition says (M : N) (e : entry) :=
  (e_time e, level_str (e_level e), opt_str (e_file e), e_line e, opt_str (e_func e),
   cstr (firstn (N.to_nat (N.min (e_len e) M)) (e_msg e))).

(** names and texts that do not contain the marks the reader goes by: no newline
    anywhere, no colon in the file name, no bracket in the function name *)
Definition plain (e : entry) : Prop :=
  Forall (fun b => b <> 10 /\ b <> 58) (opt_str (e_file e)) /\
  Forall (fun b => b <> 10 /\ b <> 93) (opt_str (e_func e)) /\
  Forall (fun b => b <> 10) (e_msg e).

(** How a reader takes a line apart: up to each mark in turn. *)
Fixpoint upto (c : N) (l : list N) : option (list N * list N) :=
  match l with
  | [] => None
  | b :: r => if b =? c then Some ([], r)
              else match upto c r with Some (a, r') => Some (b :: a, r') | None => None end
  end.

(** decimal number *)
Definition number (l : list N) : N := fold_left (fun a b => a * 10 + (b - 48)) l 0.

(** "[time] [level] [file:line function] message" *)
Definition read_line (l : list N) : option (N * list N * list N * N * list N * list N) :=
  match upto 91 l with Some (_, l) =>
  match upto 93 l with Some (t, l) =>
  match upto 91 l with Some (_, l) =>
  match upto 93 l with Some (lv, l) =>
  match upto 91 l with Some (_, l) =>
  match upto 58 l with Some (fi, l) =>
  match upto 32 l with Some (ln, l) =>
  match upto 93 l with Some (fu, l) =>
  match upto 32 l with Some (_, m) => Some (number t, lv, fi, number ln, fu, m)
  | None => None end | None => None end | None => None end | None => None end | None => None end
  | None => None end | None => None end | None => None end | None => None end.
