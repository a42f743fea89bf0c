(** The log that prints: src/wh_log_printf.c.  Entries, levels, decimal numbers
    and C strings are those of LogFileModel. *)
From Verif Require Import Base LogFileModel.
Local Open Scope N_scope.

(** whLogPrintfContext (wolfhsm/wh_log_printf.h) *)
Record pctx := mkPctx { p_init : bool; p_always : bool }.

(** whLogPrintf_Init (src/wh_log_printf.c 36-59): result and context; [None] is
    NULL *)
Definition lpf_init (ctx : option pctx) (cfg : option bool) : Z * option pctx :=
  match ctx with
  | None => (BADARGS, None)
  | Some _ => (OK, Some (mkPctx true (match cfg with Some b => b | None => false end)))
  end.

(** the message with precision min(msg_len, WOLFHSM_CFG_LOG_MSG_MAX)
    (src/wh_log_printf.c 90-93).  [M] is WOLFHSM_CFG_LOG_MSG_MAX. *)
Definition lpf_msg (M : N) (e : entry) : list N :=
  cstr (take (if e_len e <=? M then e_len e else M) (e_msg e)).

(** "[%llu] [%s] [%s:%u %s] %.*s\n" (src/wh_log_printf.c 85-93); the characters
    are '[' 91, ']' 93, ' ' 32, ':' 58 *)
Definition lpf_text (M : N) (e : entry) : list N :=
  91 :: dec (e_time e) ++ 93 :: 32 :: 91 :: level_str (e_level e) ++ 93 :: 32 :: 91 ::
  opt_str (e_file e) ++ 58 :: dec (e_line e) ++ 32 :: opt_str (e_func e) ++ 93 :: 32 ::
  lpf_msg M e ++ [10].

(** whLogPrintf_AddEntry (src/wh_log_printf.c 62-96): result and what is printed.
    [debug] says whether WOLFHSM_CFG_DEBUG is defined.  The result of printf is
    ignored, as in the code; it is taken to print everything. *)
Definition lpf_add (M : N) (debug : bool) (ctx : option pctx) (e : option entry) : Z * list N :=
  match ctx, e with
  | Some c, Some e =>
      if negb (p_init c) then (ABORTED, []) else
      if negb debug && negb (p_always c) then (OK, []) else
      (OK, lpf_text M e)
  | _, _ => (BADARGS, [])
  end.

(** entries added one after the other: what is on the terminal *)
Definition lpf_run (M : N) (debug : bool) (c : pctx) (es : list entry) : list N :=
  flat_map (fun e => snd (lpf_add M debug (Some c) (Some e))) es.
