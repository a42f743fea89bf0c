(** The log in a file: port/posix/posix_log_file.c, with the front end of
    src/wh_log.c.  The file is the list of its bytes; it is opened with O_APPEND
    (posix_log_file.c 82-83), so a write goes to its end whatever the offset that
    the readers' duplicated descriptor has moved.  snprintf, fgets, fputs and
    sscanf are written out for the formats used, after the C standard and glibc
    (numbers too large for unsigned long long become its maximum).  The locks and
    system calls answer as the environment says. *)
From Verif Require Import Base.
Local Open Scope N_scope.

Definition len {A} (l : list A) : N := N.of_nat (length l).
Notation take k l := (firstn (N.to_nat k) l).

(** The characters used: '\n' '|' ':' ' ' '+' '-' '0'. *)
Definition NL : N := 10.
Definition BAR : N := 124.
Definition COLON : N := 58.

(** A C string in memory: the bytes before the first zero. *)
Fixpoint cstr (l : list N) : list N :=
  match l with [] => [] | b :: r => if b =? 0 then [] else b :: cstr r end.

(** whLogEntry: wolfhsm/wh_log.h 46-56.  The two pointers are NULL or C strings;
    [e_msg] is the array of WOLFHSM_CFG_LOG_MSG_MAX bytes. *)
Record entry := mkEntry {
  e_time : N; e_level : N; e_file : option (list N); e_func : option (list N);
  e_line : N; e_len : N; e_msg : list N }.

(** wh_Log_LevelToString: src/wh_log.c 39-51 ("INFO", "ERROR", "SECEVENT", "UNKNOWN"). *)
Definition level_str (l : N) : list N :=
  match l with
  | 0 => [73; 78; 70; 79]
  | 1 => [69; 82; 82; 79; 82]
  | 2 => [83; 69; 67; 69; 86; 69; 78; 84]
  | _ => [85; 78; 75; 78; 79; 87; 78]
  end.

Fixpoint eqs (a b : list N) : bool :=
  match a, b with
  | [], [] => true
  | x :: a, y :: b => (x =? y) && eqs a b
  | _, _ => false
  end.

(** posixLogFile_StringToLevel: posix_log_file.c 43-55. *)
Definition str_level (s : list N) : N :=
  if eqs s (level_str 0) then 0
  else if eqs s (level_str 1) then 1
  else if eqs s (level_str 2) then 2
  else 0.

(** wh_Log_AddMsg: src/wh_log.c 53-75.  [M] is WOLFHSM_CFG_LOG_MSG_MAX; a NULL
    message is [None]; the rest of the array is zero. *)
Definition build_entry (M : N) (time level : N) (file func : option (list N)) (line : N)
    (msg : option (list N)) (msg_len : N) : entry :=
  let max_len := if 0 <? M then M - 1 else 0 in
  let copy := if msg_len <? max_len then msg_len else max_len in
  let text := match msg with Some m => take copy m | None => repeat 0 (N.to_nat copy) end in
  mkEntry time level file func line copy (text ++ repeat 0 (N.to_nat (M - copy))).

(** Decimal digits of a number, most significant first (%llu, %u). *)
Fixpoint digits (fuel : nat) (n : N) : list N :=
  match fuel with
  | O => []
  | S k => if n <? 10 then [48 + n] else digits k (n / 10) ++ [48 + n mod 10]
  end.
Definition dec (n : N) : list N := digits (S (N.to_nat (N.log2 n))) n.

(** The text of posixLogFile_AddEntry 134-139, format "%llu|%s|%s:%u|%s|%.*s\n":
    at most [e_len] bytes of the message, up to its first zero (a length that is
    negative as an int counts as none given). *)
Definition opt_str (o : option (list N)) : list N := match o with Some s => s | None => [] end.
Definition msg_text (e : entry) : list N :=
  if e_len e <? 2 ^ 31 then cstr (take (e_len e) (e_msg e)) else cstr (e_msg e).
Definition format (e : entry) : list N :=
  dec (e_time e) ++ BAR :: level_str (e_level e) ++ BAR :: opt_str (e_file e) ++ COLON ::
  dec (e_line e) ++ BAR :: opt_str (e_func e) ++ BAR :: msg_text e ++ [NL].

(** posixLogFile_AddEntry 113-157 on an initialised context, with the result of
    locking and of write (the number of bytes written; less than 0 counts as [None],
    nothing written). *)
Definition add_entry (file : list N) (e : entry) (locked : bool) (wrote : option N) : Z * list N :=
  if negb locked then (ABORTED, file) else
  let text := format e in
  if 1024 <=? len text then (ABORTED, file) else
  match wrote with
  | None => (ABORTED, file)
  | Some n => (if n =? len text then OK else ABORTED, file ++ take n text)
  end.

(** posixLogFile_Clear 315-349: the answers of lock, ftruncate and lseek. *)
Definition clear (file : list N) (locked trunc seek : bool) : Z * list N :=
  if negb locked then (ABORTED, file)
  else if negb trunc then (ABORTED, file)
  else (if seek then OK else ABORTED, []).

(** fgets with room for [k] bytes and the terminator: up to and with the first
    newline. *)
Fixpoint fgets (k : N) (l : list N) : list N * list N :=
  match l with
  | [] => ([], [])
  | b :: r => if k =? 0 then ([], l)
              else if b =? NL then ([b], r)
              else let '(x, y) := fgets (k - 1) r in (b :: x, y)
  end.

(** The pieces fgets(line, 2048, fp) gives until the end of the file. *)
Fixpoint pieces (fuel : nat) (l : list N) : list (list N) :=
  match fuel, l with
  | O, _ | _, [] => []
  | S k, _ => let '(x, r) := fgets 2047 l in x :: pieces k r
  end.
Definition lines (file : list N) : list (list N) := pieces (length file) file.

(** The conversions of sscanf in the format of posixLogFile_Iterate 281-283. *)
Definition isspace (b : N) : bool := (b =? 32) || ((9 <=? b) && (b <=? 13)).
Definition isdigit (b : N) : bool := (48 <=? b) && (b <=? 57).
Fixpoint skip_ws (l : list N) : list N :=
  match l with b :: r => if isspace b then skip_ws r else l | [] => [] end.
Fixpoint read_digits (acc : N) (l : list N) : N * list N :=
  match l with
  | b :: r => if isdigit b then read_digits (10 * acc + (b - 48)) r else (acc, l)
  | [] => (acc, [])
  end.
(** %llu; %u takes the low 32 bits.  White space, a sign, digits. *)
Definition scan_u (l : list N) : option (N * list N) :=
  let l1 := skip_ws l in
  let '(neg, l2) := match l1 with
                    | b :: r => if b =? 45 then (true, r) else if b =? 43 then (false, r) else (false, l1)
                    | [] => (false, l1)
                    end in
  match l2 with
  | b :: _ => if isdigit b then
                let '(v, r) := read_digits 0 l2 in
                Some (if 2 ^ 64 <=? v then 2 ^ 64 - 1
                      else if neg then (2 ^ 64 - v) mod 2 ^ 64 else v, r)
              else None
  | [] => None
  end.
(** An ordinary character of the format. *)
Definition lit (c : N) (l : list N) : option (list N) :=
  match l with b :: r => if b =? c then Some r else None | [] => None end.
(** %k[^c]: one to [k] characters other than [c]. *)
Fixpoint span (c k : N) (l : list N) : list N * list N :=
  match l with
  | [] => ([], [])
  | b :: r => if (k =? 0) || (b =? c) then ([], l)
              else let '(x, y) := span c (k - 1) r in (b :: x, y)
  end.
Definition scan_set (c k : N) (l : list N) : option (list N * list N) :=
  match span c k l with ([], _) => None | p => Some p end.

Notation "'let*' p := x 'in' y" := (match x with Some p => y | None => None end)
  (at level 200, p pattern, x at level 100, y at level 200).

(** sscanf(line, "%llu|%31[^|]|%255[^:]:%u|%255[^|]|%255[^\n]", ...): what it has
    stored if at least five conversions succeeded, the message if the sixth did. *)
Definition scan_line (line : list N) : option (N * list N * list N * N * list N * option (list N)) :=
  let* (t, l) := scan_u (cstr line) in
  let* l := lit BAR l in
  let* (lv, l) := scan_set BAR 31 l in
  let* l := lit BAR l in
  let* (fi, l) := scan_set COLON 255 l in
  let* l := lit COLON l in
  let* (n, l) := scan_u l in
  let* l := lit BAR l in
  let* (fu, l) := scan_set BAR 255 l in
  Some (t, lv, fi, n mod 2 ^ 32, fu,
        let* l := lit BAR l in
        let* (m, _) := scan_set NL 255 l in Some m).

(** One round of the loop of posixLogFile_Iterate 269-306.  [junk] are the bytes
    that msg_buf holds before sscanf (an array without initialiser, [M] bytes).
    [Outside]: msg_buf is written or read beyond its end.  The array of the entry is
    zero (memset) but for the text and its terminator. *)
Inductive round := Skip | Give (e : entry) | Outside.
Definition has_zero (l : list N) : bool := existsb (N.eqb 0) l.
Definition read_round (M : N) (junk line : list N) : round :=
  match scan_line line with
  | None => Skip
  | Some (t, lv, fi, n, fu, m) =>
      match m with
      | Some x => if M <=? len x then Outside
                  else Give (mkEntry t (str_level lv) (Some fi) (Some fu) n (len x)
                               (x ++ repeat 0 (N.to_nat (M - len x))))
      | None => if negb (has_zero junk) then Outside
                else let x := cstr junk in
                     Give (mkEntry t (str_level lv) (Some fi) (Some fu) n (len x)
                             (x ++ repeat 0 (N.to_nat (M - len x))))
      end
  end.

(** posixLogFile_Iterate 224-313: the entries passed to the callback, which stops
    the loop by another answer than zero.  [None]: memory outside msg_buf was used. *)
Fixpoint walk (M : N) (junk : nat -> list N) (cb : entry -> Z) (i : nat) (ls : list (list N))
  : option (Z * list entry) :=
  match ls with
  | [] => Some (OK, [])
  | l :: r =>
      match read_round M (junk i) l with
      | Skip => walk M junk cb (S i) r
      | Outside => None
      | Give e => let rc := cb e in
                  if Z.eqb rc 0 then
                    match walk M junk cb (S i) r with
                    | Some (z, es) => Some (z, e :: es)
                    | None => None
                    end
                  else Some (rc, [e])
      end
  end.
(** The last argument: lock, fsync, dup and fdopen succeed (239-266). *)
Definition iterate (M : N) (junk : nat -> list N) (cb : entry -> Z) (file : list N) (ready : bool)
  : option (Z * list entry) :=
  if negb ready then Some (ABORTED, []) else walk M junk cb 0 (lines file).

(** posixLogFile_Export 159-222: fputs writes a piece up to its first zero; [sink]
    tells whether the [i]-th fputs succeeds (one that fails has written nothing). *)
Fixpoint put_all (sink : nat -> bool) (i : nat) (ls : list (list N)) : Z * list N :=
  match ls with
  | [] => (OK, [])
  | l :: r => if sink i then let '(rc, out) := put_all sink (S i) r in (rc, cstr l ++ out)
              else (ABORTED, [])
  end.
Definition export (sink : nat -> bool) (file : list N) (ready : bool) : Z * list N :=
  if negb ready then (ABORTED, []) else put_all sink 0 (lines file).

(** Histories: wh_Log_AddMsg and wh_Log_AddEntry, wh_Log_Clear, a new start on the
    same file (posixLogFile_Cleanup 93-111, posixLogFile_Init 57-91: the file is kept). *)
Inductive ev :=
| Add (e : entry) (locked : bool) (wrote : option N)
| Clear (locked trunc seek : bool)
| Restart.
Definition step (file : list N) (v : ev) : list N :=
  match v with
  | Add e k w => snd (add_entry file e k w)
  | Clear k t s => snd (clear file k t s)
  | Restart => file
  end.
Definition run (file : list N) (h : list ev) : list N := fold_left step h file.
