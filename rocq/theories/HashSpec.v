(** What hashing through the server should compute, without the client's buffers or
    the messages: the digest of the bytes handed in. *)
From Verif Require Import Base HashModel.

(** The full blocks of a message and what follows them. *)
Definition blocks (b : nat) (m : list N) : list (list N) :=
  map (fun i => firstn b (skipn (i * b) m)) (seq 0 (length m / b)).
Definition last_part (b : nat) (m : list N) : list N := skipn (length m / b * b) m.

(** The length field: 64 bits of bytes for SHA-224/256, 128 for SHA-384/512, none
    for SHA-3. *)
Definition msg_len (f : family) (m : list N) : N :=
  match f with
  | Fam256 => N.modulo (N.of_nat (length m)) 18446744073709551616
  | Fam512 => N.modulo (N.of_nat (length m)) 340282366920938463463374607431768211456
  | Keccak => 0%N
  end.

(** The digest for a given length field. *)
Definition digest_with (len : family -> list N -> N) (iv : variant -> list N)
    (comp : family -> list N -> list N -> list N)
    (fin : family -> nat -> list N -> N -> list N -> list N) (v : variant) (m : list N) : list N :=
  firstn (dsz v)
    (fin (fam v) (bs v) (fold_left (comp (fam v)) (blocks (bs v) m) (iv v))
         (len (fam v) m) (last_part (bs v) m)).

Definition digest (iv : variant -> list N) (comp : family -> list N -> list N -> list N)
    (fin : family -> nat -> list N -> N -> list N -> list N) (v : variant) (m : list N) : list N :=
  digest_with msg_len iv comp fin v m.

(** What the wire format makes of it: the number of bytes in full blocks of 128 is
    carried in 32 bits for SHA-384/512. *)
Definition wire_len (f : family) (m : list N) : N :=
  match f with
  | Fam512 => N.modulo (N.of_nat (length m / 128 * 128)) 4294967296 + N.of_nat (length m mod 128)
  | _ => msg_len f m
  end.
Definition wire_digest iv comp fin v m : list N := digest_with wire_len iv comp fin v m.

(** The library's contract, all the theorems need: the state keeps its size and the
    digest is long enough. *)
Definition library_ok (iv : variant -> list N) (comp : family -> list N -> list N -> list N)
    (fin : family -> nat -> list N -> N -> list N -> list N) : Prop :=
  (forall v, length (iv v) = cw v) /\
  (forall f st b, length (comp f st b) = length st) /\
  (forall v st n t, dsz v <= length (fin (fam v) (bs v) st n t)).

(** The length of the input of a call is a uint32_t; an error is not one of the two
    codes that mean "done" and "ask again". *)
Definition reply_fits (r : reply) : Prop :=
  match r with
  | NotReady => True
  | Failed rc => rc <> OK /\ rc <> NOTREADY
  | Served d => d <> NOTREADY
  end.
Definition call_fits (e : hcall) : Prop :=
  match e with
  | HUpdReq _ data _ => (N.of_nat (length data) < 4294967296)%N
  | HUpdResp r | HFinResp r => reply_fits r
  | _ => True
  end.

(** SHA-384/512 messages under 4 GiB; see [C60_four_gib_refuted]. *)
Definition size_ok (v : variant) (m : list N) : Prop :=
  match fam v with Fam512 => (N.of_nat (length m) < 4294967296)%N | _ => True end.

(** Following the calls and their return codes: the message so far (None once
    the caller cannot know it) and whether a final request is under way. *)
Record hview := mkHv { v_msg : option (list N); v_final : bool }.

Definition hview_step (w : hview) (e : hcall) (rc : Z) : hview :=
  match e with
  | HInit => mkHv (Some []) false
  | HUpdReq _ data _ =>
      if negb (is_ok rc) then w
      else if v_final w && negb (length data =? 0) then mkHv None true
      else mkHv (match v_msg w with Some m => Some (m ++ data) | None => None end) (v_final w)
  | HUpdResp _ => if is_ok rc || Z.eqb rc NOTREADY then w else mkHv None false
  | HFinReq _ _ => if is_ok rc then mkHv (v_msg w) true else w
  | HFinResp _ => if is_ok rc then mkHv (Some []) false
                  else if Z.eqb rc NOTREADY then w else mkHv (v_msg w) false
  end.

Definition view_after (w : hview) (log : list (hcall * Z * list N)) : hview :=
  fold_left (fun w x => hview_step w (fst (fst x)) (snd (fst x))) log w.

(** Every digest handed out is the digest of the message given in so far. *)
Fixpoint digests_right (H : list N -> list N) (ok : list N -> Prop) (w : hview)
    (log : list (hcall * Z * list N)) : Prop :=
  match log with
  | [] => True
  | (e, rc, o) :: log =>
      (match e, v_msg w with
       | HFinResp _, Some m => rc = OK -> ok m -> o = H m
       | _, _ => True
       end) /\ digests_right H ok (hview_step w e rc) log
  end.

(** The same for the blocking functions.  A failed call leaves a SHA-3 context
    alone; a failed SHA-2 call leaves it alone if it only asked for the digest. *)
Definition bcall_fits (e : bcall) : Prop :=
  match e with
  | BInit => True
  | BHash _ data _ env => (N.of_nat (length data) < 4294967296)%N /\ Forall (fun x => reply_fits (snd x)) env
  end.
Definition bview_step (v : variant) (w : option (list N)) (e : bcall) (rc : Z) : option (list N) :=
  match e with
  | BInit => Some []
  | BHash _ data out _ =>
      if is_ok rc then (if out then Some [] else match w with Some m => Some (m ++ data) | None => None end)
      else if is3 v || (length data =? 0) then w else None
  end.
Fixpoint bdigests_right (v : variant) (H : list N -> list N) (ok : list N -> Prop) (w : option (list N))
    (log : list (bcall * Z * list N)) : Prop :=
  match log with
  | [] => True
  | (e, rc, o) :: log =>
      (match e, w with
       | BHash _ data true _, Some m => rc = OK -> ok (m ++ data) -> o = H (m ++ data)
       | _, _ => True
       end) /\ bdigests_right v H ok (bview_step v w e rc) log
  end.

(** The same for wolfCrypt's functions. *)
Definition wcall_fits (e : wcall) : Prop :=
  match e with
  | WInit => True
  | WUpdate _ data env => (N.of_nat (length data) < 4294967296)%N /\ Forall (fun x => reply_fits (snd x)) env
  | WFinal _ env => Forall (fun x => reply_fits (snd x)) env
  end.
Definition wview_step (w : list N) (e : wcall) (rc : Z) : list N :=
  match e with
  | WInit => []
  | WUpdate _ data _ => if is_ok rc then w ++ data else w
  | WFinal _ _ => if is_ok rc then [] else w
  end.
Fixpoint wdigests_right (H : list N -> list N) (w : list N) (log : list (wcall * Z * list N)) : Prop :=
  match log with
  | [] => True
  | (e, rc, o) :: log =>
      (match e with WFinal _ _ => rc = OK -> o = H w | _ => True end)
      /\ wdigests_right H (wview_step w e rc) log
  end.
