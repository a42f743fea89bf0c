(** What the NVM calls mean to a caller, said of the store of objects and of the
    caller's arguments; no packets here. *)
From Verif Require Import Base NvmSpec Flags Store NvmReqModel KdfModel EndianModel EndianProof NvcModel.
Local Open Scope N_scope.

Definition i32 (z : Z) : Prop := (-2147483648 <= z < 2147483648)%Z.

(** ** States and environments of the C types *)
Definition object_ok (o : object) : Prop := meta_ok (fst o) /\ m_len (fst o) = N.of_nat (length (snd o)).
Definition store_ok (s : store) : Prop := Forall object_ok s.

(** Codes are int32; the free-space report is two sizes and two counts. *)
Definition env_ok (e : nvm_env) : Prop :=
  i32 (e_lock e) /\ i32 (e_nvm e) /\ i32 (e_dma1 e) /\ i32 (e_dma2 e) /\
  exists a ao r ro, e_avail e = [a; ao; r; ro] /\ a < 4294967296 /\ ao < 65536 /\ r < 4294967296 /\ ro < 65536.

(** ** Protection *)
(** Some object of this id carries one of these flags. *)
Definition forbids (s : store) (id fl : N) : bool :=
  match sp_find s id with Some (m, _) => negb (N.eqb (N.land (m_flags m) fl) 0) | None => false end.
Definition NO_WRITE : N := F_TRUSTED + F_NONMODIFIABLE.
Definition NO_DESTROY : N := F_TRUSTED + F_NONMODIFIABLE + F_NONDESTROYABLE.
Definition NO_READ : N := F_TRUSTED + F_NONEXPORTABLE.

(** A label of at most 24 bytes as it is stored. *)
Definition padded (label : list N) : list N := label ++ repeat 0 (24 - length label).

(** The private state of a one-time signature key, as the server's build knows
    it: the LMS or XMSS magic in front and a private part that is not empty. *)
Definition one_time_key (build : bool) (be : bool) (d : list N) : bool :=
  build && Nat.leb 12 (length d) &&
  (N.eqb (dec be (firstn 4 d)) 0x4C4D5301 || N.eqb (dec be (firstn 4 d)) 0x584D5301) &&
  negb (N.eqb (dec be (firstn 2 (skipn 6 d))) 0).

(** ** Calls *)
Section Calls.
Variable DL : nat.               (* bytes in a packet *)
Variable build sb : bool.        (* stateful keys known; server big endian *)
Variable sid cid : N.

(** Arguments of the C types. *)
Definition args_ok (c : ncall) : Prop :=
  match c with
  | NInit => cid < 4294967296 /\ sid < 4294967296
  | NCleanup | NAvail => True
  | NAdd id access flags label data =>
      id < 65536 /\ access < 65536 /\ flags < 65536 /\ bytes_ok label /\ N.of_nat (length data) < 65536
  | NList access flags start => access < 65536 /\ flags < 65536 /\ start < 65536
  | NMeta id _ => id < 65536
  | NDestroy ids => Forall (fun id => id < 65536) ids
  | NRead id off len => id < 65536 /\ N.of_nat off < 65536 /\ N.of_nat len < 65536
  | NAddDma mp dp len => N.of_nat mp < 2 ^ 64 /\ N.of_nat dp < 2 ^ 64 /\ N.of_nat len < 65536
  | NReadDma id off len dp => id < 65536 /\ N.of_nat off < 65536 /\ N.of_nat len < 65536 /\ N.of_nat dp < 2 ^ 64
  end.

(** For listing: no object has id 0, which stands for the start, and their
    number fits 16 bits. *)
Definition listable (c : ncall) (s : store) : Prop :=
  match c with NList _ _ _ => sp_find s 0 = None /\ N.of_nat (length s) < 65536 | _ => True end.

(** Refused by the client, before anything is sent. *)
Definition too_big (c : ncall) : Prop :=
  match c with
  | NAdd _ _ _ label data => (24 < length label)%nat \/ (DL - 32 < length data)%nat
  | NDestroy ids => (19 < length ids)%nat
  | _ => False
  end.

(** Storing [m] and [d]: refused for a one-time key, with the code of the lock,
    for a protected object, or with the code of the storage. *)
Definition store_it (e : nvm_env) (m : meta) (d : list N) (s : store) : Z * store :=
  if one_time_key build sb d then (ACCESS, s)
  else if negb (Z.eqb (e_lock e) OK) then (e_lock e, s)
  else if forbids s (m_id m) NO_WRITE then (ACCESS, s)
  else if negb (Z.eqb (e_nvm e) OK) then (e_nvm e, s)
  else (OK, sp_destroy [m_id m] s ++
            [(mkMeta (m_id m) (m_access m) (N.ldiff (m_flags m) F_SERVER_ONLY) (N.of_nat (length d)) (m_label m), d)]).

(** The bytes of an object from [off] on, at most [len]. *)
Definition bytes_of (s : store) (id : N) (off len : nat) : Z * list N :=
  match sp_find s id with
  | None => (NOTFOUND, [])
  | Some (_, d) => if Nat.leb (length d) off then (BADARGS, [])
                   else if forbids s id NO_READ then (ACCESS, [])
                   else (OK, firstn len (skipn off d))
  end.

(** What each call does, when it is sent: the code for *out_rc, the numbers and
    bytes handed out, and the new store. *)
Definition does (c : ncall) (e : nvm_env) (s : store) : Z * list N * list N * store :=
  let locked (nums : list N) (data : list N) (k : Z * list N * list N * store) :=
    if negb (Z.eqb (e_lock e) OK) then (e_lock e, nums, data, s) else k in
  match c with
  | NInit => (OK, [cid; sid], [], s)
  | NCleanup => (OK, [], [], s)
  | NAvail => locked [0; 0; 0; 0] [] (OK, e_avail e, [], s)
  | NAdd id access flags label data =>
      let '(rc, s') := store_it e (mkMeta id access flags 0 (padded label)) data s in (rc, [], [], s')
  | NList _ _ start =>
      let rest := if N.eqb start 0 then s else sp_after s start in
      locked [0; 0] [] (OK, [N.of_nat (length rest); match rest with o :: _ => m_id (fst o) | [] => 0 end], [], s)
  | NMeta id ll =>
      locked [0; 0; 0; 0] (repeat 0 (Nat.min ll 24))
        (match sp_find s id with
         | Some (m, d) => (OK, [id; m_access m; m_flags m; N.of_nat (length d)], firstn ll (m_label m), s)
         | None => (NOTFOUND, [0; 0; 0; 0], repeat 0 (Nat.min ll 24), s)
         end)
  | NDestroy ids =>
      locked [] []
        (if existsb (fun id => forbids s id NO_DESTROY) ids then (ACCESS, [], [], s)
         else if negb (Z.eqb (e_nvm e) OK) then (e_nvm e, [], [], s)
         else (OK, [], [], sp_destroy ids s))
  | NRead id off len =>
      locked [0] []
        (if Nat.ltb (DL - 4) len then (ABORTED, [0], [], s) else
         let '(rc, bs) := bytes_of s id off len in (rc, [N.of_nat (length bs)], bs, s))
  | NAddDma _ _ _ | NReadDma _ _ _ _ => (OK, [], [], s)   (* see C85_add_dma, C85_read_dma *)
  end.
End Calls.

(** Not one of the two DMA calls. *)
Definition by_packet (c : ncall) : Prop :=
  match c with NAddDma _ _ _ | NReadDma _ _ _ _ => False | _ => True end.

(** ** Histories *)
(** A call by some client, of either byte order, over some link, with some
    memory. *)
Record event := mkEv { v_big : bool; v_id : N; v_call : ncall; v_env : nvm_env; v_link : nlink; v_mem : list N }.
Definition event_ok (sid : N) (v : event) : Prop :=
  args_ok sid (v_id v) (v_call v) /\ env_ok (v_env v) /\
  match v_call v with NAddDma mp dp len => (mp + 32 <= length (v_mem v))%nat /\ bytes_ok (v_mem v) | _ => True end.
Definition run (DL : nat) (build sb : bool) (sid : N) (vs : list event) (s : store) : store :=
  fold_left (fun s v => snd (call DL build sb sid (v_big v) (v_id v) (v_call v) (v_env v) (v_link v) (v_mem v) s)) vs s.
(** The call stores or destroys under this id. *)
Definition names (sb : bool) (id : N) (v : event) : Prop :=
  match v_call v with
  | NAdd i _ _ _ _ => i = id
  | NDestroy ids => In id ids
  | NAddDma mp _ _ => dec sb (firstn 2 (skipn mp (v_mem v))) = id
  | _ => False
  end.

(** A packet by some client: action, size, the server's buffer and the client's
    memory. *)
Record packet := mkPk { k_big : bool; k_act : nact; k_n : nat; k_buf : list N; k_mem : list N; k_env : nvm_env }.
Definition receive (DL : nat) (build sb : bool) (sid : N) (ks : list packet) (s : store) : store :=
  fold_left (fun s k => snd (serve DL build sb sid (k_big k) (k_act k) (k_n k) (k_buf k) (k_mem k) (k_env k) s)) ks s.
(** Everything the clients see of a list of packets: the replies and what is
    written to their memory. *)
Fixpoint replies (DL : nat) (build sb : bool) (sid : N) (ks : list packet) (s : store) : list (list N * list N) :=
  match ks with
  | [] => []
  | k :: r => let '(p, m, s') := serve DL build sb sid (k_big k) (k_act k) (k_n k) (k_buf k) (k_mem k) (k_env k) s in
              (p, m) :: replies DL build sb sid r s'
  end.

(** Reading an object piece by piece: the lengths of the pieces. *)
Fixpoint pieces (ask : nat -> nat -> outcome) (off : nat) (ls : list nat) : list (list N) :=
  match ls with
  | [] => []
  | n :: r => match ask off n with Answered _ _ bs => bs | Failed _ => [] end :: pieces ask (off + n) r
  end.

(** Listing: ask again after the id just given, until the count is 0. *)
Fixpoint listing (ask : N -> outcome) (fuel : nat) (start : N) : list N :=
  match fuel with
  | O => []
  | S fuel => match ask start with
              | Answered _ [n; id] _ => if N.eqb n 0 then [] else id :: listing ask fuel id
              | _ => []
              end
  end.
