(** Non-volatile counters: src/wh_server_counter.c 40-233, over the abstract
    store.  The counter value is the first four bytes (little endian) of the
    metadata label.  Byte-order translation is left out (C18). *)
From Verif Require Import Base NvmSpec Flags Store KeyId.
Local Open Scope N_scope.

Definition U32MAX : N := 4294967295.

(** The counter pointer into meta->label: line 47. *)
Definition get_counter (m : meta) : N := le_dec (firstn 4 (m_label m)).
Definition set_counter (m : meta) (v : N) : meta :=
  mkMeta (m_id m) (m_access m) (m_flags m) (m_len m) (le_enc 4 v ++ skipn 4 (m_label m)).

Inductive counter_req :=
| CInit (id v : N) | CInc (id : N) | CRead (id : N) | CDestroy (id : N) | CShort.

(** Outcome of the NVM lock and of the storage. *)
Record cenv := mkCenv { ce_lock : Z; ce_nvm : Z }.

(** WH_MAKE_KEYID(WH_KEYTYPE_COUNTER, client_id, counterId). *)
Definition counter_id (client id : N) : N := mk_keyid KT_COUNTER client id.

(** wh_Server_HandleCounter.  The response is the return code and the counter
    field.  [CShort] is a request that is too short. *)
Definition counter_handle (e : cenv) (client : N) (q : counter_req) (s : store) : (Z * N) * store :=
  match q with
  | CShort => ((BADARGS, 0), s)
  | CInit id v =>
      let m := set_counter (with_id meta_zero (counter_id client id)) v in
      if negb (is_ok (ce_lock e)) then ((ce_lock e, 0), s) else
      let '(rc, s') := nv_add (ce_nvm e) m [] s in
      ((rc, if is_ok rc then get_counter m else 0), s')
  | CInc id =>
      if negb (is_ok (ce_lock e)) then ((ce_lock e, 0), s) else
      let '(rc, m) := nv_meta s (counter_id client id) in
      if negb (is_ok rc) then ((rc, 0), s) else
      let v := (get_counter m + 1) mod 4294967296 in
      if v =? 0 then ((OK, U32MAX), s) else
      let '(rc, s') := nv_add (ce_nvm e) (set_counter m v) [] s in
      ((rc, if is_ok rc then v else 0), s')
  | CRead id =>
      if negb (is_ok (ce_lock e)) then ((ce_lock e, 0), s) else
      let '(rc, m) := nv_meta s (counter_id client id) in
      ((rc, if is_ok rc then get_counter m else 0), s)
  | CDestroy id =>
      if negb (is_ok (ce_lock e)) then ((ce_lock e, 0), s) else
      let '(rc, s') := nv_destroy (ce_nvm e) [counter_id client id] s in ((rc, 0), s')
  end.

(** A history of requests by clients; a request may be cut by a power loss,
    after its storage write ([done]) or before. *)
Inductive cevent :=
| CServe (e : cenv) (client : N) (q : counter_req)
| CCut (client : N) (q : counter_req) (done : bool).

Definition cstep (ev : cevent) (s : store) : option (Z * N) * store :=
  match ev with
  | CServe e client q => let '(a, s') := counter_handle e client q s in (Some a, s')
  | CCut client q true => (None, snd (counter_handle (mkCenv OK OK) client q s))
  | CCut _ _ false => (None, s)
  end.
Fixpoint csession (evs : list cevent) (s : store) : list (option (Z * N)) * store :=
  match evs with
  | [] => ([], s)
  | ev :: r => let '(a, s1) := cstep ev s in
               let '(rs, s2) := csession r s1 in (a :: rs, s2)
  end.
