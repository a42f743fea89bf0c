(** Model of src/wh_nvm_flash.c (all line numbers below are of that file),
    in the program monad of Flash.v.  NULL-pointer argument checks are not
    modelled: contexts and callbacks are assumed present. *)
From Verif Require Import Base Flash.

(** nfStatus: wolfhsm/wh_nvm_flash.h 38-47. *)
Inductive status := Unknown | Free | Used | DataBad | MetaBad | CrcBad | LenBad.

Definition status_eqb (a b : status) : bool :=
  match a, b with
  | Unknown, Unknown | Free, Free | Used, Used | DataBad, DataBad
  | MetaBad, MetaBad | CrcBad, CrcBad | LenBad, LenBad => true
  | _, _ => false
  end.

(** nfMemState: wolfhsm/wh_nvm_flash.h 50-59.  The CRC fields exist only with
    WOLFHSM_CFG_NVM_FLASH_CRC16; otherwise they stay 0 here. *)
Record mstate := mkMS {
  s_st : status; s_epoch : N; s_start : nat; s_count : nat; s_crcm : N; s_crcd : N }.
Definition ms_zero (st : status) : mstate := mkMS st 0 0 0 0 0.
Definition set_mstatus (s : mstate) (st : status) : mstate :=
  mkMS st (s_epoch s) (s_start s) (s_count s) (s_crcm s) (s_crcd s).

(** nfMemObject, nfMemDirectory, whNvmFlashContext: wolfhsm/wh_nvm_flash.h 62-105. *)
Record mobj := mkMO { o_st : mstate; o_meta : meta }.
Record mdir := mkMD {
  d_objs : list mobj; d_nfo : nat; d_nfd : nat; d_rent : nat; d_rdata : nat; d_max : nat }.
Record ctx := mkCtx {
  x_state : mstate; x_dir : mdir; x_active : bool; x_bad : bool }.

Definition mo_zero : mobj := mkMO (ms_zero Unknown) meta_zero.
Definition o_used (o : mobj) : bool := status_eqb (s_st (o_st o)) Used.
Definition o_id (o : mobj) : N := m_id (o_meta o).
Definition o_len (o : mobj) : nat := N.to_nat (m_len (o_meta o)).
Definition set_st (o : mobj) (st : status) : mobj :=
  let s := o_st o in
  mkMO (mkMS st (s_epoch s) (s_start s) (s_count s) (s_crcm s) (s_crcd s)) (o_meta o).

Definition upd_nth {A} (n : nat) (x : A) (l : list A) : list A :=
  firstn n l ++ match skipn n l with [] => [] | _ :: r => x :: r end.

(** Layout constants: 66-107.  nfState is 3 units, nfObject 3 + 4 units. *)
Definition U_STATE : nat := 3.
Definition U_META : nat := 4.
Definition U_OBJ : nat := 7.
Definition data_offset (C : cfg) : nat := 3 + 7 * c_oc C.   (* NF_PARTITION_DATA_OFFSET *)

(** BASE_STATE 49, CRC_BASE_STATE 58, NF_STATE_CRC_PACK 59.  The halves are
    disjoint bit fields, so | is +. *)
Definition W32 : N := 4294967296%N.
Definition BASE : N := (305419896 * W32)%N.         (* 0x12345678 << 32 *)
Definition CRC_BASE : N := (4660 * 65536 * W32)%N.  (* 0x1234 << 48 *)
Definition word (x : N) : N := (BASE + x mod W32)%N.
Definition crc_word (crc x : N) : N := (CRC_BASE + (crc mod 65536) * W32 + x mod W32)%N.
Definition low32 (w : N) : N := (w mod W32)%N.
Definition crc_of (w : N) : N := ((w / W32) mod 65536)%N.   (* NF_STATE_CRC_EXTRACT *)
Definition CRC_INIT : N := 65535%N.
(** Start and count words of an object: 592-600, 678-685. *)
Definition obj_word (C : cfg) (crc : N) (x : nat) : N :=
  if c_crc C then crc_word crc (N.of_nat x) else word (N.of_nat x).

Definition OUT_OF_FUEL : Z := (-99999)%Z.

Section WithCfg.
Variable C : cfg.
Let OC := c_oc C.
Let PU := c_pu C.

(** nfPartition_Offset 316-324, nfPartition_DataOffset 326-334. *)
Definition part_off (p : bool) : nat := if p then PU else 0.
Definition part_data (p : bool) : nat := part_off p + data_offset C.
(** nfObject_Offset 569-582. *)
Definition obj_off (p : bool) (i : nat) : nat := part_off p + U_STATE + U_OBJ * i.

Definition nonblank (rc : Z) : bool := Z.eqb rc NOTBLANK.
Definition bc_error (rc : Z) : bool := negb (is_ok rc) && negb (nonblank rc).

(** nfMemState_Read 167-257. *)
Definition state_read (off : nat) : prog (Z * mstate) :=
  do be <- fu_blank off 1 ;;
  if bc_error be then Ret (be, ms_zero Unknown) else
  do bs <- fu_blank (off + 1) 1 ;;
  if bc_error bs then Ret (bs, ms_zero Unknown) else
  do bc <- fu_blank (off + 2) 1 ;;
  if bc_error bc then Ret (bc, ms_zero Unknown) else
  if nonblank be && nonblank bs && nonblank bc then
    do '(rc, us) <- fu_read off 3 ;;
    if is_ok rc then
      let we := nth 0 us 0%N in let ws := nth 1 us 0%N in let wc := nth 2 us 0%N in
      Ret (OK, mkMS Used (low32 we) (N.to_nat (low32 ws)) (N.to_nat (low32 wc))
                    (if c_crc C then crc_of ws else 0%N)
                    (if c_crc C then crc_of wc else 0%N))
    else Ret (rc, ms_zero Unknown)
  else if nonblank be && nonblank bs then
    do '(rc, us) <- fu_read off 2 ;;
    if is_ok rc then
      let we := nth 0 us 0%N in let ws := nth 1 us 0%N in
      Ret (OK, mkMS DataBad (low32 we) (N.to_nat (low32 ws)) 0
                    (if c_crc C then crc_of ws else 0%N) 0)
    else Ret (rc, ms_zero Unknown)
  else if nonblank be then Ret (OK, ms_zero MetaBad)
  else Ret (OK, ms_zero Free).

(** nfMemObject_Read 259-314. *)
Definition object_read (off : nat) : prog (Z * mobj) :=
  do '(rc, s) <- state_read off ;;
  if is_ok rc && (status_eqb (s_st s) Used || status_eqb (s_st s) DataBad) then
    do '(rc, us) <- fu_read (off + U_STATE) U_META ;;
    if is_ok rc then
      let m := meta_of_units us in
      if c_crc C && negb (N.eqb (crc16 CRC_INIT (meta_bytes m)) (s_crcm s)) then
        Ret (rc, mkMO (mkMS (if status_eqb (s_st s) Used then CrcBad else LenBad)
                            (s_epoch s) (s_start s) (s_count s) (s_crcm s) (s_crcd s))
                      meta_zero)
      else Ret (rc, mkMO s m)
    else Ret (rc, mkMO s meta_zero)
  else Ret (rc, mkMO s meta_zero).

(** nfPartition_ReadMemDirectory 404-431: read errors are ignored. *)
Fixpoint read_objs (p : bool) (i n : nat) : prog (list mobj) :=
  match n with
  | O => Ret []
  | S k => do '(_, o) <- object_read (obj_off p i) ;;
           do os <- read_objs p (S i) k ;;
           Ret (o :: os)
  end.
Definition read_dir (p : bool) : prog mdir :=
  do os <- read_objs p 0 OC ;;
  Ret (mkMD os 0 0 0 0 (PU - data_offset C)).

(** Forward pass of nfMemDirectory_Parse 893-945: (next_free_object,
    next_free_data, reclaimable_entries, reclaimable_data), or None for an
    unknown status (ABORTED). *)
Fixpoint parse_fwd (max : nat) (os : list mobj) (nfo nfd re rd : nat)
  : option (nat * nat * nat * nat) :=
  match os with
  | [] => Some (nfo, nfd, re, rd)
  | o :: r =>
      let s := o_st o in
      match s_st s with
      | Free => Some (nfo, nfd, re, rd)
      | Used => parse_fwd max r (S nfo) (s_start s + s_count s) re rd
      | MetaBad => parse_fwd max r (S nfo) nfd (S re) rd
      | DataBad => parse_fwd max r (S nfo) (s_start s + units (o_len o))
                             (S re) (rd + units (o_len o))
      | CrcBad => parse_fwd max r (S nfo) (s_start s + s_count s)
                            (S re) (rd + s_count s)
      | LenBad => parse_fwd max r (S nfo) max (S re)
                            (rd + (max - s_start s))
      | Unknown => None
      end
  end.

(** Inner loop of the duplicate search 956-967: entries below [that]. *)
Fixpoint dd_inner (that : nat) (id : N) (acc : list mobj * nat * nat)
  : list mobj * nat * nat :=
  match that with
  | O => acc
  | S k =>
      let '(os, re, rd) := acc in
      let o := nth k os mo_zero in
      dd_inner k id
        (if o_used o && N.eqb (o_id o) id
         then (upd_nth k (set_st o DataBad) os, S re, rd + s_count (o_st o))
         else acc)
  end.
(** Outer loop 953-969: entries below [this], from the last one down. *)
Fixpoint dd_outer (this : nat) (acc : list mobj * nat * nat)
  : list mobj * nat * nat :=
  match this with
  | O => acc
  | S k =>
      let '(os, re, rd) := acc in
      let o := nth k os mo_zero in
      dd_outer k (if o_used o then dd_inner k (o_id o) acc else acc)
  end.

(** nfMemDirectory_Parse 882-972. *)
Definition parse (d : mdir) : Z * mdir :=
  match parse_fwd (d_max d) (d_objs d) 0 0 0 0 with
  | None => (ABORTED, d)
  | Some (nfo, nfd, re, rd) =>
      let nfd := Nat.min nfd (d_max d) in
      let '(os, re, rd) := dd_outer (length (d_objs d)) (d_objs d, re, rd) in
      (OK, mkMD os nfo nfd re rd (d_max d))
  end.

(** nfPartition_ReadParseMemDirectory 433-441. *)
Definition read_parse_dir (p : bool) : prog (Z * mdir) :=
  do d <- read_dir p ;; Ret (parse d).

(** nfMemDirectory_FindObjectIndexById 974-994. *)
Fixpoint find_idx (os : list mobj) (i n : nat) (id : N) : option nat :=
  match n, os with
  | O, _ => None
  | S k, [] => None
  | S k, o :: r =>
      if o_used o && N.eqb (o_id o) id then Some i else find_idx r (S i) k id
  end.
Definition find_obj (d : mdir) (id : N) : option nat :=
  find_idx (d_objs d) 0 (d_nfo d) id.

(** nfIdList_Contains 997-1008. *)
Definition id_in (ids : list N) (id : N) : bool := existsb (N.eqb id) ids.

(** nfPartition_BlankCheck 368-378, nfPartition_Erase 380-390. *)
Definition part_blank (p : bool) : prog Z := fu_blank (part_off p) PU.
Definition part_erase (p : bool) : prog Z := fu_erase (part_off p) PU.
(** nfPartition_ProgramEpoch/Start/Count 443-494. *)
Definition prog_epoch (p : bool) (e : N) : prog Z := fu_program (part_off p) [word e].
Definition prog_start (p : bool) (x : nat) : prog Z :=
  fu_program (part_off p + 1) [word (N.of_nat x)].
Definition prog_count (p : bool) (x : nat) : prog Z :=
  fu_program (part_off p + 2) [word (N.of_nat x)].

Definition blank_or_erase (p : bool) : prog Z :=
  do rc <- part_blank p ;;
  if nonblank rc then part_erase p else Ret rc.

(** nfPartition_ProgramInit 496-539: return code and the new context->state. *)
Definition program_init (p : bool) (st0 : mstate) : prog (Z * mstate) :=
  do rc <- blank_or_erase p ;;
  if is_ok rc then
    do rc <- prog_epoch p 0 ;;
    if is_ok rc then
      do rc <- prog_start p (data_offset C) ;;
      if is_ok rc then
        do rc <- prog_count p PU ;;
        if is_ok rc then Ret (OK, mkMS Used 0 (data_offset C) PU 0 0)
        else Ret (rc, set_mstatus st0 DataBad)
      else Ret (rc, set_mstatus st0 MetaBad)
    else Ret (rc, set_mstatus st0 Free)
  else Ret (rc, st0).

(** nfPartition_CheckDataRange 545-567. *)
Definition check_range (p : bool) (boff bcount : nat) : bool :=
  let base := part_data p * 8 in
  let max := (part_off p + PU) * 8 in
  (base <=? boff) && (boff <=? max) && (bcount <=? max - boff).

(** nfObject_ProgramBegin 584-640. *)
Definition obj_begin (p : bool) (i : nat) (epoch : N) (start : nat) (m : meta)
    (crcm : N) : prog Z :=
  let off := obj_off p i in
  do rc <- fu_program off [word epoch] ;;
  if is_ok rc then
    do rc <- fu_program (off + U_STATE) (meta_units m) ;;
    if is_ok rc then fu_program (off + 1) [obj_word C crcm start]
    else Ret rc
  else Ret rc.

(** nfObject_ProgramDataBytes 642-668. *)
Definition obj_data (p : bool) (uoff : nat) (bs : list N) : prog Z :=
  let doff := part_data p + uoff in
  if check_range p (doff * 8) (length bs)
  then fu_program_bytes (doff * 8) bs
  else Ret BADARGS.

(** nfObject_ProgramFinish 670-702. *)
Definition obj_finish (p : bool) (i : nat) (bcount : nat) (crcd : N) : prog Z :=
  fu_program (obj_off p i + 2) [obj_word C crcd (units bcount)].

(** nfObject_Program 704-729; [data = None] is the NULL pointer. *)
Definition obj_program (p : bool) (i : nat) (epoch : N) (m : meta) (start : nat)
    (data : option (list N)) (crcm crcd : N) : prog Z :=
  do rc <- obj_begin p i epoch start m crcm ;;
  if is_ok rc then
    do rc <- (match data with Some bs => obj_data p start bs | None => Ret OK end) ;;
    if is_ok rc then obj_finish p i (N.to_nat (m_len m)) crcd else Ret rc
  else Ret rc.

(** nfObject_ReadDataBytes 731-784. *)
Definition obj_read (d : mdir) (p : bool) (i : nat) (boff bcount : nat)
  : prog (Z * list N) :=
  let o := nth i (d_objs d) mo_zero in
  let so := (part_data p + s_start (o_st o)) * 8 + boff in
  if o_len o <=? boff then Ret (BADARGS, [])
  else if o_len o - boff <? bcount then Ret (BADARGS, [])
  else if negb (check_range p so bcount) then Ret (BADARGS, [])
  else
    do '(rc, bs) <- fu_read_bytes so bcount ;;
    if is_ok rc && c_crc C && o_used o && (boff =? 0) && (bcount =? o_len o)
       && negb (N.eqb (crc16 CRC_INIT bs) (s_crcd (o_st o)))
    then Ret (NOTVERIFIED, bs)
    else Ret (rc, bs).

(** Copy loop of nfObject_Copy 833-864: 64-byte chunks.  Returns the code, the
    next free data unit of the destination and the running CRC. *)
Fixpoint copy_loop (fuel : nat) (d : mdir) (act dst : bool) (i len : nat)
    (doff ddata : nat) (crc : N) : prog (Z * nat * N) :=
  if len <=? doff then Ret (OK, ddata, crc) else
  match fuel with
  | O => Ret (OUT_OF_FUEL, ddata, crc)
  | S k =>
      let this := Nat.min 64 (len - doff) in
      do '(rc, bs) <- obj_read d act i doff this ;;
      if is_ok rc then
        do rc <- obj_data dst ddata bs ;;
        if is_ok rc then
          copy_loop k d act dst i len (doff + this) (ddata + units this)
                    (if c_crc C then crc16 crc bs else crc)
        else Ret (rc, ddata, crc)
      else Ret (rc, ddata, crc)
  end.

(** nfObject_Copy 786-879: (code, next object, next data). *)
Definition obj_copy (d : mdir) (act dst : bool) (i : nat) (dobj ddata : nat)
  : prog (Z * nat * nat) :=
  let o := nth i (d_objs d) mo_zero in
  let len := o_len o in
  let crcm := s_crcm (o_st o) in
  let crcd := s_crcd (o_st o) in
  if c_crc C && negb (N.eqb (crc16 CRC_INIT (meta_bytes (o_meta o))) crcm)
  then Ret (NOTVERIFIED, dobj, ddata) else
  do rc <- obj_begin dst dobj (s_epoch (o_st o)) ddata (o_meta o) crcm ;;
  if is_ok rc then
    do '(rc, ddata', crc) <- copy_loop len d act dst i len 0 ddata CRC_INIT ;;
    if is_ok rc then
      if c_crc C && negb (N.eqb crc crcd) then Ret (NOTVERIFIED, dobj, ddata) else
      do rc <- obj_finish dst dobj len crcd ;;
      if is_ok rc then Ret (OK, S dobj, ddata') else Ret (rc, dobj, ddata)
    else Ret (rc, dobj, ddata)
  else Ret (rc, dobj, ddata).

(** wh_NvmFlash_Init 1013-1094 (device Init succeeded). *)
Definition nf_init : prog (Z * ctx) :=
  do '(_, s0) <- state_read (part_off false) ;;
  do '(_, s1) <- state_read (part_off true) ;;
  let u0 := status_eqb (s_st s0) Used in
  let u1 := status_eqb (s_st s1) Used in
  let zero := mkMD (repeat mo_zero OC) 0 0 0 0 0 in
  do '(rc, active, st) <-
    (if u0 && negb u1 then Ret (OK, false, s0)
     else if negb u0 && u1 then Ret (OK, true, s1)
     else if u0 && u1 then
       let a := (s_epoch s0 <? s_epoch s1)%N in
       Ret (OK, a, if a then s1 else s0)
     else do '(rc, st) <- program_init false (ms_zero Unknown) ;;
          Ret (rc, false, st)) ;;
  if is_ok rc then
    do '(rc, d) <- read_parse_dir active ;;
    Ret (rc, mkCtx st d active false)
  else Ret (rc, mkCtx st zero active false).

(** wh_NvmFlash_GetAvailable 1187-1214: code, available bytes and objects,
    reclaimable bytes and objects. *)
Definition nf_avail (x : ctx) : Z * (nat * nat * nat * nat) :=
  if x_bad x then (ABORTED, (0, 0, 0, 0)) else
  let d := x_dir x in
  (OK, ((d_max d - d_nfd d) * 8, OC - d_nfo d, d_rdata d * 8, d_rent d)).

(** wh_NvmFlash_GetMetadata 1216-1238. *)
Definition nf_meta (x : ctx) (id : N) : Z * option meta :=
  if x_bad x then (ABORTED, None) else
  match find_obj (x_dir x) id with
  | Some i => (OK, Some (o_meta (nth i (d_objs (x_dir x)) mo_zero)))
  | None => (NOTFOUND, None)
  end.

(** wh_NvmFlash_AddObject 1243-1311.  [data = None] is a NULL pointer with
    data_len 0; a NULL pointer with nonzero length is BADARGS (not modelled). *)
Definition dlen (data : option (list N)) : nat :=
  match data with Some bs => length bs | None => 0 end.
Definition dbytes (data : option (list N)) : list N :=
  match data with Some bs => bs | None => [] end.
Definition nf_add (x : ctx) (m0 : meta) (data : option (list N)) : prog (Z * ctx) :=
  if x_bad x then Ret (ABORTED, x) else
  let d := x_dir x in
  let len := dlen data in
  if (d_nfo d =? OC) || (d_max d * 8 <? d_nfd d * 8 + len)
  then Ret (NOSPACE, x) else
  let old := find_obj d (m_id m0) in
  let epoch := match old with
               | Some i => ((s_epoch (o_st (nth i (d_objs d) mo_zero)) + 1) mod W32)%N
               | None => 0%N end in
  let m := with_len m0 (N.of_nat len) in
  let cnt := units len in
  let crcm := if c_crc C then crc16 CRC_INIT (meta_bytes m) else 0%N in
  let crcd := if c_crc C then crc16 CRC_INIT (dbytes data) else 0%N in
  do rc <- obj_program (x_active x) (d_nfo d) epoch m (d_nfd d) data crcm crcd ;;
  if is_ok rc then
    let os := upd_nth (d_nfo d)
                (mkMO (mkMS Used epoch (d_nfd d) cnt crcm crcd) m) (d_objs d) in
    let '(os, re, rd) :=
      match old with
      | Some i => let o := nth i os mo_zero in
                  (upd_nth i (set_st o DataBad) os, S (d_rent d),
                   d_rdata d + s_count (o_st o))
      | None => (os, d_rent d, d_rdata d)
      end in
    Ret (OK, mkCtx (x_state x)
                   (mkMD os (S (d_nfo d)) (d_nfd d + cnt) re rd (d_max d))
                   (x_active x) (x_bad x))
  else Ret (rc, x).

(** Copy loop of wh_NvmFlash_DestroyObjects 1382-1397, entries [i ..]. *)
Fixpoint copy_all (n i : nat) (d : mdir) (act dst : bool) (ids : list N)
    (dobj ddata : nat) : prog Z :=
  match n with
  | O => Ret OK
  | S k =>
      let o := nth i (d_objs d) mo_zero in
      if o_used o && negb (id_in ids (o_id o)) then
        do '(rc, dobj, ddata) <- obj_copy d act dst i dobj ddata ;;
        if is_ok rc then copy_all k (S i) d act dst ids dobj ddata
        else Ret rc
      else copy_all k (S i) d act dst ids dobj ddata
  end.

(** wh_NvmFlash_DestroyObjects 1317-1435. *)
Definition nf_destroy (x : ctx) (ids : list N) : prog (Z * ctx) :=
  if x_bad x then Ret (ABORTED, x) else
  let d := x_dir x in
  let src := x_active x in
  let dst := negb src in
  let ep' := ((s_epoch (x_state x) + 1) mod W32)%N in
  let st := s_start (x_state x) in
  let cn := s_count (x_state x) in
  if negb (length ids =? 0)
     && negb (existsb (fun o => o_used o && id_in ids (o_id o)) (d_objs d))
  then Ret (OK, x) else
  do rc <- blank_or_erase dst ;;
  if negb (is_ok rc) then Ret (rc, x) else
  do rc <- prog_epoch dst ep' ;;
  if negb (is_ok rc) then Ret (rc, x) else
  do rc <- prog_start dst st ;;
  if negb (is_ok rc) then Ret (rc, x) else
  do rc <- copy_all OC 0 d src dst ids 0 0 ;;
  if negb (is_ok rc) then Ret (rc, x) else
  do rc <- prog_count dst cn ;;
  if negb (is_ok rc) then Ret (rc, x) else
  do '(rc, d') <- read_parse_dir dst ;;
  if negb (is_ok rc) then
    do '(rc2, d2) <- read_parse_dir src ;;
    Ret (rc, mkCtx (x_state x) d2 src (negb (is_ok rc2)))
  else
    do rc <- part_erase src ;;
    Ret (rc, mkCtx (mkMS Used ep' st cn 0 0) d' dst false).

(** wh_NvmFlash_Read 1438-1460. *)
Definition nf_read (x : ctx) (id : N) (off len : nat) : prog (Z * list N) :=
  if x_bad x then Ret (ABORTED, []) else
  match find_obj (x_dir x) id with
  | Some i => obj_read (x_dir x) (x_active x) i off len
  | None => Ret (NOTFOUND, [])
  end.

(** wh_NvmFlash_List 1119-1185: code, count, id.  Loop helpers over the
    entries below next_free_object. *)
Fixpoint list_start (os : list mobj) (n : nat) (start : N) : option (N * list mobj * nat) :=
  match n, os with
  | S k, o :: r =>
      if o_used o && (N.eqb start 0 || N.eqb start (o_id o))
      then Some (o_id o, r, k) else list_start r k start
  | _, _ => None
  end.
Fixpoint list_next (os : list mobj) (n : nat) : option (N * list mobj * nat) :=
  match n, os with
  | S k, o :: r => if o_used o then Some (o_id o, r, k) else list_next r k
  | _, _ => None
  end.
Fixpoint list_count (os : list mobj) (n : nat) : nat :=
  match n, os with
  | S k, o :: r => (if o_used o then 1 else 0) + list_count r k
  | _, _ => 0
  end.
Definition nf_list (x : ctx) (start : N) : Z * nat * N :=
  if x_bad x then (ABORTED, 0, 0%N) else
  let d := x_dir x in
  match list_start (d_objs d) (d_nfo d) start with
  | None => (OK, 0, 0%N)
  | Some (id, r, k) =>
      let c := if N.eqb id 0 then 0 else 1 in
      if N.eqb start 0 then (OK, c + list_count r k, id)
      else match list_next r k with
           | Some (id', r', k') => (OK, c + list_count r' k', id')
           | None => (OK, 0, 0%N)
           end
  end.

(** wh_Nvm_AddObjectWithReclaim: src/wh_nvm.c 219-255. *)
Definition nvm_add_reclaim (x : ctx) (m : meta) (data : option (list N)) : prog (Z * ctx) :=
  let '(rc, (asz, aobj, rsz, robj)) := nf_avail x in
  do '(rc, x) <-
    (if is_ok rc then
       if (asz <? dlen data) || (aobj =? 0) then
         if (dlen data <=? asz + rsz) && (0 <? aobj + robj)
         then nf_destroy x []
         else Ret (NOSPACE, x)
       else Ret (OK, x)
     else Ret (rc, x)) ;;
  if is_ok rc then nf_add x m data else Ret (rc, x).

End WithCfg.
