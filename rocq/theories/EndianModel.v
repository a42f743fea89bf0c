(** Byte-order translation: src/wh_utils.c 38-61, src/wh_comm.c 40-59,
    wolfhsm/wh_comm.h 60-107, and the translation functions of
    src/wh_message_*.c (tables in MsgTable.v). *)
From Coq Require Import String.
From Verif Require Import Base.
Local Open Scope N_scope.

(** wh_Utils_Swap16, Swap32, Swap64: wh_utils.c 38-61. *)
Definition swap16 (v : N) : N := N.lor (N.shiftr v 8) (N.land (N.shiftl v 8) 65535).
Definition swap32 (v : N) : N :=
  N.lor (N.lor (N.lor (N.shiftr (N.land v 0xFF000000) 24) (N.shiftr (N.land v 0xFF0000) 8))
    (N.shiftl (N.land v 0xFF00) 8)) (N.shiftl (N.land v 0xFF) 24).
Definition swap64 (v : N) : N :=
  N.lor (N.lor (N.lor (N.lor (N.lor (N.lor (N.lor
    (N.shiftr (N.land v 0xFF00000000000000) 56)
    (N.shiftr (N.land v 0xFF000000000000) 40))
    (N.shiftr (N.land v 0xFF0000000000) 24))
    (N.shiftr (N.land v 0xFF00000000) 8))
    (N.shiftl (N.land v 0xFF000000) 8))
    (N.shiftl (N.land v 0xFF0000) 24))
    (N.shiftl (N.land v 0xFF00) 40))
    (N.shiftl (N.land v 0xFF) 56).

(** WH_COMM_MAGIC_NATIVE and WH_COMM_FLAGS_SWAPTEST: wh_comm.h 60-71. *)
Definition MAGIC_NATIVE : N := 0xA501.
Definition swaptest (magic : N) : bool := N.eqb (N.land magic 0xFF00) (N.land MAGIC_NATIVE 0xFF00).

(** wh_Translate8, 16, 32, 64: wh_comm.c 40-59; [w] is the width in bytes. *)
Definition translate (w : nat) (magic v : N) : N :=
  match w with
  | 2%nat => if swaptest magic then v else swap16 v
  | 4%nat => if swaptest magic then v else swap32 v
  | 8%nat => if swaptest magic then v else swap64 v
  | _ => v
  end.

(** ** Message structures and their translation functions *)
(** What a translation function does with a field: [FT w] applies WH_T(8w) to
    each element, [FCopy] copies it, [FStr] copies it and puts a zero in the
    last place, [FNone] leaves the destination's field as it is. *)
Inductive fop := FT (w : nat) | FCopy | FStr | FNone.
Record mfield := mkF { f_name : string; f_width : nat; f_pad : bool; f_op : fop }.
Record mdef := mkMsg { md_name : string; md_fields : list mfield }.

(** The value of a field is the list of its elements (one for a scalar). *)
Definition values : Type := list (list N).

Definition tr_field (f : mfield) (magic : N) (s d : list N) : list N :=
  match f_op f with
  | FT w => map (translate w magic) s
  | FCopy => s
  | FStr => removelast s ++ [0]
  | FNone => d
  end.
Fixpoint tr_msg (fs : list mfield) (magic : N) (src dest : values) : values :=
  match fs, src, dest with
  | f :: fs', s :: src', d :: dest' => tr_field f magic s d :: tr_msg fs' magic src' dest'
  | _, _, _ => []
  end.

(** wh_message_customcb.c 36-102.  The layout of the data depends on the
    translated type: DMA32 (1), DMA64 (2), user types (8 and above) a byte
    buffer; the other types carry no data.  [resp] adds rc and err. *)
Definition custom_data (ty : N) : list mfield :=
  if ty =? 1 then map (fun n => mkF n 4 false (FT 4)) ["client_addr"; "client_sz"; "server_addr"; "server_sz"]%string
  else if ty =? 2 then map (fun n => mkF n 8 false (FT 8)) ["client_addr"; "client_sz"; "server_addr"; "server_sz"]%string
  else if 8 <=? ty then [mkF "data" 1 false FCopy]
  else [mkF "data" 1 true FNone].
Definition custom_head (resp : bool) : list mfield :=
  map (fun n => mkF n 4 false (FT 4)) (if resp then ["id"; "type"; "rc"; "err"] else ["id"; "type"])%string.
Definition custom_def (resp : bool) (ty : N) : list mfield := custom_head resp ++ custom_data ty.
Definition tr_custom (resp : bool) (magic : N) (src dest : values) : values :=
  let ty := translate 4 magic (hd 0 (nth 1 src [])) in
  tr_msg (custom_def resp ty) magic src dest.
