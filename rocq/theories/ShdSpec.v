(** The data commands of the SHE extension as their users know them: the AES modes
    of AesSpec.v and CMAC on the caller's bytes, under the key in the slot. *)
From Verif Require Import Base NvmSpec Flags KeyId Store NvmReqModel CounterModel KsModel KsReq KsSys KsSpec SheModel SheSys SheSpec AesSpec ShdModel.
Local Open Scope nat_scope.

Section Spec.
Variable C : kscfg.
Variable E D : list N -> list N -> list N.

(** The four cipher commands on whole blocks. *)
Definition cipher (op : dop) (k iv msg : list N) : list N :=
  match op with
  | EncEcb => ECB (E k) msg
  | DecEcb => ECB (D k) msg
  | EncCbc => CBC_enc (E k) iv msg
  | DecCbc => CBC_dec (D k) iv msg
  end.
(** The bytes of a message that are processed: its whole blocks. *)
Definition whole (l : list N) : nat := 16 * (length l / 16).

(** The 16-byte key a client's slot holds; an absent master key is 16 zeros. *)
Definition holds (Y : hsys) (i : nat) (client slot : N) (k : list N) : Prop := auth_key C Y i client slot k.

(** Secure boot has succeeded on context [i] and the device has its unique id. *)
Definition unlocked (Y : hsys) (i : nat) : Prop :=
  h_uidset (hy_she Y i) = true /\ h_sb (hy_she Y i) = SbSuccess.
(** The environment lets the command through: message sent and answered, lock had,
    the key can be read. *)
Definition in_order (e : senv) (L : link) : Prop :=
  l_send L = OK /\ l_recv L = OK /\ se_lock e = true /\ se_rd e 0 = OK.
(** Buffers of [n] bytes on both sides, receive errors are errors. *)
Definition link_ok (n : nat) (L : link) : Prop := length (l_cold L) = n /\ length (l_sold L) = n.
End Spec.

(** The field-level command (SheModel.v) a packet stands for. *)
Section Decode.
Variable DL : nat.
Definition sop_of (op : dop) (iv : list N) : sop :=
  match op with EncEcb => OEncEcb | DecEcb => ODecEcb | EncCbc => OEncCbc iv | DecCbc => ODecCbc iv end.
Definition bytes_at (o n : nat) (buf : list N) : list N := firstn n (skipn o buf).
Definition num_at (o : nat) (buf : list N) : N := le_dec (bytes_at o 4 buf).
Definition decode (c : cmd) (n : nat) (buf : list N) : sreq :=
  let get o := N.to_nat (num_at o buf) in
  match c with
  | Cipher op =>
      let field := 16 * (get 0 / 16) in
      if (chdr op <=? n) && (chdr op + field <=? n) && (field <=? DL) && (8 + field <=? DL)
      then SUse (sop_of op (bytes_at 8 16 buf)) (nth 4 buf 0%N) (bytes_at (chdr op) field buf)
      else SBad AUse
  | GenMac =>
      if (8 <=? n) && (8 + get 4 <=? n) && (get 4 <=? DL)
      then SUse OGenMac (num_at 0 buf) (bytes_at 8 (get 4) buf)
      else SBad AUse
  | VerifyMac =>
      if (16 <=? n) && (16 + get 4 + get 8 <=? n) && (get 4 + get 8 <=? DL)
      then SUse (OVerifyMac (bytes_at (16 + get 4) (get 8) buf)) (num_at 0 buf) (bytes_at 16 (get 4) buf)
      else SBad AUse
  end.
End Decode.
(** An answer that carries the code and, after OK, the result of a command. *)
Definition carries (c : cmd) (r : sresp) (resp : list N) : Prop :=
  get_rc resp = sr_rc r /\
  (sr_rc r = OK ->
   match c with
   | Cipher _ => skipn 4 resp = put32 (length (sr_out r)) ++ sr_out r
   | GenMac => skipn 4 resp = sr_out r
   | VerifyMac => nth 4 resp 0%N = sr_word r /\ length resp = 12
   end).
(** wolfCrypt as the field-level model takes it. *)
Section Lib.
Variable E D : list N -> list N -> list N.
Variable cm : list N -> list N -> list N.
Definition lib_use (op : sop) (k inp : list N) : option (list N) :=
  if length k =? 16 then
    match op with
    | OEncEcb => Some (cipher E D EncEcb k [] inp)
    | ODecEcb => Some (cipher E D DecEcb k [] inp)
    | OEncCbc iv => Some (cipher E D EncCbc k iv inp)
    | ODecCbc iv => Some (cipher E D DecCbc k iv inp)
    | OGenMac => Some (cm k inp)
    | OVerifyMac mac => if (4 <=? length mac) && (length mac <=? 16) && (if list_eq_dec N.eq_dec (firstn (length mac) (cm k inp)) mac then true else false)
                        then Some [] else None
    end
  else None.
End Lib.
