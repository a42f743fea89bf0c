(** The boot and management commands of the SHE extension as their users know
    them.  What a command does is SheModel.v's [hstep] on its fields, and
    SheSpec.v's [image_sent]; here is how fields, answers and calls belong
    together. *)
From Verif Require Import Base NvmSpec Flags KeyId Store NvmReqModel CounterModel KsModel KsReq KsSys KsSpec KsSysProof SheModel SheSys SheSpec AesSpec ShdModel ShdSpec ShcModel.
Local Open Scope nat_scope.

(** The command a packet of [n] bytes stands for; [DL] is the size of the buffers. *)
Section Decode.
Variable DL : nat.
Definition asked (c : mcmd) (n : nat) (buf : list N) : sreq :=
  match c with
  | CSetUid => if 16 <=? n then SSetUid (bytes_at 0 15 buf) else SBad ASetUid
  | CInit => if 8 <=? n then SBootInit (num_at 0 buf) else SBad ABootInit
  | CUpdate => if (8 <=? n) && (N.to_nat (num_at 0 buf) <=? DL) && (8 + N.to_nat (num_at 0 buf) <=? n)
               then SBootUpdate (bytes_at 8 (N.to_nat (num_at 0 buf)) buf) else SBad ABootUpdate
  | CFinish => match n with 0 => SBootFinish | _ => SBad ABootFinish end
  | CStatus => match n with 0 => SStatus | _ => SBad AStatus end
  | CLoadKey => if 64 <=? n then SLoadKey (bytes_at 0 16 buf) (bytes_at 16 32 buf) (bytes_at 48 16 buf) else SBad ALoadKey
  | CLoadPlain => if 16 <=? n then SLoadPlain (bytes_at 0 16 buf) else SBad ALoadPlain
  | CExportRam => match n with 0 => SExportRam | _ => SBad AExportRam end
  | CInitRnd => match n with 0 => SInitRnd | _ => SBad AInitRnd end
  | CRnd => match n with 0 => SRnd | _ => SBad ARnd end
  | CExtend => if 16 <=? n then SExtendSeed (bytes_at 0 16 buf) else SBad AExtendSeed
  end.
End Decode.
(** The result a command gives with OK: the status register, M4 and M5, M1 to M5,
    16 random bytes. *)
Definition result_of (c : mcmd) (a : sresp) : list N :=
  match c with
  | CStatus => [sr_word a]
  | CLoadKey | CExportRam | CRnd => sr_out a
  | _ => []
  end.
(** The size of the answers, with the code in front. *)
Definition answer_size (c : mcmd) : nat :=
  match c with
  | CSetUid | CInit | CUpdate | CFinish | CInitRnd | CExtend => 8
  | CStatus => 12 | CLoadKey => 4 + 32 + 16 | CLoadPlain => 4 | CExportRam => 4 + 16 + 32 + 16 + 32 + 16 | CRnd => 4 + 16
  end.
(** An answer that carries the code and, after OK, the result of a command. *)
Definition delivers (c : mcmd) (a : sresp) (resp : list N) : Prop :=
  length resp = answer_size c /\ get_rc resp = sr_rc a /\
  (sr_rc a = OK -> bytes_at 4 (length (result_of c a)) resp = result_of c a).

(** What follows the code when there is no result: nothing, zeros, a status word, or
    for the export of the RAM key at most the unique id [uid] and constants; in the
    two answers with padding, bytes the buffer [buf] held. *)
Definition no_result (c : mcmd) (uid buf t : list N) : Prop :=
  match c with
  | CSetUid => t = bytes_at 4 4 buf
  | CStatus => t = 0%N :: bytes_at 5 7 buf
  | CInit | CUpdate | CFinish | CInitRnd | CExtend => exists z, In z [OK; GENERAL_ERROR; RNG_SEED] /\ t = put_rc z
  | CLoadKey => t = repeat 0%N (32 + 16)
  | CLoadPlain => t = []
  | CRnd => t = repeat 0%N 16
  | CExportRam => t = repeat 0%N 112 \/ t = uid ++ [16 * 14 + 0; 0; 0; 0; 16]%N ++ repeat 0%N 92
  end.

(** The command of a call. *)
Definition wanted (m : mcall) : sreq :=
  match m with
  | MSetUid uid => SSetUid (firstn 15 uid)
  | MStatus => SStatus
  | MLoadKey m1 m2 m3 => SLoadKey m1 m2 m3
  | MLoadPlain key => SLoadPlain (firstn 16 key)
  | MExportRam => SExportRam
  | MInitRnd => SInitRnd
  | MRnd => SRnd
  | MExtend x => SExtendSeed x
  end.
(** Calls whose arguments fit: a unique id of at least 15 bytes, a key of at least
    16, 16 bytes of entropy, messages of their sizes, and room for the result. *)
Definition fits (m : mcall) (out : list N) : Prop :=
  match m with
  | MSetUid uid => 15 <= length uid /\ bytes_ok uid
  | MLoadKey m1 m2 m3 => length m1 = 16 /\ length m2 = 32 /\ length m3 = 16 /\ bytes_ok m1 /\ bytes_ok m2 /\ bytes_ok m3 /\ length out = 48
  | MLoadPlain key => 16 <= length key /\ bytes_ok key
  | MExtend x => length x = 16 /\ bytes_ok x
  | MStatus => length out = 1
  | MExportRam => length out = 112
  | MRnd => 16 <= length out
  | MInitRnd => True
  end.
(** The arguments the client looks at before it sends anything. *)
Definition bad_args (m : mcall) : Prop :=
  match m with
  | MSetUid uid => length uid < 15
  | MLoadPlain key => length key < 16
  | MExtend x => length x <> 16
  | _ => False
  end.

(** Nobody but the calling client uses its server context. *)
Definition elsewhere (i : nat) (ev : hev) : Prop := match ev with HShe j _ _ _ => j <> i | HSys _ => True end.
Section Slots.
Variable C : kscfg.
(** A slot's key is in NVM, and a cached copy of it is the same. *)
Definition settled (Y : hsys) (i : nat) (client slot : N) (key : list N) : Prop :=
  exists m, sp_find (y_st (hy_ks Y)) (she_id C client slot) = Some (m, key) /\
            forall s, copy C (hy_ks Y) i (she_id C client slot) = Some s -> s = mkSlot m key true.
End Slots.
