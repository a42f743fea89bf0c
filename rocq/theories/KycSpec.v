(** What the key calls are meant to do, in terms of the caller's arguments and
    of the requests of KsReq.v. *)
From Verif Require Import Base NvmSpec Flags KeyId Store NvmReqModel KsModel KsReq KsSys KdfModel KycModel NvcSpec.
Local Open Scope N_scope.

(** The argument types of the prototypes. *)
Definition u16 (x : N) : Prop := x < 65536.
Definition meta16 (m : meta) : Prop :=
  u16 (m_id m) /\ u16 (m_access m) /\ u16 (m_flags m) /\ u16 (m_len m) /\ length (m_label m) = 24%nat.
Definition typed (c : kcall) : Prop :=
  match c with
  | CCache fl _ d id => fl < 4294967296 /\ u16 (N.of_nat (length d)) /\ u16 id
  | CRandom fl _ sz id => fl < 4294967296 /\ u16 sz /\ u16 id
  | CCacheDma fl _ addr sz id => fl < 4294967296 /\ addr < 2 ^ 64 /\ u16 sz /\ u16 id
  | CExportDma id addr sz _ => u16 id /\ addr < 2 ^ 64 /\ u16 sz
  | CEvict id | CCommit id | CErase id | CRevoke id | CExport id _ _ => u16 id
  | CExportPublic id algo _ _ => u16 id /\ u16 algo
  | CWrap kek key m _ => u16 kek /\ u16 (N.of_nat (length key)) /\ meta16 m
  | CWrapExport id kty kek _ => u16 id /\ u16 kty /\ u16 kek
  | CUnwrapExport kek b _ | CUnwrapCache kek b => u16 kek /\ u16 (N.of_nat (length b))
  | CDataWrap kek d _ | CDataUnwrap kek d _ => u16 kek /\ N.of_nat (length d) < 4294967296
  end.

(** What is asked of authenticated encryption here: ciphertexts are 16 bytes
    longer than the text, and texts are bytes. *)
Definition aead_sizes (enc dec : list N -> list N -> N -> list N -> option (list N)) : Prop :=
  (forall k iv aad pt ct, enc k iv aad pt = Some ct -> length ct = (16 + length pt)%nat) /\
  (forall k iv aad ct pt, dec k iv aad ct = Some pt -> length ct = (16 + length pt)%nat /\ bytes_ok pt).

Section Spec.
Variable DL : nat.
Variable C : kscfg.

(** The sizes the build derives from WOLFHSM_CFG_COMM_DATA_LEN; packets have
    16-bit sizes. *)
Definition build_ok : Prop :=
  (64 <= DL)%nat /\ N.of_nat DL < 65536 /\
  exp_max C = N.of_nat (DL - 36) /\ kw_resp C = N.of_nat (DL - 8) /\ kwd_resp C = N.of_nat (DL - 12).

(** Labels are 24 bytes (the type of the field). *)
Definition labels24 (S : ks) : Prop :=
  (forall id m d, sp_find (k_st S) id = Some (m, d) -> length (m_label m) = 24%nat) /\
  (forall id s, find_cache C S id = Some s -> length (m_label (sl_meta s)) = 24%nat).

(** Calls that can be sent: a key id is named where one is needed, there is
    something to send and it fits a packet and the limits of the build. *)
Definition sendable (c : kcall) : Prop :=
  match c with
  | CCache _ _ d _ => (0 < length d <= DL - 40)%nat
  | CRandom _ _ sz _ => sz <> 0
  | CCacheDma _ _ _ _ _ => True
  | CEvict id | CCommit id | CErase id | CRevoke id | CExport id _ _ | CExportPublic id _ _ _ | CExportDma id _ _ _ => id <> 0
  | CWrap _ key _ _ => (0 < length key <= DL - 38)%nat /\ N.of_nat (length key) <= kw_max C
  | CWrapExport _ _ _ _ => True
  | CUnwrapExport _ b _ | CUnwrapCache _ b => (0 < length b <= DL - 8)%nat /\ N.of_nat (length b) <= kw_max C
  | CDataWrap _ d _ | CDataUnwrap _ d _ => (0 < length d <= DL - 8)%nat /\ N.of_nat (length d) <= kwd_max C
  end.

(** The request a call stands for: the caller's own arguments, labels cut at 24
    bytes. *)
Definition meant (c : kcall) : kreq :=
  match c with
  | CCache fl label d id => KCache id fl (firstn 24 label) d
  | CRandom fl label sz id => KCacheRandom id fl sz (firstn 24 label)
  | CCacheDma fl label _ sz id => KCacheDma id fl sz (firstn 24 label)
  | CExportDma id _ sz _ => KExportDma id sz
  | CEvict id => KEvict id | CCommit id => KCommit id | CErase id => KErase id | CRevoke id => KRevoke id
  | CExport id _ _ => KExport id
  | CExportPublic id algo _ _ => KExportPublic id algo (N.of_nat (DL - 36))
  | CWrap kek key m _ => KWrap kek m key
  | CWrapExport id kty kek _ => KWrapExport kek kty id
  | CUnwrapExport kek b _ => KUnwrapExport kek b
  | CUnwrapCache kek b => KUnwrapCache kek b
  | CDataWrap kek d _ => KDataWrap kek d
  | CDataUnwrap kek b _ => KDataUnwrap kek b
  end.
(** A DMA request sees client memory from the address the caller gave. *)
Definition place_of (c : kcall) : nat :=
  match c with CCacheDma _ _ addr _ _ => N.to_nat addr | CExportDma _ addr _ _ => N.to_nat addr | _ => 0%nat end.
Definition seen_by (c : kcall) (mem : list N) (e : kenv) : kenv := with_mem e (skipn (place_of c) mem).
(** The key wrap calls. *)
Definition wraps (c : kcall) : bool :=
  match c with
  | CWrap _ _ _ _ | CWrapExport _ _ _ _ | CUnwrapExport _ _ _ | CUnwrapCache _ _ | CDataWrap _ _ _ | CDataUnwrap _ _ _ => true
  | _ => false
  end.

(** The call that wraps a key the server already holds. *)
Definition exports_wrapped (c : kcall) : bool := match c with CWrapExport _ _ _ _ => true | _ => false end.

(** What the caller is to find: the code, and on success the id or length, the
    bytes, the label as far as the label buffer goes, the metadata. *)
Definition label_of (r : kresp) (lcap : nat) : list N :=
  match r_meta r with Some m => firstn (Nat.min lcap 24) (padded (firstn 24 (m_label m))) | None => repeat 0 (Nat.min lcap 24) end.
Definition bytes_to (cap : nat) (r : kresp) : kout :=
  if (cap <? length (r_data r))%nat then fails BUFFER_SIZE
  else mkKo OK (Some (N.of_nat (length (r_data r)))) (Some (r_data r)) [] (r_meta r).
Definition told (c : kcall) (r : kresp) : kout :=
  if negb (Z.eqb (r_rc r) OK) then fails (r_rc r) else
  match c with
  | CCache _ _ _ _ | CRandom _ _ _ _ | CCacheDma _ _ _ _ _ | CUnwrapCache _ _ => mkKo OK (Some (r_id r)) None [] None
  | CExportDma _ _ _ lcap => mkKo OK (Some (N.of_nat (length (r_data r)))) None (label_of r lcap) None
  | CEvict _ | CCommit _ | CErase _ | CRevoke _ => mkKo OK None None [] None
  | CExport _ lcap cap =>
      match cap with
      | None => mkKo OK (Some (N.of_nat (length (r_data r)))) None (label_of r lcap) None
      | Some n => if (n <? length (r_data r))%nat then mkKo ABORTED None None (label_of r lcap) None
                  else mkKo OK (Some (N.of_nat (length (r_data r)))) (Some (r_data r)) (label_of r lcap) None
      end
  | CExportPublic _ _ lcap cap =>
      match cap with
      | None => mkKo OK (Some (N.of_nat (length (r_data r)))) None (label_of r lcap) None
      | Some n => if (n <? length (r_data r))%nat then fails ABORTED
                  else mkKo OK (Some (N.of_nat (length (r_data r)))) (Some (r_data r)) (label_of r lcap) None
      end
  | CWrap _ _ _ cap | CWrapExport _ _ _ cap | CUnwrapExport _ _ cap | CDataWrap _ _ cap | CDataUnwrap _ _ cap => bytes_to cap r
  end.
(** Client memory after the call: only a DMA export writes it. *)
Definition memory (c : kcall) (r : kresp) (mem : list N) : list N :=
  match c with
  | CExportDma _ addr _ _ => if Z.eqb (r_rc r) OK then wr (N.to_nat addr) (r_data r) mem else mem
  | _ => mem
  end.
End Spec.

(** Return codes are C ints. *)
Definition env32 (e : kenv) : Prop := i32 (v_lock e) /\ i32 (v_nvm e) /\ i32 (v_rng e) /\ i32 (v_dma e) /\ i32 (v_hw e).
(** What the theorems ask of a build and its cryptography. *)
Definition device (DL : nat) (C : kscfg) (pub : N -> list N -> Z * list N)
  (enc dec : list N -> list N -> N -> list N -> option (list N)) (GCM : N) : Prop :=
  build_ok DL C /\ aead_sizes enc dec /\ u16 GCM /\ GCM <> 0 /\ forall a d, i32 (fst (pub a d)).

(** The key a caching call asks for: id, flags, label and bytes, from the
    caller, from client memory or from the random number generator. *)
Definition asked (c : kcall) (mem : list N) (e : kenv) : option (N * N * list N * list N) :=
  match c with
  | CCache fl label d id => Some (id, fl, label, d)
  | CCacheDma fl label addr sz id => Some (id, fl, label, exactly (N.to_nat sz) (skipn (N.to_nat addr) mem))
  | CRandom fl label sz id => Some (id, fl, label, exactly (N.to_nat sz) (v_rngd e))
  | _ => None
  end.
Definition exported (d label : list N) (lcap : nat) : kout :=
  mkKo OK (Some (N.of_nat (length d))) (Some d) (firstn (Nat.min lcap 24) (padded (firstn 24 label))) None.
