(** What users of the SHE extension rely on, stated on requests, answers and the
    key slots. *)
From Verif Require Import Base NvmSpec Flags KeyId Store NvmReqModel CounterModel KsModel KsReq KsSys KsSpec SheModel SheSys.
Local Open Scope N_scope.

(** ** What the answers say *)
Definition rc_is (a : option sresp) (rc : Z) : bool := match a with Some r => Z.eqb (sr_rc r) rc | None => false end.

(** Secure boot on server context [i]: complete when the last boot request was a
    finish answered OK, or an initialisation answered NO_SECURE_BOOT. *)
Definition booted_by (i : nat) (ev : hev) (a : option sresp) (b : bool) : bool :=
  match ev with
  | HShe j _ _ q =>
      if Nat.eqb j i then
        match q with
        | SBootInit _ => rc_is a NO_SECURE_BOOT
        | SBootFinish => rc_is a OK
        | SBootUpdate _ | SBad ABootInit | SBad ABootUpdate | SBad ABootFinish => false
        | _ => b
        end
      else b
  | HSys (SServer j) => if Nat.eqb j i then false else b
  | HSys SReset => false
  | _ => b
  end.
(** The unique id given to server context [i]. *)
Definition uid_by (i : nat) (ev : hev) (a : option sresp) (u : option (list N)) : option (list N) :=
  match ev with
  | HShe j _ _ (SSetUid x) => if Nat.eqb j i && rc_is a OK then Some (exactly UID_SZ x) else u
  | HSys (SServer j) => if Nat.eqb j i then None else u
  | HSys SReset => None
  | _ => u
  end.
(** The boot image announced and sent to server context [i]: its size, the boot
    MAC key when it was announced, the bytes sent since. *)
Definition image : Type := N * list N * list N.
Section Spec.
Variable C : kscfg.
(** The key in a slot as server context [i] sees it for a client. *)
Definition slot_key (Y : hsys) (i : nat) (client slot : N) : option (meta * list N) :=
  key_now C (hy_ks Y) i (she_id C client slot).
Definition image_by (i : nat) (ev : hev) (a : option sresp) (Y : hsys) (x : option image) : option image :=
  match ev with
  | HShe j client _ q =>
      if Nat.eqb j i then
        match q with
        | SBootInit sz => if rc_is a OK then option_map (fun o => (sz, snd o, [])) (slot_key Y i client SLOT_BOOT_MAC_KEY) else None
        | SBootUpdate d => if rc_is a OK then option_map (fun '(sz, k, img) => (sz, k, img ++ d)) x else None
        | SBootFinish | SBad ABootInit | SBad ABootUpdate | SBad ABootFinish => None
        | _ => x
        end
      else x
  | HSys (SServer j) => if Nat.eqb j i then None else x
  | HSys SReset => None
  | _ => x
  end.
End Spec.

(** Boot and provisioning commands; every other command needs secure boot. *)
Definition open_command (q : sreq) : bool :=
  match q with
  | SStatus | SBad AStatus | SSetUid _ | SBad ASetUid
  | SBootInit _ | SBootUpdate _ | SBootFinish | SBad ABootInit | SBad ABootUpdate | SBad ABootFinish => true
  | _ => false
  end.

Section Runs.
Variable C : kscfg.
Variable crypt : cop -> list N -> list N -> Z * list N.
Variable pub : N -> list N -> Z * list N.
Variable ots : list N -> list N -> option (list N * list N).
Variable gcm_enc : list N -> list N -> N -> list N -> option (list N).
Variable gcm_dec : list N -> list N -> N -> list N -> option (list N).
Variable max_read : nat.
Variable aes : list N -> list N -> list N.
Variable cbc_enc cbc_dec : list N -> list N -> list N.
Variable cmac : list N -> list N -> list N.
Variable use_op : sop -> list N -> list N -> option (list N).
Notation step := (hstep C crypt pub ots gcm_enc gcm_dec max_read aes cbc_enc cbc_dec cmac use_op).
Notation after := (hafter C crypt pub ots gcm_enc gcm_dec max_read aes cbc_enc cbc_dec cmac use_op).

Fixpoint booted (i : nat) (evs : list hev) (Y : hsys) (b : bool) : bool :=
  match evs with [] => b | ev :: r => let '(a, Y1) := step ev Y in booted i r Y1 (booted_by i ev a b) end.
Fixpoint uid_given (i : nat) (evs : list hev) (Y : hsys) (u : option (list N)) : option (list N) :=
  match evs with [] => u | ev :: r => let '(a, Y1) := step ev Y in uid_given i r Y1 (uid_by i ev a u) end.
Fixpoint image_sent (i : nat) (evs : list hev) (Y : hsys) (x : option image) : option image :=
  match evs with [] => x | ev :: r => let '(a, Y1) := step ev Y in image_sent i r Y1 (image_by C i ev a Y x) end.

(** ** Key update *)
(** M1..M3 of a key update are authentic for a slot: M3 is the CMAC of M1 and M2
    under the update MAC key derived from [ak]. *)
Definition authentic (ak m1 m2 m3 : list N) : Prop := m3 = exactly 16 (cmac (mp16 aes (ak ++ MAC_C)) (m1 ++ m2)).
(** M2 in clear: 28 bits of counter, 5 of flags, the key in the second half. *)
Definition clear_m2 (ak m2 : list N) : list N := exactly 32 (cbc_dec (mp16 aes (ak ++ ENC_C)) m2).
Definition m2_count (clear : list N) : N := be32 clear / 16.
Definition m2_key (clear : list N) : list N := skipn 16 clear.
Definition m2_flags (clear : list N) : N := nth 3 clear 0 mod 16 * 16 + nth 4 clear 0 / 128 mod 2.
(** The last byte of M1 names the slot and the authorising slot. *)
Definition m1_slot (m1 : list N) : N := nth 15 m1 0 / 16 mod 16.
Definition m1_auth (m1 : list N) : N := nth 15 m1 0 mod 16.
(** The authorising key: the 16 bytes in its slot; an absent master key is 16 zeros. *)
Definition auth_key (Y : hsys) (i : nat) (client slot : N) (ak : list N) : Prop :=
  length ak = 16%nat /\
  match slot_key C Y i client slot with
  | Some (_, d) => d = ak
  | None => have_she C = true /\ slot = SHE_MASTER_ECU /\ ak = repeat 0 16
  end.
(** The update is addressed to this device: its unique id, or none on a slot with
    the wildcard flag. *)
Definition addressed (uid m1 : list N) (old : option (meta * list N)) : Prop :=
  let u := firstn UID_SZ m1 in
  if list_eq_dec N.eq_dec u (repeat 0 UID_SZ)
  then exists m d, old = Some (m, d) /\ N.testbit (she_flags (m_label m)) 4 = true
  else u = uid.
(** The slot allows it: not write protected, and the counter is new. *)
Definition allowed (count : N) (old : option (meta * list N)) : Prop :=
  forall m d, old = Some (m, d) -> N.testbit (she_flags (m_label m)) 0 = false /\ she_count (m_label m) < count.
End Runs.

(** Nothing changed. *)
Definition unchanged (Y Y' : hsys) : Prop :=
  y_st (hy_ks Y') = y_st (hy_ks Y) /\ y_glob (hy_ks Y') = y_glob (hy_ks Y) /\
  (forall x, y_loc (hy_ks Y') x = y_loc (hy_ks Y) x) /\ forall x, hy_she Y' x = hy_she Y x.

(** ** Histories in which a slot is only served by one server context *)
Section Sole.
Variable C : kscfg.
(** SHE key [k] is in the shared cache, or all SHE requests for it come through
    server context [i0]; its NVM object is not written with NVM requests; NVM can
    be read. *)
Definition sole (i0 : nat) (k : N) (ev : hev) : Prop :=
  match ev with
  | HShe i client e q => (k_global (kc C) && N.eqb (kid_user k) 0 = true \/ i = i0 \/ forall s, she_id C client s <> k) /\ forall n, se_rd e n = OK
  | HSys (SNvm _ q) => ~ nvm_writes q k
  | _ => True
  end.
End Sole.
(** No wrapped key is unwrapped into the cache. *)
Definition no_unwrap (ev : hev) : Prop := match ev with HSys (SKey _ _ _ (KUnwrapCache _ _)) => False | _ => True end.
Definition is_bytes (l : list N) : Prop := Forall (fun x => x < 256) l.
(** Nothing goes wrong in the environment. *)
Definition fine (e : senv) : Prop :=
  se_lock e = true /\ (forall n, se_rd e n = OK) /\ se_nvm e = OK /\ se_c1 e = true /\ se_c2 e = true.

