(** C73: client memory is opened, used and closed in order. *)
From Verif Require Import DmaWinModel DmaWinSpec DmaWinProof.
Local Open Scope N_scope.

(** Client memory is only touched inside a window that is open for this kind of access
    at the time (except by a copy callback that is given the client's own address:
    C42_copy_callback_refuted). *)
Theorem C73_use e r rc t :
  own_copy r = false -> serve e r = (rc, t) -> used_open t.
Proof. intros H. exact (serve_wp e r (fun _ t => used_open t) (use_ok e r H) rc t). Qed.
Print Assumptions C73_use.

(** Hashing, certificates, NVM objects, images and generation of stored keys: whatever
    happens, each window opened is closed exactly once. *)
Theorem C73_paired e r rc t :
  paired r = true -> serve e r = (rc, t) -> balanced t.
Proof. intros H. exact (serve_wp e r (fun _ t => balanced t) (exact_ok e r H) rc t). Qed.
Print Assumptions C73_paired.

(** Every request that succeeds has closed each window exactly once (if none was at
    address 0). *)
Theorem C73_success e r rc t :
  serve e r = (rc, t) -> rc = OK -> never_null t -> balanced t.
Proof. exact (serve_wp e r (fun rc t => rc = OK -> never_null t -> balanced t) (success_ok e r) rc t). Qed.
Print Assumptions C73_success.

(** No window is left open, also by requests that fail; the later two: no window that
    gave an address. *)
Theorem C73_none_left e r rc t :
  closes_all r = true -> serve e r = (rc, t) -> none_left Rd t /\ none_left Wr t.
Proof. intros H. exact (serve_wp e r (fun _ t => none_left Rd t /\ none_left Wr t) (left_ok e r H) rc t). Qed.
Print Assumptions C73_none_left.
Theorem C73_none_left_mapped e r rc t :
  closes_mapped r = true -> serve e r = (rc, t) -> none_left_mapped Rd t /\ none_left_mapped Wr t.
Proof.
  intros H. exact (serve_wp e r (fun _ t => none_left_mapped Rd t /\ none_left_mapped Wr t) (left_mapped_ok e r H) rc t).
Qed.
Print Assumptions C73_none_left_mapped.
Theorem C73_none_left_read e r rc t :
  copies r = false -> serve e r = (rc, t) -> none_left_mapped Rd t.
Proof.
  intros H E. revert H.
  exact (serve_wp e r (fun _ t => copies r = false -> none_left_mapped Rd t) (left_read_ok e r) rc t E).
Qed.
Print Assumptions C73_none_left_read.

(** Nothing is closed that is not open. *)
Theorem C73_none_extra e r rc t :
  closes_opened r = true -> serve e r = (rc, t) -> none_extra t.
Proof. intros H. exact (serve_wp e r (fun _ t => none_extra t) (extra_always_ok e r H) rc t). Qed.
Print Assumptions C73_none_extra.
Theorem C73_none_extra_granted e r rc t :
  blind r = false -> serve e r = (rc, t) -> never_refused t -> none_extra t.
Proof. intros H. exact (serve_wp e r (fun _ t => never_refused t -> none_extra t) (extra_granted_ok e r H) rc t). Qed.
Print Assumptions C73_none_extra_granted.

(** Without an allow list the platform's callback is told to close each window it agreed
    to open. *)
Theorem C73_callback e r rc t :
  e_allow e = None -> paired r = true -> serve e r = (rc, t) -> callback_done t.
Proof. intros A H. exact (serve_wp e r (fun _ t => callback_done t) (callback_ok e r A H) rc t). Qed.
Print Assumptions C73_callback.

Module DmaWinExamples.
(** A callback that maps client memory 4096 bytes higher; calls answer 0 but one. *)
Definition shift : list ev -> dma_oper -> N -> N -> Z * N := fun _ _ a _ => (OK, a + 4096).
Definition world (bad : nat) (c : Z) (n : N) (al : option allow_list) : env :=
  mkEnv 4294967295 (Some shift) al (fun _ k => if (k =? bad)%nat then (c, n) else (OK, n)).
Definition A := mkBuf 100 16.
Definition B := mkBuf 200 16.
Definition Z0 := mkBuf 0 0.

(** Encryption that succeeds. *)
Example C73_aes_case :
  serve (world 0 OK 0 None) (AesDma A B) =
  (OK, [Ext 1 OK 0; Ext 2 OK 0; Dma RdPre 100 16 4196 OK OK; Dma WrPre 200 16 4296 OK OK; Ext 3 OK 0;
        Use Rd 4196 16; Use Wr 4296 16; Ext 4 OK 0; Dma WrPost 200 16 4296 OK OK; Dma RdPost 100 16 4196 OK OK]).
Proof. vm_compute. reflexivity. Qed.
(** Reading an NVM object of 9 bytes: only these are written, the window is closed. *)
Example C73_read_case :
  serve (world 0 OK 9 None) (NvmReadDma 0 A) =
  (OK, [Ext 1 OK 9; Ext 2 OK 9; Dma WrPre 100 16 4196 OK OK; Use Wr 4196 9; Ext 3 OK 9; Dma WrPost 100 16 4196 OK OK]).
Proof. vm_compute. reflexivity. Qed.
(** Hash input outside the allow list: refused before any access. *)
Example C73_refused_case :
  serve (world 0 OK 0 (Some (mkAllow [(4200, 100)] []))) (ShaDma A) =
  (ACCESS, [Ext 1 OK 0; Ext 2 OK 0; Dma RdPre 100 16 4196 OK ACCESS]).
Proof. vm_compute. reflexivity. Qed.

(** A GCM decryption with a wrong tag (call 4 answers -180, AES_GCM_AUTH_E) leaves the
    output window open; any client can repeat that. *)
Theorem C73_failed_decryption_refuted :
  exists t, serve (world 4 (-180) 0 None) (AesGcmDma A Z0 B) = ((-180)%Z, t) /\
    never_null t /\ never_refused t /\ opened Wr 200 t = 1%nat /\ closed Wr 200 t = 0%nat.
Proof.
  eexists. split; [vm_compute; reflexivity|].
  split; [|split; [|split; vm_compute; reflexivity]].
  - intros [] c l x cbrc I; cbn in I; repeat destruct I as [I|I]; try discriminate I; try easy; inversion I; discriminate.
  - intros [] c l x cbrc rc I; cbn in I; repeat destruct I as [I|I]; try discriminate I; try easy; inversion I; reflexivity.
Qed.
Print Assumptions C73_failed_decryption_refuted.

(** So does a failure of AES, of the generator of random numbers, and of putting out a
    key pair that is not stored. *)
Theorem C73_failure_refuted :
  let leaves e r := opened Wr 200 (snd (serve e r)) = 1%nat /\ closed Wr 200 (snd (serve e r)) = 0%nat in
  leaves (world 3 BADARGS 0 None) (AesDma A B) /\
  leaves (world 2 (-199) 0 None) (RngDma B) /\
  leaves (world 2 BUFFER_SIZE 0 None) (MlDsaKeyGen true B) /\
  leaves (world 2 BUFFER_SIZE 0 None) (MlKemKeyGen true B).
Proof. vm_compute. repeat split. Qed.
Print Assumptions C73_failure_refuted.

(** Verifying an LMS or XMSS signature with a key that cannot be loaded (call 2) closes
    two windows that were never opened, at addresses the client chose. *)
Theorem C73_close_unopened_refuted :
  serve (world 2 NOTFOUND 0 None) (HbsVerify A B) =
  (NOTFOUND, [Ext 1 OK 0; Ext 2 NOTFOUND 0; Dma RdPost 100 16 4196 OK OK; Dma RdPost 200 16 4296 OK OK]).
Proof. vm_compute. reflexivity. Qed.
Print Assumptions C73_close_unopened_refuted.

(** An Ed25519 request whose buffer is refused closes it nevertheless, and the one it
    did not try to open; so do the handlers that close where there is an address. *)
Theorem C73_close_refused_refuted :
  let e := world 0 OK 0 (Some (mkAllow [] [])) in
  serve e (Ed25519Sign A B) =
    (ACCESS, [Ext 1 OK 0; Dma RdPre 100 16 4196 OK ACCESS; Dma WrPost 200 16 4296 OK OK; Dma RdPost 100 16 4196 OK OK]) /\
  serve e (MlKemDecaps A) =
    (ACCESS, [Ext 1 OK 0; Dma RdPre 100 16 4196 OK ACCESS; Dma RdPost 100 16 4196 OK OK]).
Proof. vm_compute. split; reflexivity. Qed.
Print Assumptions C73_close_refused_refuted.

(** A window at address 0 is not closed by these. *)
Theorem C73_null_refuted :
  let e := mkEnv 4294967295 None None (fun _ _ => (OK, 0)) in
  serve e (MlKemDecaps (mkBuf 0 16)) =
    (OK, [Ext 1 OK 0; Dma RdPre 0 16 0 OK OK; Use Rd 0 16; Ext 2 OK 0]).
Proof. vm_compute. reflexivity. Qed.
Print Assumptions C73_null_refuted.

(** A copy callback that fails leaves the window open. *)
Theorem C73_copy_refuted :
  let e := world 1 ABORTED 0 None in
  serve e (CopyFrom true A) = (ABORTED, [Dma RdPre 100 16 4196 OK OK; Use Rd 4196 16; Ext 1 ABORTED 0]).
Proof. vm_compute. reflexivity. Qed.
Print Assumptions C73_copy_refuted.

(** The length told at closing is not always that told at opening: generating a stored
    ML-DSA key whose public part does not fit opens 16 bytes and closes 0. *)
Theorem C73_length_refuted :
  serve (world 4 BUFFER_SIZE 9 None) (MlDsaKeyGen false A) =
  (BUFFER_SIZE, [Ext 1 OK 9; Ext 3 OK 9; Dma WrPre 100 16 4196 OK OK; Use Wr 4196 16; Ext 4 BUFFER_SIZE 9;
                 Dma WrPost 100 0 4196 OK OK]).
Proof. vm_compute. reflexivity. Qed.
Print Assumptions C73_length_refuted.

(** With an allow list the callback may have opened a window that is then refused, and
    is not told to close it. *)
Theorem C73_callback_refuted :
  let e := world 0 OK 0 (Some (mkAllow [] [])) in
  let t := snd (serve e (ShaDma A)) in
  count (agreed Rd 100) t = 1%nat /\ closed Rd 100 t = 0%nat.
Proof. vm_compute. split; reflexivity. Qed.
Print Assumptions C73_callback_refuted.
End DmaWinExamples.
