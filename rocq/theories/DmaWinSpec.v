(** What it means that client memory is opened, used and closed in order. *)
From Verif Require Import DmaWinModel.
Local Open Scope N_scope.

(** A window is opened by a "pre" call that succeeds and closed by a "post" call, for
    reading or for writing, at an address of the client. *)
Definition opening (d : dir) (a : N) (x : ev) : bool :=
  match d, x with
  | Rd, Dma RdPre c _ _ _ rc => (c =? a) && is_ok rc
  | Wr, Dma WrPre c _ _ _ rc => (c =? a) && is_ok rc
  | _, _ => false
  end.
Definition closing (d : dir) (a : N) (x : ev) : bool :=
  match d, x with
  | Rd, Dma RdPost c _ _ _ _ => c =? a
  | Wr, Dma WrPost c _ _ _ _ => c =? a
  | _, _ => false
  end.
Definition count (f : ev -> bool) (t : list ev) : nat := length (filter f t).
Definition opened (d : dir) (a : N) (t : list ev) : nat := count (opening d a) t.
Definition closed (d : dir) (a : N) (t : list ev) : nat := count (closing d a) t.

(** At the end no window for [d] is open. *)
Definition none_left (d : dir) (t : list ev) : Prop :=
  forall a, (opened d a t <= closed d a t)%nat.
(** At no time more was closed than had been opened. *)
Definition none_extra (t : list ev) : Prop :=
  forall d a n, (closed d a (firstn n t) <= opened d a (firstn n t))%nat.
(** Every window opened is closed exactly once, after it was opened. *)
Definition balanced (t : list ev) : Prop := none_left Rd t /\ none_left Wr t /\ none_extra t.

(** Every access goes to a window that is open at the time for this kind of access,
    at the address the opening produced, and stays inside it. *)
Definition used_open (t : list ev) : Prop :=
  forall n d x len, nth_error t n = Some (Use d x len) -> 0 < len ->
  exists client size cbrc,
    In (Dma (pre_op d) client size x cbrc OK) (firstn n t) /\ len <= size /\
    (closed d client (firstn n t) < opened d client (firstn n t))%nat.

(** No opening produced a NULL address. *)
Definition never_null (t : list ev) : Prop :=
  forall d c l x cbrc, In (Dma (pre_op d) c l x cbrc OK) t -> x <> 0.
(** Openings for [d] that gave an address. *)
Definition opening_mapped (d : dir) (a : N) (x : ev) : bool :=
  opening d a x && match x with Dma _ _ _ y _ _ => not_null y | _ => false end.
Definition none_left_mapped (d : dir) (t : list ev) : Prop :=
  forall a, (count (opening_mapped d a) t <= closed d a t)%nat.
(** No opening was refused. *)
Definition never_refused (t : list ev) : Prop :=
  forall d c l x cbrc rc, In (Dma (pre_op d) c l x cbrc rc) t -> rc = OK.

(** What the platform's callback sees: it agreed to open, it was told to close. *)
Definition agreed (d : dir) (a : N) (x : ev) : bool :=
  match d, x with
  | Rd, Dma RdPre c _ _ cbrc _ => (c =? a) && is_ok cbrc
  | Wr, Dma WrPre c _ _ cbrc _ => (c =? a) && is_ok cbrc
  | _, _ => false
  end.
Definition callback_done (t : list ev) : Prop :=
  forall d a, count (agreed d a) t = closed d a t.

(** ** Kinds of requests *)
(** The copy to client memory made by a copy callback gets the client's own address. *)
Definition own_copy (r : request) : bool := match r with CopyTo true _ => true | _ => false end.
(** Handlers that remember which openings succeeded and close those. *)
Definition paired (r : request) : bool :=
  match r with
  | ShaDma _ | CertDma _ _ | NvmAddDma _ _ | NvmReadDma _ _ | ImgVerify _ | ImgBoot _ _
  | MlDsaKeyGen false _ | MlKemKeyGen false _ => true
  | _ => false
  end.
(** Handlers that close at the end whatever happened. *)
Definition blind (r : request) : bool := match r with HbsVerify _ _ => true | _ => false end.
Definition closes_all (r : request) : bool :=
  match r with Ed25519Sign _ _ | Ed25519Verify _ _ | HbsVerify _ _ => true | _ => paired r end.
(** Handlers that close where there is an address. *)
Definition closes_mapped (r : request) : bool :=
  match r with
  | CmacDma _ _ _ | MlDsaSign _ _ | MlDsaVerify _ _ | MlKemEncaps _ | MlKemDecaps _
  | HbsKeyGen _ | HbsSign _ _ => true
  | _ => closes_all r
  end.
Definition copies (r : request) : bool := match r with CopyFrom _ _ | CopyTo _ _ => true | _ => false end.
(** Handlers that close only what is known to be open. *)
Definition closes_opened (r : request) : bool :=
  match r with RngDma _ | MlDsaKeyGen _ _ | MlKemKeyGen _ _ | CopyFrom _ _ | CopyTo _ _ => true | _ => paired r end.
