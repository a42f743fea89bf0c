(** Staying inside the shared buffers. *)
From Coq Require Import List NArith.
From Verif Require Import TmsModel.
Open Scope N_scope.

(** the access lies in the [size] bytes from [base] *)
Definition inside (base size : N) (a : access) : Prop :=
  base <= a_at a /\ a_at a + a_len a <= base + size.

(** in one of the two buffers of the configuration *)
Definition in_buffers (c : cfg) (a : access) : Prop :=
  inside (c_req c) (c_req_size c) a \/ inside (c_resp c) (c_resp_size c) a.

(** 16-bit sizes that hold a control word *)
Definition roomy (c : cfg) : Prop :=
  8 <= c_req_size c < 65536 /\ 8 <= c_resp_size c < 65536.
