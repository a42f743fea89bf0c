(** What setting up shared memory promises, in words of the configuration. *)
From Verif Require Export ShmModel.
Local Open Scope N_scope.

(** The areas of an object made with configuration [c]: header, requests, responses,
    DMA, one after the other. *)
Definition layout (c : scfg) : view :=
  mkV (64 + c_req c + c_resp c + c_dma c)
      (64 + c_req c) (64 + c_req c + c_resp c) (c_dma c) (c_req c) (c_resp c).
(** The whole area can be addressed. *)
Definition addressable (c : scfg) : Prop := 64 + c_req c + c_resp c + c_dma c < 2 ^ 64.

(** The process uses object [o] and finds the areas at [v]. *)
Definition uses (p : proc) (o : nat) (v : view) : Prop :=
  p = PClient (CInit o v) \/ exists c, p = PServer c (SMapped o v) \/ p = PServer c (SInit o v).
(** The process is a client that has told the server of [o] that it is there. *)
Definition announced (p : proc) (o : nat) : Prop :=
  exists q, p = PClient q /\
  match q with
  | CCf1 o' _ _ _ _ | CCf2 o' _ _ _ _ _ | CInit o' _ | CDone (Some o') => o' = o
  | _ => False
  end.
(** The process is a client that has [o] open. *)
Definition opened (p : proc) (o : nat) : Prop :=
  exists q, p = PClient q /\
  match q with
  | CNone _ | CDone _ => False
  | CStat o' | CMapHdr o' | CRdInit o' | CRd1 o' | CRd2 o' _ | CRd3 o' _ _ | CMap o' _ | CM1 o' _ | CM2 o' _ _
  | CM3 o' _ _ _ | CUnl o' _ _ _ _ | CPid o' _ _ _ _ | CSet o' _ _ _ _ | CCf1 o' _ _ _ _ | CCf2 o' _ _ _ _ _
  | CInit o' _ => o' = o
  end.

(** Only processes that keep to the protocol act. *)
Definition honest (a : action) : Prop := match a with Act _ _ => True | Rogue _ _ => False end.

(** [s] can come about. *)
Definition reachable (s : sys) : Prop :=
  exists s0 acts, start s0 /\ Forall honest acts /\ s = run acts s0.

(** Areas do not run into each other or over the end of the object. *)
Definition sound_view (size : N) (v : view) : Prop :=
  64 + v_reqlen v <= v_resp v /\ v_resp v + v_resplen v <= v_dma v /\ v_dma v + v_dmasize v <= size /\
  v_size v = size.
