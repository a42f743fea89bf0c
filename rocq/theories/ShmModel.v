(** Setting up shared memory between processes: port/posix/posix_transport_shm.c (all
    line numbers are of that file).

    Any number of server and client processes run, all using one name.  One step
    is one system call or one access to the shared header, and the processes take
    turns in any order; a process that is killed takes no more steps.
    Simplifications: memory is sequentially consistent (the source has fences
    before the word that publishes the header); the contents of the request and
    response areas are the subject of C16 and not modelled here; munmap and close
    have no effect on others; an object has exactly the size it was given. *)
From Verif Require Export Base.
Local Open Scope N_scope.

(** ptshmHeader 42-53; a new object is filled with zeros (POSIX). *)
Record hdr := mkH { h_init : N; h_req : N; h_resp : N; h_dma : N; h_creator : nat; h_user : nat }.
Definition H_SIZE : N := 64.
Record obj := mkO { o_size : N; o_hdr : hdr }.
Definition new_obj : obj := mkO 0 (mkH 0 0 0 0 0 0).

(** PTSHM_INITIALIZED_NONE and the others: 67-72. *)
Definition I_NONE : N := 0.
Definition I_CLEANUP : N := 1.
Definition I_CREATOR : N := 2.
Definition I_USER : N := 3.

(** posixTransportShmConfig: posix_transport_shm.h 65-70; two uint16_t and a size_t. *)
Record scfg := mkC { c_req : N; c_resp : N; c_dma : N }.
Definition scfg_ok (c : scfg) : Prop := c_req c < 65536 /\ c_resp c < 65536 /\ c_dma c < 2 ^ 64.
(** Sum in size_t. *)
Definition total (r q d : N) : N := (H_SIZE + r + q + d) mod 2 ^ 64.

(** What a process knows of the area after mapping it, as offsets from the start of
    the mapping: ptshmMapping 55-65 and the whTransportMemConfig made of it.  The
    request area starts at H_SIZE. *)
Record view := mkV { v_size : N; v_resp : N; v_dma : N; v_dmasize : N; v_reqlen : N; v_resplen : N }.

(** Where a server is in posixTransportShm_ServerInit (384-431) and, inside,
    posixTransportShm_CreateMap (198-250) and posixTransportShm_Map (94-119). *)
Inductive spc :=
| SUnlink                                        (* 210 *)
| SCreate                                        (* 212: O_CREAT | O_EXCL *)
| STrunc (o : nat)                               (* 217 *)
| SMapHdr (o : nat)                              (* 219-222 *)
| SWReq (o : nat) | SWResp (o : nat) | SWDma (o : nat) | SWPid (o : nat)    (* 223-226 *)
| SWInit (o : nat)                               (* 228 *)
| SMap (o : nat)                                 (* 104 *)
| SRd1 (o : nat) | SRd2 (o : nat) (r : N) | SRd3 (o : nat) (r q : N)        (* 111-113 *)
| SRd4 (o : nat) (r q d : N) | SRd5 (o : nat) (r q d r' : N)                (* 408-409 *)
| SMapped (o : nat) (v : view)                   (* PTSHM_STATE_MAPPED *)
| SInit (o : nat) (v : view)                     (* PTSHM_STATE_INITIALIZED *)
| SDone (o : nat)                                (* PTSHM_STATE_DONE *)
| SUnlinkFail | SFail (rc : Z).                  (* 427; ServerInit has failed *)

(** Where a client is in posixTransportShm_HandleMap (256-304), called by ClientInit
    (436-460) and SendRequest (485-530), and inside in posixTransportShm_UseMap
    (122-194) and posixTransportShm_Map. *)
Inductive cpc :=
| CNone (rc : Z)                                 (* not mapped; what the last attempt answered *)
| CStat (o : nat)                                (* 135-137 *)
| CMapHdr (o : nat)                              (* 139-141 *)
| CRdInit (o : nat)                              (* 143 *)
| CRd1 (o : nat) | CRd2 (o : nat) (r : N) | CRd3 (o : nat) (r q : N)        (* 145-146 *)
| CMap (o : nat) (size : N)                      (* 104 *)
| CM1 (o : nat) (size : N) | CM2 (o : nat) (size r : N) | CM3 (o : nat) (size r q : N)   (* 111-113 *)
| CUnl (o : nat) (size r q d : N)                (* 159 *)
| CPid (o : nat) (size r q d : N)                (* 161 *)
| CSet (o : nat) (size r q d : N)                (* 163 *)
| CCf1 (o : nat) (size r q d : N) | CCf2 (o : nat) (size r q d r' : N)      (* 271-272 *)
| CInit (o : nat) (v : view)                     (* PTSHM_STATE_INITIALIZED *)
| CDone (o : option nat).                        (* PTSHM_STATE_DONE *)

(** What a process does next: go on, a system call in it succeeding or not, or call
    posixTransportShm_Cleanup (464-482). *)
Inductive input := Go (ok : bool) | Clean.

Definition obj_at (objs : list obj) (o : nat) : obj := nth o objs new_obj.
Definition hdr_at (objs : list obj) (o : nat) : hdr := o_hdr (obj_at objs o).
Fixpoint set_obj (objs : list obj) (o : nat) (f : obj -> obj) : list obj :=
  match objs, o with
  | [], _ => []
  | b :: r, O => f b :: r
  | b :: r, S k => b :: set_obj r k f
  end.
Definition set_hdr (objs : list obj) (o : nat) (f : hdr -> hdr) : list obj :=
  set_obj objs o (fun b => mkO (o_size b) (f (o_hdr b))).
Definition w_init (x : N) (h : hdr) : hdr := mkH x (h_req h) (h_resp h) (h_dma h) (h_creator h) (h_user h).
Definition w_req (x : N) (h : hdr) : hdr := mkH (h_init h) x (h_resp h) (h_dma h) (h_creator h) (h_user h).
Definition w_resp (x : N) (h : hdr) : hdr := mkH (h_init h) (h_req h) x (h_dma h) (h_creator h) (h_user h).
Definition w_dma (x : N) (h : hdr) : hdr := mkH (h_init h) (h_req h) (h_resp h) x (h_creator h) (h_user h).
Definition w_creator (x : nat) (h : hdr) : hdr := mkH (h_init h) (h_req h) (h_resp h) (h_dma h) x (h_user h).
Definition w_user (x : nat) (h : hdr) : hdr := mkH (h_init h) (h_req h) (h_resp h) (h_dma h) (h_creator h) x.

(** The pointers made from what was read: 107-113 and 408-411 (271-274). *)
Definition mk_view (size r q d r' q' : N) : view := mkV size (H_SIZE + r) (H_SIZE + r + q) d r' q'.
(** wh_TransportMem_Init (src/wh_transport_mem.c 46-53): sizes of zero are refused. *)
Definition mem_ok (r q : N) : bool := negb (r =? 0) && negb (q =? 0).

(** One step of a server with configuration [c] and process id [me]: the name, the
    objects and where it is then.  In SMapped, [Go] is posixTransportShm_RecvRequest
    (637-679), which looks whether a client is there (309-328). *)
Definition sstep (c : scfg) (me : nat) (i : input) (name : option nat) (objs : list obj) (p : spc)
  : option nat * list obj * spc :=
  match p, i with
  | SUnlink, Go _ => (None, objs, SCreate)
  | SCreate, Go ok =>
      match name with
      | Some _ => (name, objs, SFail ABORTED)
      | None => if ok then (Some (length objs), objs ++ [new_obj], STrunc (length objs)) else (name, objs, SFail ABORTED)
      end
  | STrunc o, Go ok =>
      if ok then (name, set_obj objs o (fun b => mkO (total (c_req c) (c_resp c) (c_dma c)) (o_hdr b)), SMapHdr o)
      else (name, objs, SFail ABORTED)
  | SMapHdr o, Go ok => (name, objs, if ok then SWReq o else SFail ABORTED)
  | SWReq o, Go _ => (name, set_hdr objs o (w_req (c_req c)), SWResp o)
  | SWResp o, Go _ => (name, set_hdr objs o (w_resp (c_resp c)), SWDma o)
  | SWDma o, Go _ => (name, set_hdr objs o (w_dma (c_dma c)), SWPid o)
  | SWPid o, Go _ => (name, set_hdr objs o (w_creator me), SWInit o)
  | SWInit o, Go _ => (name, set_hdr objs o (w_init I_CREATOR), SMap o)
  | SMap o, Go ok => (name, objs, if ok then SRd1 o else SFail ABORTED)
  | SRd1 o, Go _ => (name, objs, SRd2 o (h_req (hdr_at objs o)))
  | SRd2 o r, Go _ => (name, objs, SRd3 o r (h_resp (hdr_at objs o)))
  | SRd3 o r q, Go _ => (name, objs, SRd4 o r q (h_dma (hdr_at objs o)))
  | SRd4 o r q d, Go _ => (name, objs, SRd5 o r q d (h_req (hdr_at objs o)))
  | SRd5 o r q d r', Go _ =>
      let q' := h_resp (hdr_at objs o) in
      if mem_ok r' q' then (name, objs, SMapped o (mk_view (total (c_req c) (c_resp c) (c_dma c)) r q d r' q'))
      else (name, objs, SUnlinkFail)
  | SUnlinkFail, Go _ => (None, objs, SFail BADARGS)
  | SMapped o v, Go _ => (name, objs, if h_init (hdr_at objs o) =? I_USER then SInit o v else SMapped o v)
  | SMapped o v, Clean | SInit o v, Clean => (name, set_hdr objs o (w_init I_CLEANUP), SDone o)
  | _, _ => (name, objs, p)
  end.

(** One step of a client. *)
Definition cstep (me : nat) (i : input) (name : option nat) (objs : list obj) (p : cpc)
  : option nat * list obj * cpc :=
  match p, i with
  | CNone _, Go ok =>
      match name with
      | None => (name, objs, CNone (if ok then NOTFOUND else ABORTED))
      | Some o => (name, objs, if ok then CStat o else CNone ABORTED)
      end
  | CNone _, Clean => (name, objs, CDone None)
  | CStat o, Go ok =>
      (name, objs, if ok then if o_size (obj_at objs o) =? 0 then CNone NOTREADY else CMapHdr o else CNone ABORTED)
  | CMapHdr o, Go ok => (name, objs, if ok then CRdInit o else CNone ABORTED)
  | CRdInit o, Go _ => (name, objs, if h_init (hdr_at objs o) =? I_CREATOR then CRd1 o else CNone NOTREADY)
  | CRd1 o, Go _ => (name, objs, CRd2 o (h_req (hdr_at objs o)))
  | CRd2 o r, Go _ => (name, objs, CRd3 o r (h_resp (hdr_at objs o)))
  | CRd3 o r q, Go _ => (name, objs, CMap o (total r q (h_dma (hdr_at objs o))))
  | CMap o z, Go ok => (name, objs, if ok then CM1 o z else CNone ABORTED)
  | CM1 o z, Go _ => (name, objs, CM2 o z (h_req (hdr_at objs o)))
  | CM2 o z r, Go _ => (name, objs, CM3 o z r (h_resp (hdr_at objs o)))
  | CM3 o z r q, Go _ => (name, objs, CUnl o z r q (h_dma (hdr_at objs o)))
  | CUnl o z r q d, Go _ => (None, objs, CPid o z r q d)
  | CPid o z r q d, Go _ => (name, set_hdr objs o (w_user me), CSet o z r q d)
  | CSet o z r q d, Go _ => (name, set_hdr objs o (w_init I_USER), CCf1 o z r q d)
  | CCf1 o z r q d, Go _ => (name, objs, CCf2 o z r q d (h_req (hdr_at objs o)))
  | CCf2 o z r q d r', Go _ =>
      let q' := h_resp (hdr_at objs o) in
      (name, objs, if mem_ok r' q' then CInit o (mk_view z r q d r' q') else CNone BADARGS)
  | CInit o v, Clean => (name, set_hdr objs o (w_init I_CLEANUP), CDone (Some o))
  | _, _ => (name, objs, p)
  end.

Inductive proc := PServer (c : scfg) (p : spc) | PClient (p : cpc).
Record sys := mkSys { y_name : option nat; y_objs : list obj; y_proc : nat -> proc }.
Definition set_proc (s : sys) (me : nat) (p : proc) : nat -> proc := fun k => if Nat.eqb k me then p else y_proc s k.

(** A process takes a step; or a process that does not keep to the protocol and has
    the object open writes a header (only with [Rogue]). *)
Inductive action := Act (me : nat) (i : input) | Rogue (o : nat) (h : hdr).
Definition step (a : action) (s : sys) : sys :=
  match a with
  | Act me i =>
      match y_proc s me with
      | PServer c p =>
          let '(n, os, p') := sstep c me i (y_name s) (y_objs s) p in mkSys n os (set_proc s me (PServer c p'))
      | PClient p =>
          let '(n, os, p') := cstep me i (y_name s) (y_objs s) p in mkSys n os (set_proc s me (PClient p'))
      end
  | Rogue o h => mkSys (y_name s) (set_hdr (y_objs s) o (fun _ => h)) (y_proc s)
  end.
Definition run (acts : list action) (s : sys) : sys := fold_left (fun s a => step a s) acts s.

(** Before anything happens: no object of that name; every process at its start. *)
Definition at_start (p : proc) : Prop :=
  match p with PServer c q => scfg_ok c /\ q = SUnlink | PClient q => q = CNone OK end.
Definition start (s : sys) : Prop := y_name s = None /\ y_objs s = [] /\ forall k, at_start (y_proc s k).

(** * DMA through the shared area *)

(** posixTransportShm_ServerStaticMemDmaCallback 685-724: [dma], [size] the server's
    area (posixTransportShm_GetDma 366-379); addresses and lengths are size_t, and the
    area lies inside the address space.  The answer and the pointer. *)
Definition server_dma (dma size addr len : N) : Z * option N :=
  if (dma =? 0) || (size =? 0) then (NOTREADY, None) else
  if (size <? len) || (size - len <? addr) then (BADARGS, None) else
  (OK, Some (dma + addr)).

(** The memory of a client: the shared area is at [dma .. dma + size). *)
Record cmem := mkCM { m_shared : N -> N; m_private : N -> N }.
Definition in_area (dma size a : N) : bool := (dma <=? a) && (a <? dma + size).
Definition load (dma size : N) (m : cmem) (a : N) : N :=
  if in_area dma size a then m_shared m (a - dma) else m_private m a.
Definition store (dma size : N) (m : cmem) (a b : N) : cmem :=
  if in_area dma size a
  then mkCM (fun k => if k =? a - dma then b else m_shared m k) (m_private m)
  else mkCM (m_shared m) (fun k => if k =? a then b else m_private m k).
(** memcpy, one byte after the other. *)
Fixpoint copy (dma size : N) (m : cmem) (dst src : N) (n : nat) (i : N) : cmem :=
  match n with
  | O => m
  | S k => copy dma size (store dma size m (dst + i) (load dma size m (src + i))) dst src k (i + 1)
  end.

(** posixTransportShm_ClientStaticMemDmaCallback 549-620.  [heap]: a heap was set;
    [got]: what XMALLOC answers.  The answer, the address sent to the server (or the
    one given in, for the POST operations), and the memory. *)
Inductive dma_op := ReadPre | ReadPost | WritePre | WritePost.
Definition client_dma (dma size : N) (heap : bool) (got : N) (m : cmem) (op : dma_op) (addr len xf : N)
  : Z * N * cmem :=
  if (addr =? 0) || (len =? 0) then (OK, 0, m) else
  let inside := negb (dma =? 0) && (0 <? size) && (len <? size) && (dma <=? addr) && (addr <? dma + size - len) in
  if negb inside && negb heap then (NOTREADY, xf, m) else
  match op with
  | ReadPre | WritePre =>
      if inside then (OK, addr - dma, m) else
      if got =? 0 then (NOSPACE, xf, m) else
      (OK, got - dma, copy dma size m got addr (N.to_nat len) 0)
  | ReadPost => (OK, xf, m)
  | WritePost => if inside then (OK, xf, m) else (OK, xf, copy dma size m addr (dma + xf) (N.to_nat len) 0)
  end.
