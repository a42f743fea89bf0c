(* CMAC through the server: one call, or a stream of updates and a final.  The
   stream's state lives in the client's object and travels with each request; the
   server keeps nothing.  wolfCrypt is not in /repo: its block function and the
   subkeys are parameters, its update and final are modelled from their
   contract.  Pointers are valid; an erased key id is 0; sizes are those of the
   lists given.  WOLFHSM_CFG_COMM_DATA_LEN is at least 100. *)
From Coq Require Import Arith NArith List Bool.
From Verif Require Import KdfModel AesModel.
Import ListNotations.

(* wolfhsm/wh_message_crypto.h:1046-1076 and 1444-1465: sizes of the structs. *)
Definition MAC_REQ := 56.
Definition MAC_RESP := 48.
Definition MAC_DREQ := 72.
Definition MAC_DRESP := 64.
Definition AES_MAX := 32.
Definition TAG_MIN := 4.
Definition TAG_MAX := 16.

(* whMessageCrypto_CmacAesState, and the same fields of wolfCrypt's Cmac: buffer,
   digest, bufferSz, totalSz. *)
Record mac_state : Type := mkSt {
  st_buf : list byte;
  st_dig : list byte;
  st_n : nat;
  st_tot : N
}.
Definition st_zero : mac_state := mkSt (repeat 0%N 16) (repeat 0%N 16) 0 0%N.

(* The fields of wolfCrypt's Cmac the client uses: aes.devKey (aes.keylen bytes),
   the key id in devCtx, and the state. *)
Record cmac_obj : Type := mkObj {
  c_key : list byte;
  c_id : N;
  c_st : mac_state
}.

(* wh_Server_KeystoreReadKeyEnforce for one usage. *)
Inductive key_read : Type := Key (k : list byte) | NoUse | NoKey.

(* What the world answers during one request: the stored key of an id for
   signing (false) or verifying (true), whether wolfCrypt succeeds, whether the
   client's DMA mapping and the sending succeed, whether the response comes back,
   what the server's buffer held; for DMA, whether the address may be used. *)
Record mac_world : Type := mkMW {
  m_key : bool -> N -> key_read;
  m_lib : bool;
  m_sent : bool;
  m_back : bool;
  m_old : list byte;
  m_in : bool
}.

Section Mac.

Variable E : list byte -> list byte -> list byte.    (* block function, by key *)
Variable K1 K2 : list byte -> list byte.             (* subkeys, by key *)
Variable DL : nat.                                   (* WOLFHSM_CFG_COMM_DATA_LEN *)

(* wolfCrypt wc_CmacUpdate: a full buffer is encrypted only when more input
   follows. *)
Fixpoint lib_update (F : list byte -> list byte) (fuel : nat) (s : mac_state)
    (inp : list byte) : mac_state :=
  match fuel with
  | O => s
  | S f =>
    if length inp =? 0 then s
    else
      let add := Nat.min (length inp) (BLOCK - st_n s) in
      let buf := wr (st_n s) (firstn add inp) (st_buf s) in
      let n := st_n s + add in
      let rest := skipn add inp in
      if (n =? BLOCK) && negb (length rest =? 0) then
        let b := if (st_tot s =? 0)%N then buf else zipx buf (st_dig s) in
        lib_update F f (mkSt b (F b) 0 (w32 (st_tot s + 16))) rest
      else lib_update F f (mkSt buf (st_dig s) n (st_tot s)) rest
  end.

Definition update (k : list byte) (s : mac_state) (inp : list byte) : mac_state :=
  lib_update (E k) (2 * length inp + 1) s inp.

(* wolfCrypt wc_CmacFinal. *)
Definition lib_final (k : list byte) (s : mac_state) (outSz : nat) : option (list byte) :=
  if (outSz <? TAG_MIN) || (TAG_MAX <? outSz) then None
  else if BLOCK <? st_n s then None
  else
    let '(b, sub) :=
      if st_n s =? BLOCK then (st_buf s, K1 k)
      else (firstn (st_n s) (st_buf s) ++ 128%N :: repeat 0%N (BLOCK - 1 - st_n s), K2 k) in
    Some (firstn outSz (E k (zipx (zipx b (st_dig s)) sub))).

(* wolfCrypt wc_AesCmacGenerate_ex. *)
Definition lib_generate (k inp : list byte) (outSz : nat) : option (list byte) :=
  lib_final k (update k st_zero inp) outSz.

(* src/wh_server_crypto.c:4455-4499 _CmacResolveKey. *)
Definition mac_key (w : mac_world) (inline : list byte) (id : N) : option (list byte) :=
  if negb (length inline =? 0) then Some inline
  else if negb (id =? 0)%N then
    match m_key w false id with
    | Key k => if key_ok k then Some k else None
    | NoUse =>
      match m_key w true id with
      | Key k => if key_ok k then Some k else None
      | _ => None
      end
    | NoKey => None
    end
  else None.

(* The rest of both handlers once the key is found and the input is at hand
   (src/wh_server_crypto.c:4555-4607, 9003-9110): the library refuses a key of
   another size; a request with input and output is one message, else the state
   in the request is restored (src/wh_crypto.c:968-979), updated and finished or
   returned.  The state in the response of a finished message is zero. *)
Definition mac_work (w : mac_world) (k : list byte) (s : mac_state) (inp : list byte)
    (outSz : nat) : option (mac_state * list byte) :=
  if negb (m_lib w) then None
  else if negb (key_ok k) then None
  else if negb (length inp =? 0) && negb (outSz =? 0) then
    match lib_generate k inp outSz with
    | Some t => Some (st_zero, t)
    | None => None
    end
  else if BLOCK <? st_n s then None
  else
    let s' := if length inp =? 0 then s else update k s inp in
    if negb (outSz =? 0) then
      match lib_final k s' outSz with
      | Some t => Some (st_zero, t)
      | None => None
      end
    else Some (s', []).

Definition mac_got (w : mac_world) (req : nat) (payload : list byte) : list byte :=
  arrived (repeat 0%N (HDR + req)) payload (m_old w).

(* src/wh_server_crypto.c:4501-4619 _HandleCmac.  The result: the buffer, and the
   state and size in a response without error. *)
Definition mac_serve (w : mac_world) (keySz : nat) (id : N) (inSz outSz : nat)
    (s : mac_state) (inSize : nat) (buf : list byte)
  : list byte * option (mac_state * nat) :=
  if inSize <? MAC_REQ then (buf, None)
  else
    let available := inSize - MAC_REQ in
    if available <? inSz then (buf, None)
    else if available - inSz <? keySz then (buf, None)
    else if AES_MAX <? keySz then (buf, None)
    else
      let inp := HDR + MAC_REQ in
      let key := inp + inSz in
      let out := HDR + MAC_RESP in
      match mac_key w (rd key keySz buf) id with
      | None => (buf, None)
      | Some k =>
        match mac_work w k s (rd inp inSz buf) outSz with
        | None => (buf, None)
        | Some (s', t) => (wr out t buf, Some (s', length t))
        end
      end.

(* src/wh_server_crypto.c:8944-9133 _HandleCmacDma for requests without inline
   input (the client sends no other).  A failed closing operation is ignored. *)
Definition mac_serve_dma (w : mac_world) (keySz : nat) (id : N) (inp : list byte) (outSz : nat)
    (s : mac_state) (inSize : nat) (buf : list byte)
  : list byte * option (mac_state * nat) :=
  if inSize <? MAC_DREQ then (buf, None)
  else
    let available := inSize - MAC_DREQ in
    if available <? keySz then (buf, None)
    else if AES_MAX <? keySz then (buf, None)
    else
      let key := HDR + MAC_DREQ in
      let out := HDR + MAC_DRESP in
      match mac_key w (rd key keySz buf) id with
      | None => (buf, None)
      | Some k =>
        if negb (length inp =? 0) && negb (m_in w) then (buf, None)
        else
          match mac_work w k s inp outSz with
          | None => (buf, None)
          | Some (s', t) => (wr out t buf, Some (s', length t))
          end
      end.

(* --- the client --- *)

(* src/wh_client_crypto.c:5629-5641 _CmacResolveClientKey. *)
Definition client_key (c : cmac_obj) (key : list byte) : list byte :=
  if (length key =? 0) && (c_id c =? 0)%N then c_key c else key.

(* src/wh_client_crypto.c:5725-5732 and the same in the other requests: a key
   given is kept in the object when the request was sent. *)
Definition keep_key (c : cmac_obj) (key : list byte) : cmac_obj :=
  if negb (length key =? 0) && (c_id c =? 0)%N then mkObj key (c_id c) (c_st c) else c.

(* src/wh_client_crypto.c:5655-5663 _CmacValidateTagLen. *)
Definition tag_ok (n : nat) : bool := (n =? 0) || ((TAG_MIN <=? n) && (n <=? TAG_MAX)).

(* src/wh_client_crypto.c:5870-5905 and the same for DMA: the client restores the
   state of the response. *)
Definition restore (c : cmac_obj) (s : mac_state) : option cmac_obj :=
  if BLOCK <? st_n s then None else Some (mkObj (c_key c) (c_id c) s).

(* One exchange: what the client reads back as state and MAC. *)
Definition exchange (dma : bool) (w : mac_world) (c : cmac_obj) (ki inp : list byte)
    (s : mac_state) (outSz : nat) : option (mac_state * list byte) :=
  let req := if dma then MAC_DREQ else MAC_REQ in
  let resp := if dma then MAC_DRESP else MAC_RESP in
  let '(buf, r) :=
    if dma then mac_serve_dma w (length ki) (c_id c) inp outSz s (req + length ki)
                              (mac_got w req ki)
    else mac_serve w (length ki) (c_id c) (length inp) outSz s (req + length inp + length ki)
                   (mac_got w req (inp ++ ki)) in
  if negb (m_back w) then None
  else match r with
       | None => None
       | Some (s', n) => Some (s', rd (HDR + resp) n buf)
       end.

(* Room for the request: src/wh_client_crypto.c:5830-5833 and 6311-6313. *)
Definition no_room (dma : bool) (ki inp : list byte) : bool :=
  if dma then DL - (HDR + MAC_DREQ) <? length ki
  else (DL - (HDR + MAC_REQ) <? length inp)
       || (DL - (HDR + MAC_REQ) - length inp <? length ki).

(* src/wh_client_crypto.c:5788-5905 CmacUpdateRequest and Response; 6269-6424
   CmacDmaUpdateRequest and Response. *)
Definition upd_call (dma : bool) (w : mac_world) (c : cmac_obj) (key inp : list byte)
  : cmac_obj * outcome :=
  let ki := client_key c key in
  if AES_MAX <? length ki then (c, Err)
  else if (length inp =? 0) && (length ki =? 0) then (c, Done)
  else if no_room dma ki inp then (c, Err)
  else if negb (m_sent w) then (c, Err)
  else
    let c1 := keep_key c key in
    match exchange dma w c ki inp (c_st c) 0 with
    | None => (c1, Err)
    | Some (s', _) => match restore c1 s' with None => (c1, Err) | Some c2 => (c2, Done) end
    end.

(* The client's end of a message with a MAC (src/wh_client_crypto.c:5766-5784,
   5990-6011, 6242-6260, 6506-6532): the state is restored before the caller's
   length is looked at. *)
Definition mac_end (c1 : cmac_obj) (r : option (mac_state * list byte)) (outLen : nat)
  : cmac_obj * list byte * outcome :=
  match r with
  | None => (c1, [], Err)
  | Some (s', t) =>
    match restore c1 s' with
    | None => (c1, [], Err)
    | Some c2 => if tag_ok outLen then (c2, firstn outLen t, Done) else (c2, [], Err)
    end
  end.

(* src/wh_client_crypto.c:5908-6013 CmacFinalRequest and Response; 6426-6532
   CmacDmaFinalRequest and Response. *)
Definition fin_call (dma : bool) (w : mac_world) (c : cmac_obj) (outLen : nat)
  : cmac_obj * list byte * outcome :=
  let ki := client_key c [] in
  if AES_MAX <? length ki then (c, [], Err)
  else if no_room dma ki [] then (c, [], Err)
  else if negb (m_sent w) then (c, [], Err)
  else mac_end c (exchange dma w c ki [] (c_st c) 16) outLen.

(* wolfhsm/wh_message_crypto.h:1082-1085. *)
Definition MAX_GEN := DL - HDR - MAC_REQ - 32.

(* src/wh_client_crypto.c:5665-5786 CmacGenerateRequest and Response; 6123-6267
   CmacGenerateDmaRequest and Response.  The state in the request is zero. *)
Definition gen_call (dma : bool) (w : mac_world) (c : cmac_obj) (key inp : list byte)
    (reqLen outLen : nat) : cmac_obj * list byte * outcome :=
  if (length inp =? 0) || (reqLen =? 0) then (c, [], Err)
  else if negb (tag_ok reqLen) then (c, [], Err)
  else
    let ki := client_key c key in
    if AES_MAX <? length ki then (c, [], Err)
    else if negb dma && (MAX_GEN <? length inp) then (c, [], Err)
    else if no_room dma ki inp then (c, [], Err)
    else if negb (m_sent w) then (c, [], Err)
    else mac_end (keep_key c key) (exchange dma w c ki inp st_zero reqLen) outLen.

(* src/wh_client_crypto.c:6015-6095 wh_Client_Cmac and 6534-6612
   wh_Client_CmacDma; [out] is the caller's MAC length when it wants a MAC.  Each
   request meets its own world. *)
Definition mac_call (dma : bool) (w1 w2 : mac_world) (c : cmac_obj) (key inp : list byte)
    (out : option nat) : cmac_obj * list byte * outcome :=
  let wants := match out with None => false | Some _ => true end in
  let len := match out with None => 0 | Some n => n end in
  if (length inp =? 0) && (length key =? 0) && negb wants then (c, [], Done)
  else if negb (tag_ok len) then (c, [], Err)
  else if negb (length inp =? 0) && wants && negb (len =? 0)
          && (dma || (length inp <=? MAX_GEN))
          && (negb (length key =? 0) || ((st_n (c_st c) =? 0) && (st_tot (c_st c) =? 0)%N))
  then gen_call dma w1 c key inp len len
  else
    let '(c1, o) :=
      if negb (length inp =? 0) then upd_call dma w1 c key inp
      else if negb (length key =? 0) then upd_call dma w1 c key []
      else (c, Done) in
    match o with
    | Done => if wants then fin_call dma w2 c1 len else (c1, [], Done)
    | _ => (c1, [], o)
    end.

(* --- histories --- *)

Inductive call : Type :=
| Upd (dma : bool) (key inp : list byte)
| Fin (dma : bool) (outLen : nat)
| Gen (dma : bool) (key inp : list byte) (reqLen outLen : nat).

Definition mac_step (w : mac_world) (c : cmac_obj) (x : call) : cmac_obj * list byte * outcome :=
  match x with
  | Upd dma key inp => let '(c', o) := upd_call dma w c key inp in (c', [], o)
  | Fin dma n => fin_call dma w c n
  | Gen dma key inp q n => gen_call dma w c key inp q n
  end.

(* Every call with its result. *)
Fixpoint mac_run (c : cmac_obj) (l : list (mac_world * call))
  : list (call * (list byte * outcome)) :=
  match l with
  | [] => []
  | (w, x) :: r =>
    let '(c', t, o) := mac_step w c x in (x, (t, o)) :: mac_run c' r
  end.

(* The same with the blocking functions: two worlds, path, key, input, MAC. *)
Definition bcall : Type := (mac_world * mac_world * bool * list byte * list byte * option nat)%type.
Fixpoint mac_brun (c : cmac_obj) (l : list bcall)
  : list ((list byte * list byte * option nat) * (list byte * outcome)) :=
  match l with
  | [] => []
  | (w1, w2, dma, key, inp, out) :: r =>
    let '(c', t, o) := mac_call dma w1 w2 c key inp out in
    ((key, inp, out), (t, o)) :: mac_brun c' r
  end.

End Mac.
