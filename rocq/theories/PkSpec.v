(** Vocabulary for stating what a public-key call does. *)
From Verif Require Import Base NvmSpec Flags KeyId Store NvmReqModel KsModel KsReq PkModel.
Local Open Scope N_scope.

(** Arguments within their C types and a key object's serialised size within 16
    bits. *)
Definition well_typed (c : call) : Prop :=
  match c with
  | RsaFn ty i cap => len i < 65536 /\ cap < 65536
  | EccSig h => len h < 65536
  | EccVer _ s h => len s < 65536 /\ len h < 65536
  | EccChk _ p => len p < 65536
  | EdSig _ ty m x _ => ty < 256 /\ len m < 4294967296 /\ len x < 4294967296
  | EdVer _ ty s m x => ty < 256 /\ len s < 4294967296 /\ len m < 4294967296 /\ len x < 4294967296
  | MlSig _ _ _ m x _ => len m < 4294967296 /\ len x < 256
  | MlVer _ _ _ s m x => len s < 4294967296 /\ len m < 4294967296 /\ len x < 256
  | KemDec _ _ ct => len ct < 4294967296
  | RsaSize | EccPub | KemEnc _ _ _ => True
  end.

(** Which operation on the key the call stands for, with which parameters and on
    which inputs. *)
Definition asks (c : call) : option cop :=
  match c with
  | RsaFn 0 _ _ => Some RsaPublicEncrypt
  | RsaFn 1 _ _ => Some RsaPublicDecrypt
  | RsaFn 2 _ _ => Some RsaPrivateEncrypt
  | RsaFn 3 _ _ => Some RsaPrivateDecrypt
  | RsaFn _ _ _ => None
  | RsaSize => Some RsaGetSize
  | EccSig _ => Some EccSign
  | EccVer _ _ _ => Some EccVerify
  | EccPub => Some EccMakePub
  | EccChk _ _ => Some EccCheckPub
  | EdSig _ _ _ _ _ => Some Ed25519Sign
  | EdVer _ _ _ _ _ => Some Ed25519Verify
  | MlSig _ _ _ _ _ _ => Some MldsaSign
  | MlVer _ _ _ _ _ _ => Some MldsaVerify
  | KemEnc _ _ _ => Some MlkemEncaps
  | KemDec _ _ _ => Some MlkemDecaps
  end.
Definition inputs (c : call) : list (list N) :=
  match c with
  | RsaFn _ i _ => [i]
  | EccSig h => [h]
  | EccVer _ s h => [s; h]
  | EccChk _ p => [p]
  | EdSig _ _ m x _ => [m; x]
  | EdVer _ _ s m x => [s; m; x]
  | MlSig _ _ _ m x _ => [m; x]
  | MlVer _ _ _ s m x => [s; m; x]
  | KemDec _ _ ct => [ct]
  | RsaSize | EccPub | KemEnc _ _ _ => []
  end.
(** Parameters: for an output, the room there is for it. *)
Definition parameters (DL : N) (c : call) : list N :=
  match c with
  | RsaFn _ _ cap => [cap]
  | EccVer x _ _ => [if x then 1 else 0]
  | EdSig dma ty _ _ cap => [ty; if dma then cap else 64]
  | EdVer _ ty _ _ _ => [ty]
  | MlSig dma _ pre _ _ cap => [pre; if dma then cap else DL - 8]
  | MlVer _ _ pre _ _ _ => [pre]
  | KemEnc dma lv cap => [lv; if dma then cap else DL]
  | KemDec _ lv _ => [lv]
  | RsaSize | EccSig _ | EccPub | EccChk _ _ => []
  end.
Definition known_rsa (c : call) : Prop := match c with RsaFn ty _ _ => ty < 4 | _ => True end.
(** ML-KEM: the level is one the server supports. *)
Definition known_level (level_ok : N -> bool) (c : call) : Prop :=
  match c with KemEnc _ lv _ | KemDec _ lv _ => level_ok lv = true | _ => True end.
(** Ed25519: plain, with a context, or prehashed; a context only with the latter
    two and of at most 255 bytes. *)
Definition proper (c : call) : Prop :=
  match c with
  | EdSig _ ty _ x _ | EdVer _ ty _ _ x =>
      (ty = 255 \/ ty = 0 \/ ty = 1) /\ (ty = 255 -> x = []) /\ len x <= 255
  | _ => True
  end.
(** Bytes of the request. *)
Definition request_bytes (c : call) : N :=
  match c with
  | RsaFn _ i _ => 32 + len i
  | RsaSize | EccPub => 20
  | EccSig h => 24 + len h
  | EccVer _ s h => 28 + len s + len h
  | EccChk _ p => 28 + len p
  | EdSig false _ m x _ => 32 + len m + len x
  | EdVer false _ s m x => 36 + len s + len m + len x
  | EdSig true _ _ x _ | EdVer true _ _ _ x => 76 + len x
  | MlSig false _ _ m x _ => 36 + len m + len x
  | MlVer false _ _ s m x => 44 + len s + len m + len x
  | MlSig true _ _ _ x _ | MlVer true _ _ _ _ x => 68 + len x
  | KemEnc false _ _ => 28
  | KemDec false _ ct => 28 + len ct
  | KemEnc true _ _ | KemDec true _ _ => 44
  end.

(** What other connections may do: they keep their hands off this connection's
    own cache, and leave caches and NVM in order ([ok]: see C21, C24). *)
Definition foreign (ok : ks -> Prop) (g : ks -> ks) : Prop :=
  forall S, ok S -> ok (g S) /\ k_loc (g S) = k_loc S.
Definition quiet (e : env) : Prop := forall S, v_gap1 e S = S /\ v_gap2 e S = S.

(** The exchange went through on the client's side and to the handler. *)
Definition through (h : hop) : Prop := h_send h = OK /\ h_auth h = OK /\ h_lock h = OK /\ h_recv h = OK.
(** Nothing but the operation itself goes wrong. *)
Definition faultless (e : env) : Prop :=
  v_ser e = OK /\ through (v_imp e) /\ v_idma e = OK /\ v_cdma e = OK /\ through (v_op e) /\
  v_init e = OK /\ v_sdma e = OK.

(** Key [k] is as it was, or its cached copy, which NVM also holds, was dropped. *)
Definition kept (C : kscfg) (S S' : ks) (k : N) : Prop :=
  find_cache C S' k = find_cache C S k \/
  (find_cache C S' k = None /\ exists s, find_cache C S k = Some s /\ sl_comm s = true).

(** The key as the server sees it: cached copy, else the object in NVM. *)
Definition current (C : kscfg) (S : ks) (k : N) : option (meta * list N) :=
  match find_cache C S k with
  | Some s => Some (sl_meta s, sl_buf s)
  | None => sp_find (k_st S) k
  end.

(** The server takes the key when asked to cache it under a new id. *)
Definition accepts (C : kscfg) (client : N) (c : call) (kid : N) (lb key : list N) (S : ks) : Prop :=
  r_rc (fst (if dma_key c
             then h_cache_dma C (mkKenv OK OK OK [] OK key OK [] 0 (mkEnv OK OK OK OK [])) client kid (import_flags c) (len key) lb S
             else h_cache C client kid (import_flags c) lb key S)) = OK.
(** The import request is not empty and fits. *)
Definition key_fits (DL : N) (c : call) (key : list N) : Prop :=
  dma_key c = true \/ (key <> [] /\ 40 + len key <= DL).
(** What the caller gets for a result of the operation: Ed25519 calls report a
    parse error of wolfCrypt (-140) as bad arguments. *)
Definition reported (c : call) (a : Z * list N) : result :=
  match c, a with
  | (EdSig _ _ _ _ _ | EdVer _ _ _ _ _), ((-140)%Z, _) => Done BADARGS []
  | _, (rc, out) => Done rc (if Z.eqb rc OK then out else [])
  end.
(** Some use the operation is for is among those the key may be put to. *)
Definition may_use (o : cop) (flags : N) : bool := existsb (fun u => Z.eqb (enforce flags u) OK) (usages o).
