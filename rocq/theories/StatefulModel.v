(** The cache slots of stateful signature keys (LMS, XMSS): src/wh_crypto.c
    496-954 and the handlers of src/wh_server_crypto.c 1126-1388, 7817-8866.

    The keystore around them is KsModel.v; here a slot is the bytes of its buffer
    and the length in its metadata, and NVM is the object stored under the key's
    id.  Locking, id resolution and flags are KsReq.v's ([h_sign_gen], [h_sign]). *)
From Verif Require Import Base NvmReqModel.
Local Open Scope N_scope.

Inductive kind := Lms | Xmss.
Definition nlen (l : list N) : N := N.of_nat (length l).

(** Reading and writing memory that belongs to a buffer; None: outside of it. *)
Definition mread (off n : N) (buf : list N) : option (list N) :=
  if off + n <=? nlen buf then Some (firstn (N.to_nat n) (skipn (N.to_nat off) buf)) else None.
Definition mwrite (off : N) (d buf : list N) : option (list N) :=
  if off + nlen d <=? nlen buf
  then Some (firstn (N.to_nat off) buf ++ d ++ skipn (N.to_nat off + length d) buf) else None.

(** A value, an error code, or an access outside the buffer. *)
Inductive out (A : Type) := Val (a : A) | Fail (rc : Z) | Wild.
Arguments Val {A}. Arguments Fail {A}. Arguments Wild {A}.
Definition bind {A B} (x : out A) (f : A -> out B) : out B :=
  match x with Val a => f a | Fail rc => Fail rc | Wild => Wild end.
Definition acc {A} (x : option A) : out A := match x with Some a => Val a | None => Wild end.
Notation "'let!' x := a 'in' b" := (bind a (fun x => b)) (at level 200, x name, a at level 100, b at level 200).

(** wolfCrypt's codes: BAD_FUNC_ARG for parameters it does not know, IO_FAILED_E
    when a callback failed; any other code of its own is [BAD_FUNC_ARG]. *)
Definition BAD_FUNC_ARG : Z := (-173)%Z.
Definition IO_FAILED : Z := (-441)%Z.

(** WH_CRYPTO_STATEFUL_SIG_HEADER_SZ: wh_crypto.h 142-144; the magics are at
    wh_crypto.c 513-514. *)
Definition HDR : N := 12.
Definition magic_of (kd : kind) : N := match kd with Lms => MAGIC_LMS | Xmss => MAGIC_XMSS end.

(** whCryptoStatefulSigHeader: wh_crypto.h 134-140; _StatefulSigEncodeHeader:
    wh_crypto.c 536-550.  The fields are 16 bits wide; native byte order. *)
Definition enc_header (magic publen privlen parlen : N) : list N :=
  le_enc 4 magic ++ le_enc 2 publen ++ le_enc 2 privlen ++ le_enc 2 parlen ++ le_enc 2 0.
Record lens := mkLens { l_pub : N; l_priv : N; l_par : N }.
Definition field (o n : nat) (h : list N) : N := le_dec (firstn n (skipn o h)).

(** _StatefulSigDecodeHeader: wh_crypto.c 552-573. *)
Definition dec_header (magic : N) (buf : list N) (size : N) : out lens :=
  if size <? HDR then Fail BADARGS else
  let! h := acc (mread 0 HDR buf) in
  if negb (field 0 4 h =? magic) || negb (field 10 2 h =? 0) then Fail BADARGS else
  if size <? HDR + field 8 2 h + field 4 2 h + field 6 2 h then Fail BADARGS else
  Val (mkLens (field 4 2 h) (field 6 2 h) (field 8 2 h)).

(** A C string: the bytes up to the first zero; None: the buffer ends first. *)
Fixpoint cstr (l : list N) : option (list N) :=
  match l with [] => None | b :: r => if b =? 0 then Some [] else option_map (cons b) (cstr r) end.

(** A key object of the library: parameters (the three bytes of LMS, the name of
    XMSS), public key, private key if it is in memory. *)
Record keyobj := mkKey { k_par : list N; k_pub : list N; k_priv : option (list N) }.

Section Lib.
(** The library: known parameter sets with the sizes of public and private key;
    a signature and the next private key; signatures left. *)
Variable tab : kind -> list N -> option (N * N).
Variable lib_sign : kind -> list N -> list N -> list N -> list N -> option (list N * list N).
Variable lib_left : kind -> list N -> list N -> N.
(** WOLFHSM_CFG_SERVER_KEYCACHE_BIG_BUFSIZE. *)
Variable cap : N.

(** wh_Crypto_LmsDeserializeKey 630-697 and wh_Crypto_XmssDeserializeKey
    836-905: [buf] is the slot, [size] the length in its metadata. *)
Definition deserialize (kd : kind) (buf : list N) (size : N) : out keyobj :=
  let! l := dec_header (magic_of kd) buf size in
  let! par :=
    match kd with
    | Lms => if negb (l_par l =? 3) then Fail BADARGS else acc (mread HDR 3 buf)
    | Xmss =>
        if l_par l =? 0 then Fail BADARGS else
        let! e := acc (mread (HDR + (l_par l - 1)) 1 buf) in
        if negb (nth 0 e 1 =? 0) then Fail BADARGS else
        acc (cstr (skipn (N.to_nat HDR) buf))
    end in
  match tab kd par with
  | None => Fail BAD_FUNC_ARG
  | Some (pl, vl) =>
      if negb (pl =? l_pub l) then Fail BADARGS else
      let want := match kd with Lms => vl mod 65536 | Xmss => vl end in
      if negb (l_priv l =? 0) && negb (l_priv l =? want) then Fail BADARGS else
      let! pub := acc (mread (HDR + l_par l) (l_pub l) buf) in
      match kd with
      | Lms => if 0 <? l_priv l
               then let! v := acc (mread (HDR + l_par l + l_pub l) (l_priv l) buf) in
                    Val (mkKey par pub (Some v))
               else Val (mkKey par pub None)
      | Xmss => Val (mkKey par pub None)
      end
  end.

(** One or more writes into a buffer, in order. *)
Fixpoint writes (ws : list (N * list N)) (buf : list N) : out (list N) :=
  match ws with
  | [] => Val buf
  | (o, d) :: r => let! b := acc (mwrite o d buf) in writes r b
  end.

(** The parameter bytes of the blob: three bytes, or the string with its zero. *)
Definition par_field (kd : kind) (par : list N) : list N :=
  match kd with Lms => par | Xmss => par ++ [0] end.

(** wh_Crypto_LmsSerializeKey 580-627; _XmssSerializeSlot 752-804 (with no
    private key: the call from key generation, 827-833); the Pub versions 699-741
    and 907-954 have [privlen] 0.  The lengths are those the library reports. *)
Definition serialize (kd : kind) (par pub : list N) (priv : option (list N)) (privlen max : N) (buf : list N)
  : out (list N * N) :=
  let pf := par_field kd par in
  let total := HDR + nlen pf + nlen pub + privlen in
  if 65535 <? nlen pub then Fail BADARGS else
  if 65535 <? nlen pf then Fail BADARGS else
  if max <? total then Fail BUFFER_SIZE else
  let! b := writes ([(0, enc_header (magic_of kd) (nlen pub) privlen (nlen pf)); (HDR, pf); (HDR + nlen pf, pub)] ++
                    match priv with Some v => [(HDR + nlen pf + nlen pub, v)] | None => [] end) buf in
  Val (b, total mod 65536).

(** Slot: buffer and metadata length.  NVM: the object stored for the key. *)
Record slot := mkSl { s_buf : list N; s_len : N }.

(** _HandleLmsKeyGenDma 7896-8052 from the slot on (7956-8022): the callback
    _LmsKeygenWriteCb 7870-7888 (the XMSS one: 8359-8379) writes the private key,
    then the slot is serialized, with the private key again for LMS, and
    committed; _HandleXmssKeyGenDma 8388-8557 likewise.  [pub] and [priv] are what
    the library made, [buf] what the slot held, [nv] the result of the commit. *)
Definition keygen (kd : kind) (par pub priv : list N) (nv : Z) (buf : list N) (stored : option (list N))
  : out (Z * slot * option (list N)) :=
  let off := (HDR + nlen (par_field kd par) + nlen pub) mod 65536 in
  if cap <? off + nlen priv then Fail BUFFER_SIZE else
  let! b1 := acc (mwrite off priv buf) in
  let! r := match kd with
            | Lms => serialize kd par pub (Some priv) (nlen priv mod 65536) cap b1
            | Xmss => serialize kd par pub None (nlen priv mod 65536) cap b1
            end in
  let! o := acc (mread 0 (snd r) (fst r)) in
  Val (nv, mkSl (fst r) (snd r), if is_ok nv then Some o else stored).

(** _StatefulSigFromSlot 7823-7845 and _StatefulSigPrivOffset 1152-1155. *)
Definition priv_off (buf : list N) : out N :=
  let! h := acc (mread 0 HDR buf) in Val ((HDR + field 8 2 h + field 4 2 h) mod 65536).

(** _LmsSlotReadCb 1197-1213, _XmssSlotReadCb 1247-1264, called by the library's
    Reload with the private key's size. *)
Definition read_cb (sl : slot) (off n : N) : out (list N) :=
  if s_len sl <? off + n then Fail IO_FAILED else acc (mread off n (s_buf sl)).

(** _LmsSlotWriteCb 1166-1195, _XmssSlotWriteCb 1218-1245: the slot's bytes, its
    header field and its length change whether or not the NVM write succeeds. *)
Definition write_cb (sl : slot) (off : N) (priv : list N) (nv : Z) (stored : option (list N))
  : out (slot * option (list N) * bool) :=
  let n := off + nlen priv in
  if cap <? n then Val (sl, stored, false) else
  let! b1 := acc (mwrite off priv (s_buf sl)) in
  let! b2 := acc (mwrite 6 (le_enc 2 (nlen priv mod 65536)) b1) in
  let! o := acc (mread 0 (n mod 65536) b2) in
  Val (mkSl b2 (n mod 65536), if is_ok nv then Some o else stored, is_ok nv).

(** Deserialize and Reload: the key object with its private key. *)
Definition load_priv (kd : kind) (sl : slot) : out (keyobj * N * list N) :=
  let! k := deserialize kd (s_buf sl) (s_len sl) in
  let! off := priv_off (s_buf sl) in
  match tab kd (k_par k) with
  | None => Fail BAD_FUNC_ARG
  | Some (_, vl) => let! v := read_cb sl off vl in Val (k, off, v)
  end.

(** What a sign request leaves: code, signature, slot, NVM object. *)
Record sres := mkRes { t_rc : Z; t_sig : option (list N); t_slot : slot; t_nvm : option (list N) }.

(** _HandleLmsSignDma 8054-8188 and _HandleXmssSignDma 8559-8679 between finding
    the slot and the eviction.  [dma]: the result of processing the two client
    addresses, [nv]: of the NVM write.  wolfCrypt: the signature is handed out
    only when the write callback said the new key is saved (8131-8145). *)
Definition sign (kd : kind) (dma nv : Z) (msg : list N) (sl : slot) (stored : option (list N)) : out sres :=
  match load_priv kd sl with
  | Wild => Wild
  | Fail rc => Val (mkRes rc None sl stored)
  | Val (k, off, v) =>
      if negb (is_ok dma) then Val (mkRes dma None sl stored) else
      match lib_sign kd (k_par k) (k_pub k) v msg with
      | None => Val (mkRes BAD_FUNC_ARG None sl stored)
      | Some (sg, v') =>
          let! w := write_cb sl off v' nv stored in
          let '(sl', st', ok) := w in
          Val (if ok : bool then mkRes OK (Some sg) sl' st' else mkRes IO_FAILED None sl' st')
      end
  end.

(** _HandleLmsSigsLeftDma 8292-8351 reads the deserialized private key (all zeros
    when there is none), _HandleXmssSigsLeftDma 8781-8865 reloads it. *)
Definition sigs_left (kd : kind) (sl : slot) : out N :=
  match kd with
  | Lms =>
      let! k := deserialize kd (s_buf sl) (s_len sl) in
      match k_priv k, tab kd (k_par k) with
      | Some v, _ => Val (lib_left kd (k_par k) v)
      | None, Some (_, vl) => Val (lib_left kd (k_par k) (repeat 0 (N.to_nat vl)))
      | None, None => Fail BAD_FUNC_ARG
      end
  | Xmss => let! x := load_priv kd sl in Val (lib_left kd (k_par (fst (fst x))) (snd x))
  end.

(** The public key used by the verify handlers (wh_Server_LmsKeyCacheExport
    1308-1325, wh_Server_XmssKeyCacheExport 1371-1388) and exported by
    _ExportLmsPublicKey, _ExportXmssPublicKey: wh_server_keystore.c 657-714, where
    the answer has room for [room] bytes. *)
Definition public_of (kd : kind) (sl : slot) : out (list N * list N) :=
  let! k := deserialize kd (s_buf sl) (s_len sl) in Val (k_par k, k_pub k).
Definition export_public (kd : kind) (room : N) (sl : slot) : out (list N) :=
  let! k := public_of kd sl in if room <? nlen (snd k) then Fail NOSPACE else Val (snd k).

(** * A key over time
    Requests for one key: the slot if the key is cached, and the NVM object.  A
    key that is not cached is loaded from NVM first (wh_Server_KeystoreFreshenKey)
    into a slot with [tail] behind it. *)
Record kstate := mkSt { q_slot : option slot; q_nvm : option (list N) }.
Inductive op :=
| OSign (dma nv : Z) (msg : list N) (ev : bool) (tail : list N)
| OLeft (tail : list N)
| OPublic (room : N) (tail : list N)
| OEvict                      (* eviction of the slot, or a restart *).
Inductive ans := ASig (rc : Z) (sg : option (list N)) | ALeft (x : out N) | APub (x : out (list N)) | ANone | AWild.

Definition fresh (tail : list N) (s : kstate) : option slot :=
  match q_slot s with
  | Some sl => Some sl
  | None => match q_nvm s with Some b => Some (mkSl (b ++ tail) (nlen b)) | None => None end
  end.
Definition op_step (kd : kind) (o : op) (s : kstate) : ans * kstate :=
  match o with
  | OEvict => (ANone, mkSt None (q_nvm s))
  | OSign dma nv msg ev tail =>
      match fresh tail s with
      | None => (ASig NOTFOUND None, s)
      | Some sl =>
          match sign kd dma nv msg sl (q_nvm s) with
          | Val r => (ASig (t_rc r) (t_sig r), mkSt (if ev then None else Some (t_slot r)) (t_nvm r))
          | _ => (AWild, s)
          end
      end
  | OLeft tail =>
      match fresh tail s with
      | None => (ALeft (Fail NOTFOUND), s)
      | Some sl => (ALeft (sigs_left kd sl), mkSt (Some sl) (q_nvm s))
      end
  | OPublic room tail =>
      match fresh tail s with
      | None => (APub (Fail NOTFOUND), s)
      | Some sl => (APub (export_public kd room sl), mkSt (Some sl) (q_nvm s))
      end
  end.
Fixpoint op_run (kd : kind) (os : list op) (s : kstate) : list ans * kstate :=
  match os with
  | [] => ([], s)
  | o :: r => let '(a, s1) := op_step kd o s in let '(l, s2) := op_run kd r s1 in (a :: l, s2)
  end.

(** The signature oracle of KsReq.v ([ots]) that this gives: from the bytes of a
    slot to the signature and the bytes afterwards. *)
Definition ots_of (kd : kind) (d msg : list N) : option (list N * list N) :=
  match sign kd OK OK msg (mkSl d (nlen d)) None with
  | Val r => match t_sig r with Some sg => Some (sg, firstn (N.to_nat (s_len (t_slot r))) (s_buf (t_slot r))) | None => None end
  | _ => None
  end.
End Lib.
