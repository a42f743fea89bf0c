(* Key derivation through the server, HKDF and two-step CMAC, on the bytes of
   the communication buffer.  The server is given one buffer for the request and
   the response (src/wh_server.c:674-677).  wolfCrypt's loops are not in /repo;
   they are modelled from their contract: the salt and input key are used up
   first, then each round reads the info again and copies its block to the
   output. *)
From Coq Require Import Arith NArith List Bool.
Import ListNotations.

Notation byte := N (only parsing).

(* C memory operations on the buffer. *)
Definition rd (off len : nat) (buf : list byte) : list byte := firstn len (skipn off buf).
Definition wr (off : nat) (d buf : list byte) : list byte :=
  firstn off buf ++ d ++ skipn (off + length d) buf.

(* wolfhsm/wh_message_crypto.h: sizes of the generic header, of the HKDF and
   CMAC-KDF request (both 32 + label) and of their response.
   wolfhsm/wh_settings.h: WOLFHSM_CFG_SERVER_KDF_MAX_KEY_SIZE (default 256 when
   not smaller than an ECDH secret), here a parameter. *)
Definition HDR := 12.
Definition REQ := 56.
Definition RESP := 8.
Definition PAYLOAD := HDR + REQ.
Definition OUT := HDR + RESP.
Definition AES_256 := 32.
Definition CMAC_LEN := 16.

Section Kdf.

(* wolfCrypt: length of a digest (0 for a type not compiled in), HMAC, CMAC. *)
Variable hlen : N -> nat.
Variable hmac : N -> list byte -> list byte -> list byte.
Variable cmac : list byte -> list byte -> list byte.

Variable DL : nat.        (* WOLFHSM_CFG_COMM_DATA_LEN *)
Variable KDF_MAX : nat.   (* WOLFHSM_CFG_SERVER_KDF_MAX_KEY_SIZE *)

(* wolfCrypt's expansion (wc_HKDF_Expand, wc_KDA_KDF_PRF_cmac) writing to [out]
   in the buffer and reading the info at [info] in the same buffer: round i
   computes a block from the previous one, the info and i. *)
Fixpoint fill (blk : list byte -> list byte -> nat -> list byte) (H : nat)
    (info infoSz : nat) (fuel i : nat) (prev : list byte) (out left : nat)
    (buf : list byte) : list byte :=
  match fuel with
  | O => buf
  | S fuel' =>
    if left =? 0 then buf
    else
      let t := blk prev (rd info infoSz buf) i in
      let n := Nat.min left H in
      fill blk H info infoSz fuel' (S i) t (out + n) (left - n) (wr out (firstn n t) buf)
  end.

(* The counter of CMAC's rounds, four bytes, most significant first. *)
Definition be32 (i : nat) : list byte :=
  let n := N.of_nat i in
  [(n / 16777216) mod 256; (n / 65536) mod 256; (n / 256) mod 256; n mod 256]%N.

Definition hkdf_blk (t : N) (prk prev info : list byte) (i : nat) : list byte :=
  hmac t prk (prev ++ info ++ [N.of_nat i]).
Definition cmac_blk (kdk prev info : list byte) (i : nat) : list byte :=
  cmac kdk (be32 i ++ info).

(* What the rest of the server and wolfCrypt answer: the key of an id that may
   be used to derive (wh_Server_KeystoreReadKeyEnforce), whether the library
   succeeds, whether an id can be allocated and the key cached. *)
Record env : Type := mkEnv {
  e_key : N -> option (list byte);
  e_lib : bool;
  e_cache : bool
}.

Inductive result : Type :=
| Refused                       (* the response carries an error *)
| Exported (size : nat)         (* that many bytes follow the response struct *)
| Cached (key : list byte).     (* cached on the server *)

(* The translated request; an erased id is 0. *)
Record hkdf_req : Type := mkHkdf {
  h_type : N;
  h_keySz : nat; h_saltSz : nat; h_infoSz : nat; h_outSz : nat;
  h_keyId : N;
  h_eph : bool
}.

(* src/wh_server_crypto.c:2155-2280 (common end of both handlers: 2227-2267 and
   2392-2431). *)
Definition kdf_tail (outSz : nat) (eph : bool) (e : env) (buf : list byte) : list byte * result :=
  if eph then (buf, Exported outSz)
  else if e_cache e then (wr OUT (repeat 0%N outSz) buf, Cached (rd OUT outSz buf))
  else (buf, Refused).

(* src/wh_server_crypto.c:2139-2280 _HandleHkdf; inSize counts the bytes after
   the generic header.  wc_HKDF refuses an unknown digest and more than 255
   rounds. *)
Definition hkdf_serve (e : env) (q : hkdf_req) (inSize : nat) (buf : list byte)
  : list byte * result :=
  if inSize <? REQ then (buf, Refused)
  else
    let available := inSize - REQ in
    if available <? h_keySz q then (buf, Refused)
    else if available - h_keySz q <? h_saltSz q then (buf, Refused)
    else if available - h_keySz q - h_saltSz q <? h_infoSz q then (buf, Refused)
    else
      let inKey := PAYLOAD in
      let salt := inKey + h_keySz q in
      let info := salt + h_saltSz q in
      let max_size := DL - HDR - RESP in
      let ikm :=
        if (h_keySz q =? 0) && negb (h_keyId q =? 0)%N then
          match e_key e (h_keyId q) with
          | Some k => if length k <=? KDF_MAX then Some k else None
          | None => None
          end
        else Some (rd inKey (h_keySz q) buf) in
      match ikm with
      | None => (buf, Refused)
      | Some ikm =>
        if max_size <? h_outSz q then (buf, Refused)
        else if negb (e_lib e) then (buf, Refused)
        else
          let t := h_type q in
          let H := hlen t in
          if H =? 0 then (buf, Refused)
          else if 255 * H <? h_outSz q then (buf, Refused)
          else
            let prk := hmac t (rd salt (h_saltSz q) buf) ikm in
            kdf_tail (h_outSz q) (h_eph q) e
              (fill (hkdf_blk t prk) H info (h_infoSz q) (h_outSz q) 1 []
                    OUT (h_outSz q) buf)
      end.

Record cmac_req : Type := mkCmac {
  c_saltSz : nat; c_zSz : nat; c_infoSz : nat; c_outSz : nat;
  c_saltId : N; c_zId : N;
  c_eph : bool
}.

(* The salt or Z of the request: inline, or a stored key when its size is 0. *)
Definition pick (e : env) (off sz room : nat) (id : N) (buf : list byte) : option (list byte) :=
  if sz =? 0 then
    if (id =? 0)%N then None
    else match e_key e id with
         | Some k => if length k <=? room then Some k else None
         | None => None
         end
  else Some (rd off sz buf).

(* src/wh_server_crypto.c:2284-2442 _HandleCmacKdf.  The salt is an AES key. *)
Definition cmac_serve (e : env) (q : cmac_req) (inSize : nat) (buf : list byte)
  : list byte * result :=
  if inSize <? REQ then (buf, Refused)
  else
    let available := inSize - REQ in
    if available <? c_saltSz q then (buf, Refused)
    else if available - c_saltSz q <? c_zSz q then (buf, Refused)
    else if available - c_saltSz q - c_zSz q <? c_infoSz q then (buf, Refused)
    else
      let salt := PAYLOAD in
      let z := salt + c_saltSz q in
      let info := z + c_zSz q in
      let max_size := DL - HDR - RESP in
      match pick e salt (c_saltSz q) AES_256 (c_saltId q) buf with
      | None => (buf, Refused)
      | Some s =>
        match pick e z (c_zSz q) KDF_MAX (c_zId q) buf with
        | None => (buf, Refused)
        | Some zz =>
          if c_outSz q =? 0 then (buf, Refused)
          else if max_size <? c_outSz q then (buf, Refused)
          else if negb (e_lib e) then (buf, Refused)
          else if negb ((length s =? 16) || (length s =? 24) || (length s =? 32))
          then (buf, Refused)
          else
            kdf_tail (c_outSz q) (c_eph q) e
              (fill (cmac_blk (cmac s zz)) CMAC_LEN info (c_infoSz q) (c_outSz q) 1 []
                    OUT (c_outSz q) buf)
        end
      end.

(* What a client call ends in: an error, the bytes put in its output buffer, or
   the key cached on the server. *)
Inductive outcome : Type :=
| Failed
| Bytes (l : list byte)
| OnServer (key : list byte).

(* The client's end (src/wh_client_crypto.c:5336-5386 and 5514-5552): the
   response has RESP bytes and the size named in it; what fits the caller's
   buffer is copied. *)
Definition receive (outSz : nat) (r : list byte * result) : outcome :=
  match snd r with
  | Refused => Failed
  | Exported n => if n <=? outSz then Bytes (rd OUT n (fst r)) else Failed
  | Cached k => OnServer k
  end.

(* The server's buffer when a request of PAYLOAD + payload bytes has arrived:
   [fields] stands for its header and struct, [old] for what the buffer held. *)
Definition arrived (fields payload old : list byte) : list byte :=
  fields ++ payload ++ skipn (length fields + length payload) old.

(* src/wh_client_crypto.c:5249-5389 _HkdfMakeKey and its two callers 5391-5422,
   with the server's half.  Sizes below 4 GiB; a size is that of its buffer.  The
   translation of the struct is C18's matter. *)
Definition hkdf_call (e : env) (fields old : list byte)
    (t keyId : N) (inKey salt info : list byte) (eph : bool) (outSz : nat) : outcome :=
  let total := PAYLOAD + length inKey + length salt + length info in
  if DL <? total then Failed
  else
    receive outSz
      (hkdf_serve e
         (mkHkdf t (length inKey) (length salt) (length info) outSz keyId eph)
         (total - HDR) (arrived fields (inKey ++ salt ++ info) old)).

(* src/wh_client_crypto.c:5426-5553 _CmacKdfMakeKey and its two callers
   5555-5587, with the server's half. *)
Definition cmac_call (e : env) (fields old : list byte)
    (saltId zId : N) (salt z info : list byte) (eph : bool) (outSz : nat) : outcome :=
  let total := PAYLOAD + length salt + length z + length info in
  if outSz =? 0 then Failed
  else if DL <? total then Failed
  else
    receive outSz
      (cmac_serve e
         (mkCmac (length salt) (length z) (length info) outSz saltId zId eph)
         (total - HDR) (arrived fields (salt ++ z ++ info) old)).

End Kdf.
