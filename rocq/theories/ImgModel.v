(** The server image manager: src/wh_server_img_mgr.c.

    Image header and payload are byte lists that do not change during a
    verification (client memory reached by DMA could).  The cryptographic
    primitives are parameters; each library call may also fail with a code given by the
    environment.  [odd] is the lowest bit of the header's address. *)
From Verif Require Import Base NvmSpec Store.

(** ** _wolfBootImgFindHeaderField: lines 478-526.  [TOob] would be a read outside
    the header. *)
Inductive tlv_res := TFound (off len : nat) | TNone | TOob | TFuel.

Fixpoint tlv_loop (fuel : nat) (hdr : list N) (odd : bool) (ty : N) (p : nat) : tlv_res :=
  if negb (p + 4 <? length hdr) then TNone else
  match fuel with
  | 0 => TFuel
  | S f =>
    match nth_error hdr p, nth_error hdr (p + 1) with
    | Some b0, Some b1 =>
      let htype := (b0 + 256 * b1)%N in
      if N.eqb htype 0 then TNone else
      if N.eqb b0 255 || xorb odd (Nat.odd p) then tlv_loop f hdr odd ty (p + 1) else
      match nth_error hdr (p + 2), nth_error hdr (p + 3) with
      | Some b2, Some b3 =>
        let len := N.to_nat (b2 + 256 * b3) in
        if length hdr - 8 <? 4 + len then TNone else
        if length hdr <? p + 4 + len then TNone else
        if N.eqb htype ty then TFound (p + 4) len
        else tlv_loop f hdr odd ty (p + 4 + len)
      | _, _ => TOob
      end
    | _, _ => TOob
    end
  end.
Definition tlv_find (hdr : list N) (odd : bool) (ty : N) : tlv_res :=
  if length hdr <? 8 then TNone else tlv_loop (length hdr) hdr odd ty 8.

Definition slice (l : list N) (off len : nat) : list N := firstn len (skipn off l).
(** _wolfBootImgReadLE32: lines 744-748. *)
Definition le32 (l : list N) (off : nat) : N := le_dec (slice l off 4).

(** TLV types and constants: wh_server_img_mgr.h 38-51. *)
Definition WB_MAGIC : N := 1179406167.   (* 0x464C4F57 *)
Definition HDR_SHA256 : N := 3.
Definition HDR_IMG_TYPE : N := 4.
Definition HDR_PUBKEY : N := 16.
Definition HDR_SIGNATURE : N := 32.
Definition HDR_CERT_CHAIN : N := 35.
Definition AUTH_RSA4096 : N := 4.

(** ** _wolfBootImgDecodeAsn1Tag 576-595, _wolfBootImgDecodeRsaDigestInfo 604-639 *)
Definition asn_tag (input : list N) (idx : nat) (tag : N) : option (nat * nat) :=
  if length input <? idx + 2 then None else
  match nth_error input idx, nth_error input (idx + 1) with
  | Some t, Some l =>
      if N.eqb t tag then
        if length input <? N.to_nat l + (idx + 2) then None else Some (idx + 2, N.to_nat l)
      else None
  | _, _ => None
  end.
Definition digest_info (input : list N) : option (list N) :=
  match asn_tag input 0 48 with
  | None => None
  | Some (i1, _) =>
    match asn_tag input i1 48 with
    | None => None
    | Some (i2, algo) =>
      match asn_tag input (i2 + algo) 4 with
      | None => None
      | Some (i3, n) => Some (slice input i3 n)
      end
    end
  end.

Definition bytes_eqb (a b : list N) : bool := if list_eq_dec N.eq_dec a b then true else false.

(** What the libraries and the DMA layer return besides their results. *)
Record img_env := mkImgEnv { ie_hash : Z; ie_sig : Z; ie_dma_hdr : Z; ie_dma : Z; ie_post : Z; ie_keyimport : Z }.

Section Img.
Variable sha256 : list N -> list N.
(** RSA PKCS#1 v1.5 public operation: the recovered payload, if padding is right. *)
Variable rsa_open : list N -> list N -> option (list N).
(** ECDSA verification of a hash: key, hash, signature. *)
Variable ecdsa_ok : list N -> list N -> list N -> bool.
(** CMAC verification: key, data, tag. *)
Variable cmac_ok : list N -> list N -> list N -> bool.
Variable dma : bool.        (* WOLFHSM_CFG_DMA *)

(** _wolfBootImgHashSha256: lines 532-568. *)
Definition wb_hash (hdr : list N) (sha_off : nat) (img : list N) (size : nat) : list N :=
  sha256 (firstn (sha_off - 4) hdr ++ firstn size img).

(** _wolfBootImgVerifySigRsa4096: lines 644-695. *)
Definition wb_verify_sig (e : img_env) (sig hash key : list N) : Z :=
  if negb (length sig =? 512) then BADARGS else
  if negb (is_ok (ie_keyimport e)) then ABORTED else
  match rsa_open key sig with
  | None => NOTVERIFIED
  | Some out =>
      let d := if 32 <? length out then digest_info out else Some out in
      match d with
      | None => NOTVERIFIED
      | Some x => if negb (length x =? 32) then NOTVERIFIED
                  else if bytes_eqb x hash then OK else NOTVERIFIED
      end
  end.

(** _wolfBootImgVerifyPubKeyHint: lines 705-739. *)
Definition wb_verify_hint (e : img_env) (key hdr : list N) (hint : tlv_res) : Z :=
  match hint with
  | TFound off len =>
      if negb (len =? 32) then NOTVERIFIED else
      if negb (is_ok (ie_hash e)) then ABORTED else
      if bytes_eqb (sha256 key) (slice hdr off 32) then OK else NOTVERIFIED
  | _ => NOTVERIFIED
  end.

(** _wolfBootImgValidateAndHash: lines 787-883.  On success, the hash and the
    signature bytes. *)
Definition wb_validate (e : img_env) (hdr : list N) (odd : bool) (payload : list N)
    : Z * (list N * list N) :=
  let no (rc : Z) := (rc, ([], [])) in
  if odd then no BADARGS else
  if length hdr <? 12 then no BADARGS else
  if negb (N.eqb (le32 hdr 0) WB_MAGIC) then no NOTVERIFIED else
  let img_size := N.to_nat (le32 hdr 4) in
  if length payload <? img_size then no BADARGS else
  match tlv_find hdr odd HDR_IMG_TYPE with
  | TFound toff 2 =>
      if negb (N.eqb (le_dec (slice hdr toff 2) / 256) AUTH_RSA4096) then no NOTVERIFIED else
      match tlv_find hdr odd HDR_SHA256 with
      | TFound soff 32 =>
          if negb (is_ok (ie_hash e)) then no ABORTED else
          let h := wb_hash hdr soff payload img_size in
          if negb (bytes_eqb h (slice hdr soff 32)) then no NOTVERIFIED else
          match tlv_find hdr odd HDR_SIGNATURE with
          | TFound goff (S glen) => (OK, (h, slice hdr goff (S glen)))
          | _ => no NOTVERIFIED
          end
      | _ => no NOTVERIFIED
      end
  | _ => no NOTVERIFIED
  end.

(** With DMA the header is mapped, peeked at (_wolfBootImgPeekImgSize 754-780)
    and only the declared size of the payload is mapped: lines 926-957, 1041-1068. *)
Definition wb_map (e : img_env) (hdr : list N) (odd : bool) (payload : list N) : Z * list N :=
  if dma then
    if negb (is_ok (ie_dma_hdr e)) then (ie_dma_hdr e, []) else
    if odd then (BADARGS, []) else
    if length hdr <? 8 then (BADARGS, []) else
    if negb (N.eqb (le32 hdr 0) WB_MAGIC) then (NOTVERIFIED, []) else
    let size := N.to_nat (le32 hdr 4) in
    if length payload <? size then (BADARGS, []) else
    if negb (is_ok (ie_dma e)) then (ie_dma e, []) else (OK, firstn size payload)
  else (OK, payload).

(** wh_Server_ImgMgrVerifyMethodWolfBootRsa4096WithSha256: lines 886-992. *)
Definition wb_method (e : img_env) (hdr : list N) (odd : bool) (payload key : list N) : Z :=
  if length key =? 0 then BADARGS else
  let '(rc, p) := wb_map e hdr odd payload in
  if negb (is_ok rc) then rc else
  let '(rc, (h, sig)) := wb_validate e hdr odd p in
  if negb (is_ok rc) then rc else
  let rc := wb_verify_hint e key hdr (tlv_find hdr odd HDR_PUBKEY) in
  if negb (is_ok rc) then rc else
  wb_verify_sig e sig h key.

(** wh_Server_ImgMgrVerifyMethodWolfBootCertChainRsa4096WithSha256: lines 995-1135.
    [chain_leaf chain] is the outcome of wh_Server_CertVerify against the image's
    root and of loading the cached leaf key. *)
Definition wb_cert_method (e : img_env) (hdr : list N) (odd : bool) (payload : list N)
    (chain_leaf : list N -> Z * list N) : Z :=
  let '(rc, p) := wb_map e hdr odd payload in
  if negb (is_ok rc) then rc else
  let '(rc, (h, sig)) := wb_validate e hdr odd p in
  if negb (is_ok rc) then rc else
  match tlv_find hdr odd HDR_CERT_CHAIN with
  | TFound coff (S clen) =>
      let '(rc, leaf) := chain_leaf (slice hdr coff (S clen)) in
      if negb (is_ok rc) then rc else
      let rc := wb_verify_hint e leaf hdr (tlv_find hdr odd HDR_PUBKEY) in
      if negb (is_ok rc) then rc else
      wb_verify_sig e sig h leaf
  | _ => NOTVERIFIED
  end.

(** wh_Server_ImgMgrVerifyMethodEccWithSha256: lines 225-307. *)
Definition ecc_method (e : img_env) (img key sig : list N) : Z :=
  if (length key =? 0) || (length sig =? 0) then BADARGS else
  if negb (is_ok (ie_keyimport e)) then ABORTED else
  if dma && negb (is_ok (ie_dma e)) then ie_dma e else
  let rc := ie_hash e in
  let rc := if dma && is_ok rc then ie_post e else rc in
  if negb (is_ok rc) then rc else
  if negb (is_ok (ie_sig e)) then ie_sig e else
  if ecdsa_ok key (sha256 img) sig then OK else NOTVERIFIED.

(** wh_Server_ImgMgrVerifyMethodAesCmac: lines 311-371.  The library reports a
    mismatch by a nonzero code. *)
Definition cmac_method (e : img_env) (img key sig : list N) : Z :=
  if negb (length key =? 16) then BADARGS else
  if negb (length sig =? 16) then BADARGS else
  if dma && negb (is_ok (ie_dma e)) then ie_dma e else
  let rc := if negb (is_ok (ie_sig e)) then ie_sig e else if cmac_ok key img sig then OK else ABORTED in
  let rc := if dma && is_ok rc then ie_post e else rc in
  rc.

(** wh_Server_ImgMgrVerifyMethodRsaSslWithSha256: lines 374-461. *)
Definition rsa_method (e : img_env) (img key sig : list N) : Z :=
  if (length key =? 0) || (length sig =? 0) then BADARGS else
  if negb (is_ok (ie_keyimport e)) then ABORTED else
  if dma && negb (is_ok (ie_dma e)) then ie_dma e else
  let rc := ie_hash e in
  let rc := if dma && is_ok rc then ie_post e else rc in
  if negb (is_ok rc) then rc else
  match rsa_open key sig with
  | None => ABORTED
  | Some out => if negb (length out =? 32) || negb (bytes_eqb out (sha256 img)) then NOTVERIFIED else OK
  end.

(** ** wh_Server_ImgMgrVerifyImg: lines 83-181 *)
Inductive img_type := ImgRaw | ImgWolfBoot | ImgWolfBootCert | ImgBadType.
Inductive img_method := MEcc | MCmac | MRsa | MWolfBoot | MWolfBootCert | MNoMethod.
Inductive img_action := ActDefault | ActNone.

Record image := mkImg {
  im_type : img_type; im_method : img_method; im_action : img_action;
  im_key : N; im_sig : N;
  im_data : list N; im_hdr : list N; im_odd : bool }.

Definition MAX_SIG : nat := 512.  (* WOLFHSM_CFG_SERVER_IMG_MGR_MAX_SIG_SIZE *)

(** A NULL key or signature pointer makes the method refuse. *)
Definition run_method (e : img_env) (im : image) (key sig : option (list N))
    (chain_leaf : list N -> Z * list N) : Z :=
  match im_method im, key, sig with
  | MEcc, Some k, Some g => ecc_method e (im_data im) k g
  | MCmac, Some k, Some g => cmac_method e (im_data im) k g
  | MRsa, Some k, Some g => rsa_method e (im_data im) k g
  | MWolfBoot, Some k, _ => wb_method e (im_hdr im) (im_odd im) (im_data im) k
  | MWolfBootCert, _, _ => wb_cert_method e (im_hdr im) (im_odd im) (im_data im) chain_leaf
  | MNoMethod, _, _ => NOHANDLER
  | _, _, _ => BADARGS
  end.

(** [freshen id] is wh_Server_KeystoreFreshenKey.  Result: return code,
    verifyMethodResult, verifyActionResult. *)
Definition verify_img (e : img_env) (freshen : N -> Z * list N) (chain_leaf : list N -> Z * list N)
    (s : store) (im : image) : Z * (Z * Z) :=
  let stop (rc : Z) := (rc, (ABORTED, ABORTED)) in
  let finish (key sig : option (list N)) :=
    let m := run_method e im key sig chain_leaf in
    (OK, (m, match im_action im with ActDefault => m | ActNone => NOHANDLER end)) in
  match im_type im with
  | ImgWolfBoot =>
      let '(rc, k) := freshen (im_key im) in
      if negb (is_ok rc) then stop rc else finish (Some k) None
  | ImgWolfBootCert => finish None None
  | ImgRaw =>
      let '(rc, k) := freshen (im_key im) in
      if negb (is_ok rc) then stop rc else
      let '(rc, m) := nv_meta s (im_sig im) in
      if negb (is_ok rc) then stop rc else
      if MAX_SIG <? N.to_nat (m_len m) then stop BADARGS else
      let '(rc, g) := sp_read s (im_sig im) 0 (N.to_nat (m_len m)) in
      if negb (is_ok rc) then stop rc else finish (Some k) (Some g)
  | ImgBadType => stop BADARGS
  end.

(** wh_Server_ImgMgrVerifyAll: lines 194-221; each verification has its own
    environment. *)
Fixpoint verify_all (freshen : N -> Z * list N) (chain_leaf : N -> list N -> Z * list N) (s : store)
    (ims : list (img_env * image)) : Z * list (Z * Z) :=
  match ims with
  | [] => (OK, [])
  | (e, im) :: r =>
      let '(rc, res) := verify_img e freshen (chain_leaf (im_sig im)) s im in
      if negb (is_ok rc) then (rc, [res]) else
      let '(rc2, l) := verify_all freshen chain_leaf s r in (rc2, res :: l)
  end.
End Img.
