(** Properties C44 (image verification) and C45 (image header fields). *)
From Verif Require Import Base NvmSpec Store ImgModel ImgProof.

(** ** C45.  The search never reads outside the header and always ends; what it
    returns is a field of the wanted type wholly inside the header, reached from
    the first field by whole fields and padding; and it is the first such field. *)
Theorem C45_search_safe : forall hdr odd ty,
  (exists off len, tlv_find hdr odd ty = TFound off len) \/ tlv_find hdr odd ty = TNone.
Proof.
  intros hdr odd ty. pose proof (find_sound hdr odd ty) as F.
  destruct (tlv_find hdr odd ty); eauto; contradiction.
Qed.
Print Assumptions C45_search_safe.

Theorem C45_found_inside : forall hdr odd ty off len, tlv_find hdr odd ty = TFound off len ->
  12 <= off /\ off + len <= length hdr /\
  walk hdr odd 8 (off - 4) /\ field_at hdr odd (off - 4) ty len /\
  (forall q l, walk hdr odd 8 q -> field_at hdr odd q ty l -> off - 4 <= q).
Proof.
  intros hdr odd ty off len E. destruct (found_bounds _ _ _ _ _ E) as [B1 B2].
  pose proof (find_sound hdr odd ty) as F. rewrite E in F. destruct F as (q & W & F & ->).
  replace (q + 4 - 4) with q by lia. do 4 (split; [assumption|]).
  intros q' l W' F'. destruct (find_complete _ _ _ _ _ W' F') as (off' & len' & E' & L).
  rewrite E in E'. injection E' as <- <-. lia.
Qed.
Print Assumptions C45_found_inside.

Theorem C45_not_found : forall hdr odd ty, tlv_find hdr odd ty = TNone ->
  forall q l, walk hdr odd 8 q -> ~ field_at hdr odd q ty l.
Proof.
  intros hdr odd ty E q l W F. destruct (find_complete _ _ _ _ _ W F) as (? & ? & E' & _). congruence.
Qed.
Print Assumptions C45_not_found.

(** ** C44.  A zero result (of the method, or of the default action) for an image
    means that the configured method's check holds of the image, for the key
    bytes the keystore returns for the image's key id and the signature object
    stored under the image's signature id (or the leaf of a chain the certificate
    manager accepted). *)
Theorem C44_zero_only_if_accepted : forall sha256 rsa_open ecdsa_ok cmac_ok dma e freshen cl s im rc m a,
  verify_img sha256 rsa_open ecdsa_ok cmac_ok dma e freshen cl s im = (rc, (m, a)) -> m = OK \/ a = OK ->
  rc = OK /\ exists key sig, accepted sha256 rsa_open ecdsa_ok cmac_ok im key sig cl /\
    (forall k, key = Some k -> freshen (im_key im) = (OK, k)) /\
    (forall g, sig = Some g -> exists mt d, sp_find s (im_sig im) = Some (mt, d) /\ g = firstn (N.to_nat (m_len mt)) d).
Proof. exact verify_img_ok. Qed.
Print Assumptions C44_zero_only_if_accepted.

(** The same for every result reported by a verification of all images. *)
Theorem C44_verify_all : forall sha256 rsa_open ecdsa_ok cmac_ok dma freshen cl s ims rc res i e im m a,
  verify_all sha256 rsa_open ecdsa_ok cmac_ok dma freshen cl s ims = (rc, res) ->
  nth_error ims i = Some (e, im) -> nth_error res i = Some (m, a) -> m = OK \/ a = OK ->
  exists key sig, accepted sha256 rsa_open ecdsa_ok cmac_ok im key sig (cl (im_sig im)) /\
    (forall k, key = Some k -> freshen (im_key im) = (OK, k)) /\
    (forall g, sig = Some g -> exists mt d, sp_find s (im_sig im) = Some (mt, d) /\ g = firstn (N.to_nat (m_len mt)) d).
Proof.
  intros sha256 rsa_open ecdsa_ok cmac_ok dma freshen cl s ims rc res i e im m a H HI HR HO.
  destruct (verify_all_ok _ _ _ _ _ _ _ _ _ _ _ _ _ _ _ _ H HI HR HO) as (rc' & V).
  destruct (verify_img_ok _ _ _ _ _ _ _ _ _ _ _ _ _ V HO) as (_ & X). exact X.
Qed.
Print Assumptions C44_verify_all.

(** When it returns OK it has a result for every image. *)
Theorem C44_verify_all_complete : forall sha256 rsa_open ecdsa_ok cmac_ok dma freshen cl s ims res,
  verify_all sha256 rsa_open ecdsa_ok cmac_ok dma freshen cl s ims = (OK, res) -> length res = length ims.
Proof.
  induction ims as [|[e im] ims IH]; intros res H; cbn [verify_all] in H.
  - injection H as <-. reflexivity.
  - destruct (verify_img _ _ _ _ _ _ _ _ _ _) as [rc r]. destruct (is_ok rc) eqn:R; cbn [negb] in H.
    + destruct (verify_all _ _ _ _ _ _ _ _ ims) as [rc2 l]. injection H as -> <-. cbn [length]. f_equal. apply IH. reflexivity.
    + injection H as -> _. discriminate.
Qed.
Print Assumptions C44_verify_all_complete.

(** ** Concrete cases *)
(** A toy hash and signature scheme: the hash is the byte sum repeated, and a
    signature carries the payload it signs. *)
Definition toy_sha (l : list N) : list N := repeat (fold_left N.add l 0%N mod 256)%N 32.
Definition toy_rsa (k sig : list N) : option (list N) := if bytes_eqb k [7; 8]%N then Some (firstn 32 sig) else None.
Definition toy_head : list N := [87; 79; 76; 70;  3; 0; 0; 0;  4; 0; 2; 0; 0; 4;  255; 255]%N.
Definition toy_hash : list N := toy_sha (toy_head ++ [1; 2; 3])%N.
Definition toy_hdr : list N :=
  (toy_head ++ [3; 0; 32; 0] ++ toy_hash ++ [16; 0; 32; 0] ++ toy_sha [7; 8]
   ++ [32; 0; 0; 2] ++ toy_hash ++ repeat 0 480 ++ repeat 0 6)%N.
Definition toy_env : img_env := mkImgEnv 0 0 0 0 0 0.
Definition toy_img (payload : list N) : image := mkImg ImgWolfBoot MWolfBoot ActDefault 5 6 payload toy_hdr false.

(** The signed image is accepted, with and without DMA; bytes past the declared
    size do not matter; a changed byte is not. *)
Example C44_accepts : forall dma,
  verify_img toy_sha toy_rsa (fun _ _ _ => false) (fun _ _ _ => false) dma toy_env
    (fun _ => (OK, [7; 8]%N)) (fun _ => (ABORTED, [])) [] (toy_img [1; 2; 3; 99]%N) = (OK, (OK, OK)).
Proof. intros [|]; vm_compute; reflexivity. Qed.
Example C44_rejects : forall dma,
  verify_img toy_sha toy_rsa (fun _ _ _ => false) (fun _ _ _ => false) dma toy_env
    (fun _ => (OK, [7; 8]%N)) (fun _ => (ABORTED, [])) [] (toy_img [1; 2; 4]%N) = (OK, (NOTVERIFIED, NOTVERIFIED)).
Proof. intros [|]; vm_compute; reflexivity. Qed.
Example C44_wrong_key :
  verify_img toy_sha toy_rsa (fun _ _ _ => false) (fun _ _ _ => false) false toy_env
    (fun _ => (OK, [7; 9]%N)) (fun _ => (ABORTED, [])) [] (toy_img [1; 2; 3]%N) = (OK, (NOTVERIFIED, NOTVERIFIED)).
Proof. vm_compute. reflexivity. Qed.
Example C44_raw_ecc :
  let sigobj := (mkMeta 6 0 0 2 (repeat 0%N 24), [4; 2]%N) in
  verify_img toy_sha toy_rsa (fun k h g => bytes_eqb g [4; 2]%N) (fun _ _ _ => false) false toy_env
    (fun _ => (OK, [7; 8]%N)) (fun _ => (ABORTED, [])) [sigobj]
    (mkImg ImgRaw MEcc ActDefault 5 6 [1; 2; 3]%N [] false) = (OK, (OK, OK)).
Proof. vm_compute. reflexivity. Qed.
Example C44_cert_chain :
  let hdr := (toy_head ++ [3; 0; 32; 0] ++ toy_hash ++ [35; 0; 2; 0; 61; 62] ++ [16; 0; 32; 0] ++ toy_sha [7; 8]
     ++ [32; 0; 0; 2] ++ toy_hash ++ repeat 0 480 ++ repeat 0 6)%N in
  let run cl := verify_img toy_sha toy_rsa (fun k h g => false) (fun _ _ _ => false) false toy_env
    (fun _ => (ABORTED, [])) cl [] (mkImg ImgWolfBootCert MWolfBootCert ActDefault 5 6 [1; 2; 3]%N hdr false) in
  run (fun c => if bytes_eqb c [61; 62]%N then (OK, [7; 8]%N) else (NOTVERIFIED, [])) = (OK, (OK, OK)) /\
  run (fun c => (NOTVERIFIED, [7; 8]%N)) = (OK, (NOTVERIFIED, NOTVERIFIED)).
Proof. vm_compute. split; reflexivity. Qed.

(** C45: found behind padding, and a field that would leave the header is not. *)
Example C45_found : tlv_find toy_hdr false HDR_SHA256 = TFound 20 32 /\
  tlv_find toy_hdr false HDR_SIGNATURE = TFound 92 512 /\ tlv_find toy_hdr false HDR_CERT_CHAIN = TNone.
Proof. vm_compute. auto. Qed.
Example C45_overlong : tlv_find (repeat 0 8 ++ [3; 0; 9; 0; 1; 2; 3; 4; 5; 6; 7; 8])%N false HDR_SHA256 = TNone /\
  tlv_find (repeat 0 8 ++ [3; 0; 8; 0; 1; 2; 3; 4; 5; 6; 7; 8])%N false HDR_SHA256 = TFound 12 8.
Proof. vm_compute. auto. Qed.
