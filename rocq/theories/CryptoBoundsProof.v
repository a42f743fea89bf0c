From Coq Require Import NArith List Bool Lia.
From Verif Require Import CryptoBoundsModel CryptoBoundsSpec.
Import ListNotations.
Open Scope N_scope.

Lemma sub32_le : forall a b, b <= a -> a < 4294967296 -> sub32 a b = a - b.
Proof.
  intros a b H1 H2. unfold sub32.
  replace (a + 4294967296 - b) with (a - b + 1 * 4294967296) by lia.
  rewrite N.mod_add by lia. apply N.mod_small. lia.
Qed.

Lemma u16_le : forall n, u16 n <= n.
Proof. intros. apply N.mod_le. lia. Qed.

Lemma u16_small : forall n, n < 65536 -> u16 n = n.
Proof. intros. apply N.mod_small. lia. Qed.

Lemma u32_small : forall n, n < 4294967296 -> u32 n = n.
Proof. intros. apply N.mod_small. lia. Qed.

Ltac flat :=
  repeat match goal with
  | H : _ /\ _ |- _ => destruct H
  | H : (_ <? _) = true |- _ => apply N.ltb_lt in H
  | H : (_ <? _) = false |- _ => apply N.ltb_ge in H
  | H : (_ <=? _) = true |- _ => apply N.leb_le in H
  | H : (_ <=? _) = false |- _ => apply N.leb_gt in H
  | H : (_ =? _) = true |- _ => apply N.eqb_eq in H
  | H : (_ =? _) = false |- _ => apply N.eqb_neq in H
  | H : negb _ = true |- _ => apply negb_true_iff in H
  | H : negb _ = false |- _ => apply negb_false_iff in H
  | H : _ && _ = true |- _ => apply andb_true_iff in H
  | H : _ || _ = false |- _ => apply orb_false_iff in H
  end.

Ltac subs :=
  repeat match goal with
  | H : context [sub32 ?a ?b] |- _ => rewrite (sub32_le a b) in H by (flat; lia)
  | H : context [u32 ?a] |- _ => rewrite (u32_small a) in H by (flat; lia)
  | |- context [u32 ?a] => rewrite (u32_small a) by (flat; lia)
  end.

Ltac split_ifs :=
  repeat (cbn [fst snd app after answer refuse negb andb orb] in *; flat; subs;
    match goal with
    | |- context [if ?b then _ else _] => destruct b eqn:?
    | H : context [if ?b then _ else _] |- _ => destruct b eqn:?
    end); cbn [fst snd app after answer refuse negb andb orb] in *; flat; subs.

(* A handler's result within a buffer of B bytes; within the buffer when the
   library's output fits; and with an answer that holds no old bytes. *)
Definition bounded (B sz : N) (r : out) : Prop :=
  Forall keeps_room (fst r) ->
  Forall (inside B sz) (fst r) /\ match snd r with Some n => HDR + n <= B | None => True end.

Definition fits (DL sz : N) (r : out) : Prop :=
  Forall keeps_room (fst r) -> Forall (output_fits DL) (fst r) ->
  Forall (touches_inside DL sz) (fst r)
  /\ match snd r with Some n => HDR + n <= DL | None => True end.

Definition fresh (sz : N) (r : out) : Prop :=
  Forall keeps_room (fst r) ->
  match snd r with
  | Some n => forall p, p < HDR + n -> p < sz \/ Exists (put p) (fst r)
  | None => True
  end.

Ltac lists :=
  repeat match goal with
  | H : Forall _ (_ :: _) |- _ =>
      let A := fresh "A" in let B := fresh "B" in
      pose proof (Forall_inv H) as A; pose proof (Forall_inv_tail H) as B;
      cbn [keeps_room output_fits] in A; clear H
  | H : Forall _ [] |- _ => clear H
  end.

Ltac sizes :=
  repeat match goal with
  | |- context [u16 ?a] =>
      match goal with H : u16 a <= a |- _ => fail 1 | _ => pose proof (u16_le a) end
  | H : context [u16 ?a] |- _ =>
      match goal with K : u16 a <= a |- _ => fail 1 | _ => pose proof (u16_le a) end
  end.

Ltac close :=
  unfold bounded, fits, fresh, refuse, answer in *;
  cbn [fst snd app] in *;
  intros; lists; flat; subs;
  repeat match goal with
  | |- _ /\ _ => split
  | |- Forall _ (_ :: _) => apply Forall_cons
  | |- Forall _ [] => apply Forall_nil
  | |- forall _, _ => intro; lists
  end; lists; cbn [inside touches_inside] in *;
  unfold HDR, LABEL, AES_BLOCK, AES_256, KDF_MAX, MAX_CTX, ED_SIG, ECC_POINT in *;
  subs; sizes; try exact Logic.I;
  rewrite ?Exists_cons, ?Exists_nil; cbn [put]; try lia.

Ltac run h :=
  intros; unfold bounded, fits, fresh, h, gen_tail, secret_tail, after, answer, refuse, aes_key,
    fields_ok, w32, settings in *;
  flat; split_ifs; close.

Lemma b_rsa_gen : forall DL inSize eph e, settings DL -> HDR + inSize <= DL -> fields_ok (QRsaGen eph) ->
  bounded (DL + HDR) (HDR + inSize) (h_rsa_gen DL inSize eph e).
Proof. run h_rsa_gen. Qed.
Lemma f_rsa_gen : forall DL inSize eph e, settings DL -> HDR + inSize <= DL -> fields_ok (QRsaGen eph) ->
  fits DL (HDR + inSize) (h_rsa_gen DL inSize eph e).
Proof. run h_rsa_gen. Qed.
Lemma n_rsa_gen : forall DL inSize eph e, settings DL -> HDR + inSize <= DL -> fields_ok (QRsaGen eph) ->
  fresh (HDR + inSize) (h_rsa_gen DL inSize eph e).
Proof. run h_rsa_gen. Qed.

Lemma f_rsa_fn : forall DL inSize op i o e, settings DL -> HDR + inSize <= DL -> fields_ok (QRsaFn op i o) ->
  fits DL (HDR + inSize) (h_rsa_fn inSize op i o e).
Proof. run h_rsa_fn. Qed.
Lemma n_rsa_fn : forall DL inSize op i o e, settings DL -> HDR + inSize <= DL -> fields_ok (QRsaFn op i o) ->
  fresh (HDR + inSize) (h_rsa_fn inSize op i o e).
Proof. run h_rsa_fn. Qed.

Lemma b_rsa_size : forall DL inSize e, settings DL -> HDR + inSize <= DL -> fields_ok (QRsaSize) ->
  bounded DL (HDR + inSize) (h_rsa_size inSize  e).
Proof. run h_rsa_size. Qed.
Lemma f_rsa_size : forall DL inSize e, settings DL -> HDR + inSize <= DL -> fields_ok (QRsaSize) ->
  fits DL (HDR + inSize) (h_rsa_size inSize  e).
Proof. run h_rsa_size. Qed.
Lemma n_rsa_size : forall DL inSize e, settings DL -> HDR + inSize <= DL -> fields_ok (QRsaSize) ->
  fresh (HDR + inSize) (h_rsa_size inSize  e).
Proof. run h_rsa_size. Qed.

Lemma b_rng : forall DL inSize sz e, settings DL -> HDR + inSize <= DL -> fields_ok (QRng sz) ->
  bounded DL (HDR + inSize) (h_rng DL inSize sz e).
Proof. run h_rng. Qed.
Lemma f_rng : forall DL inSize sz e, settings DL -> HDR + inSize <= DL -> fields_ok (QRng sz) ->
  fits DL (HDR + inSize) (h_rng DL inSize sz e).
Proof. run h_rng. Qed.
Lemma n_rng : forall DL inSize sz e, settings DL -> HDR + inSize <= DL -> fields_ok (QRng sz) ->
  fresh (HDR + inSize) (h_rng DL inSize sz e).
Proof. run h_rng. Qed.

Lemma b_hkdf : forall DL inSize b eph k s i o e, settings DL -> HDR + inSize <= DL -> fields_ok (QHkdf b eph k s i o) ->
  bounded DL (HDR + inSize) (h_hkdf DL inSize b eph k s i o e).
Proof. run h_hkdf. Qed.
Lemma f_hkdf : forall DL inSize b eph k s i o e, settings DL -> HDR + inSize <= DL -> fields_ok (QHkdf b eph k s i o) ->
  fits DL (HDR + inSize) (h_hkdf DL inSize b eph k s i o e).
Proof. run h_hkdf. Qed.
Lemma n_hkdf : forall DL inSize b eph k s i o e, settings DL -> HDR + inSize <= DL -> fields_ok (QHkdf b eph k s i o) ->
  fresh (HDR + inSize) (h_hkdf DL inSize b eph k s i o e).
Proof. run h_hkdf. Qed.

Lemma b_cmac_kdf : forall DL inSize sb zb eph s z i o e, settings DL -> HDR + inSize <= DL -> fields_ok (QCmacKdf sb zb eph s z i o) ->
  bounded DL (HDR + inSize) (h_cmac_kdf DL inSize sb zb eph s z i o e).
Proof. run h_cmac_kdf. Qed.
Lemma f_cmac_kdf : forall DL inSize sb zb eph s z i o e, settings DL -> HDR + inSize <= DL -> fields_ok (QCmacKdf sb zb eph s z i o) ->
  fits DL (HDR + inSize) (h_cmac_kdf DL inSize sb zb eph s z i o e).
Proof. run h_cmac_kdf. Qed.
Lemma n_cmac_kdf : forall DL inSize sb zb eph s z i o e, settings DL -> HDR + inSize <= DL -> fields_ok (QCmacKdf sb zb eph s z i o) ->
  fresh (HDR + inSize) (h_cmac_kdf DL inSize sb zb eph s z i o e).
Proof. run h_cmac_kdf. Qed.

Lemma b_ecc_gen : forall DL inSize eph e, settings DL -> HDR + inSize <= DL -> fields_ok (QEccGen eph) ->
  bounded (DL + HDR) (HDR + inSize) (h_ecc_gen DL inSize eph e).
Proof. run h_ecc_gen. Qed.
Lemma f_ecc_gen : forall DL inSize eph e, settings DL -> HDR + inSize <= DL -> fields_ok (QEccGen eph) ->
  fits DL (HDR + inSize) (h_ecc_gen DL inSize eph e).
Proof. run h_ecc_gen. Qed.
Lemma n_ecc_gen : forall DL inSize eph e, settings DL -> HDR + inSize <= DL -> fields_ok (QEccGen eph) ->
  fresh (HDR + inSize) (h_ecc_gen DL inSize eph e).
Proof. run h_ecc_gen. Qed.

Lemma b_ecdh : forall DL inSize eph e, settings DL -> HDR + inSize <= DL -> fields_ok (QEcdh eph) ->
  bounded (DL + HDR) (HDR + inSize) (h_ecdh DL inSize eph e).
Proof. run h_ecdh. Qed.
Lemma f_ecdh : forall DL inSize eph e, settings DL -> HDR + inSize <= DL -> fields_ok (QEcdh eph) ->
  fits DL (HDR + inSize) (h_ecdh DL inSize eph e).
Proof. run h_ecdh. Qed.
Lemma n_ecdh : forall DL inSize eph e, settings DL -> HDR + inSize <= DL -> fields_ok (QEcdh eph) ->
  fresh (HDR + inSize) (h_ecdh DL inSize eph e).
Proof. run h_ecdh. Qed.

Lemma b_ecc_sign : forall DL inSize sz e, settings DL -> HDR + inSize <= DL -> fields_ok (QEccSign sz) ->
  bounded (DL + HDR) (HDR + inSize) (h_ecc_sign DL inSize sz e).
Proof. run h_ecc_sign. Qed.
Lemma f_ecc_sign : forall DL inSize sz e, settings DL -> HDR + inSize <= DL -> fields_ok (QEccSign sz) ->
  fits DL (HDR + inSize) (h_ecc_sign DL inSize sz e).
Proof. run h_ecc_sign. Qed.
Lemma n_ecc_sign : forall DL inSize sz e, settings DL -> HDR + inSize <= DL -> fields_ok (QEccSign sz) ->
  fresh (HDR + inSize) (h_ecc_sign DL inSize sz e).
Proof. run h_ecc_sign. Qed.

Lemma b_ecc_verify : forall DL inSize x s h e, settings DL -> HDR + inSize <= DL -> fields_ok (QEccVerify x s h) ->
  bounded (DL + HDR) (HDR + inSize) (h_ecc_verify DL inSize x s h e).
Proof. run h_ecc_verify. Qed.
Lemma b_ecc_verify0 : forall DL inSize s h e, settings DL -> HDR + inSize <= DL -> fields_ok (QEccVerify false s h) ->
  bounded DL (HDR + inSize) (h_ecc_verify DL inSize false s h e).
Proof. run h_ecc_verify. Qed.
Lemma f_ecc_verify : forall DL inSize x s h e, settings DL -> HDR + inSize <= DL -> fields_ok (QEccVerify x s h) ->
  fits DL (HDR + inSize) (h_ecc_verify DL inSize x s h e).
Proof. run h_ecc_verify. Qed.
Lemma n_ecc_verify : forall DL inSize x s h e, settings DL -> HDR + inSize <= DL -> fields_ok (QEccVerify x s h) ->
  fresh (HDR + inSize) (h_ecc_verify DL inSize x s h e).
Proof. run h_ecc_verify. Qed.

Lemma b_ecc_pub : forall DL inSize e, settings DL -> HDR + inSize <= DL -> fields_ok (QEccPub) ->
  bounded DL (HDR + inSize) (h_ecc_pub DL inSize  e).
Proof. run h_ecc_pub. Qed.
Lemma f_ecc_pub : forall DL inSize e, settings DL -> HDR + inSize <= DL -> fields_ok (QEccPub) ->
  fits DL (HDR + inSize) (h_ecc_pub DL inSize  e).
Proof. run h_ecc_pub. Qed.
Lemma n_ecc_pub : forall DL inSize e, settings DL -> HDR + inSize <= DL -> fields_ok (QEccPub) ->
  fresh (HDR + inSize) (h_ecc_pub DL inSize  e).
Proof. run h_ecc_pub. Qed.

Lemma b_ecc_check : forall DL inSize p e, settings DL -> HDR + inSize <= DL -> fields_ok (QEccCheck p) ->
  bounded DL (HDR + inSize) (h_ecc_check inSize p e).
Proof. run h_ecc_check. Qed.
Lemma f_ecc_check : forall DL inSize p e, settings DL -> HDR + inSize <= DL -> fields_ok (QEccCheck p) ->
  fits DL (HDR + inSize) (h_ecc_check inSize p e).
Proof. run h_ecc_check. Qed.
Lemma n_ecc_check : forall DL inSize p e, settings DL -> HDR + inSize <= DL -> fields_ok (QEccCheck p) ->
  fresh (HDR + inSize) (h_ecc_check inSize p e).
Proof. run h_ecc_check. Qed.

Lemma b_x25519_gen : forall DL inSize eph e, settings DL -> HDR + inSize <= DL -> fields_ok (QX25519Gen eph) ->
  bounded (DL + HDR) (HDR + inSize) (h_x25519_gen DL inSize eph e).
Proof. run h_x25519_gen. Qed.
Lemma f_x25519_gen : forall DL inSize eph e, settings DL -> HDR + inSize <= DL -> fields_ok (QX25519Gen eph) ->
  fits DL (HDR + inSize) (h_x25519_gen DL inSize eph e).
Proof. run h_x25519_gen. Qed.
Lemma n_x25519_gen : forall DL inSize eph e, settings DL -> HDR + inSize <= DL -> fields_ok (QX25519Gen eph) ->
  fresh (HDR + inSize) (h_x25519_gen DL inSize eph e).
Proof. run h_x25519_gen. Qed.

Lemma b_x25519 : forall DL inSize eph e, settings DL -> HDR + inSize <= DL -> fields_ok (QX25519 eph) ->
  bounded (DL + HDR) (HDR + inSize) (h_x25519 DL inSize eph e).
Proof. run h_x25519. Qed.
Lemma f_x25519 : forall DL inSize eph e, settings DL -> HDR + inSize <= DL -> fields_ok (QX25519 eph) ->
  fits DL (HDR + inSize) (h_x25519 DL inSize eph e).
Proof. run h_x25519. Qed.
Lemma n_x25519 : forall DL inSize eph e, settings DL -> HDR + inSize <= DL -> fields_ok (QX25519 eph) ->
  fresh (HDR + inSize) (h_x25519 DL inSize eph e).
Proof. run h_x25519. Qed.

Lemma b_ed_gen : forall DL inSize eph e, settings DL -> HDR + inSize <= DL -> fields_ok (QEdGen eph) ->
  bounded (DL + HDR) (HDR + inSize) (h_ed_gen DL inSize eph e).
Proof. run h_ed_gen. Qed.
Lemma f_ed_gen : forall DL inSize eph e, settings DL -> HDR + inSize <= DL -> fields_ok (QEdGen eph) ->
  fits DL (HDR + inSize) (h_ed_gen DL inSize eph e).
Proof. run h_ed_gen. Qed.
Lemma n_ed_gen : forall DL inSize eph e, settings DL -> HDR + inSize <= DL -> fields_ok (QEdGen eph) ->
  fresh (HDR + inSize) (h_ed_gen DL inSize eph e).
Proof. run h_ed_gen. Qed.

Lemma b_ed_sign : forall DL inSize t p m c e, settings DL -> HDR + inSize <= DL -> fields_ok (QEdSign t p m c) ->
  bounded DL (HDR + inSize) (h_ed_sign DL inSize t p m c e).
Proof. run h_ed_sign. Qed.
Lemma f_ed_sign : forall DL inSize t p m c e, settings DL -> HDR + inSize <= DL -> fields_ok (QEdSign t p m c) ->
  fits DL (HDR + inSize) (h_ed_sign DL inSize t p m c e).
Proof. run h_ed_sign. Qed.
Lemma n_ed_sign : forall DL inSize t p m c e, settings DL -> HDR + inSize <= DL -> fields_ok (QEdSign t p m c) ->
  fresh (HDR + inSize) (h_ed_sign DL inSize t p m c e).
Proof. run h_ed_sign. Qed.

Lemma b_ed_verify : forall DL inSize t s m c e, settings DL -> HDR + inSize <= DL -> fields_ok (QEdVerify t s m c) ->
  bounded DL (HDR + inSize) (h_ed_verify inSize t s m c e).
Proof. run h_ed_verify. Qed.
Lemma f_ed_verify : forall DL inSize t s m c e, settings DL -> HDR + inSize <= DL -> fields_ok (QEdVerify t s m c) ->
  fits DL (HDR + inSize) (h_ed_verify inSize t s m c e).
Proof. run h_ed_verify. Qed.
Lemma n_ed_verify : forall DL inSize t s m c e, settings DL -> HDR + inSize <= DL -> fields_ok (QEdVerify t s m c) ->
  fresh (HDR + inSize) (h_ed_verify inSize t s m c e).
Proof. run h_ed_verify. Qed.

Lemma b_aes_ctr : forall DL inSize b k s l e, settings DL -> HDR + inSize <= DL -> fields_ok (QAesCtr b k s l) ->
  bounded DL (HDR + inSize) (h_aes_ctr inSize b k s l e).
Proof. run h_aes_ctr. Qed.
Lemma f_aes_ctr : forall DL inSize b k s l e, settings DL -> HDR + inSize <= DL -> fields_ok (QAesCtr b k s l) ->
  fits DL (HDR + inSize) (h_aes_ctr inSize b k s l e).
Proof. run h_aes_ctr. Qed.
Lemma n_aes_ctr : forall DL inSize b k s l e, settings DL -> HDR + inSize <= DL -> fields_ok (QAesCtr b k s l) ->
  fresh (HDR + inSize) (h_aes_ctr inSize b k s l e).
Proof. run h_aes_ctr. Qed.

Lemma b_aes_ecb : forall DL inSize b k s e, settings DL -> HDR + inSize <= DL -> fields_ok (QAesEcb b k s) ->
  bounded DL (HDR + inSize) (h_aes_ecb inSize b k s e).
Proof. run h_aes_ecb. Qed.
Lemma f_aes_ecb : forall DL inSize b k s e, settings DL -> HDR + inSize <= DL -> fields_ok (QAesEcb b k s) ->
  fits DL (HDR + inSize) (h_aes_ecb inSize b k s e).
Proof. run h_aes_ecb. Qed.
Lemma n_aes_ecb : forall DL inSize b k s e, settings DL -> HDR + inSize <= DL -> fields_ok (QAesEcb b k s) ->
  fresh (HDR + inSize) (h_aes_ecb inSize b k s e).
Proof. run h_aes_ecb. Qed.

Lemma b_aes_cbc : forall DL inSize b k s e, settings DL -> HDR + inSize <= DL -> fields_ok (QAesCbc b k s) ->
  bounded DL (HDR + inSize) (h_aes_cbc inSize b k s e).
Proof. run h_aes_cbc. Qed.
Lemma f_aes_cbc : forall DL inSize b k s e, settings DL -> HDR + inSize <= DL -> fields_ok (QAesCbc b k s) ->
  fits DL (HDR + inSize) (h_aes_cbc inSize b k s e).
Proof. run h_aes_cbc. Qed.
Lemma n_aes_cbc : forall DL inSize b k s e, settings DL -> HDR + inSize <= DL -> fields_ok (QAesCbc b k s) ->
  fresh (HDR + inSize) (h_aes_cbc inSize b k s e).
Proof. run h_aes_cbc. Qed.

Lemma b_aes_gcm : forall DL inSize b en k s i a t e, settings DL -> HDR + inSize <= DL -> fields_ok (QAesGcm b en k s i a t) ->
  bounded DL (HDR + inSize) (h_aes_gcm DL inSize b en k s i a t e).
Proof. run h_aes_gcm. Qed.
Lemma f_aes_gcm : forall DL inSize b en k s i a t e, settings DL -> HDR + inSize <= DL -> fields_ok (QAesGcm b en k s i a t) ->
  fits DL (HDR + inSize) (h_aes_gcm DL inSize b en k s i a t e).
Proof. run h_aes_gcm. Qed.
Lemma n_aes_gcm : forall DL inSize b en k s i a t e, settings DL -> HDR + inSize <= DL -> fields_ok (QAesGcm b en k s i a t) ->
  fresh (HDR + inSize) (h_aes_gcm DL inSize b en k s i a t e).
Proof. run h_aes_gcm. Qed.

Lemma b_cmac : forall DL inSize b i k o f e, settings DL -> HDR + inSize <= DL -> fields_ok (QCmac b i k o f) ->
  bounded DL (HDR + inSize) (h_cmac inSize b i k o f e).
Proof. run h_cmac. Qed.
Lemma f_cmac : forall DL inSize b i k o f e, settings DL -> HDR + inSize <= DL -> fields_ok (QCmac b i k o f) ->
  fits DL (HDR + inSize) (h_cmac inSize b i k o f e).
Proof. run h_cmac. Qed.
Lemma n_cmac : forall DL inSize b i k o f e, settings DL -> HDR + inSize <= DL -> fields_ok (QCmac b i k o f) ->
  fresh (HDR + inSize) (h_cmac inSize b i k o f e).
Proof. run h_cmac. Qed.

Lemma b_sha2 : forall DL inSize v l i e, settings DL -> HDR + inSize <= DL -> fields_ok (QSha2 v l i) ->
  bounded DL (HDR + inSize) (h_sha2 inSize v l i e).
Proof. run h_sha2. Qed.
Lemma f_sha2 : forall DL inSize v l i e, settings DL -> HDR + inSize <= DL -> fields_ok (QSha2 v l i) ->
  fits DL (HDR + inSize) (h_sha2 inSize v l i e).
Proof. run h_sha2. Qed.
Lemma n_sha2 : forall DL inSize v l i e, settings DL -> HDR + inSize <= DL -> fields_ok (QSha2 v l i) ->
  fresh (HDR + inSize) (h_sha2 inSize v l i e).
Proof. run h_sha2. Qed.

Lemma b_sha3 : forall DL inSize v l i e, settings DL -> HDR + inSize <= DL -> fields_ok (QSha3 v l i) ->
  bounded DL (HDR + inSize) (h_sha3 inSize v l i e).
Proof. run h_sha3. Qed.
Lemma f_sha3 : forall DL inSize v l i e, settings DL -> HDR + inSize <= DL -> fields_ok (QSha3 v l i) ->
  fits DL (HDR + inSize) (h_sha3 inSize v l i e).
Proof. run h_sha3. Qed.
Lemma n_sha3 : forall DL inSize v l i e, settings DL -> HDR + inSize <= DL -> fields_ok (QSha3 v l i) ->
  fresh (HDR + inSize) (h_sha3 inSize v l i e).
Proof. run h_sha3. Qed.

Lemma b_mldsa_gen : forall DL inSize l eph e, settings DL -> HDR + inSize <= DL -> fields_ok (QMldsaGen l eph) ->
  bounded (DL + HDR) (HDR + inSize) (h_mldsa_gen DL inSize l eph e).
Proof. run h_mldsa_gen. Qed.
Lemma f_mldsa_gen : forall DL inSize l eph e, settings DL -> HDR + inSize <= DL -> fields_ok (QMldsaGen l eph) ->
  fits DL (HDR + inSize) (h_mldsa_gen DL inSize l eph e).
Proof. run h_mldsa_gen. Qed.
Lemma n_mldsa_gen : forall DL inSize l eph e, settings DL -> HDR + inSize <= DL -> fields_ok (QMldsaGen l eph) ->
  fresh (HDR + inSize) (h_mldsa_gen DL inSize l eph e).
Proof. run h_mldsa_gen. Qed.

Lemma b_mldsa_sign : forall DL inSize s c e, settings DL -> HDR + inSize <= DL -> fields_ok (QMldsaSign s c) ->
  bounded (DL + HDR) (HDR + inSize) (h_mldsa_sign DL inSize s c e).
Proof. run h_mldsa_sign. Qed.
Lemma f_mldsa_sign : forall DL inSize s c e, settings DL -> HDR + inSize <= DL -> fields_ok (QMldsaSign s c) ->
  fits DL (HDR + inSize) (h_mldsa_sign DL inSize s c e).
Proof. run h_mldsa_sign. Qed.
Lemma n_mldsa_sign : forall DL inSize s c e, settings DL -> HDR + inSize <= DL -> fields_ok (QMldsaSign s c) ->
  fresh (HDR + inSize) (h_mldsa_sign DL inSize s c e).
Proof. run h_mldsa_sign. Qed.

Lemma b_mldsa_verify : forall DL inSize s h c e, settings DL -> HDR + inSize <= DL -> fields_ok (QMldsaVerify s h c) ->
  bounded DL (HDR + inSize) (h_mldsa_verify inSize s h c e).
Proof. run h_mldsa_verify. Qed.
Lemma f_mldsa_verify : forall DL inSize s h c e, settings DL -> HDR + inSize <= DL -> fields_ok (QMldsaVerify s h c) ->
  fits DL (HDR + inSize) (h_mldsa_verify inSize s h c e).
Proof. run h_mldsa_verify. Qed.
Lemma n_mldsa_verify : forall DL inSize s h c e, settings DL -> HDR + inSize <= DL -> fields_ok (QMldsaVerify s h c) ->
  fresh (HDR + inSize) (h_mldsa_verify inSize s h c e).
Proof. run h_mldsa_verify. Qed.

Lemma b_kem_gen : forall DL inSize l eph e, settings DL -> HDR + inSize <= DL -> fields_ok (QKemGen l eph) ->
  bounded (DL + HDR) (HDR + inSize) (h_kem_gen DL inSize l eph e).
Proof. run h_kem_gen. Qed.
Lemma f_kem_gen : forall DL inSize l eph e, settings DL -> HDR + inSize <= DL -> fields_ok (QKemGen l eph) ->
  fits DL (HDR + inSize) (h_kem_gen DL inSize l eph e).
Proof. run h_kem_gen. Qed.
Lemma n_kem_gen : forall DL inSize l eph e, settings DL -> HDR + inSize <= DL -> fields_ok (QKemGen l eph) ->
  fresh (HDR + inSize) (h_kem_gen DL inSize l eph e).
Proof. run h_kem_gen. Qed.

Lemma b_kem_enc : forall DL inSize l e, settings DL -> HDR + inSize <= DL -> fields_ok (QKemEnc l) ->
  bounded (DL + HDR) (HDR + inSize) (h_kem_enc DL inSize l e).
Proof. run h_kem_enc. Qed.
Lemma f_kem_enc : forall DL inSize l e, settings DL -> HDR + inSize <= DL -> fields_ok (QKemEnc l) ->
  fits DL (HDR + inSize) (h_kem_enc DL inSize l e).
Proof. run h_kem_enc. Qed.
Lemma n_kem_enc : forall DL inSize l e, settings DL -> HDR + inSize <= DL -> fields_ok (QKemEnc l) ->
  fresh (HDR + inSize) (h_kem_enc DL inSize l e).
Proof. run h_kem_enc. Qed.

Lemma b_kem_dec : forall DL inSize l c e, settings DL -> HDR + inSize <= DL -> fields_ok (QKemDec l c) ->
  bounded (DL + HDR) (HDR + inSize) (h_kem_dec DL inSize l c e).
Proof. run h_kem_dec. Qed.
Lemma f_kem_dec : forall DL inSize l c e, settings DL -> HDR + inSize <= DL -> fields_ok (QKemDec l c) ->
  fits DL (HDR + inSize) (h_kem_dec DL inSize l c e).
Proof. run h_kem_dec. Qed.
Lemma n_kem_dec : forall DL inSize l c e, settings DL -> HDR + inSize <= DL -> fields_ok (QKemDec l c) ->
  fresh (HDR + inSize) (h_kem_dec DL inSize l c e).
Proof. run h_kem_dec. Qed.

