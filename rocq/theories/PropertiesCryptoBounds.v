(* C61: serving a crypto request uses only the request's bytes and the
   communication buffer, and the answer holds no old bytes. *)
From Coq Require Import NArith List Bool Lia.
From Verif Require Import CryptoBoundsModel CryptoBoundsSpec CryptoBoundsProof.
Import ListNotations.
Open Scope N_scope.

Lemma handler_bounded : forall DL inSize q e,
  settings DL -> HDR + inSize <= DL -> fields_ok q -> counts_header q = true ->
  bounded DL (HDR + inSize) (handler DL inSize q e).
Proof.
  intros DL inSize q e S I F C.
  destruct q; try discriminate C; cbn [handler];
    first [ apply b_rsa_size | apply b_rng | apply b_hkdf | apply b_cmac_kdf
          | apply b_ecc_pub | apply b_ecc_check | apply b_ed_sign | apply b_ed_verify
          | apply b_aes_ctr | apply b_aes_ecb | apply b_aes_cbc | apply b_aes_gcm
          | apply b_cmac | apply b_sha2 | apply b_sha3 | apply b_mldsa_verify
          | (destruct export; [discriminate C|]; apply b_ecc_verify0)
          | (intros _; split; [constructor|exact Logic.I]) ]; assumption.
Qed.

Lemma handler_bounded_hdr : forall DL inSize q e,
  settings DL -> HDR + inSize <= DL -> fields_ok q ->
  (forall b i o, q <> QRsaFn b i o) ->
  bounded (DL + HDR) (HDR + inSize) (handler DL inSize q e).
Proof.
  intros DL inSize q e S I F R.
  assert (W : forall r, bounded DL (HDR + inSize) r -> bounded (DL + HDR) (HDR + inSize) r).
  { intros r B K. destruct (B K) as [B1 B2]. split.
    - apply Forall_forall. intros u U. rewrite Forall_forall in B1. specialize (B1 u U).
      destruct u; cbn [inside] in *; unfold HDR in *; lia.
    - destruct (snd r); [unfold HDR in *; lia|exact Logic.I]. }
  destruct (counts_header q) eqn:C.
  - apply W. apply handler_bounded; assumption.
  - destruct q; try discriminate C; cbn [handler];
    first [ apply b_rsa_gen | apply b_ecc_gen | apply b_ecdh | apply b_ecc_sign
          | apply b_ecc_verify | apply b_x25519_gen | apply b_x25519 | apply b_ed_gen
          | apply b_mldsa_gen | apply b_mldsa_sign | apply b_kem_gen | apply b_kem_enc
          | apply b_kem_dec | (exfalso; eapply R; reflexivity) ]; assumption.
Qed.

Lemma handler_fits : forall DL inSize q e,
  settings DL -> HDR + inSize <= DL -> fields_ok q ->
  fits DL (HDR + inSize) (handler DL inSize q e).
Proof.
  intros DL inSize q e S I F.
  destruct q; cbn [handler];
    first [ apply f_rsa_gen | apply f_rsa_fn | apply f_rsa_size | apply f_rng | apply f_hkdf
          | apply f_cmac_kdf | apply f_ecc_gen | apply f_ecdh | apply f_ecc_sign | apply f_ecc_verify
          | apply f_ecc_pub | apply f_ecc_check | apply f_x25519_gen | apply f_x25519 | apply f_ed_gen
          | apply f_ed_sign | apply f_ed_verify | apply f_aes_ctr | apply f_aes_ecb | apply f_aes_cbc
          | apply f_aes_gcm | apply f_cmac | apply f_sha2 | apply f_sha3 | apply f_mldsa_gen
          | apply f_mldsa_sign | apply f_mldsa_verify | apply f_kem_gen | apply f_kem_enc | apply f_kem_dec
          | (intros _ _; split; [constructor|exact Logic.I]) ]; assumption.
Qed.

Lemma handler_fresh : forall DL inSize q e,
  settings DL -> HDR + inSize <= DL -> fields_ok q ->
  fresh (HDR + inSize) (handler DL inSize q e).
Proof.
  intros DL inSize q e S I F.
  destruct q; cbn [handler];
    first [ eapply n_rsa_gen | eapply n_rsa_fn | eapply n_rsa_size | eapply n_rng | eapply n_hkdf
          | eapply n_cmac_kdf | eapply n_ecc_gen | eapply n_ecdh | eapply n_ecc_sign | eapply n_ecc_verify
          | eapply n_ecc_pub | eapply n_ecc_check | eapply n_x25519_gen | eapply n_x25519 | eapply n_ed_gen
          | eapply n_ed_sign | eapply n_ed_verify | eapply n_aes_ctr | eapply n_aes_ecb | eapply n_aes_cbc
          | eapply n_aes_gcm | eapply n_cmac | eapply n_sha2 | eapply n_sha3 | eapply n_mldsa_gen
          | eapply n_mldsa_sign | eapply n_mldsa_verify | eapply n_kem_gen | eapply n_kem_enc | eapply n_kem_dec
          | (intros _; exact Logic.I) ]; eassumption.
Qed.

Lemma keeps_mid : forall (P : use -> Prop) a l b,
  Forall P (a :: l ++ [b]) -> Forall P l.
Proof.
  intros P a l b H. apply Forall_inv_tail in H. apply Forall_app in H. apply H.
Qed.

Lemma mid_keeps : forall (P : use -> Prop) a l b,
  P a -> Forall P l -> P b -> Forall P (a :: l ++ [b]).
Proof.
  intros P a l b A H B. constructor; [exact A|]. apply Forall_app. split; [exact H|].
  constructor; [exact B|constructor].
Qed.

(* For every request whose handler counts the header, every use of memory is in
   bounds: what is read lies in the bytes received, what is written and the room
   promised to the library lie in the buffer, local arrays hold what is put in
   them, and the answer fits and is sent.
   Missing: the requests of [counts_header] = false; see the refutations. *)
Theorem C61_in_bounds_partial : forall DL req_size q e,
  settings DL -> req_size <= DL -> fields_ok q -> counts_header q = true ->
  Forall keeps_room (fst (serve DL req_size q e)) ->
  Forall (inside DL req_size) (fst (serve DL req_size q e))
  /\ sent DL (snd (serve DL req_size q e)) = true.
Proof.
  intros DL req_size q e S L F C K. unfold serve in *.
  destruct (req_size <? HDR) eqn:E.
  { split; [constructor|]. unfold sent. apply N.leb_le. exact L. }
  apply N.ltb_ge in E. cbn [fst snd] in *.
  assert (I : HDR + (req_size - HDR) <= DL) by (unfold HDR in *; lia).
  pose proof (handler_bounded DL (req_size - HDR) q e S I F C) as B.
  destruct (B (keeps_mid _ _ _ _ K)) as [B1 B2].
  replace (HDR + (req_size - HDR)) with req_size in B1 by lia.
  assert (D : HDR <= DL) by lia.
  split.
  - apply mid_keeps; [cbn [inside]; unfold HDR in *; lia | exact B1 | cbn [inside]; unfold HDR in *; lia].
  - unfold sent. apply N.leb_le. destruct (snd (handler DL (req_size - HDR) q e)); [|exact D].
    pose proof (u16_le (HDR + n)). lia.
Qed.

(* For every request except an RSA operation, what is promised to the library
   ends at most 12 bytes after the buffer, the size of the header forgotten;
   reads are in bounds all the same.
   Missing: the last 12 bytes. *)
Theorem C61_overrun_limited_partial : forall DL req_size q e,
  settings DL -> req_size <= DL -> fields_ok q ->
  (forall b i o, q <> QRsaFn b i o) ->
  Forall keeps_room (fst (serve DL req_size q e)) ->
  Forall (inside (DL + 12) req_size) (fst (serve DL req_size q e)).
Proof.
  intros DL req_size q e S L F R K. unfold serve in *.
  destruct (req_size <? HDR) eqn:E; [constructor|].
  apply N.ltb_ge in E. cbn [fst snd] in *.
  assert (I : HDR + (req_size - HDR) <= DL) by (unfold HDR in *; lia).
  pose proof (handler_bounded_hdr DL (req_size - HDR) q e S I F R) as B.
  destruct (B (keeps_mid _ _ _ _ K)) as [B1 _].
  replace (HDR + (req_size - HDR)) with req_size in B1 by lia.
  apply mid_keeps; [cbn [inside]; unfold HDR in *; lia | exact B1 | cbn [inside]; unfold HDR in *; lia].
Qed.

(* For every request: when the library's output lies in the buffer, so does
   everything else, and the answer fits and is sent. *)
Theorem C61_fitting_output_in_bounds : forall DL req_size q e,
  settings DL -> req_size <= DL -> fields_ok q ->
  Forall keeps_room (fst (serve DL req_size q e)) ->
  Forall (output_fits DL) (fst (serve DL req_size q e)) ->
  Forall (touches_inside DL req_size) (fst (serve DL req_size q e))
  /\ sent DL (snd (serve DL req_size q e)) = true.
Proof.
  intros DL req_size q e S L F K O. unfold serve in *.
  destruct (req_size <? HDR) eqn:E.
  { split; [constructor|]. unfold sent. apply N.leb_le. exact L. }
  apply N.ltb_ge in E. cbn [fst snd] in *.
  assert (I : HDR + (req_size - HDR) <= DL) by (unfold HDR in *; lia).
  pose proof (handler_fits DL (req_size - HDR) q e S I F) as B.
  destruct (B (keeps_mid _ _ _ _ K) (keeps_mid _ _ _ _ O)) as [B1 B2].
  replace (HDR + (req_size - HDR)) with req_size in B1 by lia.
  assert (D : HDR <= DL) by lia.
  split.
  - apply mid_keeps; [cbn [inside touches_inside]; unfold HDR in *; lia | exact B1
                     | cbn [inside touches_inside]; unfold HDR in *; lia].
  - unfold sent. apply N.leb_le. destruct (snd (handler DL (req_size - HDR) q e)); [|exact D].
    pose proof (u16_le (HDR + n)). lia.
Qed.

(* For every request, each byte of the answer was received with this request or
   put there while serving it: nothing left by an earlier exchange, perhaps of
   another client's key, is sent. *)
Theorem C61_answer_holds_no_old_bytes : forall DL req_size q e p,
  settings DL -> req_size <= DL -> fields_ok q ->
  Forall keeps_room (fst (serve DL req_size q e)) ->
  p < snd (serve DL req_size q e) ->
  p < req_size \/ Exists (put p) (fst (serve DL req_size q e)).
Proof.
  intros DL req_size q e p S L F K P. unfold serve in *.
  destruct (req_size <? HDR) eqn:E; [left; exact P|].
  apply N.ltb_ge in E. cbn [fst snd] in *.
  assert (I : HDR + (req_size - HDR) <= DL) by (unfold HDR in *; lia).
  pose proof (handler_fresh DL (req_size - HDR) q e S I F (keeps_mid _ _ _ _ K)) as B.
  replace (HDR + (req_size - HDR)) with req_size in B by lia.
  destruct (snd (handler DL (req_size - HDR) q e)) as [n|] eqn:N1.
  - assert (Q : p < HDR + n).
    { pose proof (u16_le (HDR + n)). lia. }
    destruct (B p Q) as [B1|B1]; [left; exact B1|right].
    apply Exists_cons_tl. apply Exists_app. left. exact B1.
  - left. lia.
Qed.

(* Concrete requests in a buffer of the default size 1280. *)
Module CryptoBoundsToy.

Definition ok : env := mkEnv true 32 32 true 64 32 true true.

(* Encryption of 1100 bytes with an inline key, and a derivation of 900 bytes
   from a stored key: both are answered and meet the theorems' hypotheses. *)
Example C61_gcm_runs :
  let r := serve 1280 (12 + 28 + 1100 + 16 + 12 + 20) (QAesGcm false true 16 1100 12 20 16) ok in
  snd r = 12 + 28 + 1100 + 16
  /\ Forall (inside 1280 1188) (fst r) /\ Forall keeps_room (fst r).
Proof.
  vm_compute. split; [reflexivity|]. split; repeat constructor; intros H; discriminate H.
Qed.

Example C61_hkdf_runs :
  let r := serve 1280 (12 + 56 + 10) (QHkdf true true 0 0 10 900) ok in
  snd r = 12 + 8 + 900 /\ Forall (inside 1280 78) (fst r).
Proof.
  vm_compute. split; [reflexivity|]. repeat constructor; intros H; discriminate H.
Qed.

(* A request whose fields do not fit what was received is refused. *)
Example C61_short_refused :
  snd (serve 1280 (12 + 16 + 40) (QEccVerify false 72 32) ok) = 12.
Proof. vm_compute. reflexivity. Qed.

(* Generating an ephemeral RSA key whose encoding takes the room the handler
   promised: the library stays in that room, yet twelve bytes are written after
   the end of the buffer, and the answer is too long to be sent. *)
Theorem C61_key_generation_overrun_refuted :
  exists e,
    let r := serve 1280 (12 + 40) (QRsaGen true) e in
    Forall keeps_room (fst r)
    /\ In (Lib 20 1272 1272) (fst r) /\ 1280 < 20 + 1272
    /\ sent 1280 (snd r) = false.
Proof.
  exists (mkEnv true 0 0 true 1272 0 true true). vm_compute.
  split; [repeat constructor; intros H; discriminate H|].
  split; [right; right; left; reflexivity|]. split; reflexivity.
Qed.

(* The same for a signature, whose room is also computed without the header:
   an ML-DSA-44 signature has 2420 bytes, which the buffer of 2428 bytes has
   not, after header and structure; it is written all the same. *)
Theorem C61_signature_overrun_refuted :
  exists e,
    let r := serve 2428 (12 + 24 + 32) (QMldsaSign 32 0) e in
    Forall keeps_room (fst r)
    /\ In (Lib 20 2420 2420) (fst r) /\ 2428 < 20 + 2420
    /\ sent 2428 (snd r) = false.
Proof.
  exists (mkEnv true 0 0 true 2420 0 true true). vm_compute.
  split; [repeat constructor; intros H; discriminate H|].
  split; [do 4 right; left; reflexivity|]. split; reflexivity.
Qed.

(* An RSA operation takes the room for its output from the request: a client
   that claims 60000 makes the server promise the library 60000 bytes. *)
Theorem C61_rsa_room_from_client_refuted :
  exists e,
    let r := serve 1280 (12 + 20 + 256) (QRsaFn true 256 60000) e in
    Forall keeps_room (fst r)
    /\ In (Lib 16 60000 256) (fst r) /\ 1280 + 12 < 16 + 60000.
Proof.
  exists (mkEnv true 0 0 true 256 256 true true). vm_compute.
  split; [repeat constructor; intros H; discriminate H|].
  split; [do 3 right; left; reflexivity|]. reflexivity.
Qed.

(* The hypotheses of the general theorems hold of these requests. *)
Example C61_hypotheses_met :
  settings 1280 /\ fields_ok (QAesGcm false true 16 1100 12 20 16)
  /\ fields_ok (QRsaFn true 256 60000) /\ fields_ok (QMldsaSign 32 0).
Proof.
  vm_compute. repeat split; first [reflexivity | intros H; discriminate H].
Qed.

End CryptoBoundsToy.

Print Assumptions C61_in_bounds_partial.
Print Assumptions C61_overrun_limited_partial.
Print Assumptions C61_fitting_output_in_bounds.
Print Assumptions C61_answer_holds_no_old_bytes.
Print Assumptions CryptoBoundsToy.C61_key_generation_overrun_refuted.
Print Assumptions CryptoBoundsToy.C61_signature_overrun_refuted.
Print Assumptions CryptoBoundsToy.C61_rsa_room_from_client_refuted.
