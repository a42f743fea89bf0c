(* C65: what the client library does with an answer, whatever the server sends. *)
From Coq Require Import NArith List Bool Lia.
From Verif Require Import ClientBoundsModel ClientBoundsSpec ClientBoundsProof.
Import ListNotations.
Open Scope N_scope.

(* A little-endian machine and a decoder that takes everything, for the examples. *)
Definition le (l : list N) : N := fold_right (fun x acc => x + 256 * acc) 0 l.
Definition any (l : list N) : bool := true.
(* A buffer holding a list of bytes, 170 elsewhere. *)
Definition holding (l : list N) (i : N) : N := nth (N.to_nat i) l 170.

(* Whatever is received, a call that knows the room of its caller stays inside. *)
Theorem C65_in_bounds_partial : forall DL word parse algo c b n,
  knows_room c = true -> in_bounds (snd (answer DL word parse algo c b n)).
Proof. exact in_bounds_answer. Qed.
Print Assumptions C65_in_bounds_partial.

(* The calls left out above stay inside when the caller's room is as large as
   the message. *)
Theorem C65_in_bounds_roomy : forall DL word parse algo c b n,
  match c with
  | CEcho (Some cap) | CNvmRead (Some cap) | CAesCtr cap | CAesEcb cap | CAesCbc cap => n <= cap
  | _ => True
  end -> in_bounds (snd (answer DL word parse algo c b n)).
Proof. exact in_bounds_roomy. Qed.
Print Assumptions C65_in_bounds_roomy.

(* Echo and NVM read store as much as the server sends; the AES answers as much
   as the server says. *)
Theorem C65_in_bounds_refuted : forall DL word parse algo cap b n,
  (cap < n -> ~ in_bounds (snd (answer DL word parse algo (CEcho (Some cap)) b n))) /\
  (4 + cap < n -> n <= DL -> ~ in_bounds (snd (answer DL word parse algo (CNvmRead (Some cap)) b n))) /\
  (number word b 0 4 = algo -> number word b 4 4 = 0 -> cap < number word b 12 4 ->
   (64 + number word b 12 4 <= n -> ~ in_bounds (snd (answer DL word parse algo (CAesCtr cap) b n))) /\
   (28 + number word b 12 4 <= n -> ~ in_bounds (snd (answer DL word parse algo (CAesEcb cap) b n))) /\
   (44 + number word b 12 4 <= n -> ~ in_bounds (snd (answer DL word parse algo (CAesCbc cap) b n)))).
Proof.
  intros DL word parse algo cap b n. rewrite !number4.
  assert (OUT : forall l off len, In (Copied cap (bytes b off len)) l -> cap < len -> ~ in_bounds l).
  { intros l off len I L B. specialize (B _ I). cbn beta iota in B. rewrite length_bytes in B. lia. }
  assert (T : forall x y, y <= x -> (x <? y) = false) by (intros; apply N.ltb_ge; assumption).
  split; [|split].
  - intros L. apply (OUT _ 0 n); [|lia]. cbn. auto.
  - intros L D. apply (OUT _ 4 (n - 4)); [|lia]. unfold answer, r_nvm_read.
    rewrite !T by lia. cbn. auto.
  - intros A R L.
    split; [|split]; intros F; [apply (OUT _ 32 (f32 word b 12)) | apply (OUT _ 28 (f32 word b 12)) | apply (OUT _ 28 (f32 word b 12))];
      try lia; unfold answer, r_aes_ctr, r_aes_ecb, r_aes_cbc, HDR, AES_BLOCK; cbn zeta;
      rewrite header_good by (split; assumption); rewrite !T by lia; cbn; auto.
Qed.
Print Assumptions C65_in_bounds_refuted.

(* A caller decrypting 16 bytes gets 20. *)
Definition ecb_20 : list N :=
  [2;0;0;0; 0;0;0;0; 0;0;0;0; 20;0;0;0; 0;0;0;0; 0;0;0;0; 0;0;0;0;
   1;2;3;4;5;6;7;8;9;10;11;12;13;14;15;16;17;18;19;20].
Example C65_in_bounds_refuted_met :
  ~ in_bounds (snd (answer 1280 le any 2 (CAesEcb 16) (holding ecb_20) 48)).
Proof.
  intro B. specialize (B (Copied 16 [1;2;3;4;5;6;7;8;9;10;11;12;13;14;15;16;17;18;19;20])).
  assert (I : In (Copied 16 [1;2;3;4;5;6;7;8;9;10;11;12;13;14;15;16;17;18;19;20])
                (snd (answer 1280 le any 2 (CAesEcb 16) (holding ecb_20) 48))) by (vm_compute; auto).
  specialize (B I). vm_compute in B. apply B. reflexivity.
Qed.

(* The outcome is a function of the message: no byte beyond the size received is
   used, even when its length fields claim more. *)
Theorem C65_only_received_partial : forall DL word parse algo n b1 b2 c,
  same_message n b1 b2 -> looks_first c = true ->
  answer DL word parse algo c b1 n = answer DL word parse algo c b2 n.
Proof. intros DL word parse algo n b1 b2 c S K. apply answer_same; assumption. Qed.
Print Assumptions C65_only_received_partial.

(* An answer that claims 200 signature bytes but holds 2. *)
Definition claims_200 : list N := [7;0;0;0; 0;0;0;0; 0;0;0;0; 200;0;0;0; 1;2].
Example C65_only_received_met :
  answer 1280 le any 7 (CEccSign true (Some 256)) (holding claims_200) 18 = fail /\
  answer 1280 le any 7 (CEccSign true (Some 256)) (holding claims_200) 216 <> fail.
Proof. vm_compute. split; [reflexivity|discriminate]. Qed.

(* The Curve25519, ML-DSA and ML-KEM key generations hand out a key id although
   nothing was received. *)
Theorem C65_only_received_refuted :
  exists b1 b2, same_message 0 b1 b2 /\
    forall g, In g [GX25519; GMldsa; GMlkem] ->
      answer 1280 le any 9 (CMakeKey g true false) b1 0 = (true, [Value 5]) /\
      answer 1280 le any 9 (CMakeKey g true false) b2 0 = (true, [Value 6]).
Proof.
  exists (holding [9;0;0;0; 0;0;0;0; 0;0;0;0; 5;0;0;0; 0;0;0;0]),
         (holding [9;0;0;0; 0;0;0;0; 0;0;0;0; 6;0;0;0; 0;0;0;0]).
  split; [intros i H; lia|].
  intros g G. repeat (destruct G as [G|G]; [subst g; vm_compute; split; reflexivity|]). contradiction.
Qed.
Print Assumptions C65_only_received_refuted.

(* After a success a length told for a buffer is one the buffer has room for. *)
Theorem C65_told_partial : forall DL word parse algo c b n,
  compares_told c = true ->
  fst (answer DL word parse algo c b n) = true -> told_room (snd (answer DL word parse algo c b n)).
Proof. exact told_answer. Qed.
Print Assumptions C65_told_partial.

(* A DMA export of a key and a DMA Ed25519 signature report the server's number
   whatever room there was. *)
Theorem C65_told_refuted : forall DL word parse algo cap label b,
  (number word b 0 4 = algo -> number word b 4 4 = 0 -> cap < number word b 28 4 ->
   fst (answer DL word parse algo (CEdSignDma cap) b 36) = true /\
   ~ told_room (snd (answer DL word parse algo (CEdSignDma cap) b 36))) /\
  (number word b 16 4 = 0 -> cap < number word b 20 4 < 65536 ->
   fst (answer DL word parse algo (CKeyExportDma label cap) b 48) = true /\
   ~ told_room (snd (answer DL word parse algo (CKeyExportDma label cap) b 48))).
Proof.
  intros DL word parse algo cap label b. rewrite !number4. split.
  - intros A R L. unfold answer, r_ed_sign_dma, HDR. rewrite header_good by (split; assumption).
    change (36 <? 12 + 24) with false. cbn [negb fst snd]. rewrite rc0_good with (algo := algo) by (split; assumption).
    split; [reflexivity|]. intro T. specialize (T cap (f32 word b 28) (or_introl eq_refl)). lia.
  - intros R L. unfold answer, r_key_export_dma. rewrite R.
    change (48 =? 48) with true. change (0 =? 0) with true. cbn [negb fst snd].
    split; [reflexivity|]. intro T. specialize (T cap (u16 (f32 word b 20)) (or_introl eq_refl)).
    unfold u16 in T. rewrite N.mod_small in T by lia. lia.
Qed.
Print Assumptions C65_told_refuted.
Example C65_told_refuted_met :
  answer 1280 le any 7 (CEdSignDma 64) (holding ([7;0;0;0; 0;0;0;0] ++ repeat 0 20 ++ [200;0;0;0])) 36
  = (true, [Told 64 200]).
Proof. reflexivity. Qed.

(* An answer that reports success and whose output fits is delivered: the caller
   gets exactly the output bytes of the message. *)
Theorem C65_delivers : forall DL word parse algo c l b n,
  n <= DL -> layout_of c = Some l -> reports_success word algo c b ->
  0 < number word b (len_at l) (len_size l) ->
  data_at l + number word b (len_at l) (len_size l) + after l <= n ->
  number word b (len_at l) (len_size l) <= room l ->
  fst (answer DL word parse algo c b n) = true /\
  In (Copied (room l) (bytes b (data_at l) (number word b (len_at l) (len_size l))))
     (snd (answer DL word parse algo c b n)).
Proof. exact answer_delivers. Qed.
Print Assumptions C65_delivers.

(* And a success means that the message held the output, and the room too where
   the function knows it. *)
Theorem C65_delivered_was_received : forall DL word parse algo c l b n,
  layout_of c = Some l -> fst (answer DL word parse algo c b n) = true ->
  data_at l + number word b (len_at l) (len_size l) + after l <= n /\
  (knows_room c = true -> number word b (len_at l) (len_size l) <= room l).
Proof. exact answer_complete. Qed.
Print Assumptions C65_delivered_was_received.

Example C65_delivers_met :
  answer 1280 le any 7 (CEccSign true (Some 8))
    (holding [7;0;0;0; 0;0;0;0; 0;0;0;0; 3;0;0;0; 11;12;13]) 19
  = (true, [Told 8 3; Copied 8 [11;12;13]]) /\
  answer 1280 le any 7 (CUnwrapExport 1 8)
    (holding ([0;0;0;0; 2;0; 1;0] ++ repeat 9 40 ++ [21;22])) 50
  = (true, [Copied 40 (repeat 9 40); Copied 8 [21;22]; Told 8 2]).
Proof. vm_compute. split; reflexivity. Qed.

(* Every answer of fixed layout hands the caller the declared fields. *)
Theorem C65_fixed_fields : forall DL word parse algo m b n,
  n = total (struct_of m) ->
  match code_field m with Some i => number word b (place (struct_of m) i) 4 = 0 | None => True end ->
  answer DL word parse algo (CFixed m) b n = (true, map (gets (struct_of m) b) (handed m)).
Proof. exact fixed_gets. Qed.
Print Assumptions C65_fixed_fields.

Theorem C65_crypto_fields : forall DL word parse algo m b n,
  total (crypto_struct m) <= n -> number word b 0 4 = algo -> number word b 4 4 = 0 ->
  answer DL word parse algo (CCrypto m) b n = (true, crypto_handed word m b).
Proof. exact crypto_gets. Qed.
Print Assumptions C65_crypto_fields.

Theorem C65_sha2_fields : forall DL word parse algo (dma last : bool) h b n,
  total (sha2_struct dma) <= n -> number word b 0 4 = algo -> number word b 4 4 = 0 ->
  number word b (place (sha2_struct dma) (if dma then 7 else 6)) 4 = algo ->
  answer DL word parse algo (CSha2 dma last h) b n =
    (true,
     let s := sha2_struct dma in
     if last then [gets_first s b (if dma then 4 else 5) (digest_bytes h)]
     else [gets_first s b (if dma then 4 else 5) (state_bytes h);
           gets s b (if dma then 5 else 3); gets s b (if dma then 6 else 4)]).
Proof. exact sha2_gets. Qed.
Print Assumptions C65_sha2_fields.

Theorem C65_sha3_fields : forall DL word parse algo (dma last : bool) h b n,
  total (sha3_struct dma) <= n -> number word b 0 4 = algo -> number word b 4 4 = 0 ->
  answer DL word parse algo (CSha3 dma last h) b n =
    (true,
     let s := sha3_struct dma in
     if last then [gets_first s b (if dma then 5 else 4) (digest_bytes h)]
     else [gets s b 3]).
Proof. exact sha3_gets. Qed.
Print Assumptions C65_sha3_fields.

Example C65_fields_met :
  answer 1280 le any 7 (CFixed MNvmList) (holding [0;0;0;0; 3;0; 9;0]) 8
  = (true, [Copied 4 [0;0;0;0]; Copied 2 [3;0]; Copied 2 [9;0]]) /\
  answer 1280 le any 7 (CCrypto MRsaGetSize) (holding [7;0;0;0; 0;0;0;0; 0;0;0;0; 0;1;0;0]) 16
  = (true, [Copied 4 [0;1;0;0]]).
Proof. vm_compute. split; reflexivity. Qed.

(* Answers with two outputs, and what comes with an output. *)
Theorem C65_gcm_delivers : forall DL word parse algo co ct b n,
  number word b 0 4 = algo -> number word b 4 4 = 0 ->
  0 < number word b 12 4 -> 0 < number word b 16 4 ->
  40 + number word b 12 4 + number word b 16 4 <= n -> n < 4294967296 ->
  number word b 12 4 <= co -> number word b 16 4 <= ct ->
  answer DL word parse algo (CAesGcm (Some co) (Some ct)) b n =
    (true, [Copied co (bytes b 40 (number word b 12 4)); Told co (number word b 12 4);
            Copied ct (bytes b (40 + number word b 12 4) (number word b 16 4))]).
Proof. exact gcm_delivers. Qed.
Print Assumptions C65_gcm_delivers.

Theorem C65_encaps_delivers : forall DL word parse algo cc cs b n,
  number word b 0 4 = algo -> number word b 4 4 = 0 ->
  20 + number word b 12 4 + number word b 16 4 <= n ->
  number word b 12 4 <= cc -> number word b 16 4 <= cs ->
  answer DL word parse algo (CEncaps cc cs) b n =
    (true, [Copied cc (bytes b 20 (number word b 12 4));
            Copied cs (bytes b (20 + number word b 12 4) (number word b 16 4));
            Told cc (number word b 12 4); Told cs (number word b 16 4)]).
Proof. exact encaps_delivers. Qed.
Print Assumptions C65_encaps_delivers.

Theorem C65_cmac_delivers : forall DL word parse algo (dma : bool) cap b n,
  let hdr := if dma then 76 else 60 in
  let sz := number word b (if dma then 68 else 52) 4 in
  number word b 0 4 = algo -> number word b 4 4 = 0 -> number word b 44 4 <= 16 ->
  4 <= cap <= 16 -> hdr + sz <= n ->
  answer DL word parse algo (CCmac dma (Some cap)) b n =
    (true, [Copied 16 (bytes b 12 16); Copied 16 (bytes b 28 16);
            Copied 4 (bytes b 44 4); Copied 4 (bytes b 48 4);
            Told cap (N.min sz cap); Copied cap (bytes b hdr (N.min sz cap))]).
Proof. exact cmac_delivers. Qed.
Print Assumptions C65_cmac_delivers.

Theorem C65_key_parsed : forall DL word parse algo g id b n,
  number word b 0 4 = algo -> number word b 4 4 = 0 ->
  0 < number word b 16 4 < 65536 -> 20 + number word b 16 4 <= n ->
  fst (answer DL word parse algo (CMakeKey g id true) b n) = parse (bytes b 20 (number word b 16 4)) /\
  In (Parsed (bytes b 20 (number word b 16 4))) (snd (answer DL word parse algo (CMakeKey g id true) b n)) /\
  (id = true -> In (Value (u16 (number word b 12 4))) (snd (answer DL word parse algo (CMakeKey g id true) b n))).
Proof. exact key_parsed. Qed.
Print Assumptions C65_key_parsed.

Theorem C65_label_delivered : forall DL word parse algo cap b n c off,
  (exists p o, c = CKeyExport p (Some cap) o /\ off = 8) \/
  (exists k, c = CKeyExportDma (Some cap) k /\ off = 24) \/
  (c = CNvmMeta (Some cap) /\ off = 12) ->
  fst (answer DL word parse algo c b n) = true ->
  In (Copied cap (bytes b off (N.min 24 cap))) (snd (answer DL word parse algo c b n)).
Proof. exact label_delivered. Qed.
Print Assumptions C65_label_delivered.

Theorem C65_aes_chain_delivered : forall DL word parse algo cap b n,
  (fst (answer DL word parse algo (CAesCtr cap) b n) = true ->
     In (Copied 4 (bytes b 16 4)) (snd (answer DL word parse algo (CAesCtr cap) b n)) /\
     In (Copied 16 (bytes b (32 + number word b 12 4) 16)) (snd (answer DL word parse algo (CAesCtr cap) b n)) /\
     In (Copied 16 (bytes b (48 + number word b 12 4) 16)) (snd (answer DL word parse algo (CAesCtr cap) b n))) /\
  (fst (answer DL word parse algo (CAesCbc cap) b n) = true ->
     In (Copied 16 (bytes b (28 + number word b 12 4) 16)) (snd (answer DL word parse algo (CAesCbc cap) b n))).
Proof. exact aes_chain_delivered. Qed.
Print Assumptions C65_aes_chain_delivered.

Definition gcm_msg : list N :=
  [2;0;0;0; 0;0;0;0; 0;0;0;0; 3;0;0;0; 2;0;0;0] ++ repeat 0 20 ++ [1;2;3; 8;9].
Example C65_two_outputs_met :
  answer 1280 le any 2 (CAesGcm (Some 16) (Some 16)) (holding gcm_msg) 45
  = (true, [Copied 16 [1;2;3]; Told 16 3; Copied 16 [8;9]]) /\
  answer 1280 le any 9 (CMakeKey GEcc true true)
    (holding [9;0;0;0; 0;0;0;0; 0;0;0;0; 5;0;0;0; 2;0;0;0; 48;49]) 22
  = (true, [Value 5; Value 0; Parsed [48;49]]) /\
  answer 1280 le any 9 (CEncaps 4 4)
    (holding [9;0;0;0; 0;0;0;0; 0;0;0;0; 2;0;0;0; 1;0;0;0; 48;49; 50]) 23
  = (true, [Copied 4 [48;49]; Copied 4 [50]; Told 4 2; Told 4 1]).
Proof. vm_compute. split; [reflexivity|split; reflexivity]. Qed.

(* A refused ML-KEM answer leaves no secret: the caller's buffer is wiped over
   the length the caller is left with. *)
Theorem C65_kem_failure_wipes : forall DL word parse algo c ss b n,
  (exists ct, c = CEncaps ct ss) \/ c = CDecaps ss \/ (exists ct, c = CEncapsDma ct ss) \/ c = CDecapsDma ss ->
  fst (answer DL word parse algo c b n) = false ->
  exists l k, snd (answer DL word parse algo c b n) = l ++ [Cleared ss k] /\
    ((l = [] /\ k = ss) \/
     (exists bs, In (Copied ss bs) l /\ N.of_nat (length bs) = k)).
Proof.
  intros DL word parse algo c ss b n H.
  destruct H as [[ct ->]|[->|[[ct ->]| ->]]]; unfold answer, r_encaps, r_decaps, r_encaps_dma, r_decaps_dma; cbn zeta;
    split_ifs; cbn [fst snd]; intro Q; try discriminate Q;
    match goal with
    | |- exists l k, [Cleared ss ss] = _ /\ _ => exists [], ss; split; [reflexivity|left; split; reflexivity]
    | |- exists l k, ?m ++ [Cleared ss ?s] = _ /\ _ => exists m, s; split; [reflexivity|right]
    | |- _ => idtac
    end.
  - eexists. split; [right; left; reflexivity|]. apply length_bytes.
  - eexists. split; [left; reflexivity|]. apply length_bytes.
  - eexists. split; [left; reflexivity|]. apply length_bytes.
  - eexists. split; [left; reflexivity|]. apply length_bytes.
Qed.
Print Assumptions C65_kem_failure_wipes.

(* An answer that reports an error makes the call fail and hands the caller
   nothing; reading a trusted certificate hands out the code itself. *)
Theorem C65_error_reported : forall DL word parse algo c b n,
  reports_error word algo c b ->
  fst (answer DL word parse algo c b n) = false /\
  match c with CReadTrusted _ _ => True | _ => hands_nothing (snd (answer DL word parse algo c b n)) end.
Proof. exact answer_error. Qed.
Print Assumptions C65_error_reported.
(* A counter answer with code -2006 and a count of 5. *)
Example C65_error_reported_met :
  let b := holding [42;248;255;255; 5;0;0;0] in
  reports_error le 7 (CFixed MCounterRead) b /\ answer 1280 le any 7 (CFixed MCounterRead) b 8 = fail.
Proof. vm_compute. split; [discriminate|reflexivity]. Qed.

(* What a call decodes as a key is part of the message received, for every call. *)
Theorem C65_parsed_was_received : forall DL word parse algo c b n der,
  In (Parsed der) (snd (answer DL word parse algo c b n)) ->
  exists off, off + N.of_nat (length der) <= n /\ der = bytes b off (N.of_nat (length der)).
Proof. exact parsed_received. Qed.
Print Assumptions C65_parsed_was_received.
(* A Curve25519 key of 2 bytes is decoded, one that claims 9 is not. *)
Example C65_parsed_was_received_met :
  let b l := holding [9;0;0;0; 0;0;0;0; 0;0;0;0; 5;0;0;0; l;0;0;0; 48;49] in
  In (Parsed [48;49]) (snd (answer 1280 le any 9 (CMakeKey GX25519 true true) (b 2) 22)) /\
  answer 1280 le any 9 (CMakeKey GX25519 true true) (b 9) 22 = (false, [Value 5; Value 5]).
Proof. vm_compute. split; [auto|reflexivity]. Qed.

(* The identifier of a shared secret kept on the server, and the result of a
   verification, are the fields of the message with that meaning. *)
Theorem C65_shared_id : forall DL word parse algo size out b n,
  fst (answer DL word parse algo (CShared true size out) b n) = true ->
  In (Value (number word b 16 4 mod 65536)) (snd (answer DL word parse algo (CShared true size out) b n)).
Proof. exact shared_id. Qed.
Print Assumptions C65_shared_id.
Theorem C65_verify_result : forall DL word parse algo key b n,
  fst (answer DL word parse algo (CEccVerify key) b n) = true ->
  20 <= n /\ In (Copied 4 (bytes b 12 4)) (snd (answer DL word parse algo (CEccVerify key) b n)).
Proof. exact verify_result. Qed.
Print Assumptions C65_verify_result.
Example C65_shared_id_met :
  answer 1280 le any 9 (CShared true true None) (holding [9;0;0;0; 0;0;0;0; 0;0;0;0; 0;0;0;0; 6;0;0;0]) 20
  = (true, [Value 6; Value 0]) /\
  answer 1280 le any 9 (CEccVerify false) (holding [9;0;0;0; 0;0;0;0; 0;0;0;0; 1;0;0;0; 0;0;0;0]) 20
  = (true, [Copied 4 [1;0;0;0]]).
Proof. vm_compute. split; reflexivity. Qed.
