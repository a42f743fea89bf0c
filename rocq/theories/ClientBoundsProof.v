(* Proofs for C65. *)
From Coq Require Import NArith List Bool Lia.
From Verif Require Import ClientBoundsModel ClientBoundsSpec.
Import ListNotations.
Open Scope N_scope.

Lemma length_bytes : forall b off len, N.of_nat (length (bytes b off len)) = len.
Proof. intros b off len. unfold bytes. rewrite map_length, seq_length. apply N2Nat.id. Qed.

Lemma u16_le : forall v, u16 v <= v.
Proof. intro v. unfold u16. apply N.mod_le. discriminate. Qed.

Lemma u32_le : forall v, u32 v <= v.
Proof. intro v. unfold u32. apply N.mod_le. discriminate. Qed.

Lemma u32_lt : forall v, u32 v < 4294967296.
Proof. intro v. unfold u32. apply N.mod_lt. discriminate. Qed.

Lemma u32_small : forall v, v < 4294967296 -> u32 v = v.
Proof. intros v H. unfold u32. apply N.mod_small, H. Qed.

Lemma bytes_same : forall n b1 b2 off len, same_message n b1 b2 -> off + len <= n ->
  bytes b1 off len = bytes b2 off len.
Proof.
  intros n b1 b2 off len H L. unfold bytes. apply map_ext_in. intros i I.
  apply in_seq in I. apply H. lia.
Qed.

(* The tests in a goal become hypotheses. *)
Ltac tests :=
  repeat match goal with
  | H : (_ <? _) = true |- _ => apply N.ltb_lt in H
  | H : (_ <? _) = false |- _ => apply N.ltb_ge in H
  | H : (_ <=? _) = true |- _ => apply N.leb_le in H
  | H : (_ <=? _) = false |- _ => apply N.leb_gt in H
  | H : (_ =? _) = true |- _ => apply N.eqb_eq in H
  | H : (_ =? _) = false |- _ => apply N.eqb_neq in H
  | H : negb _ = true |- _ => apply negb_true_iff in H
  | H : negb _ = false |- _ => apply negb_false_iff in H
  | H : (_ || _) = false |- _ => apply orb_false_iff in H; destruct H
  | H : (_ && _) = true |- _ => apply andb_true_iff in H; destruct H
  end.

Ltac split_ifs :=
  repeat match goal with
  | |- context [if ?c then _ else _] =>
      lazymatch c with context [if _ then _ else _] => fail | _ => destruct c eqn:? end
  end.

Section Facts.
Variable DL : N.
Variable word : list N -> N.
Variable parse : list N -> bool.
Variable algo : N.

Notation answer := (answer DL word parse algo).
Notation f32 := (f32 word).
Notation f16 := (f16 word).

(* ---- stores stay inside ---- *)

Definition ok_eff (e : eff) : Prop :=
  match e with
  | Copied cap bs => N.of_nat (length bs) <= cap
  | Cleared cap len | Used cap len => len <= cap
  | Told _ _ | Value _ | Parsed _ => True
  end.

Lemma in_bounds_Forall : forall l, Forall ok_eff l -> in_bounds l.
Proof. intros l H e I. exact (proj1 (Forall_forall _ _) H e I). Qed.

Lemma ok_field : forall b p, ok_eff (field b p).
Proof. intros b p. unfold field, ok_eff. rewrite length_bytes. lia. Qed.

Lemma ok_copied : forall cap b off len, len <= cap -> ok_eff (Copied cap (bytes b off len)).
Proof. intros. unfold ok_eff. rewrite length_bytes. assumption. Qed.

Lemma ok_label : forall b off label, Forall ok_eff (label_eff b off label).
Proof.
  intros b off [cap|]; unfold label_eff; [|constructor].
  constructor; [|constructor]. apply ok_copied. destruct (LABEL <? cap) eqn:E; tests; lia.
Qed.

Lemma ok_id : forall id b off, Forall ok_eff (id_eff word id b off).
Proof. intros [] b off; unfold id_eff; repeat constructor. Qed.

Lemma ok_fields : forall b l, Forall ok_eff (map (field b) l).
Proof. intros b l. induction l; cbn [map]; constructor; auto using ok_field. Qed.

Ltac effs :=
  cbn [snd fail app];
  repeat first
    [ apply Forall_nil
    | apply ok_label | apply ok_id | apply ok_fields
    | apply Forall_app; split
    | apply Forall_cons
    | apply ok_field
    | apply ok_copied; lia
    | exact I
    | (unfold ok_eff; lia) ].

Lemma in_bounds_answer : forall c b n, knows_room c = true -> in_bounds (snd (answer c b n)).
Proof.
  intros c b n K. apply in_bounds_Forall. unfold ClientBoundsModel.answer.
  destruct c; try discriminate K.
  - unfold r_fixed. destruct (row m) as [[[ex sz] rc] outs].
    destruct (if ex then _ else _); [effs|]. destruct rc; [destruct (_ =? 0)|]; effs.
  - unfold r_auth_login. split_ifs; effs.
  - unfold r_custom_query. split_ifs; effs.
  - destruct data; [discriminate K|]. unfold r_echo. cbn [copy_if]. effs.
  - unfold r_nvm_meta. split_ifs; effs.
  - destruct data; [discriminate K|]. unfold r_nvm_read. cbn [copy_if]. split_ifs; effs.
  - unfold r_key_export. cbn zeta. destruct public, out as [cap|]; split_ifs; tests; effs.
  - unfold r_key_export_dma. split_ifs; effs.
  - unfold r_wrap. split_ifs; tests; effs.
  - unfold r_unwrap_export. split_ifs; tests; effs.
  - unfold r_unwrap_cache. split_ifs; tests; effs.
  - unfold r_data_wrap. split_ifs; tests; effs.
  - unfold r_read_trusted. cbn zeta. split_ifs; tests; effs.
  - unfold r_she_rnd. split_ifs; tests; effs.
  - unfold r_she_mac. split_ifs; tests; effs.
  - unfold r_she_cipher. split_ifs; tests; effs.
  - unfold r_crypto. destruct (crypto_row m) as [[po sz] outs]. split_ifs; destruct m; effs.
  - unfold r_sha2. cbn zeta. destruct dma, last; split_ifs; effs.
  - unfold r_sha3. destruct dma, last; split_ifs; effs.
  - unfold r_rng. cbn zeta. split_ifs; tests; effs.
  - unfold r_aes_gcm. cbn zeta. destruct out as [o|], tag as [t|]; split_ifs; tests; effs.
  - unfold r_aes_gcm_dma. cbn zeta. destruct tag as [t|]; split_ifs; tests; effs.
  - unfold r_make_key. cbn zeta. destruct g, key; split_ifs; effs.
  - unfold r_make_key_dma. cbn zeta. destruct key; split_ifs; tests; effs.
  - unfold r_shared, deliver. cbn zeta. destruct out as [o|]; split_ifs; tests; effs.
  - unfold r_ecc_sign, deliver. cbn zeta. destruct out as [o|]; split_ifs; tests; effs.
  - unfold r_rsa_fn, deliver. cbn zeta. destruct out as [o|]; split_ifs; tests; effs.
  - unfold r_ecc_verify. cbn zeta. split_ifs; tests; effs.
  - unfold r_ecc_pub. cbn zeta. split_ifs; tests; effs.
  - unfold r_ecc_check. split_ifs; tests; effs.
  - unfold r_ed_sign. cbn zeta. destruct out as [o|]; split_ifs; tests; effs.
  - unfold r_ed_sign_dma. split_ifs; tests; effs.
  - unfold r_mldsa_sign. cbn zeta. split_ifs; tests; effs.
  - unfold r_sign_dma. split_ifs; tests; effs.
  - unfold r_kdf. cbn zeta. destruct out as [o|]; split_ifs; tests; effs.
  - unfold r_cmac. cbn zeta. destruct dma, out as [o|]; split_ifs; tests; effs.
  - unfold r_encaps. cbn zeta. split_ifs; tests; effs.
  - unfold r_decaps. cbn zeta. split_ifs; tests; effs.
  - unfold r_encaps_dma. cbn zeta. split_ifs; tests; effs.
  - unfold r_decaps_dma. cbn zeta. split_ifs; tests; effs.
Qed.

(* The others stay inside when the room is as large as the message. *)
Lemma in_bounds_roomy : forall c b n,
  match c with
  | CEcho (Some cap) | CNvmRead (Some cap) | CAesCtr cap | CAesEcb cap | CAesCbc cap => n <= cap
  | _ => True
  end -> in_bounds (snd (answer c b n)).
Proof.
  intros c b n R. destruct (knows_room c) eqn:K; [apply in_bounds_answer, K|].
  apply in_bounds_Forall. unfold ClientBoundsModel.answer.
  destruct c; try discriminate K.
  - destruct data as [cap|]; [|discriminate K]. unfold r_echo. cbn [copy_if]. effs.
  - destruct data as [cap|]; [|discriminate K]. unfold r_nvm_read. cbn [copy_if]. split_ifs; tests; effs.
  - unfold r_aes_ctr, HDR, AES_BLOCK. cbn zeta. split_ifs; tests; effs.
  - unfold r_aes_ecb, HDR, AES_BLOCK. cbn zeta. split_ifs; tests; effs.
  - unfold r_aes_cbc, HDR, AES_BLOCK. cbn zeta. split_ifs; tests; effs.
Qed.

(* ---- the lengths told ---- *)

Definition told_eff (e : eff) : Prop := match e with Told cap v => v <= cap | _ => True end.

Lemma told_Forall : forall l, Forall told_eff l -> told_room l.
Proof. intros l H cap v I. exact (proj1 (Forall_forall _ _) H _ I). Qed.

Lemma told_label : forall b off label, Forall told_eff (label_eff b off label).
Proof. intros b off [cap|]; unfold label_eff; repeat constructor. Qed.

Lemma told_id : forall id b off, Forall told_eff (id_eff word id b off).
Proof. intros [] b off; unfold id_eff; repeat constructor. Qed.

Lemma told_fields : forall b l, Forall told_eff (map (field b) l).
Proof. intros b l. induction l; cbn [map]; constructor; [exact I|assumption]. Qed.

Ltac tolds :=
  cbn [snd fail app copy_if];
  repeat first
    [ apply Forall_nil
    | apply told_label | apply told_id | apply told_fields
    | apply Forall_app; split
    | apply Forall_cons
    | exact I
    | (unfold told_eff; lia)
    | (unfold told_eff; eapply N.le_trans; [apply u16_le|lia]) ].

Lemma told_answer : forall c b n, compares_told c = true ->
  fst (answer c b n) = true -> told_room (snd (answer c b n)).
Proof.
  intros c b n K OK. apply told_Forall. revert OK. unfold ClientBoundsModel.answer.
  destruct c; try discriminate K.
  - intros _. unfold r_fixed. destruct (row m) as [[[ex sz] rc] outs].
    destruct (if ex then _ else _); [tolds|]. destruct rc; [destruct (_ =? 0)|]; tolds.
  - unfold r_auth_login. split_ifs; intros _; tolds.
  - unfold r_custom_query. split_ifs; intros _; tolds.
  - unfold r_echo. destruct data; intros _; tolds.
  - unfold r_nvm_meta. split_ifs; intros _; tolds.
  - unfold r_nvm_read. destruct data; split_ifs; intros _; tolds.
  - unfold r_key_export. cbn zeta. destruct public, out as [cap|]; split_ifs; tests; intros _; tolds.
  - unfold r_wrap. split_ifs; tests; intros _; tolds.
  - unfold r_unwrap_export. split_ifs; tests; intros _; tolds.
  - unfold r_unwrap_cache. split_ifs; tests; intros _; tolds.
  - unfold r_data_wrap. split_ifs; tests; intros _; tolds.
  - unfold r_read_trusted. cbn zeta. split_ifs; tests; try discriminate; intros _; tolds.
  - unfold r_she_rnd. split_ifs; tests; intros _; tolds.
  - unfold r_she_mac. split_ifs; tests; intros _; tolds.
  - unfold r_she_cipher. split_ifs; tests; intros _; tolds.
  - unfold r_crypto. destruct (crypto_row m) as [[po sz] outs]. split_ifs; intros _; destruct m; tolds.
  - unfold r_sha2. cbn zeta. destruct dma, last; split_ifs; intros _; tolds.
  - unfold r_sha3. destruct dma, last; split_ifs; intros _; tolds.
  - unfold r_rng. cbn zeta. split_ifs; tests; intros _; tolds.
  - unfold r_aes_gcm. cbn zeta. destruct out as [o|], tag as [t|]; split_ifs; tests; intros _; tolds.
  - unfold r_aes_gcm_dma. cbn zeta. destruct tag as [t|]; split_ifs; tests; intros _; tolds.
  - unfold r_make_key. cbn zeta. destruct g, key; split_ifs; intros _; tolds.
  - unfold r_make_key_dma. cbn zeta. destruct key; split_ifs; tests; intros _; tolds.
  - unfold r_shared, deliver. cbn zeta. destruct out as [o|]; split_ifs; tests; try discriminate; intros _; tolds.
  - unfold r_ecc_sign, deliver. cbn zeta. destruct out as [o|]; split_ifs; tests; try discriminate; intros _; tolds.
  - unfold r_rsa_fn, deliver. cbn zeta. destruct out as [o|]; split_ifs; tests; try discriminate; intros _; tolds.
  - unfold r_ecc_verify. cbn zeta. split_ifs; tests; intros _; tolds.
  - unfold r_ecc_pub. cbn zeta. split_ifs; tests; try discriminate; intros _; tolds.
  - unfold r_ecc_check. split_ifs; tests; intros _; tolds.
  - unfold r_ed_sign. cbn zeta. destruct out as [o|]; split_ifs; tests; try discriminate; intros _; tolds.
  - unfold r_mldsa_sign. cbn zeta. split_ifs; tests; try discriminate; intros _; tolds.
  - unfold r_sign_dma. split_ifs; tests; intros _; tolds.
  - unfold r_kdf. cbn zeta. destruct out as [o|]; split_ifs; tests; intros _; tolds.
  - unfold r_cmac. cbn zeta. destruct dma, out as [o|]; split_ifs; tests; intros _; tolds.
  - unfold r_encaps. cbn zeta. split_ifs; tests; try discriminate; intros _; tolds.
  - unfold r_decaps. cbn zeta. split_ifs; tests; try discriminate; intros _; tolds.
  - unfold r_encaps_dma. cbn zeta. split_ifs; tests; try discriminate; intros _; tolds.
  - unfold r_decaps_dma. cbn zeta. split_ifs; tests; try discriminate; intros _; tolds.
Qed.

(* ---- only what was received ---- *)

Section Same.
Variables (n : N) (b1 b2 : N -> N).
Hypothesis SAME : same_message n b1 b2.

Lemma f32_same : forall off, off + 4 <= n -> f32 b1 off = f32 b2 off.
Proof. intros off H. unfold ClientBoundsModel.f32. rewrite (bytes_same n b1 b2 off 4 SAME H). reflexivity. Qed.

Lemma f16_same : forall off, off + 2 <= n -> f16 b1 off = f16 b2 off.
Proof. intros off H. unfold ClientBoundsModel.f16. rewrite (bytes_same n b1 b2 off 2 SAME H). reflexivity. Qed.

Lemma field_same : forall p, fst p + snd p <= n -> field b1 p = field b2 p.
Proof. intros p H. unfold field. rewrite (bytes_same n b1 b2 _ _ SAME H). reflexivity. Qed.

Lemma label_same : forall off label, off + LABEL <= n -> label_eff b1 off label = label_eff b2 off label.
Proof.
  intros off [cap|] H; unfold label_eff; [|reflexivity].
  rewrite (bytes_same n b1 b2); [reflexivity|assumption|].
  destruct (LABEL <? cap) eqn:E; tests; lia.
Qed.

Lemma id_same : forall id off, off + 4 <= n -> id_eff word id b1 off = id_eff word id b2 off.
Proof. intros id off H. unfold id_eff. rewrite (f32_same off H). reflexivity. Qed.

Lemma header_same : forall po, 8 <= n -> header_ok word algo po b1 = header_ok word algo po b2.
Proof. intros po H. unfold header_ok. rewrite !f32_same by lia. reflexivity. Qed.

Lemma rc0_same : 8 <= n -> rc0 word b1 = rc0 word b2.
Proof. intros H. unfold rc0. rewrite f32_same by lia. reflexivity. Qed.

Lemma fields_same : forall l, Forall (fun p => fst p + snd p <= n) l ->
  map (field b1) l = map (field b2) l.
Proof. intros l H. induction H as [|p l' P F IH]; cbn [map]; [reflexivity|]. rewrite (field_same p P), IH. reflexivity. Qed.

Ltac use_same :=
  repeat first
    [ rewrite (header_same _) by lia
    | rewrite rc0_same by lia
    | match goal with
      | |- context [ClientBoundsModel.f32 word b1 ?o] => rewrite (f32_same o) by lia
      | |- context [ClientBoundsModel.f16 word b1 ?o] => rewrite (f16_same o) by lia
      | |- context [id_eff word ?id b1 ?o] => rewrite (id_same id o) by lia
      | |- context [label_eff b1 ?o ?l] => rewrite (label_same o l) by (unfold LABEL; lia)
      | |- context [field b1 ?p] => rewrite (field_same p) by (cbn [fst snd]; lia)
      | |- context [map (field b1) ?l] =>
          rewrite (fields_same l) by (repeat constructor; cbn [fst snd]; lia)
      | |- context [bytes b1 ?o ?l] => rewrite (bytes_same n b1 b2 o l SAME) by lia
      end ].

(* A message shorter than [k] is refused whatever the rest holds. *)
Ltac short k :=
  let E := fresh in
  destruct (n <? k) eqn:E;
  [ cbn [orb]; repeat match goal with |- context [if negb (header_ok _ _ _ ?b) then _ else _] =>
                        destruct (negb (header_ok _ _ _ b)) end; reflexivity
  | apply N.ltb_ge in E ].

Ltac finish := use_same; split_ifs; tests; use_same; try reflexivity.

Lemma row_inside : forall m, match row m with (ex, sz, rc, outs) =>
  Forall (fun p => fst p + snd p <= sz) outs /\ match rc with Some o => o + 4 <= sz | None => True end end.
Proof.
  assert (RU : forall flat, 6 + flat <= 4 * ((6 + flat + 3) / 4)).
  { intro flat. pose proof (N.div_mod (6 + flat + 3) 4 ltac:(discriminate)) as D.
    pose proof (N.mod_lt (6 + flat + 3) 4 ltac:(discriminate)) as M. lia. }
  destruct m; cbn [row]; split; try exact I; try lia;
    try (specialize (RU flat); revert RU; generalize ((6 + flat + 3) / 4); intros q RU);
    repeat (apply Forall_cons; cbn [fst snd]; [lia|]); apply Forall_nil.
Qed.

Lemma answer_same : forall c, looks_first c = true -> answer c b1 n = answer c b2 n.
Proof.
  intros c K. unfold ClientBoundsModel.answer.
  destruct c; try discriminate K; unfold HDR, META, AES_BLOCK in *.
  - unfold r_fixed. pose proof (row_inside m) as RI. destruct (row m) as [[[ex sz] rc] outs].
    destruct RI as [RO RC].
    destruct (if ex then negb (n =? sz) else n <? sz) eqn:E; [reflexivity|].
    assert (L : sz <= n) by (destruct ex; tests; lia).
    rewrite (fields_same outs) by (eapply Forall_impl; [|exact RO]; cbn beta; intros; lia).
    destruct rc as [o|]; [|reflexivity]. rewrite (f32_same o) by lia. reflexivity.
  - unfold r_auth_login. destruct (n =? 8) eqn:E8; tests; cbn [negb].
    + use_same. reflexivity.
    + destruct (n =? 4) eqn:E4; tests; cbn [andb]; [|reflexivity]. use_same. reflexivity.
  - unfold r_custom_query. destruct (n =? 16 + 256) eqn:E; cbn [negb]; tests; [|reflexivity]. use_same. reflexivity.
  - unfold r_echo. destruct data; cbn [copy_if]; use_same; reflexivity.
  - unfold r_nvm_meta. destruct (n =? 36) eqn:E; cbn [negb]; tests; [|reflexivity]. use_same. reflexivity.
  - unfold r_nvm_read. split_ifs; tests; [reflexivity|]. destruct data; cbn [copy_if]; use_same; reflexivity.
  - unfold r_key_export. cbn zeta. short 36. destruct out as [cap|]; finish.
  - unfold r_key_export_dma. destruct (n =? 48) eqn:E; cbn [negb]; tests; [|reflexivity]. use_same. reflexivity.
  - unfold r_wrap. short 8. finish.
  - unfold r_unwrap_export, META. short 8. finish.
  - unfold r_unwrap_cache. short 8. finish.
  - unfold r_data_wrap. short 12. finish.
  - unfold r_read_trusted. cbn zeta. short 8. finish.
  - unfold r_she_rnd. destruct (cap <? 16); [reflexivity|]. short 20. finish.
  - unfold r_she_mac. destruct (cap <? 16); [reflexivity|]. short 20. finish.
  - unfold r_she_cipher. destruct (cap <? 16); [reflexivity|]. short 8. finish.
  - unfold r_crypto, HDR. destruct m; cbn [crypto_row]; cbn [map app];
      match goal with |- context [n <? ?k] => short k end; finish.
  - unfold r_sha2, HDR. cbn zeta. destruct dma, last, h; cbn [digest_len state_len];
      match goal with |- context [n <? ?k] => short k end; finish.
  - unfold r_sha3, HDR. destruct dma, last, h; cbn [digest_len];
      match goal with |- context [n <? ?k] => short k end; finish.
  - unfold r_rng, HDR. cbn zeta. short (12 + 4). finish.
  - unfold r_aes_ctr, HDR, AES_BLOCK. cbn zeta. short (12 + 20 + 2 * 16). finish.
  - unfold r_aes_ecb, HDR. cbn zeta. short (12 + 16). finish.
  - unfold r_aes_cbc, HDR, AES_BLOCK. cbn zeta. short (12 + 16 + 16). finish.
  - unfold r_aes_gcm, HDR. cbn zeta. short (12 + 28). use_same.
    destruct (negb (header_ok word algo false b2)); [reflexivity|].
    destruct (u32 (f32 b2 12 + f32 b2 16) <? f32 b2 12) eqn:W; [reflexivity|].
    destruct (n - (12 + 28) <? u32 (f32 b2 12 + f32 b2 16)) eqn:T; [reflexivity|]. tests.
    assert (Q : u32 (f32 b2 12 + f32 b2 16) = f32 b2 12 + f32 b2 16).
    { clear - W. pose proof (u32_lt (word (bytes b2 12 4))) as A.
      pose proof (u32_lt (word (bytes b2 16 4))) as B.
      fold (f32 b2 12) in A. fold (f32 b2 16) in B.
      destruct (N.lt_ge_cases (f32 b2 12 + f32 b2 16) 4294967296) as [L|G]; [apply u32_small, L|].
      exfalso. unfold u32 in W.
      rewrite (N.mod_eq (f32 b2 12 + f32 b2 16)) in W by discriminate.
      assert (D : (f32 b2 12 + f32 b2 16) / 4294967296 = 1).
      { symmetry. apply (N.div_unique _ _ 1 (f32 b2 12 + f32 b2 16 - 4294967296)); lia. }
      rewrite D in W. lia. }
    destruct out as [o|], tag as [t|]; finish.
  - unfold r_aes_gcm_dma, HDR. cbn zeta. short (12 + 24). destruct tag as [t|]; finish.
  - unfold r_make_key, HDR. cbn zeta. destruct g; try discriminate K; short (12 + 8); destruct key; cbn [orb];
      use_same; pose proof (u16_le (f32 b2 16)); split_ifs; tests; use_same; reflexivity.
  - unfold r_make_key_dma, HDR. cbn zeta. short (12 + 24). destruct key; finish.
  - unfold r_shared, deliver, HDR. cbn zeta. short (12 + 8). cbn [orb]. destruct out as [o|]; finish.
  - unfold r_ecc_sign, deliver, HDR. cbn zeta. short (12 + 4). cbn [orb]. destruct out as [o|]; finish.
  - unfold r_rsa_fn, deliver, HDR. cbn zeta. short (12 + 4). cbn [orb]. destruct out as [o|]; finish.
  - unfold r_ecc_verify, HDR. cbn zeta. short (12 + 8). cbn [orb]. use_same. pose proof (u16_le (f32 b2 16)). finish.
  - unfold r_ecc_pub, HDR. cbn zeta. short (12 + 4). cbn [orb]. finish.
  - unfold r_ecc_check, HDR. short (12 + 4). cbn [orb]. finish.
  - unfold r_ed_sign, HDR. cbn zeta. short (12 + 4). cbn [orb]. destruct out as [o|]; finish.
  - unfold r_ed_sign_dma, HDR. short (12 + 24). finish.
  - unfold r_mldsa_sign, HDR. cbn zeta. short (12 + 8). cbn [orb]. finish.
  - unfold r_sign_dma, HDR. short (12 + 24). finish.
  - unfold r_kdf, HDR. cbn zeta. short (12 + 8). cbn [orb]. destruct out as [o|]; finish.
  - unfold r_cmac, HDR. cbn zeta. destruct dma;
      match goal with |- context [n <? ?k] => short k end; destruct out as [o|]; finish.
  - unfold r_encaps, HDR. cbn zeta. short (12 + 8). cbn [orb]. finish.
  - unfold r_decaps, HDR. cbn zeta. short (12 + 8). cbn [orb]. finish.
  - unfold r_encaps_dma, HDR. cbn zeta. short (12 + 24). cbn [orb]. finish.
  - unfold r_decaps_dma, HDR. cbn zeta. short (12 + 24). cbn [orb]. finish.
Qed.

End Same.

(* ---- what fits arrives ---- *)

Lemma number4 : forall b off, number word b off 4 = f32 b off.
Proof. reflexivity. Qed.
Lemma number2 : forall b off, number word b off 2 = f16 b off.
Proof. reflexivity. Qed.

Lemma header_good : forall po b, f32 b 0 = algo /\ f32 b 4 = 0 -> header_ok word algo po b = true.
Proof.
  intros po b [A B]. unfold header_ok. rewrite A, B, N.eqb_refl. destruct po; reflexivity.
Qed.
Lemma rc0_good : forall b, f32 b 0 = algo /\ f32 b 4 = 0 -> rc0 word b = true.
Proof. intros b [A B]. unfold rc0. rewrite B. reflexivity. Qed.

Ltac decide_tests :=
  rewrite ?N.eqb_refl; cbn [negb];
  repeat match goal with
  | |- context [?a <? ?b] => first [ rewrite (proj2 (N.ltb_lt a b)) by lia
                                   | rewrite (proj2 (N.ltb_ge a b)) by lia ]
  | |- context [?a <=? ?b] => rewrite (proj2 (N.leb_le a b)) by lia
  end; cbn [negb orb andb].

Ltac delivered := split; [cbn [fst]; try reflexivity|]; cbn [snd app In]; auto 10;
  try (apply in_or_app; cbn [In]; auto 10).

Lemma answer_delivers : forall c l b n,
  n <= DL -> layout_of c = Some l -> reports_success word algo c b ->
  0 < number word b (len_at l) (len_size l) ->
  data_at l + number word b (len_at l) (len_size l) + after l <= n ->
  number word b (len_at l) (len_size l) <= room l ->
  fst (answer c b n) = true /\
  In (Copied (room l) (bytes b (data_at l) (number word b (len_at l) (len_size l)))) (snd (answer c b n)).
Proof.
  intros c l b n D L S P F R. unfold ClientBoundsModel.answer.
  destruct c; cbn [layout_of] in L; try discriminate L;
    repeat match type of L with
    | match ?o with Some _ => _ | None => _ end = _ => destruct o as [cap|]; try discriminate L
    | (if ?o then _ else _) = _ => destruct o; try discriminate L
    end;
    injection L as <-; cbn [len_at len_size data_at after room] in *; cbn [reports_success] in S;
    rewrite ?number4, ?number2 in *.
  - (* key export *)
    unfold r_key_export. rewrite S. cbn zeta. decide_tests. delivered.
  - unfold r_wrap. destruct S as [S1 S2]. rewrite S1, S2, !N.eqb_refl. decide_tests. delivered.
  - unfold r_unwrap_export, META. destruct S as [S1 S2]. rewrite S1, S2, !N.eqb_refl. decide_tests. delivered.
  - unfold r_data_wrap. destruct S as [S1 S2]. rewrite S1, S2, !N.eqb_refl. decide_tests. delivered.
  - unfold r_read_trusted. rewrite S. cbn zeta. cbn [N.eqb negb]. decide_tests. delivered.
  - unfold r_she_cipher. destruct S as [S1 S2]. rewrite S1. decide_tests. delivered.
  - unfold r_rng, HDR. rewrite header_good by assumption. cbn zeta. decide_tests. delivered.
  - unfold r_aes_ctr, HDR, AES_BLOCK. rewrite header_good by assumption. cbn zeta. decide_tests. delivered.
  - unfold r_aes_ecb, HDR, AES_BLOCK. rewrite header_good by assumption. cbn zeta. decide_tests. delivered.
  - unfold r_aes_cbc, HDR, AES_BLOCK. rewrite header_good by assumption. cbn zeta. decide_tests. delivered.
  - unfold r_aes_gcm_dma, HDR. rewrite header_good by assumption. cbn zeta. decide_tests. delivered.
  - unfold r_shared, deliver, HDR. rewrite header_good by assumption. cbn zeta. decide_tests. delivered; apply rc0_good, S.
  - unfold r_ecc_sign, deliver, HDR. rewrite header_good by assumption. cbn zeta. decide_tests. delivered; apply rc0_good, S.
  - unfold r_rsa_fn, deliver, HDR. rewrite header_good by assumption. cbn zeta. decide_tests. delivered; apply rc0_good, S.
  - unfold r_ecc_pub, HDR. rewrite header_good by assumption. cbn zeta. decide_tests. delivered; apply rc0_good, S.
  - unfold r_ed_sign, HDR. rewrite header_good by assumption. cbn zeta. decide_tests. delivered; apply rc0_good, S.
  - unfold r_mldsa_sign, HDR. rewrite header_good by assumption. cbn zeta. decide_tests. delivered; apply rc0_good, S.
  - unfold r_kdf, HDR. rewrite header_good by assumption. cbn zeta. decide_tests. delivered.
  - unfold r_decaps, HDR. rewrite header_good by assumption. cbn zeta. decide_tests. rewrite (rc0_good _ S). delivered.
  - unfold r_decaps_dma, HDR. rewrite header_good by assumption. cbn zeta. decide_tests. rewrite (rc0_good _ S). delivered.
Qed.

(* A success means that the message held the output. *)
Lemma answer_complete : forall c l b n,
  layout_of c = Some l -> fst (answer c b n) = true ->
  data_at l + number word b (len_at l) (len_size l) + after l <= n /\
  (knows_room c = true -> number word b (len_at l) (len_size l) <= room l).
Proof.
  intros c l b n L. unfold ClientBoundsModel.answer.
  destruct c; cbn [layout_of] in L; try discriminate L;
    repeat match type of L with
    | match ?o with Some _ => _ | None => _ end = _ => destruct o as [cap|]; try discriminate L
    | (if ?o then _ else _) = _ => destruct o; try discriminate L
    end;
    injection L as <-; cbn [len_at len_size data_at after room]; rewrite ?number4, ?number2;
    cbn [knows_room];
    unfold r_key_export, r_wrap, r_unwrap_export, r_data_wrap, r_read_trusted, r_she_cipher, r_rng,
      r_aes_ctr, r_aes_ecb, r_aes_cbc, r_aes_gcm_dma, r_shared, r_ecc_sign, r_rsa_fn, r_ecc_pub,
      r_ed_sign, r_mldsa_sign, r_kdf, r_decaps, r_decaps_dma, deliver, HDR, META, AES_BLOCK, fail;
    cbn zeta; split_ifs; cbn [fst]; tests; intro Q; try discriminate Q;
    (split; [lia | intro; first [discriminate|lia]]).
Qed.


(* ---- the fields of fixed answers ---- *)

Lemma round_up : forall x, 4 * ((x + 3) / 4) = x + (4 - x mod 4) mod 4.
Proof.
  intro x. pose proof (N.div_mod x 4 ltac:(discriminate)) as D.
  pose proof (N.mod_lt x 4 ltac:(discriminate)) as M.
  set (q := x / 4) in *. set (r := x mod 4) in *. clearbody q r. subst x.
  assert (C : r = 0 \/ r = 1 \/ r = 2 \/ r = 3) by lia.
  destruct C as [C|[C|[C|C]]]; subst r.
  - rewrite N.add_0_r. rewrite (N.mul_comm 4 q), N.div_add_l by discriminate.
    change (3 / 4) with 0. change ((4 - 0) mod 4) with 0. lia.
  - rewrite <- N.add_assoc. rewrite (N.mul_comm 4 q), N.div_add_l by discriminate.
    change ((1 + 3) / 4) with 1. change ((4 - 1) mod 4) with 3. lia.
  - rewrite <- N.add_assoc. rewrite (N.mul_comm 4 q), N.div_add_l by discriminate.
    change ((2 + 3) / 4) with 1. change ((4 - 2) mod 4) with 2. lia.
  - rewrite <- N.add_assoc. rewrite (N.mul_comm 4 q), N.div_add_l by discriminate.
    change ((3 + 3) / 4) with 1. change ((4 - 3) mod 4) with 1. lia.
Qed.

Lemma place0 : forall s, place s 0 = 0.
Proof. reflexivity. Qed.

Lemma fixed_gets : forall m b n,
  n = total (struct_of m) ->
  match code_field m with Some i => number word b (place (struct_of m) i) 4 = 0 | None => True end ->
  answer (CFixed m) b n = (true, map (gets (struct_of m) b) (handed m)).
Proof.
  intros m b n N0 C. unfold ClientBoundsModel.answer, r_fixed.
  assert (SZ : match row m with (ex, sz, rc, outs) => sz = n end).
  { rewrite N0. destruct m; try reflexivity.
    - cbn [row struct_of total fold_right]. lia.
    - cbn [row struct_of total fold_right]. rewrite round_up. lia. }
  clear N0.
  destruct m; cbn [row] in *; subst n; rewrite ?N.eqb_refl, ?N.ltb_irrefl; cbn [negb];
    cbn [code_field] in C; rewrite ?number4 in C;
    try rewrite place0 in C;
    try (change (place (struct_of MKeyCacheDma) 1) with 16 in C);
    try (rewrite C, N.eqb_refl); try reflexivity.
Qed.

Lemma crypto_gets : forall m b n,
  total (crypto_struct m) <= n -> f32 b 0 = algo -> f32 b 4 = 0 ->
  answer (CCrypto m) b n = (true, crypto_handed word m b).
Proof.
  intros m b n L A R. unfold ClientBoundsModel.answer, r_crypto, HDR.
  destruct m; cbn [crypto_row]; rewrite header_good by (split; assumption); cbn [negb];
    cbn [crypto_struct app total fold_right] in L;
    match goal with |- context [n <? ?k] => rewrite (proj2 (N.ltb_ge n k)) by lia end;
    rewrite ?rc0_good by (split; assumption); reflexivity.
Qed.

Lemma sha2_gets : forall dma last h b n,
  total (sha2_struct dma) <= n -> f32 b 0 = algo -> f32 b 4 = 0 ->
  f32 b (place (sha2_struct dma) (if dma then 7 else 6)) = algo ->
  answer (CSha2 dma last h) b n =
    (true,
     let s := sha2_struct dma in
     if last then [gets_first s b (if dma then 4 else 5) (digest_bytes h)]
     else [gets_first s b (if dma then 4 else 5) (state_bytes h);
           gets s b (if dma then 5 else 3); gets s b (if dma then 6 else 4)]).
Proof.
  intros dma last h b n L A R T. unfold ClientBoundsModel.answer, r_sha2, HDR.
  destruct dma; cbn [sha2_struct app total fold_right] in L; cbn zeta;
    rewrite header_good by (split; assumption); cbn [negb];
    match goal with |- context [n <? ?k] => rewrite (proj2 (N.ltb_ge n k)) by lia end.
  - change (place (sha2_struct true) 7) with 100 in T. rewrite T, N.eqb_refl, rc0_good by (split; assumption).
    destruct last, h; reflexivity.
  - change (place (sha2_struct false) 6) with 84 in T. rewrite T, N.eqb_refl, rc0_good by (split; assumption).
    destruct last, h; reflexivity.
Qed.

Lemma sha3_gets : forall dma last h b n,
  total (sha3_struct dma) <= n -> f32 b 0 = algo -> f32 b 4 = 0 ->
  answer (CSha3 dma last h) b n =
    (true,
     let s := sha3_struct dma in
     if last then [gets_first s b (if dma then 5 else 4) (digest_bytes h)]
     else [gets s b 3]).
Proof.
  intros dma last h b n L A R. unfold ClientBoundsModel.answer, r_sha3, HDR.
  destruct dma; cbn [sha3_struct app total fold_right] in L; cbn zeta;
    rewrite header_good by (split; assumption); cbn [negb];
    match goal with |- context [n <? ?k] => rewrite (proj2 (N.ltb_ge n k)) by lia end;
    rewrite rc0_good by (split; assumption); destruct last, h; reflexivity.
Qed.

(* ---- answers with two outputs, and what accompanies an output ---- *)

Lemma gcm_delivers : forall co ct b n,
  f32 b 0 = algo -> f32 b 4 = 0 -> 0 < f32 b 12 -> 0 < f32 b 16 ->
  40 + f32 b 12 + f32 b 16 <= n -> n < 4294967296 ->
  f32 b 12 <= co -> f32 b 16 <= ct ->
  answer (CAesGcm (Some co) (Some ct)) b n =
    (true, [Copied co (bytes b 40 (f32 b 12)); Told co (f32 b 12);
            Copied ct (bytes b (40 + f32 b 12) (f32 b 16))]).
Proof.
  intros co ct b n A R P1 P2 F S C1 C2. unfold ClientBoundsModel.answer, r_aes_gcm, HDR. cbn zeta.
  rewrite header_good by (split; assumption).
  rewrite (u32_small (f32 b 12 + f32 b 16)) by lia. decide_tests. reflexivity.
Qed.

Lemma encaps_delivers : forall cc cs b n,
  f32 b 0 = algo -> f32 b 4 = 0 -> 20 + f32 b 12 + f32 b 16 <= n ->
  f32 b 12 <= cc -> f32 b 16 <= cs ->
  answer (CEncaps cc cs) b n =
    (true, [Copied cc (bytes b 20 (f32 b 12)); Copied cs (bytes b (20 + f32 b 12) (f32 b 16));
            Told cc (f32 b 12); Told cs (f32 b 16)]).
Proof.
  intros cc cs b n A R F C1 C2. unfold ClientBoundsModel.answer, r_encaps, HDR. cbn zeta.
  rewrite header_good by (split; assumption). decide_tests. rewrite rc0_good by (split; assumption). reflexivity.
Qed.

Lemma cmac_delivers : forall (dma : bool) cap b n,
  let hdr := if dma then 76 else 60 in
  let sz := f32 b (if dma then 68 else 52) in
  f32 b 0 = algo -> f32 b 4 = 0 -> f32 b 44 <= 16 -> 4 <= cap <= 16 -> hdr + sz <= n ->
  answer (CCmac dma (Some cap)) b n =
    (true, [Copied 16 (bytes b 12 16); Copied 16 (bytes b 28 16);
            Copied 4 (bytes b 44 4); Copied 4 (bytes b 48 4);
            Told cap (N.min sz cap); Copied cap (bytes b hdr (N.min sz cap))]).
Proof.
  intros dma cap b n hdr sz A R B C F. unfold ClientBoundsModel.answer, r_cmac, HDR. subst hdr sz.
  cbn zeta. rewrite header_good by (split; assumption).
  assert (M : forall x : N, (if x <? cap then x else cap) = N.min x cap).
  { intro x. destruct (x <? cap) eqn:E; tests; lia. }
  destruct dma; cbn [negb]; rewrite !M; decide_tests; reflexivity.
Qed.

Lemma key_parsed : forall g id b n,
  f32 b 0 = algo -> f32 b 4 = 0 -> 0 < f32 b 16 < 65536 -> 20 + f32 b 16 <= n ->
  fst (answer (CMakeKey g id true) b n) = parse (bytes b 20 (f32 b 16)) /\
  In (Parsed (bytes b 20 (f32 b 16))) (snd (answer (CMakeKey g id true) b n)) /\
  (id = true -> In (Value (u16 (f32 b 12))) (snd (answer (CMakeKey g id true) b n))).
Proof.
  intros g id b n A R P F. unfold ClientBoundsModel.answer, r_make_key, HDR. cbn zeta.
  rewrite header_good by (split; assumption).
  assert (U : u16 (f32 b 16) = f32 b 16) by (unfold u16; apply N.mod_small; lia).
  assert (Z : (f32 b 16 =? 0) = false) by (apply N.eqb_neq; lia).
  destruct g; rewrite ?U, ?Z; decide_tests; cbn [fst snd];
    (split; [reflexivity|]); (split; [apply in_or_app; right; cbn; auto|]);
    intros ->; unfold id_eff; apply in_or_app; left; left; reflexivity.
Qed.

Lemma label_delivered : forall cap b n c off,
  (exists p o, c = CKeyExport p (Some cap) o /\ off = 8) \/ (exists k, c = CKeyExportDma (Some cap) k /\ off = 24) \/
  (c = CNvmMeta (Some cap) /\ off = 12) ->
  fst (answer c b n) = true ->
  In (Copied cap (bytes b off (N.min 24 cap))) (snd (answer c b n)).
Proof.
  intros cap b n c off H.
  assert (M : (if LABEL <? cap then LABEL else cap) = N.min 24 cap).
  { unfold LABEL. destruct (24 <? cap) eqn:E; tests; lia. }
  destruct H as [[p [o [-> ->]]]|[[k [-> ->]]|[-> ->]]]; unfold ClientBoundsModel.answer.
  - unfold r_key_export, label_eff. cbn zeta. rewrite M. destruct o as [k|]; split_ifs; cbn [fst]; intro Q; try discriminate Q;
      cbn [snd app In]; auto 10.
  - unfold r_key_export_dma, label_eff. rewrite M. split_ifs; cbn [fst]; intro Q; try discriminate Q; cbn [snd app In]; auto 10.
  - unfold r_nvm_meta, label_eff. rewrite M. split_ifs; cbn [fst]; intro Q; try discriminate Q; cbn [snd app In map]; auto 10.
Qed.

Lemma aes_chain_delivered : forall cap b n,
  (fst (answer (CAesCtr cap) b n) = true ->
     In (Copied 4 (bytes b 16 4)) (snd (answer (CAesCtr cap) b n)) /\
     In (Copied 16 (bytes b (32 + f32 b 12) 16)) (snd (answer (CAesCtr cap) b n)) /\
     In (Copied 16 (bytes b (48 + f32 b 12) 16)) (snd (answer (CAesCtr cap) b n))) /\
  (fst (answer (CAesCbc cap) b n) = true ->
     In (Copied 16 (bytes b (28 + f32 b 12) 16)) (snd (answer (CAesCbc cap) b n))).
Proof.
  intros cap b n. unfold ClientBoundsModel.answer. split.
  - unfold r_aes_ctr. cbn zeta. split_ifs; cbn [fst]; intro Q; try discriminate Q. cbn [snd In].
    replace (48 + f32 b 12) with (32 + f32 b 12 + 16) by lia.
    unfold field. cbn [fst snd]. auto 10.
  - unfold r_aes_cbc. cbn zeta. split_ifs; cbn [fst]; intro Q; try discriminate Q. cbn [snd In].
    unfold field. cbn [fst snd]. auto 10.
Qed.

Lemma header_bad : forall p b, f32 b 0 <> algo \/ 2 ^ 31 <= f32 b 4 -> header_ok word algo p b = false.
Proof.
  intros p b [H|H]; unfold header_ok.
  - rewrite (proj2 (N.eqb_neq _ _) H). reflexivity.
  - change (2 ^ 31) with 2147483648 in H. destruct p.
    + rewrite (proj2 (N.ltb_ge _ _) H). apply andb_false_r.
    + rewrite (proj2 (N.eqb_neq (f32 b 4) 0)) by lia. apply andb_false_r.
Qed.

Lemma nothing_nil : hands_nothing [].
Proof. intros e []. Qed.
Lemma nothing_wipe : forall a c, hands_nothing [Cleared a c].
Proof. intros a c e [<-|[]]. exact I. Qed.

Lemma answer_error : forall c b n, reports_error word algo c b ->
  fst (answer c b n) = false /\
  match c with CReadTrusted _ _ => True | _ => hands_nothing (snd (answer c b n)) end.
Proof.
  assert (Z : forall x, x <> 0 -> (x =? 0) = false) by (intros; apply N.eqb_neq; assumption).
  intros c b n R.
  destruct c; cbn [reports_error] in R; try contradiction; rewrite ?number4 in R;
    unfold ClientBoundsModel.answer;
    try (unfold r_crypto, r_sha2, r_sha3, r_rng, r_aes_ctr, r_aes_ecb, r_aes_cbc, r_aes_gcm, r_aes_gcm_dma,
           r_make_key, r_make_key_dma, r_shared, r_ecc_sign, r_rsa_fn, r_ecc_verify, r_ecc_pub, r_ecc_check,
           r_ed_sign, r_ed_sign_dma, r_mldsa_sign, r_sign_dma, r_kdf, r_cmac, r_encaps, r_decaps, r_encaps_dma,
           r_decaps_dma;
         try (destruct (crypto_row m) as [[po sz] outs]);
         cbn zeta; rewrite (header_bad _ _ R); cbn [negb fst snd];
         split; [reflexivity|first [apply nothing_nil|apply nothing_wipe]]; fail).
  - unfold r_fixed.
    destruct m; cbn [code_field] in R; try contradiction; cbn [row]; rewrite number4 in R;
      rewrite ?place0 in R; try (change (place (struct_of MKeyCacheDma) 1) with 16 in R);
      rewrite (Z _ R); match goal with |- context [if ?x then _ else _] => destruct x end;
      (split; [reflexivity|apply nothing_nil]).
  - unfold r_key_export. cbn zeta. destruct (n <? 36); [split; [reflexivity|apply nothing_nil]|].
    rewrite (Z _ R). split; [reflexivity|apply nothing_nil].
  - unfold r_key_export_dma. rewrite (Z _ R). destruct (negb (n =? 48)); (split; [reflexivity|apply nothing_nil]).
  - unfold r_wrap. rewrite (Z _ R). cbn [negb].
    repeat match goal with |- context [if ?x then _ else _] => destruct x end; (split; [reflexivity|apply nothing_nil]).
  - unfold r_unwrap_export. rewrite (Z _ R). cbn [negb].
    repeat match goal with |- context [if ?x then _ else _] => destruct x end; (split; [reflexivity|apply nothing_nil]).
  - unfold r_unwrap_cache. rewrite (Z _ R). cbn [negb].
    repeat match goal with |- context [if ?x then _ else _] => destruct x end; (split; [reflexivity|apply nothing_nil]).
  - unfold r_data_wrap. rewrite (Z _ R). cbn [negb].
    repeat match goal with |- context [if ?x then _ else _] => destruct x end; (split; [reflexivity|apply nothing_nil]).
  - unfold r_read_trusted. cbn zeta. rewrite (Z _ R). cbn [negb]. split; [|exact I].
    destruct (n <? 8); reflexivity.
  - unfold r_she_rnd. rewrite (Z _ R). cbn [negb].
    repeat match goal with |- context [if ?x then _ else _] => destruct x end; (split; [reflexivity|apply nothing_nil]).
  - unfold r_she_mac. rewrite (Z _ R). cbn [negb].
    repeat match goal with |- context [if ?x then _ else _] => destruct x end; (split; [reflexivity|apply nothing_nil]).
  - unfold r_she_cipher. rewrite (Z _ R). cbn [negb].
    repeat match goal with |- context [if ?x then _ else _] => destruct x end; (split; [reflexivity|apply nothing_nil]).
Qed.

(* ---- what is decoded as a key ---- *)

Definition held (b : N -> N) (n : N) (e : eff) : Prop :=
  match e with
  | Parsed der => exists off, off + N.of_nat (length der) <= n /\ der = bytes b off (N.of_nat (length der))
  | _ => True
  end.

Lemma held_bytes : forall b n off len, off + len <= n -> held b n (Parsed (bytes b off len)).
Proof. intros b n off len L. exists off. rewrite length_bytes. split; [assumption|reflexivity]. Qed.
Lemma held_label : forall b n x off label, Forall (held b n) (label_eff x off label).
Proof. intros b n x off [cap|]; unfold label_eff; repeat constructor. Qed.
Lemma held_id : forall b n id x off, Forall (held b n) (id_eff word id x off).
Proof. intros b n [] x off; unfold id_eff; repeat constructor. Qed.
Lemma held_fields : forall b n x l, Forall (held b n) (map (field x) l).
Proof. intros b n x l. induction l; cbn [map]; constructor; [exact I|assumption]. Qed.

Ltac helds :=
  cbn [snd fail app copy_if];
  repeat first
    [ apply Forall_nil
    | apply held_label | apply held_id | apply held_fields
    | apply Forall_app; split
    | apply Forall_cons
    | exact I ].

Lemma parsed_received : forall c b n der, In (Parsed der) (snd (answer c b n)) ->
  exists off, off + N.of_nat (length der) <= n /\ der = bytes b off (N.of_nat (length der)).
Proof.
  intros c b n der.
  enough (F : Forall (held b n) (snd (answer c b n))) by exact (proj1 (Forall_forall _ _) F (Parsed der)).
  unfold ClientBoundsModel.answer. destruct c;
    try (unfold r_auth_login, r_custom_query, r_echo, r_nvm_meta, r_nvm_read, r_key_export, r_key_export_dma, r_wrap,
           r_unwrap_export, r_unwrap_cache, r_data_wrap, r_read_trusted, r_she_rnd, r_she_mac, r_she_cipher,
           r_sha2, r_sha3, r_rng, r_aes_ctr, r_aes_ecb, r_aes_cbc, r_make_key_dma, r_ecc_pub, r_ecc_check,
           r_ed_sign_dma, r_mldsa_sign, r_sign_dma, r_encaps, r_decaps, r_encaps_dma, r_decaps_dma;
         cbn zeta; repeat match goal with |- context [match ?o with Some _ => _ | None => _ end] => destruct o end;
         split_ifs; helds; fail);
    try (unfold r_aes_gcm, r_aes_gcm_dma, r_shared, r_ecc_sign, r_rsa_fn, r_ed_sign, r_kdf, r_cmac, deliver; cbn zeta;
         try destruct out; try destruct tag; try destruct dma; split_ifs; helds; fail).
  - unfold r_fixed. destruct (row m) as [[[ex sz] rc] outs].
    destruct (if ex then _ else _); [helds|]. destruct rc; [destruct (_ =? 0)|]; helds.
  - unfold r_echo. destruct data; helds.
  - unfold r_nvm_read. destruct data; split_ifs; helds.
  - unfold r_crypto. destruct (crypto_row m) as [[po sz] outs]. split_ifs; destruct m; helds.
  - pose proof (u16_le (f32 b 16)) as U. unfold r_make_key, HDR. cbn zeta.
    destruct g, key; split_ifs; helds;
      match goal with H : (_ || _) = false |- _ => apply orb_false_iff in H; destruct H end; tests;
      apply held_bytes; lia.
  - pose proof (u16_le (f32 b 16)) as U. unfold r_ecc_verify, HDR. cbn zeta. split_ifs; helds.
    match goal with H : (_ || _) = false |- _ => apply orb_false_iff in H; destruct H end; tests;
      apply held_bytes; lia.
Qed.

Lemma shared_id : forall size out b n,
  fst (answer (CShared true size out) b n) = true ->
  In (Value (number word b 16 4 mod 65536)) (snd (answer (CShared true size out) b n)).
Proof.
  intros size out b n. rewrite number4. unfold ClientBoundsModel.answer, r_shared, deliver, id_eff. cbn zeta.
  destruct out; split_ifs; cbn [fst snd fail app In]; intro Q; try discriminate Q; left; reflexivity.
Qed.

Lemma verify_result : forall key b n,
  fst (answer (CEccVerify key) b n) = true ->
  20 <= n /\ In (Copied 4 (bytes b 12 4)) (snd (answer (CEccVerify key) b n)).
Proof.
  intros key b n. unfold ClientBoundsModel.answer, r_ecc_verify, HDR, field. cbn zeta.
  destruct (negb (header_ok word algo true b)); [discriminate|].
  destruct (n <? 12 + 8) eqn:E; [discriminate|]. apply N.ltb_ge in E.
  split_ifs; cbn [fst snd fail orb In]; intro Q; try discriminate Q; (split; [lia|left; reflexivity]).
Qed.

End Facts.
