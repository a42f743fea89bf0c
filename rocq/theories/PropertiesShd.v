(** The SHE extension: the data commands end to end (C79).  Vocabulary: ShdSpec.v,
    AesSpec.v, SheSpec.v. *)
From Coq Require Import Lia.
From Verif Require Import Base BaseLemmas NvmSpec Flags KeyId Store NvmReqModel CounterModel KsModel KsReq KsSys KsSpec KsSysProof SheModel SheSys SheSpec SheEff SheBoot SheLoad PropertiesShe KdfModel PropertiesKdf AesModel AesSpec AesProof ShdModel ShdSpec ShdProof.
Local Open Scope nat_scope.

Section Props.
Variable C : kscfg.
Variable crypt : cop -> list N -> list N -> Z * list N.
Variable pub : N -> list N -> Z * list N.
Variable ots : list N -> list N -> option (list N * list N).
Variable gcm_enc : list N -> list N -> N -> list N -> option (list N).
Variable gcm_dec : list N -> list N -> N -> list N -> option (list N).
Variable max_read : nat.
Variable aes cbc_enc cbc_dec cmac : list N -> list N -> list N.
(** wolfCrypt's block cipher and CMAC, by key; blocks go to blocks, a MAC has 16
    bytes. *)
Variable E D : list N -> list N -> list N.
Variable cm : list N -> list N -> list N.
Hypothesis E16 : forall k b, length b = 16 -> length (E k b) = 16.
Hypothesis D16 : forall k b, length b = 16 -> length (D k b) = 16.
Hypothesis cm16 : forall k m, length (cm k m) = 16.
(** The size of the communication buffers. *)
Variable DL : nat.
Hypothesis DL_min : 20 <= DL.
Hypothesis DL_max : (N.of_nat DL < 65536)%N.

Notation use := (lib_use E D cm).
Notation step := (hstep C crypt pub ots gcm_enc gcm_dec max_read aes cbc_enc cbc_dec cmac use).
Notation after := (hafter C crypt pub ots gcm_enc gcm_dec max_read aes cbc_enc cbc_dec cmac use).

(** C79: the ciphers' loops in the one buffer of request and response: with the
    output at or before the input, the output bytes are the mode of the input bytes
    as they were, and nothing else in the buffer changes. *)
Theorem C79_in_place op k iv n src dst buf : length iv = 16 -> dst <= src -> src + 16 * n <= length buf ->
  let out := run E D op k iv n src dst buf in
  length out = length buf /\ firstn (16 * n) (skipn dst out) = cipher E D op k iv (firstn (16 * n) (skipn src buf)) /\
  firstn dst out = firstn dst buf /\ skipn (dst + 16 * n) out = skipn (dst + 16 * n) buf.
Proof.
  intros V B L out. unfold out. rewrite (run_ok E D E16 D16) by assumption.
  change (firstn (16 * n) (skipn src buf)) with (rd src (16 * n) buf).
  assert (LC : length (cipher E D op k iv (rd src (16 * n) buf)) = 16 * n) by (apply (cipher_len E D E16 D16); [exact V|apply rd_len; lia]).
  set (x := cipher _ _ _ _ _ _) in *. split; [apply wr_length; lia|]. split.
  - change (rd dst (16 * n) (wr dst x buf) = x). rewrite <- LC. apply rd_wr_same. lia.
  - unfold wr. rewrite LC. split.
    + rewrite firstn_app, firstn_length, Nat.min_l, Nat.sub_diag, firstn_O, app_nil_r by lia. rewrite firstn_firstn, Nat.min_id. reflexivity.
    + rewrite app_assoc, skipn_app, app_length, firstn_length, Nat.min_l, LC, Nat.sub_diag by lia.
      rewrite skipn_all2 by (rewrite app_length, firstn_length; lia). reflexivity.
Qed.

(** C79: on every packet, whatever its bytes and size, the server does what the
    command it decodes to does in the model of the other SHE theorems (C37-C40,
    C57, C78): same state afterwards, same code, same result; no answer only when
    the lock is not had. *)
Theorem C79_server c e client n buf h S0 : length buf = DL -> n <= DL -> bytes_ok buf ->
  let '(resp, h1, S1) := serve C E D cm DL c e client n buf h S0 in
  let '(r, h2, S2) := she_step C aes cbc_enc cbc_dec cmac use e client (decode DL c n buf) h S0 in
  h1 = h2 /\ S1 = S2 /\
  (if se_lock e then carries c r resp
   else if h_uidset h && sb_eqb (h_sb h) SbSuccess then resp = [] /\ sr_rc r = LOCKED
   else carries c r resp).
Proof. intros. apply serve_refines; auto. Qed.

(** ** Calls on a device with any history *)
Definition clean (L : link) : Prop := link_ok DL L /\ bytes_ok (l_cold L) /\ bytes_ok (l_sold L).

Lemma bytes_ok_app a b : bytes_ok a -> bytes_ok b -> bytes_ok (a ++ b).
Proof. intros A B. apply Forall_app. auto. Qed.
Lemma bytes_ok_skipn n l : bytes_ok l -> bytes_ok (skipn n l).
Proof. intros A. rewrite <- (firstn_skipn n l) in A. apply Forall_app in A. apply A. Qed.
Lemma bytes_ok_wr o d l : bytes_ok d -> bytes_ok l -> bytes_ok (wr o d l).
Proof. intros A B. unfold wr. apply bytes_ok_app; [apply bytes_ok_firstn; auto|]. apply bytes_ok_app; [auto|apply bytes_ok_skipn; auto]. Qed.
Lemma bytes_ok_enc n x : bytes_ok (le_enc n x).
Proof.
  revert x. induction n as [|n IH]; intros x; cbn [le_enc]; constructor; [|apply IH]. unfold byte_ok. apply N.mod_lt. discriminate.
Qed.
Lemma arrive_len p L : length (l_sold L) = DL -> length p <= DL -> length (arrive p L) = DL.
Proof. intros A B. unfold arrive. rewrite app_length, skipn_length. lia. Qed.
Lemma arrive_ok p L : bytes_ok p -> bytes_ok (l_sold L) -> bytes_ok (arrive p L).
Proof. intros A B. apply bytes_ok_app; auto. apply bytes_ok_skipn. auto. Qed.
Lemma one_byte (slot : N) : (slot < 256)%N -> bytes_ok [slot].
Proof. intros H. constructor; [exact H|constructor]. Qed.
Lemma cipher_request_ok op slot iv inp old p : (slot < 256)%N -> bytes_ok iv -> bytes_ok inp -> bytes_ok old ->
  cipher_request DL op slot iv inp old = Packet p -> bytes_ok p.
Proof.
  intros SL BV BI BO H. unfold cipher_request in H. cbv zeta in H. destruct (_ || _) in H; [discriminate|].
  assert (B0 : bytes_ok (wr 0 (put32 (length inp)) (wr 4 [slot] old))) by (apply bytes_ok_wr; [apply bytes_ok_enc|apply bytes_ok_wr; auto; apply one_byte; auto]).
  destruct (is_cbc op); [destruct (DL <? 8 + length iv); [discriminate|]|];
    match type of H with Packet ?a = _ => assert (PE : p = a) by congruence end; rewrite PE; apply bytes_ok_firstn; repeat apply bytes_ok_wr; auto; try apply bytes_ok_enc; apply one_byte; auto.
Qed.
Lemma gen_request_ok slot inp old p : bytes_ok inp -> bytes_ok old -> gen_request DL slot inp old = Packet p -> bytes_ok p.
Proof.
  intros BI BO H. unfold gen_request in H. cbv zeta in H. destruct (_ || _) in H; [discriminate|].
  match type of H with Packet ?a = _ => assert (PE : p = a) by congruence end. rewrite PE. apply bytes_ok_firstn. repeat apply bytes_ok_wr; auto; apply bytes_ok_enc.
Qed.
Lemma verify_request_ok slot msg mac old p : bytes_ok msg -> bytes_ok mac -> bytes_ok old -> verify_request DL slot msg mac old = Packet p -> bytes_ok p.
Proof.
  intros BI BM BO H. unfold verify_request in H. cbv zeta in H. destruct (_ || _) in H; [discriminate|].
  match type of H with Packet ?a = _ => assert (PE : p = a) by congruence end. rewrite PE. apply bytes_ok_firstn. repeat apply bytes_ok_wr; auto; try apply bytes_ok_enc. apply bytes_ok_firstn. auto.
Qed.

Lemma sop_use op iv k inp : lib_use E D cm (sop_of op iv) k inp = if length k =? 16 then Some (cipher E D op k iv inp) else None.
Proof. unfold lib_use. destruct op; reflexivity. Qed.
Lemma whole_len inp : length (firstn (whole inp) inp) = whole inp.
Proof. rewrite firstn_length. unfold whole. pose proof (Nat.div_mod (length inp) 16 ltac:(lia)). lia. Qed.
Lemma whole_mod inp : firstn (length (firstn (whole inp) inp) - length (firstn (whole inp) inp) mod 16) (firstn (whole inp) inp) = firstn (whole inp) inp.
Proof.
  rewrite whole_len. unfold whole at 2. rewrite (Nat.mul_comm 16), Nat.mod_mul by lia. rewrite Nat.sub_0_r. rewrite firstn_firstn, Nat.min_id. reflexivity.
Qed.
(** A result is at most as long as the whole blocks. *)
Lemma out_len e client op iv slot inp h S0 r h1 S1 : length inp <= DL -> (is_cbc op = true -> length iv = 16) ->
  she_step C aes cbc_enc cbc_dec cmac use e client (SUse (sop_of op iv) slot (firstn (whole inp) inp)) h S0 = (r, h1, S1) -> length (sr_out r) <= length inp.
Proof.
  intros LI V H.
  assert (X : sr_out r = [] \/ exists k, sr_out r = cipher E D op k (if is_cbc op then iv else repeat 0%N 16) (firstn (whole inp) inp)).
  { unfold she_step in H. destruct (refused _ h). { injection H as <- _ _. auto. }
    unfold she_handle in H. cbn [action_of locks is_boot andb] in H. destruct (se_lock e); cbn [negb] in H; [|unfold err in H; injection H as <- _ _; auto].
    unfold do_use in H. cbv zeta in H. destruct (she_read C (se_rd e 0) S0 (she_id C client slot)) as [[[rc S2] m] k].
    assert (IN : (if match sop_of op iv with OGenMac | OVerifyMac _ => true | _ => false end then firstn (whole inp) inp
                  else firstn (length (firstn (whole inp) inp) - length (firstn (whole inp) inp) mod 16) (firstn (whole inp) inp)) = firstn (whole inp) inp).
    { rewrite whole_mod. destruct op; reflexivity. }
    rewrite IN in H. clear IN. destruct (_ || _) in H; [unfold err in H; injection H as <- _ _; auto|].
    rewrite sop_use in H. destruct op; cbn [sop_of is_cbc] in *; (destruct (se_c1 e); [|unfold err in H; injection H as <- _ _; auto]);
      (destruct (length k =? 16); [|unfold err in H; injection H as <- _ _; auto]); injection H as <- _ _; right; exists k; reflexivity. }
  assert (W : whole inp <= length inp) by (unfold whole; pose proof (Nat.div_mod (length inp) 16 ltac:(lia)); lia).
  destruct X as [->|[k ->]]; [cbn [length]; lia|]. rewrite (cipher_len E D E16 D16 op k _ (length inp / 16)).
  - exact W.
  - destruct (is_cbc op); [apply V; reflexivity|reflexivity].
  - rewrite whole_len. reflexivity.
Qed.

(** C79, the ciphers.  A call that returns OK comes after secure boot; its output
    is, on the whole blocks of the input, the mode of the input under the 16-byte
    key in the slot and the first 16 bytes of the vector, and the rest of the
    output buffer is as it was.  A call that returns an error leaves the output
    buffer alone. *)
Theorem C79_cipher evs st r b i client slot e L op iv inp out rc out' h' S' :
  let Y := after evs (fresh_hsys st r b) in
  nvm_sane st -> clean L -> (slot < 256)%N -> bytes_ok iv -> bytes_ok inp -> length out = length inp ->
  cipher_call C E D cm DL op e client slot iv inp out L (hy_she Y i) (ks_of (hy_ks Y) i) = (Ret rc out', h', S') ->
  (rc <> OK /\ out' = out) \/
  (rc = OK /\ unlocked Y i /\ exists k, holds C Y i client slot k /\
     out' = cipher E D op k (firstn 16 iv) (firstn (whole inp) inp) ++ skipn (whole inp) out).
Proof.
  intros Y N1 (LK & BC & BS) SL BV BI LO H. pose proof (hafter_ok C crypt pub ots gcm_enc gcm_dec max_read aes cbc_enc cbc_dec cmac use evs _ (fresh_hok C st r b N1)) as O. fold Y in O.
  unfold cipher_call, exchange in H. destruct (cipher_request DL op slot iv inp (l_cold L)) as [| |p] eqn:RQ.
  { injection H as <- <- _ _. left. split; [discriminate|reflexivity]. }
  { discriminate. }
  destruct (is_ok (l_send L)) eqn:SD; cbn [negb] in H. 2:{ injection H as <- <- _ _. left. split; [apply is_ok_neq; exact SD|reflexivity]. }
  destruct (cipher_packet E D cm DL E16 D16 cm16 aes cbc_enc cbc_dec cmac op slot iv inp (l_cold L) p (skipn (length p) (l_sold L)) (proj1 LK) DL_max RQ) as (LP & PD & I16 & V16 & DEC).
  fold (arrive p L) in DEC.
  pose proof (serve_refines C E D cm DL E16 D16 cm16 aes cbc_enc cbc_dec cmac (Cipher op) e client (length p) (arrive p L) (hy_she Y i) (ks_of (hy_ks Y) i) DL_min DL_max
    (arrive_len p L (proj2 LK) PD) PD (arrive_ok p L (cipher_request_ok op slot iv inp _ p SL BV BI BC RQ) BS)) as RF.
  destruct (serve C E D cm DL (Cipher op) e client (length p) (arrive p L) (hy_she Y i) (ks_of (hy_ks Y) i)) as [[resp h1] S1].
  rewrite DEC in RF. destruct (she_step C aes cbc_enc cbc_dec cmac use e client _ (hy_she Y i) (ks_of (hy_ks Y) i)) as [[a h2] S2] eqn:ST.
  destruct RF as (<- & <- & RF). destruct (is_ok (l_recv L)) eqn:RV; cbn [negb] in H. 2:{ injection H as <- <- _ _. left. split; [apply is_ok_neq; exact RV|reflexivity]. }
  assert (VL : is_cbc op = true -> length (firstn 16 iv) = 16) by (intros Q; specialize (V16 Q); rewrite firstn_length; lia).
  assert (LI : length inp <= DL) by lia.
  pose proof (out_len e client op (firstn 16 iv) slot inp _ _ _ _ _ LI VL ST) as OL.
  assert (CR : carries (Cipher op) a resp \/ resp = []).
  { destruct (se_lock e); [auto|]. destruct (_ && _); [right; apply RF|auto]. }
  destruct CR as [CR| ->]. 2:{ cbn in H. injection H as <- <- _ _. left. split; [discriminate|reflexivity]. }
  pose proof (cipher_response_ok E D cm E16 D16 cm16 aes cbc_enc cbc_dec cmac op a resp out (length inp) CR ltac:(lia) LO) as X.
  destruct (cipher_response resp out (length inp)) as [rc1 o1]. injection H as <- <- _ _.
  destruct X as [X|(-> & RO & ->)]; [left; exact X|]. right. split; [reflexivity|].
  destruct (use_ok C E D cm aes cbc_enc cbc_dec cmac e client (sop_of op (firstn 16 iv)) slot _ _ _ _ _ _ ST RO) as (U1 & U2 & U3 & m & k & RD & U4).
  split; [split; auto|]. exists k.
  assert (U5 : se_c1 e = true /\ lib_use E D cm (sop_of op (firstn 16 iv)) k (firstn (whole inp) inp) = Some (sr_out a)).
  { rewrite <- (whole_mod inp). destruct op; exact U4. }
  destruct U5 as [_ U5]. rewrite sop_use in U5. destruct (Nat.eqb_spec (length k) 16) as [K|K]; [|discriminate]. injection U5 as U5.
  split; [eapply (read_holds C); eauto|]. rewrite <- U5. f_equal. f_equal.
  transitivity (length (cipher E D op k (if is_cbc op then firstn 16 iv else repeat 0%N 16) (firstn (whole inp) inp))). { destruct op; reflexivity. }
  apply (cipher_len E D E16 D16); [destruct (is_cbc op); auto|apply whole_len].
Qed.

(** C79: and a call that has all it needs returns OK: a booted device, a working
    link and library, the lock, a 16-byte key in the slot, at least one block of
    input that fits the buffer, a vector of at least 16 bytes that fits. *)
Theorem C79_cipher_served evs st r b i client slot e L op iv inp out k :
  let Y := after evs (fresh_hsys st r b) in
  nvm_sane st -> clean L -> (slot < 256)%N -> bytes_ok iv -> bytes_ok inp ->
  unlocked Y i -> in_order e L -> se_c1 e = true -> holds C Y i client slot k ->
  16 <= length inp -> chdr op + length inp <= DL -> (is_cbc op = true -> 16 <= length iv /\ 8 + length iv <= DL) ->
  exists out' h' S', cipher_call C E D cm DL op e client slot iv inp out L (hy_she Y i) (ks_of (hy_ks Y) i) = (Ret OK out', h', S').
Proof.
  intros Y N1 (LK & BC & BS) SL BV BI (U1 & U2) (I1 & I2 & I3 & I4) C1 HK I16 FIT V16.
  pose proof (hafter_ok C crypt pub ots gcm_enc gcm_dec max_read aes cbc_enc cbc_dec cmac use evs _ (fresh_hok C st r b N1)) as O. fold Y in O.
  unfold cipher_call, exchange. destruct (cipher_request DL op slot iv inp (l_cold L)) as [| |p] eqn:RQ.
  1,2: exfalso; unfold cipher_request in RQ; cbv zeta in RQ; destruct (Nat.ltb_spec (length inp) 16); [lia|]; destruct (Nat.ltb_spec DL (chdr op + length inp)); [lia|];
    destruct (is_cbc op); cbn [andb orb] in RQ; [destruct (V16 eq_refl); destruct (Nat.ltb_spec (length iv) 16); [lia|]; cbn [orb] in RQ; destruct (Nat.ltb_spec DL (8 + length iv)); [lia|]|]; discriminate.
  rewrite I1. change (is_ok OK) with true. cbn [negb].
  destruct (cipher_packet E D cm DL E16 D16 cm16 aes cbc_enc cbc_dec cmac op slot iv inp (l_cold L) p (skipn (length p) (l_sold L)) (proj1 LK) DL_max RQ) as (LP & PD & _ & _ & DEC).
  fold (arrive p L) in DEC.
  pose proof (serve_refines C E D cm DL E16 D16 cm16 aes cbc_enc cbc_dec cmac (Cipher op) e client (length p) (arrive p L) (hy_she Y i) (ks_of (hy_ks Y) i) DL_min DL_max
    (arrive_len p L (proj2 LK) PD) PD (arrive_ok p L (cipher_request_ok op slot iv inp _ p SL BV BI BC RQ) BS)) as RF.
  destruct (serve C E D cm DL (Cipher op) e client (length p) (arrive p L) (hy_she Y i) (ks_of (hy_ks Y) i)) as [[resp h1] S1].
  rewrite DEC, I3 in RF.
  destruct (she_read C (se_rd e 0) (ks_of (hy_ks Y) i) (she_id C client slot)) as [[[rr S2] m] k'] eqn:RD.
  destruct (holds_read C Y i client slot _ k rr S2 m k' O SL I4 HK RD) as [-> ->].
  pose proof (use_works C E D cm aes cbc_enc cbc_dec cmac e client (sop_of op (firstn 16 iv)) slot (firstn (whole inp) inp) (hy_she Y i) _ m k S2 U1 U2 I3 (or_introl C1) RD (proj1 HK)) as W.
  destruct (she_step C aes cbc_enc cbc_dec cmac use e client _ (hy_she Y i) (ks_of (hy_ks Y) i)) as [[a h2] S3] eqn:ST. cbn [fst] in W.
  destruct RF as (<- & <- & RF). rewrite I2. change (is_ok OK) with true. cbn [negb].
  assert (VL : is_cbc op = true -> length (firstn 16 iv) = 16) by (intros Q; destruct (V16 Q); rewrite firstn_length; lia).
  assert (LI : length inp <= DL) by lia.
  pose proof (out_len e client op (firstn 16 iv) slot inp _ _ _ _ _ LI VL ST) as OL.
  pose proof (cipher_response_back E D cm E16 D16 cm16 aes cbc_enc cbc_dec cmac op a resp out (length inp) RF W OL ltac:(lia)) as B. destruct (cipher_response resp out (length inp)) as [rc1 o1]. cbn [fst] in B. subst rc1. eauto.
Qed.

(** C79: what one call encrypts another decrypts, in any later state of the device,
    by any client on any context, if the two slots hold the same key; whole blocks,
    same vector, and the library's D undoes its E. *)
Theorem C79_roundtrip evs1 evs2 st r b i1 i2 client1 client2 slot1 slot2 e1 e2 L1 L2 (cbc : bool) iv inp out1 out1' out2 out2' h1 S1 h2 S2 k :
  let Y1 := after evs1 (fresh_hsys st r b) in let Y2 := after (evs1 ++ evs2) (fresh_hsys st r b) in
  let enc := if cbc then EncCbc else EncEcb in let dec := if cbc then DecCbc else DecEcb in
  (forall b, length b = 16 -> D k (E k b) = b) ->
  nvm_sane st -> clean L1 -> clean L2 -> (slot1 < 256)%N -> (slot2 < 256)%N -> bytes_ok iv -> bytes_ok inp -> (cbc = true -> 16 <= length iv) ->
  holds C Y1 i1 client1 slot1 k -> holds C Y2 i2 client2 slot2 k ->
  length inp mod 16 = 0 -> length out1 = length inp -> length out2 = length inp -> bytes_ok out1' ->
  cipher_call C E D cm DL enc e1 client1 slot1 iv inp out1 L1 (hy_she Y1 i1) (ks_of (hy_ks Y1) i1) = (Ret OK out1', h1, S1) ->
  cipher_call C E D cm DL dec e2 client2 slot2 iv out1' out2 L2 (hy_she Y2 i2) (ks_of (hy_ks Y2) i2) = (Ret OK out2', h2, S2) ->
  out2' = inp.
Proof.
  intros Y1 Y2 enc dec INV N1 CL1 CL2 SL1 SL2 BV BI V16 H1 H2 MOD LO1 LO2 BO X1 X2.
  assert (W : whole inp = length inp) by (unfold whole; pose proof (Nat.div_mod (length inp) 16 ltac:(lia)); lia).
  destruct (C79_cipher evs1 st r b i1 client1 slot1 e1 L1 enc iv inp out1 OK out1' h1 S1 N1 CL1 SL1 BV BI LO1 X1) as [[Q _]|(_ & _ & k1 & HK1 & O1)]; [destruct (Q eq_refl)|].
  assert (KE1 : k1 = k) by (eapply (holds_one C); eauto). subst k1.
  rewrite W, firstn_all, skipn_all2, app_nil_r in O1 by lia.
  set (v := if cbc then firstn 16 iv else repeat 0%N 16).
  assert (VL : length v = 16) by (unfold v; destruct cbc; [rewrite firstn_length; specialize (V16 eq_refl); lia|reflexivity]).
  assert (O1' : out1' = cipher E D enc k v inp) by (rewrite O1; unfold enc, v; destruct cbc; reflexivity).
  assert (LO1' : length out1' = length inp). { rewrite O1'. rewrite (cipher_len E D E16 D16 enc k v (length inp / 16)); auto; unfold whole in W; lia. }
  assert (LO2' : length out2 = length out1') by congruence.
  destruct (C79_cipher (evs1 ++ evs2) st r b i2 client2 slot2 e2 L2 dec iv out1' out2 OK out2' h2 S2 N1 CL2 SL2 BV BO LO2' X2) as [[Q _]|(_ & _ & k2 & HK2 & O2)]; [destruct (Q eq_refl)|].
  assert (KE2 : k2 = k) by (eapply (holds_one C); eauto). subst k2.
  assert (W2 : whole out1' = length out1') by (unfold whole in *; rewrite LO1'; exact W).
  rewrite W2, firstn_all, skipn_all2, app_nil_r in O2 by lia. rewrite O2.
  transitivity (cipher E D dec k v out1'). { unfold dec, v. destruct cbc; reflexivity. }
  rewrite O1'. unfold enc, dec, v. destruct cbc; cbn [cipher].
  - apply (CBC_undo (E k) (D k) (E16 k) INV (length inp / 16)); [exact VL|unfold whole in W; lia].
  - apply (ECB_undo (E k) (D k) (E16 k) INV (length inp / 16)). unfold whole in W. lia.
Qed.

(** C79, generation of a MAC: OK means the CMAC of the whole input under the key in
    the slot, in the first 16 bytes of the output. *)
Theorem C79_mac evs st r b i client slot e L inp out rc out' h' S' :
  let Y := after evs (fresh_hsys st r b) in
  nvm_sane st -> clean L -> (slot < 256)%N -> bytes_ok inp ->
  gen_call C E D cm DL e client slot inp out L (hy_she Y i) (ks_of (hy_ks Y) i) = (Ret rc out', h', S') ->
  (rc <> OK /\ out' = out) \/
  (rc = OK /\ unlocked Y i /\ exists k, holds C Y i client slot k /\ out' = cm k inp ++ skipn 16 out).
Proof.
  intros Y N1 (LK & BC & BS) SL BI H. pose proof (hafter_ok C crypt pub ots gcm_enc gcm_dec max_read aes cbc_enc cbc_dec cmac use evs _ (fresh_hok C st r b N1)) as O. fold Y in O.
  unfold gen_call, exchange in H. destruct (gen_request DL slot inp (l_cold L)) as [| |p] eqn:RQ.
  { injection H as <- <- _ _. left. split; [discriminate|reflexivity]. }
  { discriminate. }
  destruct (is_ok (l_send L)) eqn:SD; cbn [negb] in H. 2:{ injection H as <- <- _ _. left. split; [apply is_ok_neq; exact SD|reflexivity]. }
  destruct (gen_packet E D cm DL E16 D16 cm16 aes cbc_enc cbc_dec cmac slot inp (l_cold L) p (skipn (length p) (l_sold L)) (proj1 LK) DL_max SL RQ) as (LP & PD & I16 & DEC).
  fold (arrive p L) in DEC.
  pose proof (serve_refines C E D cm DL E16 D16 cm16 aes cbc_enc cbc_dec cmac GenMac e client (length p) (arrive p L) (hy_she Y i) (ks_of (hy_ks Y) i) DL_min DL_max
    (arrive_len p L (proj2 LK) PD) PD (arrive_ok p L (gen_request_ok slot inp _ p BI BC RQ) BS)) as RF.
  destruct (serve C E D cm DL GenMac e client (length p) (arrive p L) (hy_she Y i) (ks_of (hy_ks Y) i)) as [[resp h1] S1].
  rewrite DEC in RF. destruct (she_step C aes cbc_enc cbc_dec cmac use e client _ (hy_she Y i) (ks_of (hy_ks Y) i)) as [[a h2] S2] eqn:ST.
  destruct RF as (<- & <- & RF). destruct (length out <? 16). { injection H as <- <- _ _. left. split; [discriminate|reflexivity]. }
  destruct (is_ok (l_recv L)) eqn:RV; cbn [negb] in H. 2:{ injection H as <- <- _ _. left. split; [apply is_ok_neq; exact RV|reflexivity]. }
  assert (CR : carries GenMac a resp \/ resp = []).
  { destruct (se_lock e); [auto|]. destruct (_ && _); [right; apply RF|auto]. }
  unfold gen_response in H. destruct (Nat.ltb_spec (length resp) GRESP) as [LR|LR]. { injection H as <- <- _ _. left. split; [discriminate|reflexivity]. }
  destruct (is_ok (get_rc resp)) eqn:K; cbn [negb] in H. 2:{ injection H as <- <- _ _. left. split; [apply is_ok_neq; exact K|reflexivity]. }
  destruct CR as [[R1 R2]| ->]. 2:{ cbn [length] in LR. unfold GRESP in LR. lia. }
  apply is_ok_eq in K. rewrite K in R1. symmetry in R1. specialize (R2 R1). cbv beta iota in R2.
  destruct (use_ok C E D cm aes cbc_enc cbc_dec cmac e client OGenMac slot _ _ _ _ _ _ ST R1) as (U1 & U2 & U3 & m & k & RD & U4 & U5 & U6).
  injection H as <- <- _ _. right. split; [reflexivity|]. split; [split; auto|]. exists k. split; [eapply (read_holds C); eauto|].
  unfold rd. rewrite R2, U6. rewrite firstn_all2 by (rewrite cm16; lia). unfold wr. cbn [firstn app]. rewrite cm16. reflexivity.
Qed.

(** C79, verification: OK means the status was set, to 0 only if the first 16 bytes
    given are the CMAC of the message under the key in the slot, and to 0 if they
    are and the library did not fail. *)
Theorem C79_verify evs st r b i client slot e L msg mac out rc out' h' S' :
  let Y := after evs (fresh_hsys st r b) in
  nvm_sane st -> clean L -> (slot < 256)%N -> bytes_ok msg -> bytes_ok mac ->
  verify_call C E D cm DL e client slot msg mac out L (hy_she Y i) (ks_of (hy_ks Y) i) = (Ret rc out', h', S') ->
  (rc <> OK /\ out' = out) \/
  (rc = OK /\ unlocked Y i /\ exists k, holds C Y i client slot k /\
     ((out' = [0%N] /\ firstn 16 mac = cm k msg) \/ (out' = [1%N] /\ (firstn 16 mac <> cm k msg \/ se_c1 e = false)))).
Proof.
  intros Y N1 (LK & BC & BS) SL BI BM H. pose proof (hafter_ok C crypt pub ots gcm_enc gcm_dec max_read aes cbc_enc cbc_dec cmac use evs _ (fresh_hok C st r b N1)) as O. fold Y in O.
  unfold verify_call, exchange in H. destruct (verify_request DL slot msg mac (l_cold L)) as [| |p] eqn:RQ.
  { injection H as <- <- _ _. left. split; [discriminate|reflexivity]. }
  { discriminate. }
  destruct (is_ok (l_send L)) eqn:SD; cbn [negb] in H. 2:{ injection H as <- <- _ _. left. split; [apply is_ok_neq; exact SD|reflexivity]. }
  destruct (verify_packet E D cm DL E16 D16 cm16 aes cbc_enc cbc_dec cmac slot msg mac (l_cold L) p (skipn (length p) (l_sold L)) (proj1 LK) DL_max SL RQ) as (LP & PD & I16 & M16 & DEC).
  fold (arrive p L) in DEC.
  pose proof (serve_refines C E D cm DL E16 D16 cm16 aes cbc_enc cbc_dec cmac VerifyMac e client (length p) (arrive p L) (hy_she Y i) (ks_of (hy_ks Y) i) DL_min DL_max
    (arrive_len p L (proj2 LK) PD) PD (arrive_ok p L (verify_request_ok slot msg mac _ p BI BM BC RQ) BS)) as RF.
  destruct (serve C E D cm DL VerifyMac e client (length p) (arrive p L) (hy_she Y i) (ks_of (hy_ks Y) i)) as [[resp h1] S1].
  rewrite DEC in RF. destruct (she_step C aes cbc_enc cbc_dec cmac use e client _ (hy_she Y i) (ks_of (hy_ks Y) i)) as [[a h2] S2] eqn:ST.
  destruct RF as (<- & <- & RF).
  destruct (is_ok (l_recv L)) eqn:RV; cbn [negb] in H. 2:{ injection H as <- <- _ _. left. split; [apply is_ok_neq; exact RV|reflexivity]. }
  assert (CR : carries VerifyMac a resp \/ resp = []).
  { destruct (se_lock e); [auto|]. destruct (_ && _); [right; apply RF|auto]. }
  unfold verify_response in H. destruct (Nat.ltb_spec (length resp) VRESP) as [LR|LR]. { injection H as <- <- _ _. left. split; [discriminate|reflexivity]. }
  destruct (is_ok (get_rc resp)) eqn:K; cbn [negb] in H. 2:{ injection H as <- <- _ _. left. split; [apply is_ok_neq; exact K|reflexivity]. }
  destruct CR as [[R1 R2]| ->]. 2:{ cbn [length] in LR. unfold VRESP in LR. lia. }
  apply is_ok_eq in K. rewrite K in R1. symmetry in R1. specialize (R2 R1). cbv beta iota in R2. destruct R2 as [R2 _].
  destruct (use_ok C E D cm aes cbc_enc cbc_dec cmac e client (OVerifyMac (firstn 16 mac)) slot _ _ _ _ _ _ ST R1) as (U1 & U2 & U3 & m & k & RD & U4 & _ & U6).
  injection H as <- <- _ _. right. split; [reflexivity|]. split; [split; auto|]. exists k. split; [eapply (read_holds C); eauto|].
  rewrite R2, U6. destruct (se_c1 e); [|right; auto]. unfold lib_use. rewrite U4. cbn [Nat.eqb].
  assert (LM : length (firstn 16 mac) = 16) by (rewrite firstn_length; lia). rewrite LM. cbn [Nat.leb andb].
  rewrite (firstn_all2 (cm k msg)) by (rewrite cm16; lia). destruct (list_eq_dec N.eq_dec (cm k msg) (firstn 16 mac)) as [Q|Q]; [left|right]; auto.
Qed.

(** C79: a MAC made by one call is accepted by another, if the two slots hold the
    same key and the library works. *)
Theorem C79_mac_roundtrip evs1 evs2 st r b i1 i2 client1 client2 slot1 slot2 e1 e2 L1 L2 msg out1 mac status h1 S1 h2 S2 s k :
  let Y1 := after evs1 (fresh_hsys st r b) in let Y2 := after (evs1 ++ evs2) (fresh_hsys st r b) in
  nvm_sane st -> clean L1 -> clean L2 -> (slot1 < 256)%N -> (slot2 < 256)%N -> bytes_ok msg -> bytes_ok mac ->
  holds C Y1 i1 client1 slot1 k -> holds C Y2 i2 client2 slot2 k -> se_c1 e2 = true ->
  gen_call C E D cm DL e1 client1 slot1 msg out1 L1 (hy_she Y1 i1) (ks_of (hy_ks Y1) i1) = (Ret OK mac, h1, S1) ->
  verify_call C E D cm DL e2 client2 slot2 msg mac status L2 (hy_she Y2 i2) (ks_of (hy_ks Y2) i2) = (Ret OK s, h2, S2) ->
  s = [0%N].
Proof.
  intros Y1 Y2 N1 CL1 CL2 SL1 SL2 BI BM H1 H2 C1 X1 X2.
  destruct (C79_mac evs1 st r b i1 client1 slot1 e1 L1 msg out1 OK mac h1 S1 N1 CL1 SL1 BI X1) as [[Q _]|(_ & _ & k1 & HK1 & O1)]; [destruct (Q eq_refl)|].
  assert (KE1 : k1 = k) by (eapply (holds_one C); eauto). subst k1.
  destruct (C79_verify (evs1 ++ evs2) st r b i2 client2 slot2 e2 L2 msg mac status OK s h2 S2 N1 CL2 SL2 BI BM X2) as [[Q _]|(_ & _ & k2 & HK2 & O2)]; [destruct (Q eq_refl)|].
  assert (KE2 : k2 = k) by (eapply (holds_one C); eauto). subst k2.
  destruct O2 as [[-> _]|[_ [NE|F]]]; [reflexivity| |congruence]. exfalso. apply NE. rewrite O1, firstn_app, cm16, Nat.sub_diag, firstn_O, app_nil_r. apply firstn_all2. rewrite cm16. lia.
Qed.
(** C79: a MAC call that has all it needs returns OK; so does a verification, even
    with a failing library. *)
Theorem C79_mac_served evs st r b i client slot e L inp mac out k :
  let Y := after evs (fresh_hsys st r b) in
  nvm_sane st -> clean L -> (slot < 256)%N -> bytes_ok inp -> bytes_ok mac ->
  unlocked Y i -> in_order e L -> holds C Y i client slot k -> 16 <= length inp ->
  (se_c1 e = true -> 16 <= length out -> 8 + length inp <= DL ->
   exists out' h' S', gen_call C E D cm DL e client slot inp out L (hy_she Y i) (ks_of (hy_ks Y) i) = (Ret OK out', h', S')) /\
  (16 <= length mac -> 32 + length inp <= DL ->
   exists out' h' S', verify_call C E D cm DL e client slot inp mac out L (hy_she Y i) (ks_of (hy_ks Y) i) = (Ret OK out', h', S')).
Proof.
  intros Y N1 (LK & BC & BS) SL BI BM (U1 & U2) (I1 & I2 & I3 & I4) HK I16.
  pose proof (hafter_ok C crypt pub ots gcm_enc gcm_dec max_read aes cbc_enc cbc_dec cmac use evs _ (fresh_hok C st r b N1)) as O. fold Y in O.
  destruct (she_read C (se_rd e 0) (ks_of (hy_ks Y) i) (she_id C client slot)) as [[[rr S2] m] k'] eqn:RD.
  destruct (holds_read C Y i client slot _ k rr S2 m k' O SL I4 HK RD) as [-> ->].
  split.
  - intros C1 LO FIT. unfold gen_call, exchange. destruct (gen_request DL slot inp (l_cold L)) as [| |p] eqn:RQ.
    1,2: exfalso; unfold gen_request in RQ; cbv zeta in RQ; destruct (Nat.ltb_spec (length inp) 16); [lia|]; destruct (Nat.ltb_spec DL (GREQ + length inp)) as [A|A]; [unfold GREQ in A; lia|]; discriminate.
    rewrite I1. change (is_ok OK) with true. cbn [negb].
    destruct (gen_packet E D cm DL E16 D16 cm16 aes cbc_enc cbc_dec cmac slot inp (l_cold L) p (skipn (length p) (l_sold L)) (proj1 LK) DL_max SL RQ) as (LP & PD & _ & DEC).
    fold (arrive p L) in DEC.
    pose proof (serve_refines C E D cm DL E16 D16 cm16 aes cbc_enc cbc_dec cmac GenMac e client (length p) (arrive p L) (hy_she Y i) (ks_of (hy_ks Y) i) DL_min DL_max
      (arrive_len p L (proj2 LK) PD) PD (arrive_ok p L (gen_request_ok slot inp _ p BI BC RQ) BS)) as RF.
    destruct (serve C E D cm DL GenMac e client (length p) (arrive p L) (hy_she Y i) (ks_of (hy_ks Y) i)) as [[resp h1] S1].
    rewrite DEC, I3 in RF.
    pose proof (use_works C E D cm aes cbc_enc cbc_dec cmac e client OGenMac slot inp (hy_she Y i) _ m k S2 U1 U2 I3 (or_introl C1) RD (proj1 HK)) as W.
    destruct (she_step C aes cbc_enc cbc_dec cmac use e client _ (hy_she Y i) (ks_of (hy_ks Y) i)) as [[a h2] S3] eqn:ST. cbn [fst] in W.
    destruct RF as (<- & <- & R1 & R2). rewrite I2. change (is_ok OK) with true. cbn [negb]. destruct (Nat.ltb_spec (length out) 16); [lia|].
    specialize (R2 W). cbv beta iota in R2.
    destruct (use_ok C E D cm aes cbc_enc cbc_dec cmac e client OGenMac slot _ _ _ _ _ _ ST W) as (_ & _ & _ & m' & k' & RD' & U4 & U5 & U6).
    unfold gen_response. rewrite R1, W. change (is_ok OK) with true. cbn [negb].
    assert (LR : length (skipn 4 resp) = 16) by (rewrite R2, U6; apply cm16). rewrite skipn_length in LR. destruct (Nat.ltb_spec (length resp) GRESP) as [A|A]; [unfold GRESP in A; lia|]. eauto.
  - intros LM FIT. unfold verify_call, exchange. destruct (verify_request DL slot inp mac (l_cold L)) as [| |p] eqn:RQ.
    1,2: exfalso; unfold verify_request in RQ; cbv zeta in RQ; destruct (Nat.ltb_spec (length inp) 16); [lia|]; destruct (Nat.ltb_spec (length mac) 16); [lia|]; destruct (Nat.ltb_spec DL (VREQ + length inp + 16)) as [A|A]; [unfold VREQ in A; lia|]; discriminate.
    rewrite I1. change (is_ok OK) with true. cbn [negb].
    destruct (verify_packet E D cm DL E16 D16 cm16 aes cbc_enc cbc_dec cmac slot inp mac (l_cold L) p (skipn (length p) (l_sold L)) (proj1 LK) DL_max SL RQ) as (LP & PD & _ & _ & DEC).
    fold (arrive p L) in DEC.
    pose proof (serve_refines C E D cm DL E16 D16 cm16 aes cbc_enc cbc_dec cmac VerifyMac e client (length p) (arrive p L) (hy_she Y i) (ks_of (hy_ks Y) i) DL_min DL_max
      (arrive_len p L (proj2 LK) PD) PD (arrive_ok p L (verify_request_ok slot inp mac _ p BI BM BC RQ) BS)) as RF.
    destruct (serve C E D cm DL VerifyMac e client (length p) (arrive p L) (hy_she Y i) (ks_of (hy_ks Y) i)) as [[resp h1] S1].
    rewrite DEC, I3 in RF.
    pose proof (use_works C E D cm aes cbc_enc cbc_dec cmac e client (OVerifyMac (firstn 16 mac)) slot inp (hy_she Y i) _ m k S2 U1 U2 I3 (or_intror (ex_intro _ _ eq_refl)) RD (proj1 HK)) as W.
    destruct (she_step C aes cbc_enc cbc_dec cmac use e client _ (hy_she Y i) (ks_of (hy_ks Y) i)) as [[a h2] S3] eqn:ST. cbn [fst] in W.
    destruct RF as (<- & <- & R1 & R2). rewrite I2. change (is_ok OK) with true. cbn [negb].
    specialize (R2 W). cbv beta iota in R2. destruct R2 as [_ R2].
    unfold verify_response. rewrite R1, W, R2. change (is_ok OK) with true. cbn. eauto.
Qed.

(** C79: a call leaves the device alone, or as the one event of the histories does
    that stands for it: so calls may be put anywhere in the histories above. *)
Theorem C79_state evs st r b i client slot e L op iv inp mac out x h' S' :
  let Y := after evs (fresh_hsys st r b) in
  let same := h' = hy_she Y i /\ S' = ks_of (hy_ks Y) i in
  let event q := mkHsys (put_ks (hy_ks Y) i S') (upd_she (hy_she Y) i h') = snd (step (HShe i client e q) Y) in
  clean L -> (slot < 256)%N -> bytes_ok iv -> bytes_ok inp -> bytes_ok mac ->
  (cipher_call C E D cm DL op e client slot iv inp out L (hy_she Y i) (ks_of (hy_ks Y) i) = (x, h', S') ->
   same \/ event (SUse (sop_of op (firstn 16 iv)) slot (firstn (whole inp) inp))) /\
  (gen_call C E D cm DL e client slot inp out L (hy_she Y i) (ks_of (hy_ks Y) i) = (x, h', S') ->
   same \/ event (SUse OGenMac slot inp)) /\
  (verify_call C E D cm DL e client slot inp mac out L (hy_she Y i) (ks_of (hy_ks Y) i) = (x, h', S') ->
   same \/ event (SUse (OVerifyMac (firstn 16 mac)) slot inp)).
Proof.
  intros Y same event (LK & BC & BS) SL BV BI BM.
  assert (G : forall c q recv early u, (forall p, q = Packet p -> length p <= DL /\ bytes_ok p /\ decode DL c (length p) (arrive p L) = u) ->
     exchange C E D cm DL c e client q recv early out L (hy_she Y i) (ks_of (hy_ks Y) i) = (x, h', S') -> same \/ event u).
  { intros c q recv early u Q H. unfold exchange in H. destruct q as [| |p]. 1,2: injection H as _ <- <-; left; split; reflexivity.
    destruct (is_ok (l_send L)); cbn [negb] in H. 2:{ injection H as _ <- <-. left. split; reflexivity. }
    destruct (Q p eq_refl) as (PD & BP & DEC).
    pose proof (serve_refines C E D cm DL E16 D16 cm16 aes cbc_enc cbc_dec cmac c e client (length p) (arrive p L) (hy_she Y i) (ks_of (hy_ks Y) i) DL_min DL_max
      (arrive_len p L (proj2 LK) PD) PD (arrive_ok p L BP BS)) as RF. rewrite DEC in RF.
    right. unfold event. cbn [hstep].
    destruct (serve C E D cm DL c e client (length p) (arrive p L) (hy_she Y i) (ks_of (hy_ks Y) i)) as [[resp h1] S1].
    destruct (she_step C aes cbc_enc cbc_dec cmac use e client u (hy_she Y i) (ks_of (hy_ks Y) i)) as [[a h2] S2]. destruct RF as (<- & <- & _).
    assert (X : h' = h1 /\ S' = S1). { destruct early; [injection H; auto|]. destruct (is_ok (l_recv L)); cbn [negb] in H; [destruct (recv resp); injection H; auto|injection H; auto]. }
    destruct X as [-> ->]. reflexivity. }
  split; [|split]; apply G; intros p RQ.
  - destruct (cipher_packet E D cm DL E16 D16 cm16 aes cbc_enc cbc_dec cmac op slot iv inp (l_cold L) p (skipn (length p) (l_sold L)) (proj1 LK) DL_max RQ) as (_ & PD & _ & _ & DEC).
    split; [exact PD|]. split; [apply (cipher_request_ok op slot iv inp (l_cold L)); auto|exact DEC].
  - destruct (gen_packet E D cm DL E16 D16 cm16 aes cbc_enc cbc_dec cmac slot inp (l_cold L) p (skipn (length p) (l_sold L)) (proj1 LK) DL_max SL RQ) as (_ & PD & _ & DEC).
    split; [exact PD|]. split; [apply (gen_request_ok slot inp (l_cold L)); auto|exact DEC].
  - destruct (verify_packet E D cm DL E16 D16 cm16 aes cbc_enc cbc_dec cmac slot inp mac (l_cold L) p (skipn (length p) (l_sold L)) (proj1 LK) DL_max SL RQ) as (_ & PD & _ & _ & DEC).
    split; [exact PD|]. split; [apply (verify_request_ok slot inp mac (l_cold L)); auto|exact DEC].
Qed.
End Props.

Module ShdExamples.
Import SheExamples.
(** Toy block cipher, its inverse, and MAC; buffers of 80 bytes. *)
Definition enc (k b : list N) : list N := match toy_cbc k b with x :: t => t ++ [x] | [] => [] end.
Definition dec (k b : list N) : list N := match rev (toy_cbc k b) with x :: t => x :: rev t | [] => [] end.
Lemma enc16 k b : length b = 16 -> length (enc k b) = 16.
Proof. intros H. assert (Q : length (toy_cbc k b) = 16) by (unfold toy_cbc; rewrite map_length; exact H). unfold enc. destruct (toy_cbc k b); [discriminate|]. rewrite app_length. cbn [length] in *. lia. Qed.
Lemma dec16 k b : length b = 16 -> length (dec k b) = 16.
Proof. intros H. assert (Q : length (rev (toy_cbc k b)) = 16) by (unfold toy_cbc; rewrite rev_length, map_length; exact H). unfold dec. destruct (rev (toy_cbc k b)); [discriminate|]. cbn [length] in *. rewrite rev_length. lia. Qed.
Lemma dec_enc k b : length b = 16 -> dec k (enc k b) = b.
Proof.
  intros _. assert (X : forall l, toy_cbc k (toy_cbc k l) = l).
  { intros l. unfold toy_cbc. rewrite map_map. rewrite <- (map_id l) at 2. apply map_ext. intros x. rewrite N.lxor_assoc, N.lxor_nilpotent. apply N.lxor_0_r. }
  unfold enc. destruct b as [|x t]; [reflexivity|]. unfold dec. cbn [toy_cbc map]. unfold toy_cbc. rewrite map_app, rev_app_distr. cbn [map rev app].
  change (map (fun y => N.lxor y (mix k)) (map (fun y => N.lxor y (mix k)) t)) with (toy_cbc k (toy_cbc k t)). rewrite X, rev_involutive, N.lxor_assoc, N.lxor_nilpotent, N.lxor_0_r. reflexivity.
Qed.
Lemma mac16 k m : length (toy_cmac k m) = 16. Proof. reflexivity. Qed.
Notation after := (hafter cfg toy_crypt toy_pub toy_ots toy_gcm toy_dec 100 toy_aes toy_cbc toy_cbc toy_cmac (lib_use enc dec toy_cmac)).
Definition key1 : list N := repeat 7%N 16.
(** Client 1 has a key in slots 4 and 5 and its boot keys; it boots as in C38. *)
Definition st1 : store := obj 1 4 key1 :: obj 1 5 key1 :: st_boot.
Definition Y : hsys := after boot (start st1).
Definition L : link := mkLink OK OK (repeat 9%N 80) (repeat 6%N 80).
Definition iv : list N := [1; 2; 3; 4; 5; 6; 7; 8; 9; 10; 11; 12; 13; 14; 15; 16]%N.
Definition msg : list N := iv ++ rev iv.
Definition zeros (n : nat) : list N := repeat 0%N n.
Definition ccall op slot v inp out := cipher_call cfg enc dec toy_cmac 80 op env 1 slot v inp out L (hy_she Y 0) (ks_of (hy_ks Y) 0).
Definition gcall slot inp out := gen_call cfg enc dec toy_cmac 80 env 1 slot inp out L (hy_she Y 0) (ks_of (hy_ks Y) 0).
Definition vcall slot inp mac := verify_call cfg enc dec toy_cmac 80 env 1 slot inp mac [7%N] L (hy_she Y 0) (ks_of (hy_ks Y) 0).
Definition res (x : result * she * KsModel.ks) : result := fst (fst x).
Definition out_of (x : result * she * KsModel.ks) : list N := match res x with Ret _ o => o | Overrun => [] end.
Lemma st1_sane : nvm_sane st1. Proof. repeat apply sane_obj. apply sane_nil. Qed.
Ltac nums := repeat constructor; vm_compute; reflexivity.
Example ex_C79 : nvm_sane st1 /\ clean 80 L /\ bytes_ok iv /\ bytes_ok msg /\ unlocked Y 0 /\ in_order env L /\
  holds cfg Y 0 1 4 key1 /\ holds cfg Y 0 1 5 key1 /\
  res (ccall EncCbc 4 iv msg (zeros 32)) = Ret OK (CBC_enc (enc key1) iv msg) /\ CBC_enc (enc key1) iv msg <> msg /\
  res (ccall DecCbc 5 iv (CBC_enc (enc key1) iv msg) (zeros 32)) = Ret OK msg /\
  res (ccall EncEcb 4 [] msg (zeros 32)) = Ret OK (ECB (enc key1) msg) /\
  res (ccall DecEcb 4 [] (ECB (enc key1) msg) (zeros 32)) = Ret OK msg /\
  res (gcall 4 msg (zeros 16)) = Ret OK (toy_cmac key1 msg) /\
  res (vcall 5 msg (toy_cmac key1 msg)) = Ret OK [0%N] /\ res (vcall 5 msg (zeros 16)) = Ret OK [1%N] /\
  res (ccall EncEcb 6 [] msg (zeros 32)) = Ret KEY_NOT_AVAILABLE (zeros 32).
Proof.
  split; [apply st1_sane|]. split; [repeat split; nums|]. split; [nums|]. split; [nums|]. split; [split; vm_compute; reflexivity|]. split; [repeat split|].
  split; [split; vm_compute; reflexivity|]. split; [split; vm_compute; reflexivity|]. repeat split; try (vm_compute; reflexivity). vm_compute. discriminate.
Qed.

(** (1) A length that is no multiple of 16 is accepted: OK, but the last bytes are
    not encrypted, nor written. *)
Theorem C79_tail_refuted : exists inp out' t, nvm_sane st1 /\ length inp = 20 /\ res (ccall EncCbc 4 iv inp (repeat 170%N 20)) = Ret OK out' /\
  skipn 16 out' = t /\ t = repeat 170%N 4.
Proof. exists (repeat 1%N 20). do 2 eexists. split; [apply st1_sane|]. repeat split; vm_compute; reflexivity. Qed.
(** (2) A vector longer than 16 bytes is copied whole: past the client's buffer. *)
Theorem C79_iv_overrun_refuted : exists v, nvm_sane st1 /\ length v = 73 /\ res (ccall EncCbc 4 v msg (zeros 32)) = Overrun.
Proof. exists (zeros 73). split; [apply st1_sane|]. split; vm_compute; reflexivity. Qed.
(** (3) No slot is reserved: with the key that protects the boot any client makes
    the MAC that an image of its own needs to boot. *)
Theorem C79_any_slot_refuted : exists image, nvm_sane st1 /\ holds cfg Y 0 1 SLOT_BOOT_MAC_KEY bkey /\
  res (gcall SLOT_BOOT_MAC_KEY (boot_prefix (N.of_nat (length image)) ++ image) (zeros 16)) =
    Ret OK (toy_cmac bkey (boot_prefix (N.of_nat (length image)) ++ image)).
Proof. exists [66; 66; 66]%N. split; [apply st1_sane|]. split; [split; vm_compute; reflexivity|]. vm_compute; reflexivity. Qed.
(** (4) A MAC call whose output is too small is refused only after the request went
    out: the server has served it. *)
Theorem C79_late_refusal_refuted : nvm_sane st1 /\ res (gcall 4 msg (zeros 15)) = Ret BADARGS (zeros 15) /\
  snd (fst (gcall 4 msg (zeros 15))) <> hy_she Y 0.
Proof. split; [apply st1_sane|]. split; [vm_compute; reflexivity|]. vm_compute. discriminate. Qed.
End ShdExamples.
Print Assumptions C79_in_place.
Print Assumptions C79_server.
Print Assumptions C79_cipher.
Print Assumptions C79_cipher_served.
Print Assumptions C79_roundtrip.
Print Assumptions C79_mac.
Print Assumptions C79_verify.
Print Assumptions C79_mac_roundtrip.
Print Assumptions C79_mac_served.
Print Assumptions C79_state.
Print Assumptions ShdExamples.C79_tail_refuted.
Print Assumptions ShdExamples.C79_iv_overrun_refuted.
Print Assumptions ShdExamples.C79_any_slot_refuted.
Print Assumptions ShdExamples.C79_late_refusal_refuted.
