(* C62: a key derived through the server is the derivation of its inputs. *)
From Coq Require Import Arith NArith List Bool Lia.
From Verif Require Import KdfModel KdfSpec.
Import ListNotations.

(* --- the buffer --- *)

Lemma skipn_skipn : forall (l : list byte) n m, skipn n (skipn m l) = skipn (m + n) l.
Proof.
  induction l as [|a l IH]; intros n m.
  - rewrite !skipn_nil. reflexivity.
  - destruct m as [|m]; [reflexivity|]. cbn [skipn Nat.add]. apply IH.
Qed.

Lemma rd_wr_other : forall off d o n buf,
  off + length d <= length buf -> o + n <= off \/ off + length d <= o ->
  rd o n (wr off d buf) = rd o n buf.
Proof.
  intros off d o n buf L [B|B]; unfold rd, wr.
  - rewrite skipn_app, firstn_app, skipn_length, firstn_length.
    replace (n - (Nat.min off (length buf) - o)) with 0 by lia.
    rewrite firstn_O, app_nil_r, skipn_firstn_comm, firstn_firstn.
    replace (Nat.min n (off - o)) with n by lia. reflexivity.
  - rewrite skipn_app, firstn_length.
    rewrite (skipn_all2 (firstn off buf)) by (rewrite firstn_length; lia).
    rewrite app_nil_l, skipn_app.
    rewrite (skipn_all2 d) by lia. rewrite app_nil_l, skipn_skipn.
    f_equal. f_equal. lia.
Qed.

Lemma rd_wr_same : forall off d buf,
  off <= length buf -> rd off (length d) (wr off d buf) = d.
Proof.
  intros off d buf L. unfold rd, wr.
  rewrite skipn_app, firstn_length.
  rewrite (skipn_all2 (firstn off buf)) by (rewrite firstn_length; lia).
  replace (off - Nat.min off (length buf)) with 0 by lia.
  cbn [skipn app]. rewrite firstn_app, firstn_all, Nat.sub_diag, firstn_O, app_nil_r.
  reflexivity.
Qed.

Lemma wr_length : forall off d buf,
  off + length d <= length buf -> length (wr off d buf) = length buf.
Proof.
  intros off d buf L. unfold wr. rewrite !app_length, firstn_length, skipn_length. lia.
Qed.

Lemma rd_cut : forall off n m buf, n <= m ->
  rd off m buf = rd off n buf ++ rd (off + n) (m - n) buf.
Proof.
  intros off n m buf L. unfold rd.
  rewrite <- (firstn_skipn n (firstn m (skipn off buf))) at 1.
  rewrite firstn_firstn, Nat.min_l by lia. f_equal.
  rewrite skipn_firstn_comm, skipn_skipn. reflexivity.
Qed.

(* --- the rounds --- *)

Section Rounds.

Variable blk : list byte -> list byte -> nat -> list byte.
Variable H : nat.
Variable blk_len : forall p i n, length (blk p i n) = H.

Fixpoint stream (info : list byte) (fuel i : nat) (prev : list byte) : list byte :=
  match fuel with
  | O => []
  | S k => let t := blk prev info i in t ++ stream info k (S i) t
  end.

Lemma fill_before : forall info infoSz fuel i prev out left buf o n,
  out + left <= length buf -> o + n <= out ->
  rd o n (fill blk H info infoSz fuel i prev out left buf) = rd o n buf.
Proof.
  intros info infoSz fuel. induction fuel as [|k IH]; intros i prev out left buf o n L B.
  - reflexivity.
  - cbn [fill]. destruct (left =? 0) eqn:E; [reflexivity|]. apply Nat.eqb_neq in E.
    assert (Lt : length (firstn (Nat.min left H) (blk prev (rd info infoSz buf) i)) = Nat.min left H).
    { rewrite firstn_length, blk_len. lia. }
    rewrite IH.
    + rewrite rd_wr_other; [reflexivity| rewrite Lt; lia | left; lia].
    + rewrite wr_length; [lia| rewrite Lt; lia].
    + lia.
Qed.

Lemma fill_length : forall info infoSz fuel i prev out left buf,
  out + left <= length buf ->
  length (fill blk H info infoSz fuel i prev out left buf) = length buf.
Proof.
  intros info infoSz fuel. induction fuel as [|k IH]; intros i prev out left buf L.
  - reflexivity.
  - cbn [fill]. destruct (left =? 0) eqn:E; [reflexivity|].
    assert (Lt : length (firstn (Nat.min left H) (blk prev (rd info infoSz buf) i)) = Nat.min left H).
    { rewrite firstn_length, blk_len. lia. }
    rewrite IH; rewrite wr_length; rewrite ?Lt; lia.
Qed.

Lemma fill_stream : forall info infoSz bytes fuel i prev out left buf,
  0 < H -> rd info infoSz buf = bytes ->
  out + left <= length buf -> left <= fuel ->
  (infoSz = 0 \/ out + H * ((left - 1) / H) <= info) ->
  rd out left (fill blk H info infoSz fuel i prev out left buf)
  = firstn left (stream bytes fuel i prev).
Proof.
  intros info infoSz bytes fuel. induction fuel as [|k IH]; intros i prev out left buf HP R L F U.
  - replace left with 0 by lia. reflexivity.
  - cbn [fill stream]. destruct (left =? 0) eqn:E.
    { apply Nat.eqb_eq in E. subst left. reflexivity. }
    apply Nat.eqb_neq in E.
    set (t := blk prev (rd info infoSz buf) i).
    assert (Tl : length t = H) by apply blk_len.
    assert (Et : blk prev bytes i = t) by (unfold t; rewrite R; reflexivity).
    rewrite Et.
    destruct (le_lt_dec left H) as [C|C].
    + replace (Nat.min left H) with left by lia.
      rewrite Nat.sub_diag.
      assert (D : forall f j p o b, fill blk H info infoSz f j p o 0 b = b) by (intros [|f]; reflexivity).
      rewrite D.
      assert (Lt : length (firstn left t) = left) by (rewrite firstn_length; lia).
      rewrite <- Lt at 1. rewrite rd_wr_same by lia.
      rewrite firstn_app, Tl. replace (left - H) with 0 by lia. rewrite firstn_O, app_nil_r.
      reflexivity.
    + replace (Nat.min left H) with H by lia.
      replace (firstn H t) with t by (rewrite <- Tl, firstn_all; reflexivity).
      rewrite (rd_cut out H left) by lia.
      rewrite fill_before; [| rewrite wr_length; rewrite ?Tl; lia | lia].
      replace H with (length t) at 1 by exact Tl. rewrite rd_wr_same by lia.
      rewrite firstn_app, Tl. rewrite (firstn_all2 t) by lia. f_equal.
      assert (Q : H * ((left - 1) / H) = H + H * ((left - H - 1) / H)).
      { replace (left - 1) with ((left - H - 1) + 1 * H) by lia.
        rewrite Nat.div_add by lia. lia. }
      apply IH.
      * exact HP.
      * destruct U as [U|U].
        -- subst infoSz. rewrite <- R. unfold rd. rewrite !firstn_O. reflexivity.
        -- rewrite rd_wr_other; [exact R | rewrite Tl; lia | right; rewrite Tl; lia].
      * rewrite wr_length; rewrite ?Tl; lia.
      * lia.
      * destruct U as [U|U]; [left; exact U|right; lia].
Qed.

Lemma stream_enough : forall info fuel i prev n,
  0 < H -> n <= fuel -> length (stream info fuel i prev) = fuel * H.
Proof.
  intros info fuel. induction fuel as [|k IH]; intros i prev n HP L; [reflexivity|].
  cbn [stream]. rewrite app_length, blk_len, (IH _ _ 0) by lia. lia.
Qed.

End Rounds.

(* --- the two derivations --- *)

Section Main.

Variable hlen : N -> nat.
Variable hmac : N -> list byte -> list byte -> list byte.
Variable cmac : list byte -> list byte -> list byte.
Variable hmac_len : forall t k m, length (hmac t k m) = hlen t.
Variable cmac_len : forall k m, length (cmac k m) = 16.
Variable DL KDF_MAX : nat.

Lemma stream_T : forall t prk info n j,
  stream (hkdf_blk hmac t prk) info n (S j) (T hmac t prk info j)
  = flat_map (T hmac t prk info) (seq (S j) n).
Proof.
  intros t prk info n. induction n as [|n IH]; intros j; [reflexivity|].
  cbn [stream seq flat_map]. f_equal.
  exact (IH (S j)).
Qed.

Lemma be32_counter : forall i, be32 i = counter i.
Proof. intros i. reflexivity. Qed.

Lemma stream_K : forall kdk info n i prev,
  stream (cmac_blk cmac kdk) info n i prev
  = flat_map (fun i => cmac kdk (counter i ++ info)) (seq i n).
Proof.
  intros kdk info n. induction n as [|n IH]; intros i prev; [reflexivity|].
  cbn [stream seq flat_map]. f_equal. apply IH.
Qed.

Lemma arrived_rd : forall fields a b c old,
  rd (length fields + length a) (length b) (arrived fields (a ++ b ++ c) old) = b.
Proof.
  intros fields a b c old. unfold rd, arrived.
  rewrite <- !app_assoc.
  rewrite app_assoc, <- app_length.
  rewrite skipn_app, skipn_all, Nat.sub_diag, app_nil_l. cbn [skipn].
  rewrite firstn_app, firstn_all, Nat.sub_diag, firstn_O, app_nil_r. reflexivity.
Qed.

Lemma arrived_length : forall fields p old,
  length fields + length p <= length old -> length (arrived fields p old) = length old.
Proof.
  intros fields p old L. unfold arrived. rewrite !app_length, skipn_length. lia.
Qed.

(* What the client passed: its own bytes, or the stored key named when it passed
   none. *)
Definition input (e : env) (id : N) (inline : list byte) : list byte :=
  match inline with
  | [] => match e_key e id with Some k => if (id =? 0)%N then [] else k | None => [] end
  | _ => inline
  end.

(* The derived key a call is to give. *)
Definition gives (o : outcome) (eph : bool) (key : list byte) : Prop :=
  o = Failed \/ o = (if eph then Bytes key else OnServer key).

Lemma tail_gives : forall eph e outSz buf key,
  rd OUT outSz buf = key ->
  gives (receive outSz (kdf_tail outSz eph e buf)) eph key.
Proof.
  intros eph e outSz buf key R. unfold gives, kdf_tail, receive.
  destruct eph; cbn [fst snd].
  - rewrite Nat.leb_refl, R. right. reflexivity.
  - destruct (e_cache e); cbn [fst snd]; [right; rewrite R; reflexivity|left; reflexivity].
Qed.

Lemma len0 : forall (l : list byte), (length l =? 0) = true -> l = [].
Proof. intros [|a l] E; [reflexivity|discriminate E]. Qed.

(* HKDF, by value or by id, exported or cached: the call fails or gives the
   derived key of its inputs, for every digest, input and output size such that
   the output does not reach the info before its last use.
   Missing: longer outputs, see the refutation. *)
Theorem C62_hkdf_partial : forall e fields old t keyId inKey salt info eph outSz,
  length fields = 68 -> length old = DL ->
  info_untouched (hlen t) outSz (length inKey + length salt) (length info) ->
  gives (hkdf_call hlen hmac DL KDF_MAX e fields old t keyId inKey salt info eph outSz)
        eph (HKDF hmac t salt (input e keyId inKey) info outSz).
Proof.
  intros e fields old t keyId inKey salt info eph outSz LF LO U.
  unfold hkdf_call.
  destruct (DL <? _) eqn:E0; [left; reflexivity|]. apply Nat.ltb_ge in E0.
  unfold hkdf_serve. cbn [h_type h_keySz h_saltSz h_infoSz h_outSz h_keyId h_eph].
  assert (PL : PAYLOAD = length fields) by (rewrite LF; reflexivity).
  assert (P68 : PAYLOAD = 68) by reflexivity.
  set (buf := arrived fields (inKey ++ salt ++ info) old).
  assert (LB : length buf = DL).
  { unfold buf. rewrite arrived_length; [exact LO|]. rewrite !app_length. lia. }
  assert (RK : rd PAYLOAD (length inKey) buf = inKey).
  { unfold buf. pose proof (arrived_rd fields [] inKey (salt ++ info) old) as A.
    cbn [length app] in A. rewrite Nat.add_0_r in A. rewrite PL. exact A. }
  assert (RS : rd (PAYLOAD + length inKey) (length salt) buf = salt).
  { unfold buf. rewrite PL. apply arrived_rd. }
  assert (RI : rd (PAYLOAD + length inKey + length salt) (length info) buf = info).
  { unfold buf. pose proof (arrived_rd fields (inKey ++ salt) info [] old) as A.
    rewrite app_nil_r, app_length, <- app_assoc in A. rewrite PL, <- Nat.add_assoc. exact A. }
  rewrite RK, RS.
  repeat match goal with
  | |- gives (receive _ (if ?b then (_, Refused) else _)) _ _ =>
      let E := fresh "E" in destruct b eqn:E; [left; reflexivity|]
  end.
  match goal with |- context [match ?x with Some _ => _ | None => (buf, Refused) end] =>
    destruct x as [ikm|] eqn:EK; [|left; reflexivity] end.
  assert (IK : ikm = input e keyId inKey).
  { unfold input. destruct inKey as [|a r].
    - cbn [length Nat.eqb andb] in EK. destruct (keyId =? 0)%N; cbn [negb] in EK.
      + destruct (e_key e keyId); inversion EK; reflexivity.
      + destruct (e_key e keyId) as [k|]; [|discriminate EK].
        destruct (length k <=? KDF_MAX); inversion EK. reflexivity.
    - cbn [length Nat.eqb andb] in EK. inversion EK. reflexivity. }
  rewrite <- IK.
  repeat match goal with
  | |- gives (receive _ (if ?b then (_, Refused) else _)) _ _ =>
      let E := fresh "E" in destruct b eqn:E; [left; reflexivity|]
  end.
  match goal with X : (DL - HDR - RESP <? outSz) = false |- _ => apply Nat.ltb_ge in X; rename X into EO end.
  match goal with X : (hlen t =? 0) = false |- _ => apply Nat.eqb_neq in X; rename X into EH end.
  apply tail_gives.
  rewrite (fill_stream _ (hlen t)) with (bytes := info).
  - unfold HKDF. f_equal. exact (stream_T t (hmac t salt ikm) info outSz 0).
  - intros. apply hmac_len.
  - lia.
  - exact RI.
  - unfold OUT, HDR, RESP in *. lia.
  - lia.
  - unfold info_untouched in U. unfold OUT, HDR, RESP in *. destruct U as [U|U]; [left; exact U|right; lia].
Qed.

(* The same for the two-step CMAC derivation, with blocks of 16 bytes. *)
Theorem C62_cmac_partial : forall e fields old saltId zId salt z info eph outSz,
  length fields = 68 -> length old = DL ->
  info_untouched 16 outSz (length salt + length z) (length info) ->
  gives (cmac_call cmac DL KDF_MAX e fields old saltId zId salt z info eph outSz)
        eph (TWOSTEP cmac (input e saltId salt) (input e zId z) info outSz).
Proof.
  intros e fields old saltId zId salt z info eph outSz LF LO U.
  unfold cmac_call.
  destruct (outSz =? 0) eqn:EZ; [left; reflexivity|].
  destruct (DL <? _) eqn:E0; [left; reflexivity|]. apply Nat.ltb_ge in E0.
  unfold cmac_serve. cbn [c_saltSz c_zSz c_infoSz c_outSz c_saltId c_zId c_eph].
  assert (PL : PAYLOAD = length fields) by (rewrite LF; reflexivity).
  assert (P68 : PAYLOAD = 68) by reflexivity.
  set (buf := arrived fields (salt ++ z ++ info) old).
  assert (LB : length buf = DL).
  { unfold buf. rewrite arrived_length; [exact LO|]. rewrite !app_length. lia. }
  assert (RK : rd PAYLOAD (length salt) buf = salt).
  { unfold buf. pose proof (arrived_rd fields [] salt (z ++ info) old) as A.
    cbn [length app] in A. rewrite Nat.add_0_r in A. rewrite PL. exact A. }
  assert (RS : rd (PAYLOAD + length salt) (length z) buf = z).
  { unfold buf. rewrite PL. apply arrived_rd. }
  assert (RI : rd (PAYLOAD + length salt + length z) (length info) buf = info).
  { unfold buf. pose proof (arrived_rd fields (salt ++ z) info [] old) as A.
    rewrite app_nil_r, app_length, <- app_assoc in A. rewrite PL, <- Nat.add_assoc. exact A. }
  assert (PK : forall off room id l x, rd off (length l) buf = l ->
             pick e off (length l) room id buf = Some x -> x = input e id l).
  { intros off room id l x R P. unfold pick in P. unfold input. destruct l as [|a r].
    - cbn [length Nat.eqb] in P. destruct (id =? 0)%N; [discriminate P|].
      destruct (e_key e id) as [k|]; [|discriminate P].
      destruct (length k <=? room); inversion P. reflexivity.
    - cbn [Nat.eqb length] in P. cbn [length] in R. rewrite R in P. inversion P. reflexivity. }
  repeat match goal with
  | |- gives (receive _ (if ?b then (_, Refused) else _)) _ _ =>
      let E := fresh "E" in destruct b eqn:E; [left; reflexivity|]
  end.
  destruct (pick e PAYLOAD _ _ _ buf) as [s|] eqn:PS; [|left; reflexivity].
  destruct (pick e (PAYLOAD + length salt) _ _ _ buf) as [zz|] eqn:PZ; [|left; reflexivity].
  rewrite (PK _ _ _ _ _ RK PS) in *. rewrite (PK _ _ _ _ _ RS PZ) in *.
  repeat match goal with
  | |- gives (receive _ (if ?b then (_, Refused) else _)) _ _ =>
      let E := fresh "E" in destruct b eqn:E; [left; reflexivity|]
  end.
  match goal with X : (DL - HDR - RESP <? outSz) = false |- _ => apply Nat.ltb_ge in X; rename X into EO end.
  apply tail_gives.
  rewrite (fill_stream _ CMAC_LEN) with (bytes := info).
  - unfold TWOSTEP. f_equal. apply stream_K.
  - intros. apply cmac_len.
  - unfold CMAC_LEN. lia.
  - exact RI.
  - unfold OUT, HDR, RESP in *. lia.
  - lia.
  - unfold info_untouched in U. unfold OUT, HDR, RESP, CMAC_LEN in *.
    destruct U as [U|U]; [left; exact U|right; lia].
Qed.

Lemma tail_served : forall eph e outSz buf,
  (eph = false -> e_cache e = true) -> receive outSz (kdf_tail outSz eph e buf) <> Failed.
Proof.
  intros eph e outSz buf C. unfold kdf_tail, receive. destruct eph; cbn [fst snd].
  - rewrite Nat.leb_refl. discriminate.
  - rewrite (C eq_refl). cbn [fst snd]. discriminate.
Qed.

(* Conversely a derivation whose sizes fit, whose stored inputs may be used and
   are not too long, and which the library and the key cache do not refuse, is
   served. *)
Theorem C62_hkdf_served : forall e fields old t keyId inKey salt info eph outSz,
  68 + length inKey + length salt + length info <= DL -> 20 + outSz <= DL ->
  0 < hlen t -> outSz <= 255 * hlen t -> e_lib e = true -> (eph = false -> e_cache e = true) ->
  (inKey = [] -> keyId <> 0%N ->
   exists k, e_key e keyId = Some k /\ length k <= KDF_MAX) ->
  hkdf_call hlen hmac DL KDF_MAX e fields old t keyId inKey salt info eph outSz <> Failed.
Proof.
  intros e fields old t keyId inKey salt info eph outSz L1 L2 HP L3 LIB C K.
  unfold hkdf_call, hkdf_serve. cbn [h_type h_keySz h_saltSz h_infoSz h_outSz h_keyId h_eph].
  replace (DL <? _) with false by (symmetry; apply Nat.ltb_ge; unfold PAYLOAD, HDR, REQ; lia).
  repeat match goal with |- context [(?a <? ?b)] =>
    lazymatch b with outSz => fail | _ =>
    replace (a <? b) with false by (symmetry; apply Nat.ltb_ge; unfold PAYLOAD, HDR, REQ; lia) end end.
  match goal with |- context [match ?x with Some _ => _ | None => (_, Refused) end] =>
    assert (X : exists ikm, x = Some ikm) end.
  { destruct inKey as [|a r]; cbn [length Nat.eqb andb]; [|eexists; reflexivity].
    destruct (keyId =? 0)%N eqn:E0; cbn [negb]; [eexists; reflexivity|].
    apply N.eqb_neq in E0. destruct (K eq_refl E0) as [k [K1 K2]]. rewrite K1.
    apply Nat.leb_le in K2. rewrite K2. eexists; reflexivity. }
  destruct X as [ikm X]. rewrite X.
  replace (DL - HDR - RESP <? outSz) with false by (symmetry; apply Nat.ltb_ge; unfold HDR, RESP; lia).
  rewrite LIB. cbn [negb].
  replace (hlen t =? 0) with false by (symmetry; apply Nat.eqb_neq; lia).
  replace (255 * hlen t <? outSz) with false by (symmetry; apply Nat.ltb_ge; lia).
  apply tail_served. exact C.
Qed.

Theorem C62_cmac_served : forall e fields old saltId zId salt z info eph outSz,
  length fields = 68 ->
  68 + length salt + length z + length info <= DL -> 20 + outSz <= DL -> 0 < outSz ->
  e_lib e = true -> (eph = false -> e_cache e = true) ->
  In (length (input e saltId salt)) [16; 24; 32] ->
  (z = [] -> zId <> 0%N /\ exists k, e_key e zId = Some k /\ length k <= KDF_MAX) ->
  cmac_call cmac DL KDF_MAX e fields old saltId zId salt z info eph outSz <> Failed.
Proof.
  intros e fields old saltId zId salt z info eph outSz LF L1 L2 HP LIB C KS Z0.
  assert (KL : length (input e saltId salt) = 16 \/ length (input e saltId salt) = 24
               \/ length (input e saltId salt) = 32).
  { cbn [In] in KS. lia. }
  unfold cmac_call, cmac_serve. cbn [c_saltSz c_zSz c_infoSz c_outSz c_saltId c_zId c_eph].
  replace (outSz =? 0) with false by (symmetry; apply Nat.eqb_neq; lia).
  repeat match goal with |- context [(?a <? ?b)] =>
    lazymatch b with outSz => fail | _ =>
    replace (a <? b) with false by (symmetry; apply Nat.ltb_ge; unfold PAYLOAD, HDR, REQ; lia) end end.
  assert (PS : pick e PAYLOAD (length salt) AES_256 saltId
                 (arrived fields (salt ++ z ++ info) old) = Some (input e saltId salt)).
  { unfold pick, input in *. destruct salt as [|a r].
    - cbn [length Nat.eqb]. destruct (e_key e saltId) as [k|]; [|cbn [length] in KL; lia].
      destruct (saltId =? 0)%N; [cbn [length] in KL; lia|].
      replace (length k <=? AES_256) with true
        by (symmetry; apply Nat.leb_le; unfold AES_256; lia). reflexivity.
    - replace (length (a :: r) =? 0) with false by reflexivity. f_equal.
      pose proof (arrived_rd fields [] (a :: r) (z ++ info) old) as A.
      cbn [length] in A. rewrite Nat.add_0_r, LF in A. exact A. }
  rewrite PS.
  assert (PZ : exists zz, pick e (PAYLOAD + length salt) (length z) KDF_MAX zId
                 (arrived fields (salt ++ z ++ info) old) = Some zz).
  { unfold pick. destruct z as [|a r].
    - cbn [length Nat.eqb]. destruct (Z0 eq_refl) as [Z1 [k [Z2 Z3]]].
      apply N.eqb_neq in Z1. rewrite Z1, Z2. apply Nat.leb_le in Z3. rewrite Z3.
      eexists; reflexivity.
    - eexists; reflexivity. }
  destruct PZ as [zz PZ]. rewrite PZ.
  replace (DL - HDR - RESP <? outSz) with false by (symmetry; apply Nat.ltb_ge; unfold HDR, RESP; lia).
  rewrite LIB. cbn [negb].
  replace ((length (input e saltId salt) =? 16) || (length (input e saltId salt) =? 24)
           || (length (input e saltId salt) =? 32)) with true.
  2:{ destruct KL as [Q|[Q|Q]]; rewrite Q; reflexivity. }
  cbn [negb]. apply tail_served. exact C.
Qed.

(* An inline key is used even when an id is given too, and without either the
   derivation is from the empty key. *)
Lemma input_inline : forall e id l, l <> [] -> input e id l = l.
Proof. intros e id [|a l] H; [congruence|reflexivity]. Qed.

Lemma input_stored : forall e id k, id <> 0%N -> e_key e id = Some k -> input e id [] = k.
Proof. intros e id k H E. unfold input. rewrite E. apply N.eqb_neq in H. rewrite H. reflexivity. Qed.

End Main.

Module KdfToy.

(* A stand-in for HMAC and CMAC: every byte of the result depends on every byte
   of key and message. *)
Definition mix (n : nat) (k m : list N) : list N :=
  let a := fold_left (fun a x => (a * 31 + x + 7) mod 65521)%N (k ++ m) 1%N in
  map (fun i => ((a * (2 * N.of_nat i + 3) + N.of_nat i) mod 251)%N) (seq 1 n).

Definition hlen (t : N) : nat := if (t =? 6)%N then 32 else 0.
Definition hmac (t : N) (k m : list N) := mix (hlen t) k m.
Definition cmac := mix 16.

Lemma mix_len : forall n k m, length (mix n k m) = n.
Proof. intros. unfold mix. rewrite map_length, seq_length. reflexivity. Qed.

Definition stored : list N := map N.of_nat (seq 100 32).
Definition e : env := mkEnv (fun id => if (id =? 5)%N then Some stored else None) true true.
Definition fields : list N := repeat 1%N 68.
Definition old : list N := repeat 0%N 400.
Definition info : list N := map N.of_nat (seq 1 10).

(* 64 bytes from a stored key: within the theorem's condition, and served. *)
Example C62_runs :
  info_untouched (hlen 6) 64 0 (length info)
  /\ hkdf_call hlen hmac 400 256 e fields old 6 5 [] [] info true 64
     = Bytes (HKDF hmac 6 [] stored info 64)
  /\ cmac_call cmac 400 256 e fields old 5 0 [] info info false 40
     = OnServer (TWOSTEP cmac stored info info 40).
Proof.
  split; [right; vm_compute; repeat constructor|]. vm_compute. split; reflexivity.
Qed.

(* 96 bytes from the same stored key with the same info: the second round
   overwrites the info before the third reads it, and the client is given, without
   an error, a key that is not the derived one; nobody else who derives from the
   same inputs will get it. *)
Theorem C62_hkdf_overlap_refuted :
  exists l, hkdf_call hlen hmac 400 256 e fields old 6 5 [] [] info true 96 = Bytes l
            /\ length l = 96
            /\ l <> HKDF hmac 6 [] stored info 96
            /\ firstn 64 l = firstn 64 (HKDF hmac 6 [] stored info 96).
Proof.
  eexists. vm_compute. split; [reflexivity|]. split; [reflexivity|].
  split; [discriminate|reflexivity].
Qed.

(* The same with the salt and Z stored, for 80 bytes. *)
Theorem C62_cmac_overlap_refuted :
  exists l, cmac_call cmac 400 256 e fields old 5 5 [] [] info true 80 = Bytes l
            /\ l <> TWOSTEP cmac stored stored info 80.
Proof.
  eexists. vm_compute. split; [reflexivity|discriminate].
Qed.

End KdfToy.

Print Assumptions C62_hkdf_partial.
Print Assumptions C62_cmac_partial.
Print Assumptions C62_hkdf_served.
Print Assumptions C62_cmac_served.
Print Assumptions KdfToy.C62_hkdf_overlap_refuted.
Print Assumptions KdfToy.C62_cmac_overlap_refuted.
