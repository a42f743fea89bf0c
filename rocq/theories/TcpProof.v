(** The TCP transport delivers the messages sent, whatever the segmentation. *)
From Verif Require Import BaseLemmas TcpModel TcpSpec.
Local Open Scope N_scope.

Lemma skipn_skipn' {A} a b (l : list A) : skipn a (skipn b l) = skipn (b + a) l.
Proof. revert l; induction b; intros l; [reflexivity|]. destruct l; cbn; [now rewrite !skipn_nil|apply IHb]. Qed.
Lemma firstn_plus {A} a b (l : list A) : firstn (a + b) l = firstn a l ++ firstn b (skipn a l).
Proof. revert l; induction a; intros l; [reflexivity|]. destruct l; cbn; [now rewrite firstn_nil|]. f_equal. apply IHa. Qed.

Section Proof.
Variable MTU : nat.
Hypothesis HMTU : (N.of_nat MTU < 2 ^ 16).

Definition frame (d : list N) : list N := be4 (N.of_nat (length d)) ++ d.
Definition valid (d : list N) : Prop := (0 < length d <= MTU)%nat.

Lemma be4_length n : length (be4 n) = 4%nat.
Proof. unfold be4. rewrite rev_length, le_enc_length. reflexivity. Qed.
Lemma frame_length d : length (frame d) = (4 + length d)%nat.
Proof. unfold frame. rewrite app_length, be4_length. reflexivity. Qed.
Lemma len4_be4 n l : n < 2 ^ 32 -> len4 (be4 n ++ l) = n.
Proof.
  intros H. unfold len4. rewrite firstn_app, be4_length, Nat.sub_diag, firstn_O, app_nil_r.
  rewrite firstn_all2 by (rewrite be4_length; lia). unfold be4. rewrite rev_involutive. apply le_dec_enc. exact H.
Qed.
Lemma len4_firstn k l : (4 <= k)%nat -> len4 (firstn k l) = len4 l.
Proof. intros. unfold len4. rewrite firstn_firstn. replace (Nat.min 4 k) with 4%nat by lia. reflexivity. Qed.
Lemma len4_app a b : (4 <= length a)%nat -> len4 (a ++ b) = len4 a.
Proof. intros. unfold len4. rewrite firstn_app. replace (4 - length a)%nat with 0%nat by lia. now rewrite firstn_O, app_nil_r. Qed.
Lemma valid_small d : valid d -> N.of_nat (length d) < 2 ^ 32.
Proof. intros [_ H]. assert (N.of_nat (length d) <= N.of_nat MTU) by lia. assert (2 ^ 16 < 2 ^ 32) by reflexivity. lia. Qed.
Lemma len4_frame d l : valid d -> len4 (frame d ++ l) = N.of_nat (length d).
Proof. intros V. unfold frame. rewrite <- app_assoc. apply len4_be4. now apply valid_small. Qed.

(** ** Receiving *)
Definition rinv (off : nat) (buf : list N) : Prop :=
  length buf = BUF MTU /\
  ((off < 4)%nat \/ (4 <= off)%nat /\ 0 < len4 buf <= N.of_nat MTU /\ N.of_nat (off - 4) < len4 buf).

Definition bad_header (l : list N) : Prop :=
  (4 <= length l)%nat /\ (len4 l = 0 \/ N.of_nat MTU < len4 l).

Lemma blit_ok off d buf : (off + length d <= length buf)%nat ->
  exists b, blit off d buf = Some b /\ length b = length buf /\
    firstn (off + length d) b = firstn off buf ++ d /\ (forall k, (k <= off)%nat -> firstn k b = firstn k buf).
Proof.
  intros H. unfold blit. replace (off + length d <=? length buf)%nat with true by (symmetry; apply Nat.leb_le; lia).
  eexists. split; [reflexivity|].
  assert (L : length (firstn off buf) = off) by (rewrite firstn_length; lia).
  split; [rewrite !app_length, L, skipn_length; lia|]. split.
  - rewrite app_assoc, firstn_app, app_length, L, Nat.sub_diag, firstn_O, app_nil_r.
    apply firstn_all2. rewrite app_length. lia.
  - intros k Hk. rewrite firstn_app, L. replace (k - off)%nat with 0%nat by lia.
    rewrite firstn_O, app_nil_r, firstn_firstn. f_equal. lia.
Qed.

Lemma recv_spec r1 r2 cap off buf avail : rinv off buf -> (MTU <= cap)%nat ->
  exists rc off' buf' avail' m, tcp_recv MTU r1 r2 cap off buf avail = Some (rc, off', buf', avail', m) /\
  ((rc = NOTREADY /\ m = None /\ rinv off' buf' /\ firstn off' buf' ++ avail' = firstn off buf ++ avail /\
      (forall k, r1 = Upto k -> r2 = Upto k -> (BUF MTU <= k)%nat -> avail' = [])) \/
   (rc = ABORTED /\ m = None /\ off' = 0%nat /\ length buf' = BUF MTU /\
      (r1 = Fatal \/ r2 = Fatal \/ bad_header (firstn off buf ++ avail))) \/
   (rc = OK /\ off' = 0%nat /\ length buf' = BUF MTU /\ exists msg hdr, m = Some msg /\ valid msg /\ length hdr = 4%nat /\
      len4 hdr = N.of_nat (length msg) /\ firstn off buf ++ avail = hdr ++ msg ++ avail')).
Proof.
  intros (HL & HR) HC. unfold tcp_recv.
  assert (HB : (off <= BUF MTU)%nat) by (unfold BUF; destruct HR; lia).
  replace (BUF MTU <? off)%nat with false by (symmetry; apply Nat.ltb_ge; lia).
  (* the second part *)
  assert (SEC : forall off buf avail, length buf = BUF MTU ->
     ((off <= 4)%nat \/ (4 <= off)%nat /\ 0 < len4 buf <= N.of_nat MTU /\ N.of_nat (off - 4) < len4 buf) ->
     exists rc off' buf' avail' m, tcp_recv2 MTU r2 cap off buf avail = Some (rc, off', buf', avail', m) /\
  ((rc = NOTREADY /\ m = None /\ rinv off' buf' /\ firstn off' buf' ++ avail' = firstn off buf ++ avail /\
      (forall k, r1 = Upto k -> r2 = Upto k -> (BUF MTU <= k)%nat -> avail' = [] \/ (off < 4)%nat /\ avail' = avail)) \/
   (rc = ABORTED /\ m = None /\ off' = 0%nat /\ length buf' = BUF MTU /\
      (r1 = Fatal \/ r2 = Fatal \/ bad_header (firstn off buf ++ avail))) \/
   (rc = OK /\ off' = 0%nat /\ length buf' = BUF MTU /\ exists msg hdr, m = Some msg /\ valid msg /\ length hdr = 4%nat /\
      len4 hdr = N.of_nat (length msg) /\ firstn off buf ++ avail = hdr ++ msg ++ avail'))).
  { clear off buf avail HL HR HB. intros off buf avail HL HR. unfold tcp_recv2.
    destruct (Nat.ltb_spec off 4) as [Ho|Ho].
    - exists NOTREADY, off, buf, avail, None. split; [reflexivity|]. left.
      split; [reflexivity|]. split; [reflexivity|]. split; [split; auto|]. split; [reflexivity|]. auto.
    - assert (HB : (off <= BUF MTU)%nat) by (unfold BUF; destruct HR as [?|(_ & ? & ?)]; lia).
      assert (LO : length (firstn off buf) = off) by (rewrite firstn_length; lia).
      destruct (N.eqb_spec (len4 buf) 0) as [Z0|Z0]; cbn [orb].
      { exists ABORTED, 0%nat, buf, avail, None. split; [reflexivity|]. right. left. repeat split; auto. right. right.
        split; [rewrite app_length; lia|]. left. rewrite len4_app by lia. rewrite len4_firstn by lia. auto. }
      destruct (N.ltb_spec (N.of_nat MTU) (len4 buf)) as [Z1|Z1].
      { exists ABORTED, 0%nat, buf, avail, None. split; [reflexivity|]. right. left. repeat split; auto. right. right.
        split; [rewrite app_length; lia|]. right. rewrite len4_app by lia. rewrite len4_firstn by lia. auto. }
      assert (R : (len4 buf + 2 ^ 32 - N.of_nat (off - 4)) mod 2 ^ 32 = len4 buf - N.of_nat (off - 4)).
      { assert (N.of_nat (off - 4) < len4 buf) by (destruct HR as [?|(_ & _ & ?)]; lia).
        assert (2 ^ 16 < 2 ^ 32) by reflexivity.
        replace (len4 buf + 2 ^ 32 - N.of_nat (off - 4)) with ((len4 buf - N.of_nat (off - 4)) + 1 * 2 ^ 32) by lia.
        rewrite N.mod_add by discriminate. apply N.mod_small. lia. }
      rewrite R. clear R.
      assert (HO : (off - 4 < N.to_nat (len4 buf))%nat) by (destruct HR as [?|(_ & _ & ?)]; lia).
      assert (HM : (N.to_nat (len4 buf) <= MTU)%nat) by lia.
      destruct r2 as [| |k].
      + exists NOTREADY, off, buf, avail, None. split; [reflexivity|]. left.
        split; [reflexivity|]. split; [reflexivity|]. split; [split; auto; right; repeat split; lia|]. split; [reflexivity|]. discriminate.
      + exists ABORTED, 0%nat, buf, avail, None. split; [reflexivity|]. right. left. repeat split; auto.
      + set (got := firstn (N.to_nat (N.min (N.of_nat k) (len4 buf - N.of_nat (off - 4)))) avail).
        assert (HG : (length got <= N.to_nat (len4 buf) - (off - 4))%nat) by (unfold got; rewrite firstn_length; lia).
        destruct (blit_ok off got buf) as (b & B1 & B2 & B3 & B4); [unfold BUF in *; lia|]. rewrite B1.
        assert (AV : got ++ skipn (length got) avail = avail).
        { unfold got at 2. rewrite firstn_length. unfold got.
          set (n := N.to_nat _). destruct (Nat.le_ge_cases n (length avail)).
          - rewrite Nat.min_l by auto. apply firstn_skipn.
          - rewrite Nat.min_r by auto. rewrite firstn_all2 by auto. rewrite skipn_all. apply app_nil_r. }
        assert (L4 : len4 b = len4 buf) by (unfold len4; rewrite B4 by lia; reflexivity).
        destruct (N.ltb_spec 0 (len4 buf - N.of_nat (off - 4) - N.of_nat (length got))) as [Hr|Hr].
        * exists NOTREADY, (off + length got)%nat, b, (skipn (length got) avail), None. split; [reflexivity|]. left.
          split; [reflexivity|]. split; [reflexivity|]. split.
          -- split; [congruence|]. right. rewrite L4. repeat split; lia.
          -- split; [rewrite B3, <- app_assoc, AV; reflexivity|]. intros k' _ [= <-] Hk. left. apply skipn_all2.
             unfold got in *. rewrite firstn_length in *. unfold BUF in *. lia.
        * replace (cap <? N.to_nat (len4 buf))%nat with false by (symmetry; apply Nat.ltb_ge; lia).
          exists OK, 0%nat, b, (skipn (length got) avail), (Some (firstn (N.to_nat (len4 buf)) (skipn 4 b))).
          split; [reflexivity|]. right. right. split; [reflexivity|]. split; [reflexivity|]. split; [congruence|].
          exists (firstn (N.to_nat (len4 buf)) (skipn 4 b)), (firstn 4 b).
          assert (LM : length (firstn (N.to_nat (len4 buf)) (skipn 4 b)) = N.to_nat (len4 buf)).
          { rewrite firstn_length, skipn_length, B2, HL. unfold BUF. lia. }
          split; [reflexivity|]. split; [unfold valid; rewrite LM; lia|].
          split; [rewrite firstn_length, B2, HL; unfold BUF; lia|].
          split; [rewrite len4_firstn, LM by lia; lia|].
          rewrite app_assoc, <- firstn_plus. replace (4 + N.to_nat (len4 buf))%nat with (off + length got)%nat by lia.
          rewrite B3, <- app_assoc, AV. reflexivity. }
  destruct (Nat.ltb_spec off 4) as [Ho|Ho].
  - destruct r1 as [| |k].
    + exists NOTREADY, off, buf, avail, None. split; [reflexivity|]. left. repeat split; auto. discriminate.
    + exists ABORTED, 0%nat, buf, avail, None. split; [reflexivity|]. right. left. repeat split; auto.
    + set (got := firstn (Nat.min k (4 - off)) avail).
      assert (HG : (length got <= 4 - off)%nat) by (unfold got; rewrite firstn_length; lia).
      destruct (blit_ok off got buf) as (b & B1 & B2 & B3 & B4); [unfold BUF in *; lia|]. rewrite B1.
      assert (AV : got ++ skipn (length got) avail = avail).
      { unfold got at 2. rewrite firstn_length. unfold got.
        set (n := Nat.min k _). destruct (Nat.le_ge_cases n (length avail)).
        - rewrite Nat.min_l by auto. apply firstn_skipn.
        - rewrite Nat.min_r by auto. rewrite firstn_all2 by auto. rewrite skipn_all. apply app_nil_r. }
      destruct (SEC (off + length got)%nat b (skipn (length got) avail)) as (rc & off' & buf' & avail' & m & S1 & S2); [congruence|left; lia|].
      exists rc, off', buf', avail', m. split; [exact S1|]. rewrite B3, <- app_assoc, AV in S2.
      destruct S2 as [(S2 & S3 & S4 & S5 & S6)|S2]; [left|right; exact S2]. repeat (split; [assumption|]).
      intros k' K1 K2 K3. destruct (S6 k' K1 K2 K3) as [S7|[S7 ->]]; [exact S7|].
      injection K1 as ->. apply skipn_all2. unfold got in *. rewrite firstn_length in *. unfold BUF in *. lia.
  - destruct (SEC off buf avail HL) as (rc & off' & buf' & avail' & m & S1 & S2); [destruct HR as [HR|HR]; [lia|auto]|].
    exists rc, off', buf', avail', m. split; [exact S1|].
    destruct S2 as [(S2 & S3 & S4 & S5 & S6)|S2]; [left|right; exact S2]. repeat (split; [assumption|]).
    intros k' K1 K2 K3. destruct (S6 k' K1 K2 K3) as [S7|[S7 _]]; [exact S7|lia].
Qed.

(** ** Sending *)
Definition sinv (p : option (list N)) (off : nat) (buf : list N) : Prop :=
  length buf = BUF MTU /\
  (off = 0%nat \/ exists m, p = Some m /\ valid m /\ (off < 4 + length m)%nat /\ firstn (4 + length m) buf = frame m).

Lemma send_spec w d p off buf : sinv p off buf -> valid d -> same p d ->
  exists rc off' buf' out, tcp_send MTU w d off buf = Some (rc, off', buf', out) /\
  ((rc = NOTREADY /\ sinv (Some d) off' buf' /\ (off' < 4 + length d)%nat /\ firstn off (frame d) ++ out = firstn off' (frame d)) \/
   (rc = ABORTED /\ w = Fatal /\ off' = 0%nat /\ length buf' = BUF MTU /\ out = []) \/
   (rc = OK /\ off' = 0%nat /\ length buf' = BUF MTU /\ firstn off (frame d) ++ out = frame d)).
Proof.
  intros (HL & HO) V SM. unfold tcp_send.
  assert (V' := V). destruct V' as [V1 V2].
  replace (length d =? 0)%nat with false by (symmetry; apply Nat.eqb_neq; lia).
  replace (MTU <? length d)%nat with false by (symmetry; apply Nat.ltb_ge; lia). cbn [orb].
  assert (B : exists b, (if (off =? 0)%nat then blit 0 (be4 (N.of_nat (length d)) ++ d) buf else Some buf) = Some b /\
      length b = BUF MTU /\ firstn (4 + length d) b = frame d /\ (off < 4 + length d)%nat).
  { destruct (Nat.eqb_spec off 0) as [->|Hne].
    - destruct (blit_ok 0 (be4 (N.of_nat (length d)) ++ d) buf) as (b & B1 & B2 & B3 & _).
      { rewrite app_length, be4_length, HL. unfold BUF. lia. }
      exists b. split; [exact B1|]. split; [congruence|]. split; [|lia].
      rewrite app_length, be4_length in B3. exact B3.
    - destruct HO as [HO|(m & -> & Vm & Ho & Hf)]; [contradiction|]. cbn in SM. subst m.
      exists buf. auto. }
  destruct B as (b & B1 & B2 & B3 & B4). rewrite B1.
  replace (4 + length d <? off)%nat with false by (symmetry; apply Nat.ltb_ge; lia).
  assert (SI : forall k, (k <= 4 + length d)%nat -> firstn k b = firstn k (frame d)).
  { intros k Hk. rewrite <- B3, firstn_firstn. f_equal. lia. }
  destruct w as [| |k].
  - exists NOTREADY, off, b, []. split; [reflexivity|]. left. split; [reflexivity|]. split; [|split; [auto|apply app_nil_r]].
    split; auto. right. exists d. auto.
  - exists ABORTED, 0%nat, b, []. split; [reflexivity|]. right. left. auto.
  - set (n := Nat.min k (4 + length d - off)).
    assert (OUT : firstn off (frame d) ++ firstn n (skipn off b) = firstn (off + n) (frame d)).
    { rewrite <- SI by lia. rewrite <- firstn_plus. apply SI. lia. }
    destruct (Nat.eqb_spec n (4 + length d - off)) as [En|En]; cbn [negb].
    + exists OK, 0%nat, b, (firstn n (skipn off b)). split; [reflexivity|]. right. right. repeat split; auto.
      rewrite OUT. apply firstn_all2. rewrite frame_length. lia.
    + exists NOTREADY, (off + n)%nat, b, (firstn n (skipn off b)). split; [reflexivity|]. left.
      split; [reflexivity|]. split; [|split; [lia|exact OUT]]. split; auto. right. exists d. repeat split; auto; lia.
Qed.

(** ** One direction *)
Definition proper (t : list N) : Prop := t = [] \/ exists m j, valid m /\ (j < 4 + length m)%nat /\ t = firstn j (frame m).
Definition D (sent got : list (list N)) (tail all : list N) : Prop :=
  exists pend, sent = got ++ pend /\ Forall valid pend /\ concat (map frame pend) ++ tail = all.
Definition prefix (got sent : list (list N)) : Prop := exists pend, sent = got ++ pend.

Lemma app_inv_len {A} (a b c d : list A) : a ++ b = c ++ d -> length a = length c -> a = c /\ b = d.
Proof. revert c. induction a; intros [|x c] E L; cbn in L; try lia; auto. injection E as -> E. destruct (IHa c E ltac:(lia)) as [-> ->]. auto. Qed.

Lemma proper_header t l : proper t -> t = l -> (4 <= length l)%nat -> 0 < len4 l <= N.of_nat MTU /\ N.of_nat (length l) < 4 + len4 l.
Proof.
  intros [->|(m & j & V & Hj & ->)] <- HL; [cbn in HL; lia|].
  assert (LJ : length (firstn j (frame m)) = j) by (rewrite firstn_length, frame_length; lia).
  rewrite LJ in *. rewrite len4_firstn by lia.
  replace (frame m) with (frame m ++ []) by apply app_nil_r. rewrite len4_frame by auto.
  destruct V. lia.
Qed.

Lemma D_get sent got tail all hdr msg rest : D sent got tail all -> proper tail ->
  all = hdr ++ msg ++ rest -> length hdr = 4%nat -> len4 hdr = N.of_nat (length msg) ->
  D sent (got ++ [msg]) tail rest.
Proof.
  intros (pend & E1 & E2 & E3) HP -> HL HM. destruct pend as [|m pend].
  - exfalso. cbn in E3. destruct (proper_header _ _ HP E3) as [H1 H2]; [rewrite app_length; lia|].
    rewrite len4_app in * by lia. rewrite !app_length in H2. lia.
  - inversion E2 as [|? ? V E2']; subst. cbn [map concat] in E3. rewrite <- app_assoc in E3.
    assert (LM : length m = length msg).
    { assert (len4 (frame m ++ concat (map frame pend) ++ tail) = len4 (hdr ++ msg ++ rest)) by (now rewrite E3).
      rewrite len4_frame in H by auto. rewrite len4_app in H by lia. lia. }
    rewrite (app_assoc hdr) in E3. apply app_inv_len in E3; [|rewrite frame_length, app_length; lia].
    destruct E3 as [E3 E4]. unfold frame in E3. apply app_inv_len in E3; [|now rewrite be4_length].
    destruct E3 as [_ ->]. exists pend. rewrite <- app_assoc. auto.
Qed.

Lemma D_header sent got tail all : D sent got tail all -> proper tail -> ~ bad_header all.
Proof.
  intros (pend & E1 & E2 & E3) HP (HL & HB). destruct pend as [|m pend].
  - cbn in E3. destruct (proper_header _ _ HP E3 HL) as [H1 H2]. lia.
  - inversion E2 as [|? ? V E2']; subst. cbn [map concat] in HB. rewrite <- app_assoc, len4_frame in HB by auto.
    destruct V. lia.
Qed.

Lemma D_prefix sent got tail all : D sent got tail all -> prefix got sent.
Proof. intros (pend & E & _). exists pend. auto. Qed.

Lemma D_tail sent got tail all out tail' : D sent got tail all -> tail ++ out = tail' -> D sent got tail' (all ++ out).
Proof. intros (pend & E1 & E2 & <-) <-. exists pend. rewrite app_assoc. auto. Qed.
Lemma D_sent sent got tail all out d : D sent got tail all -> tail ++ out = frame d -> valid d ->
  D (sent ++ [d]) got [] (all ++ out).
Proof.
  intros (pend & E1 & E2 & <-) E V. exists (pend ++ [d]). split; [now rewrite E1, app_assoc|].
  split; [apply Forall_app; auto|]. rewrite map_app, concat_app. cbn [map concat]. rewrite <- !app_assoc, E, !app_nil_r. reflexivity.
Qed.

(** ** Both ends *)
(** What is kept of an end: the sending or receiving state, the incomplete frame it
    has written, the incomplete frame it has read. *)
Definition end_ok (sending : bool) (p : option (list N)) (c : tctx) : Prop :=
  (dead c = true -> x_off c = 0%nat) /\ (up c = false -> x_off c = 0%nat) /\
  (if sending then sinv p (x_off c) (x_buf c) else rinv (x_off c) (x_buf c)).
Definition tail_ok (sending : bool) (p : option (list N)) (c : tctx) (t : list N) : Prop :=
  proper t /\
  (dead c = false -> if sending then (x_off c = 0%nat /\ t = [] \/ exists m, p = Some m /\ t = firstn (x_off c) (frame m)) else t = []).
Definition part (sending : bool) (c : tctx) : list N := if sending then [] else firstn (x_off c) (x_buf c).
(** From the writing end [a] to the reading end [b]. *)
Definition dir (sa : bool) (p : option (list N)) (a : tctx) (sb : bool) (b : tctx) (sent got : list (list N)) (stream : list N) : Prop :=
  if dead b then prefix got sent
  else exists t, tail_ok sa p a t /\ D sent got t (part sb b ++ stream).
Definition b2n (b : bool) : nat := if b then 1 else 0.

Definition Inv (p q : option (list N)) (tr : list tev) (s : net) : Prop :=
  let sc := negb (busy (cli s)) in let ss := busy (srv s) in
  end_ok sc p (cli s) /\ end_ok ss q (srv s) /\
  dir sc p (cli s) ss (srv s) (reqs_sent tr) (reqs_got tr) (c2s s) /\
  dir ss q (srv s) sc (cli s) (resps_sent tr) (resps_got tr) (s2c s) /\
  length (reqs_got tr) = (length (resps_sent tr) + b2n (busy (srv s)))%nat /\
  (if dead (cli s) then (length (reqs_sent tr) <= length (resps_got tr) + 1)%nat
   else length (reqs_sent tr) = (length (resps_got tr) + b2n (busy (cli s)))%nat) /\
  (busy (cli s) = true -> up (cli s) = true) /\ (busy (srv s) = true -> up (srv s) = true).

Lemma dir_prefix sa p a sb b sent got stream : dir sa p a sb b sent got stream -> prefix got sent.
Proof. unfold dir. destruct (dead b); auto. intros (t & _ & H). eapply D_prefix; eauto. Qed.

(** A writing step of end [a]. *)
Lemma end_send w d p a sb b sent got stream :
  end_ok true p a -> dir true p a sb b sent got stream -> valid d -> same p d ->
  exists rc off buf out, tcp_send MTU (sysd a w) d (x_off a) (x_buf a) = Some (rc, off, buf, out) /\
  (rc = NOTREADY /\ (dead a || is_fatal w = false) /\
     (forall z, end_ok true (Some d) (mkX off buf z true (dead a || is_fatal w)) /\
      dir true (Some d) (mkX off buf z true (dead a || is_fatal w)) sb b sent got (stream ++ out)) \/
   rc = ABORTED /\ (dead a || is_fatal w = true) /\
     (forall z, end_ok true None (mkX 0 buf z true (dead a || is_fatal w)) /\
      dir true None (mkX 0 buf z true (dead a || is_fatal w)) sb b sent got (stream ++ out)) \/
   rc = OK /\ (dead a || is_fatal w = false) /\
     (forall z, (forall s p', end_ok s p' (mkX 0 buf z true (dead a || is_fatal w))) /\
      (forall s p', dir s p' (mkX 0 buf z true (dead a || is_fatal w)) sb b (sent ++ [d]) got (stream ++ out)))).
Proof.
  intros (E1 & EU & E2) HD V SM.
  destruct (send_spec (sysd a w) d p (x_off a) (x_buf a) E2 V SM) as (rc & off & buf & out & S1 & S2).
  exists rc, off, buf, out. split; [exact S1|].
  assert (DA : sysd a w = Fatal <-> dead a || is_fatal w = true).
  { unfold sysd. destruct (dead a); cbn; [split; auto|]. destruct w; cbn; split; auto; discriminate. }
  assert (TL : dead a = false -> dead b = false -> exists t, tail_ok true p a t /\ D sent got t (part sb b ++ stream) /\ t = firstn (x_off a) (frame d)).
  { intros Da Db. unfold dir in HD. rewrite Db in HD. destruct HD as (t & (T1 & T2) & T3). exists t. split; [split; auto|]. split; [auto|].
    destruct (T2 Da) as [[-> ->]|(m & -> & ->)]; [reflexivity|]. cbn in SM. congruence. }
  destruct S2 as [(-> & S3 & S4 & S5)|[(-> & S3 & -> & S5 & ->)|(-> & -> & S4 & S5)]].
  - left. split; [reflexivity|].
    assert (DF : dead a || is_fatal w = false).
    { apply Bool.not_true_is_false. intros E. apply DA in E. rewrite E in S1. unfold tcp_send in S1.
      destruct ((length d =? 0)%nat || (MTU <? length d)%nat); [discriminate|].
      destruct (if (x_off a =? 0)%nat then _ else _); [|discriminate]. destruct (4 + length d <? x_off a)%nat; discriminate. }
    split; [exact DF|]. rewrite DF. intros z. split; [split; [discriminate|split; [discriminate|exact S3]]|].
    unfold dir in *. destruct (dead b) eqn:Db; [exact HD|].
    assert (Da : dead a = false) by (destruct (dead a); auto).
    destruct (TL Da eq_refl) as (t & T1 & T2 & T3).
    exists (firstn off (frame d)). split.
    + split; [right; exists d, off; auto|]. intros _. right. exists d. auto.
    + rewrite app_assoc. eapply D_tail; [exact T2|]. now rewrite T3.
  - right. left. split; [reflexivity|]. apply DA in S3. split; [exact S3|]. rewrite S3. intros z. split; [split; [reflexivity|split; [reflexivity|split; auto]]|].
    rewrite app_nil_r. unfold dir in *. destruct (dead b); [exact HD|]. destruct HD as (t & (T1 & _) & T2).
    exists t. split; [split; [auto|discriminate]|exact T2].
  - right. right. split; [reflexivity|].
    assert (DF : dead a || is_fatal w = false).
    { apply Bool.not_true_is_false. intros E. apply DA in E. rewrite E in S1. unfold tcp_send in S1.
      destruct ((length d =? 0)%nat || (MTU <? length d)%nat); [discriminate|].
      destruct (if (x_off a =? 0)%nat then _ else _); [|discriminate]. destruct (4 + length d <? x_off a)%nat; discriminate. }
    split; [exact DF|]. rewrite DF. intros z. split.
    + intros s p'. split; [discriminate|]. split; [discriminate|]. destruct s; split; cbn; auto. left. lia.
    + intros s p'. unfold dir in *. destruct (dead b) eqn:Db.
      * destruct HD as (pend & ->). exists (pend ++ [d]). now rewrite app_assoc.
      * assert (Da : dead a = false) by (destruct (dead a); auto).
        destruct (TL Da eq_refl) as (t & T1 & T2 & T3). exists []. split.
        -- split; [left; reflexivity|]. intros _. destruct s; [left; auto|auto].
        -- rewrite app_assoc. eapply D_sent; [exact T2| |auto]. now rewrite T3.
Qed.

(** A reading step of end [b]. *)
Lemma end_recv r1 r2 cap q b sa p a sent got stream :
  end_ok false q b -> dir sa p a false b sent got stream -> (MTU <= cap)%nat ->
  exists rc off buf rest m, tcp_recv MTU (sysd b r1) (sysd b r2) cap (x_off b) (x_buf b) stream = Some (rc, off, buf, rest, m) /\
  (rc = NOTREADY /\ m = None /\ dead b = false /\
     (forall z, end_ok false q (mkX off buf z true (dead b)) /\ dir sa p a false (mkX off buf z true (dead b)) sent got rest) \/
   rc = ABORTED /\ m = None /\
     (forall z u s q', end_ok s q' (mkX 0 buf z u true) /\ dir sa p a s (mkX 0 buf z u true) sent got rest) \/
   exists msg, rc = OK /\ m = Some msg /\ dead b = false /\
     (forall z u s q', end_ok s q' (mkX 0 buf z u (dead b)) /\ dir sa p a s (mkX 0 buf z u (dead b)) sent (got ++ [msg]) rest)).
Proof.
  intros (E1 & EU & E2) HD HC.
  destruct (recv_spec (sysd b r1) (sysd b r2) cap (x_off b) (x_buf b) stream E2 HC) as (rc & off & buf & rest & m & S1 & S2).
  exists rc, off, buf, rest, m. split; [exact S1|].
  assert (DB : dead b = true -> rc = ABORTED).
  { intros Db. unfold sysd in S1. rewrite Db in S1. rewrite (E1 Db) in S1. unfold tcp_recv in S1. cbn in S1. congruence. }
  assert (NB : rc <> ABORTED -> dead b = false) by (intros X; destruct (dead b); auto; exfalso; auto).
  assert (PF := dir_prefix _ _ _ _ _ _ _ _ HD).
  destruct S2 as [(-> & -> & S3 & S4 & _)|[(-> & -> & -> & S4 & S5)|(-> & -> & S4 & msg & hdr & -> & S5 & S6 & S7 & S8)]].
  - left. assert (Db : dead b = false) by (apply NB; discriminate). repeat (split; [auto; fail|]).
    intros z. rewrite Db. split; [split; [discriminate|split; [discriminate|exact S3]]|].
    unfold dir in *. cbn [dead]. rewrite Db in HD. destruct HD as (t & T1 & T2). exists t. split; [auto|].
    unfold part in *. cbn [x_off x_buf]. now rewrite S4.
  - right. left. repeat (split; [auto; fail|]). intros z u s q'. split.
    + split; [reflexivity|]. split; [reflexivity|]. destruct s; split; cbn; auto. left. lia.
    + unfold dir. cbn. exact PF.
  - right. right. exists msg. assert (Db : dead b = false) by (apply NB; discriminate). repeat (split; [auto; fail|]).
    intros z u s q'. split.
    + split; [reflexivity|]. split; [reflexivity|]. destruct s; split; cbn; auto. left. lia.
    + unfold dir in *. cbn [dead]. rewrite Db in *. destruct HD as (t & T1 & T2). exists t. split; [auto|].
      replace (part s (mkX 0 buf z u false) ++ rest) with rest by (unfold part; destruct s; reflexivity).
      eapply D_get; eauto. apply T1.
Qed.

(** Between two messages the end does not care about the message to repeat, nor
    while it receives. *)
Lemma end_idle p p' c : end_ok true p c -> x_off c = 0%nat -> end_ok true p' c.
Proof. intros (E1 & E2 & E3 & _) H. split; [auto|]. split; [auto|]. split; auto. Qed.
Lemma dir_idle p p' a sb b sent got st : dir true p a sb b sent got st -> x_off a = 0%nat -> dir true p' a sb b sent got st.
Proof.
  unfold dir. destruct (dead b); auto. intros (t & (T1 & T2) & T3) H. exists t. split; [|auto]. split; [auto|].
  intros Da. left. split; auto. destruct (T2 Da) as [[_ ?]|(m & _ & ->)]; auto. now rewrite H.
Qed.
Lemma end_recving p p' c : end_ok false p c -> end_ok false p' c.
Proof. auto. Qed.
Lemma dir_recving p p' a sb b sent got st : dir false p a sb b sent got st -> dir false p' a sb b sent got st.
Proof. auto. Qed.
Lemma dir_to sa p a sb b sb' b' sent got st : dir sa p a sb b sent got st ->
  (dead b' = false -> dead b = false /\ part sb' b' = part sb b) -> dir sa p a sb' b' sent got st.
Proof.
  intros H K. assert (P := dir_prefix _ _ _ _ _ _ _ _ H). unfold dir in *. destruct (dead b'); auto.
  destruct (K eq_refl) as [K1 K2]. rewrite K1 in H. now rewrite K2.
Qed.

(** The reading end stays as it is for the writing end's frames. *)
Lemma dir_from sa p a sa' p' a' sb b sent got st : dir sa p a sb b sent got st ->
  (forall t, tail_ok sa p a t -> tail_ok sa' p' a' t) -> dir sa' p' a' sb b sent got st.
Proof. unfold dir. intros H K. destruct (dead b); auto. destruct H as (t & T1 & T2). exists t. auto. Qed.

Lemma app_obs tr e :
  reqs_sent (tr ++ [e]) = reqs_sent tr ++ reqs_sent [e] /\ reqs_got (tr ++ [e]) = reqs_got tr ++ reqs_got [e] /\ resps_sent (tr ++ [e]) = resps_sent tr ++ resps_sent [e] /\ resps_got (tr ++ [e]) = resps_got tr ++ resps_got [e].
Proof. unfold reqs_sent, reqs_got, resps_sent, resps_got. rewrite !flat_map_app. auto. Qed.

Lemma sinv_off p off buf d : sinv p off buf -> same p d -> ~ valid d -> off = 0%nat.
Proof. intros (_ & [H|(m & -> & V & _)]) S N; auto. cbn in S. subst. contradiction. Qed.

Lemma check_valid d : (length d =? 0)%nat || (MTU <? length d)%nat = false -> valid d.
Proof.
  intros H. apply Bool.orb_false_iff in H. destruct H as [H1 H2]. apply Nat.eqb_neq in H1. apply Nat.ltb_ge in H2.
  unfold valid. lia.
Qed.
Lemma check_invalid d : (length d =? 0)%nat || (MTU <? length d)%nat = true -> ~ valid d.
Proof.
  intros H [V1 V2]. apply Bool.orb_true_iff in H. destruct H as [H|H]; [apply Nat.eqb_eq in H|apply Nat.ltb_lt in H]; lia.
Qed.

Lemma step_sendreq p q tr s conn w d : Inv p q tr s -> same p d ->
  exists s' o, tstep MTU (SendReq conn w d) s = Some (s', o) /\ Inv (next (Some o) d) q (tr ++ [(SendReq conn w d, Some o)]) s'.
Proof.
  intros (EC & ES & DR & DP & N1 & N2 & U1 & U2) SM. cbn [tstep]. unfold client_send.
  assert (KEEP : forall rc p', is_ok rc = false -> (busy (cli s) = false -> p' = p \/ x_off (cli s) = 0%nat) ->
     Inv p' q (tr ++ [(SendReq conn w d, Some (rc, None))]) s).
  { intros rc p' HR HP. unfold Inv. destruct (app_obs tr (SendReq conn w d, Some (rc, None))) as (-> & -> & -> & ->).
    cbn [reqs_sent reqs_got resps_sent resps_got flat_map]. rewrite HR. rewrite !app_nil_r.
    destruct (busy (cli s)) eqn:EB; cbn [negb] in *.
    - split; [exact EC|]. split; [exact ES|]. split; [eapply dir_recving; exact DR|]. auto 10.
    - destruct (HP eq_refl) as [->|H0].
      + split; [exact EC|]. split; [exact ES|]. auto 10.
      + split; [eapply end_idle; eauto|]. split; [exact ES|]. split; [eapply dir_idle; eauto|]. auto 10. }
  assert (EQ : mkNet (cli s) (srv s) (c2s s ++ []) (s2c s) = s) by (destruct s; cbn; now rewrite app_nil_r).
  destruct ((length d =? 0)%nat || (MTU <? length d)%nat) eqn:EV.
  { eexists _, _. split; [reflexivity|]. rewrite EQ. apply KEEP; [reflexivity|].
    intros EB. right. destruct EC as (_ & _ & EC). rewrite EB in EC. cbn [negb] in EC.
    eapply sinv_off; eauto. now apply check_invalid. }
  apply check_valid in EV.
  destruct (busy (cli s)) eqn:EB.
  { eexists _, _. split; [reflexivity|]. rewrite EQ. apply KEEP; [reflexivity|]. discriminate. }
  cbn [negb] in *.
  destruct (up (cli s) || is_ok conn) eqn:EU.
  - destruct (end_send w d p (cli s) (busy (srv s)) (srv s) _ _ _ EC DR EV SM) as (rc & off & buf & out & S1 & S2). rewrite S1.
    destruct S2 as [(-> & Hd & S2)|[(-> & Hd & S2)|(-> & Hd & S2)]]; cbn [negb Z.eqb NOTREADY ABORTED OK is_ok Pos.eqb];
      (eexists _, _; split; [reflexivity|]); unfold Inv; cbn [cli srv c2s s2c busy dead up];
      match goal with |- context [tr ++ [?e]] => destruct (app_obs tr e) as (-> & -> & -> & ->) end;
      cbn [reqs_sent reqs_got resps_sent resps_got flat_map app is_ok Z.eqb OK NOTREADY ABORTED Pos.eqb next]; rewrite ?app_nil_r; cbn [negb].
    + destruct (S2 false) as [S3 S4]. split; [exact S3|]. split; [exact ES|]. split; [exact S4|].
      split; [eapply dir_to; [exact DP|]; cbn; intros X; split; [destruct (dead (cli s)); auto|reflexivity]|].
      rewrite Hd. assert (Dc : dead (cli s) = false) by (destruct (dead (cli s)); auto). rewrite Dc in N2. repeat split; auto; discriminate.
    + destruct (S2 false) as [S3 S4]. split; [exact S3|]. split; [exact ES|]. split; [exact S4|].
      split; [eapply dir_to; [exact DP|]; cbn; rewrite Hd; discriminate|].
      rewrite Hd. repeat split; auto; try discriminate. cbn [b2n] in N2; destruct (dead (cli s)); lia.
    + destruct (S2 true) as [S3 S4]. split; [apply S3|]. split; [exact ES|]. split; [apply S4|].
      split; [eapply dir_to; [exact DP|]; cbn; intros X; split; [destruct (dead (cli s)); auto|reflexivity]|].
      rewrite Hd. assert (Dc : dead (cli s) = false) by (destruct (dead (cli s)); auto). rewrite Dc in N2.
      rewrite app_length. cbn [length b2n] in *. repeat split; auto. lia.
  - eexists _, _. split; [reflexivity|]. rewrite EQ.
    apply Bool.orb_false_iff in EU. destruct EU as [EU1 EU2]. apply KEEP.
    + destruct (Z.eqb_spec conn NOTFOUND); auto.
    + intros _. right. destruct EC as (_ & EC & _). auto.
Qed.

Lemma step_sendresp p q tr s w d : Inv p q tr s -> same q d ->
  exists s' o, tstep MTU (SendResp w d) s = Some (s', o) /\ Inv p (next (Some o) d) (tr ++ [(SendResp w d, Some o)]) s'.
Proof.
  intros (EC & ES & DR & DP & N1 & N2 & U1 & U2) SM. cbn [tstep]. unfold server_send.
  assert (KEEP : forall rc q', is_ok rc = false -> (busy (srv s) = true -> q' = q \/ x_off (srv s) = 0%nat) ->
     Inv p q' (tr ++ [(SendResp w d, Some (rc, None))]) s).
  { intros rc q' HR HP. unfold Inv. destruct (app_obs tr (SendResp w d, Some (rc, None))) as (-> & -> & -> & ->).
    cbn [reqs_sent reqs_got resps_sent resps_got flat_map]. rewrite HR. rewrite !app_nil_r.
    destruct (busy (srv s)) eqn:EB.
    - destruct (HP eq_refl) as [->|H0].
      + split; [exact EC|]. split; [exact ES|]. auto 10.
      + split; [exact EC|]. split; [eapply end_idle; eauto|]. split; [exact DR|]. split; [eapply dir_idle; eauto|]. auto 10.
    - split; [exact EC|]. split; [exact ES|]. split; [exact DR|]. split; [eapply dir_recving; exact DP|]. auto 10. }
  assert (EQ : mkNet (cli s) (srv s) (c2s s) (s2c s ++ []) = s) by (destruct s; cbn; now rewrite app_nil_r).
  destruct (up (srv s)) eqn:EU; cbn [negb orb].
  2: { eexists _, _. split; [reflexivity|]. rewrite EQ. apply KEEP; [reflexivity|]. intros EB. specialize (U2 EB). discriminate. }
  destruct ((length d =? 0)%nat || (MTU <? length d)%nat) eqn:EV.
  { eexists _, _. split; [reflexivity|]. rewrite EQ. apply KEEP; [reflexivity|].
    intros EB. right. destruct ES as (_ & _ & ES). rewrite EB in ES.
    eapply sinv_off; eauto. now apply check_invalid. }
  apply check_valid in EV.
  destruct (busy (srv s)) eqn:EB; cbn [negb].
  2: { eexists _, _. split; [reflexivity|]. rewrite EQ. apply KEEP; [reflexivity|]. discriminate. }
  destruct (end_send w d q (srv s) (negb (busy (cli s))) (cli s) _ _ _ ES DP EV SM) as (rc & off & buf & out & S1 & S2). rewrite S1.
  destruct S2 as [(-> & Hd & S2)|[(-> & Hd & S2)|(-> & Hd & S2)]]; cbn [negb Z.eqb NOTREADY ABORTED OK is_ok Pos.eqb];
    (eexists _, _; split; [reflexivity|]); unfold Inv; cbn [cli srv c2s s2c busy dead up];
    match goal with |- context [tr ++ [?e]] => destruct (app_obs tr e) as (-> & -> & -> & ->) end;
    cbn [reqs_sent reqs_got resps_sent resps_got flat_map app is_ok Z.eqb OK NOTREADY ABORTED Pos.eqb next]; rewrite ?app_nil_r; cbn [negb].
  - destruct (S2 true) as [S3 S4]. split; [exact EC|]. split; [exact S3|].
    split; [eapply dir_to; [exact DR|]; cbn; intros X; split; [destruct (dead (srv s)); auto|reflexivity]|].
    split; [exact S4|]. split; [exact N1|]. split; [exact N2|]. auto.
  - destruct (S2 true) as [S3 S4]. split; [exact EC|]. split; [exact S3|].
    split; [eapply dir_to; [exact DR|]; cbn; rewrite Hd; discriminate|].
    split; [exact S4|]. split; [exact N1|]. split; [exact N2|]. auto.
  - destruct (S2 false) as [S3 S4]. split; [exact EC|]. split; [apply S3|].
    split; [eapply dir_to; [exact DR|]; cbn; intros X; split; [destruct (dead (srv s)); auto|reflexivity]|].
    split; [apply S4|]. split; [rewrite app_length; cbn [length b2n] in *; lia|]. split; [exact N2|]. auto.
Qed.

Lemma step_recvreq p q tr s acc r1 r2 cap : Inv p q tr s -> (MTU <= cap)%nat ->
  exists s' o, tstep MTU (RecvReq acc r1 r2 cap) s = Some (s', o) /\ Inv p q (tr ++ [(RecvReq acc r1 r2 cap, Some o)]) s'.
Proof.
  intros (EC & ES & DR & DP & N1 & N2 & U1 & U2) HC. cbn [tstep]. unfold server_recv.
  assert (KEEP : forall rc, Inv p q (tr ++ [(RecvReq acc r1 r2 cap, Some (rc, None))]) s).
  { intros rc. unfold Inv. destruct (app_obs tr (RecvReq acc r1 r2 cap, Some (rc, None))) as (-> & -> & -> & ->).
    cbn [reqs_sent reqs_got resps_sent resps_got flat_map]. rewrite !app_nil_r. auto 10. }
  assert (EQ : mkNet (cli s) (srv s) (c2s s) (s2c s) = s) by (destruct s; reflexivity).
  destruct (negb (up (srv s) || is_ok acc)); [eexists _, _; split; [reflexivity|]; rewrite EQ; apply KEEP|].
  destruct (busy (srv s)) eqn:EB; [eexists _, _; split; [reflexivity|]; rewrite EQ; apply KEEP|].
  destruct (end_recv r1 r2 cap q (srv s) _ p (cli s) _ _ _ ES DR HC) as (rc & off & buf & rest & m & S1 & S2). rewrite S1.
  destruct S2 as [(-> & -> & Hd & S2)|[(-> & -> & S2)|(msg & -> & -> & Hd & S2)]]; cbn [negb Z.eqb NOTREADY ABORTED OK is_ok Pos.eqb];
    (eexists _, _; split; [reflexivity|]); unfold Inv; cbn [cli srv c2s s2c busy dead up];
    match goal with |- context [tr ++ [?e]] => destruct (app_obs tr e) as (-> & -> & -> & ->) end;
    cbn [reqs_sent reqs_got resps_sent resps_got flat_map app is_ok Z.eqb OK NOTREADY ABORTED Pos.eqb]; rewrite ?app_nil_r, ?Bool.orb_false_r, ?Bool.orb_true_r.
  - destruct (S2 false) as [S3 S4]. split; [exact EC|]. split; [exact S3|]. split; [exact S4|].
    split; [eapply dir_from; [exact DP|]; intros t (T1 & T2); split; [exact T1|]; cbn; exact T2|].
    split; [exact N1|]. split; [exact N2|]. split; auto.
  - destruct (S2 false true false q) as [S3 S4]. split; [exact EC|]. split; [exact S3|]. split; [exact S4|].
    split; [eapply dir_from; [exact DP|]; intros t (T1 & T2); split; [exact T1|]; discriminate|].
    split; [exact N1|]. split; [exact N2|]. split; auto.
  - destruct (S2 true true true q) as [S3 S4]. split; [exact EC|]. split; [exact S3|]. split; [exact S4|].
    split; [eapply dir_from; [exact DP|]; intros t (T1 & T2); split; [exact T1|]; cbn; rewrite Hd in *; intros _; left; auto|].
    split; [rewrite app_length; cbn [length b2n] in *; lia|]. split; [exact N2|]. split; auto.
Qed.

Lemma step_recvresp p q tr s r1 r2 cap : Inv p q tr s -> (MTU <= cap)%nat ->
  exists s' o, tstep MTU (RecvResp r1 r2 cap) s = Some (s', o) /\ Inv p q (tr ++ [(RecvResp r1 r2 cap, Some o)]) s'.
Proof.
  intros (EC & ES & DR & DP & N1 & N2 & U1 & U2) HC. cbn [tstep]. unfold client_recv.
  assert (EQ : mkNet (cli s) (srv s) (c2s s) (s2c s) = s) by (destruct s; reflexivity).
  destruct (busy (cli s)) eqn:EB; cbn [negb] in *.
  2: { eexists _, _. split; [reflexivity|]. rewrite EQ. unfold Inv.
       match goal with |- context [tr ++ [?e]] => destruct (app_obs tr e) as (-> & -> & -> & ->) end.
       cbn [reqs_sent reqs_got resps_sent resps_got flat_map]. rewrite !app_nil_r, EB. auto 10. }
  destruct (end_recv r1 r2 cap p (cli s) _ q (srv s) _ _ _ EC DP HC) as (rc & off & buf & rest & m & S1 & S2). rewrite S1.
  rewrite (U1 eq_refl).
  destruct S2 as [(-> & -> & Hd & S2)|[(-> & -> & S2)|(msg & -> & -> & Hd & S2)]]; cbn [negb Z.eqb NOTREADY ABORTED OK is_ok Pos.eqb];
    (eexists _, _; split; [reflexivity|]); unfold Inv; cbn [cli srv c2s s2c busy dead up];
    match goal with |- context [tr ++ [?e]] => destruct (app_obs tr e) as (-> & -> & -> & ->) end;
    cbn [reqs_sent reqs_got resps_sent resps_got flat_map app is_ok Z.eqb OK NOTREADY ABORTED Pos.eqb]; rewrite ?app_nil_r, ?Bool.orb_false_r, ?Bool.orb_true_r; cbn [negb].
  - destruct (S2 true) as [S3 S4]. split; [exact S3|]. split; [exact ES|].
    split; [eapply dir_from; [exact DR|]; intros t (T1 & T2); split; [exact T1|]; cbn; exact T2|].
    split; [exact S4|]. split; [exact N1|]. split; [exact N2|]. split; auto.
  - destruct (S2 false true true p) as [S3 S4]. split; [exact S3|]. split; [exact ES|].
    split; [eapply dir_from; [exact DR|]; intros t (T1 & T2); split; [exact T1|]; discriminate|].
    split; [exact S4|]. split; [exact N1|]. split; [cbn [b2n] in N2; destruct (dead (cli s)); lia|]. split; auto.
  - destruct (S2 false true true p) as [S3 S4]. split; [exact S3|]. split; [exact ES|].
    split; [eapply dir_from; [exact DR|]; intros t (T1 & T2); split; [exact T1|]; cbn; rewrite Hd in *; intros _; left; auto|].
    split; [exact S4|]. split; [exact N1|]. rewrite Hd in *.
    split; [rewrite app_length; cbn [length b2n] in *; lia|]. split; auto.
Qed.

Lemma Inv_init : Inv None None [] (net_init MTU).
Proof.
  assert (L : length (repeat 0 (BUF MTU)) = BUF MTU) by apply repeat_length.
  unfold Inv. cbn [net_init cli srv x_init busy negb dead up c2s s2c].
  assert (ER : forall s p, end_ok s p (x_init MTU)).
  { intros s p. split; [reflexivity|]. split; [reflexivity|]. destruct s; split; auto; cbn; auto. left. lia. }
  assert (DI : forall sa p sb, dir sa p (x_init MTU) sb (x_init MTU) [] [] []).
  { intros sa p sb. unfold dir. cbn [x_init dead]. exists []. split.
    - split; [left; reflexivity|]. intros _. destruct sa; auto.
    - exists []. split; [reflexivity|]. split; [constructor|]. unfold part. destruct sb; reflexivity. }
  split; [apply ER|]. split; [apply ER|]. split; [apply DI|]. split; [apply DI|].
  split; [reflexivity|]. split; [reflexivity|]. split; discriminate.
Qed.

Lemma run_inv : forall cs s p q tr0 tr s', Inv p q tr0 s -> trun MTU cs s = (tr, s') -> well_used MTU p q tr ->
  Forall (fun e => snd e <> None) tr /\ exists p' q', Inv p' q' (tr0 ++ tr) s'.
Proof.
  induction cs as [|c cs IH]; cbn [trun]; intros s p q tr0 tr s' HI E HW.
  - injection E as <- <-. split; [constructor|]. exists p, q. now rewrite app_nil_r.
  - assert (ST : exists s1 o p1 q1, tstep MTU c s = Some (s1, o) /\ Inv p1 q1 (tr0 ++ [(c, Some o)]) s1 /\
       (forall tr', well_used MTU p q ((c, Some o) :: tr') -> well_used MTU p1 q1 tr')).
    { destruct (tstep MTU c s) as [[s1 o]|] eqn:EC.
      - destruct (trun MTU cs s1) as [tr1 s2]. injection E as <- <-.
        destruct c as [conn w d|r1 r2 cap|acc r1 r2 cap|w d]; cbn [well_used] in HW.
        + destruct HW as (W1 & W2 & _). destruct (step_sendreq p q tr0 s conn w d HI W1) as (s3 & o3 & X1 & X2).
          rewrite EC in X1. injection X1 as <- <-. eexists s1, o, _, _. split; [reflexivity|]. split; [exact X2|]. cbn [well_used]. tauto.
        + destruct HW as (W1 & _). destruct (step_recvresp p q tr0 s r1 r2 cap HI W1) as (s3 & o3 & X1 & X2).
          rewrite EC in X1. injection X1 as <- <-. eexists s1, o, _, _. split; [reflexivity|]. split; [exact X2|]. cbn [well_used]. tauto.
        + destruct HW as (W1 & _). destruct (step_recvreq p q tr0 s acc r1 r2 cap HI W1) as (s3 & o3 & X1 & X2).
          rewrite EC in X1. injection X1 as <- <-. eexists s1, o, _, _. split; [reflexivity|]. split; [exact X2|]. cbn [well_used]. tauto.
        + destruct HW as (W1 & W2 & _). destruct (step_sendresp p q tr0 s w d HI W1) as (s3 & o3 & X1 & X2).
          rewrite EC in X1. injection X1 as <- <-. eexists s1, o, _, _. split; [reflexivity|]. split; [exact X2|]. cbn [well_used]. tauto.
      - exfalso. injection E as <- <-. destruct c as [conn w d|r1 r2 cap|acc r1 r2 cap|w d]; cbn [well_used] in HW.
        + destruct HW as (W1 & _). destruct (step_sendreq p q tr0 s conn w d HI W1) as (? & ? & X & _). congruence.
        + destruct HW as (W1 & _). destruct (step_recvresp p q tr0 s r1 r2 cap HI W1) as (? & ? & X & _). congruence.
        + destruct HW as (W1 & _). destruct (step_recvreq p q tr0 s acc r1 r2 cap HI W1) as (? & ? & X & _). congruence.
        + destruct HW as (W1 & _). destruct (step_sendresp p q tr0 s w d HI W1) as (? & ? & X & _). congruence. }
    destruct ST as (s1 & o & p1 & q1 & S1 & S2 & S3). rewrite S1 in E.
    destruct (trun MTU cs s1) as [tr1 s2] eqn:E1. injection E as <- <-.
    destruct (IH _ _ _ _ _ _ S2 E1 (S3 _ HW)) as (F & p' & q' & I').
    split; [constructor; [discriminate|exact F]|]. exists p', q'. now rewrite <- app_assoc in I'.
Qed.

(** The transport delivers in order and unaltered what was sent, in both directions,
    each answer after its request, and never leaves a buffer. *)
Theorem tcp_delivers : forall cs tr s', trun MTU cs (net_init MTU) = (tr, s') -> well_used MTU None None tr ->
  Forall (fun e => snd e <> None) tr /\
  (exists more, reqs_sent tr = reqs_got tr ++ more) /\
  (exists more, resps_sent tr = resps_got tr ++ more) /\
  (length (resps_sent tr) <= length (reqs_got tr))%nat /\
  (length (reqs_sent tr) <= length (resps_got tr) + 1)%nat.
Proof.
  intros cs tr s' E W. destruct (run_inv _ _ _ _ _ _ _ Inv_init E W) as (F & p & q & (_ & _ & DR & DP & N1 & N2 & _)).
  cbn [app] in *. split; [exact F|]. split; [exact (dir_prefix _ _ _ _ _ _ _ _ DR)|]. split; [exact (dir_prefix _ _ _ _ _ _ _ _ DP)|].
  split; [lia|]. destruct (dead (cli s')); [exact N2|]. unfold b2n in N2. destruct (busy (cli s')); lia.
Qed.

(** Nothing is held back: a receive that may read everything finds the message. *)
Theorem recv_complete : forall d cap k off buf rest stream, valid d -> (MTU <= cap)%nat ->
  rinv off buf -> firstn off buf ++ stream = frame d ++ rest -> (BUF MTU <= k)%nat ->
  exists buf', tcp_recv MTU (Upto k) (Upto k) cap off buf stream = Some (OK, 0%nat, buf', rest, Some d).
Proof.
  intros d cap k off buf rest stream V HC HR HS HK.
  destruct (recv_spec (Upto k) (Upto k) cap off buf stream HR HC) as (rc & off' & buf' & avail' & m & S1 & S2).
  destruct S2 as [(-> & -> & S3 & S4 & S5)|[(-> & -> & -> & S4 & [X|[X|(X1 & X2)]])|(-> & -> & S4 & msg & hdr & -> & S5 & S6 & S7 & S8)]]; try discriminate X.
  - (* not ready: then less than a message was there *)
    exfalso. rewrite (S5 k eq_refl eq_refl HK), app_nil_r, HS in S4.
    assert (LE : (4 + length d <= length (firstn off' buf'))%nat) by (rewrite S4, app_length, frame_length; lia).
    pose proof (firstn_le_length off' buf') as LF. rewrite firstn_length in LE.
    destruct S3 as (SL & [S3|(S3 & S6 & S7)]); [lia|].
    rewrite <- (len4_firstn off') in S7 by lia. rewrite S4, len4_frame in S7 by auto. lia.
  - exfalso. rewrite HS, len4_frame in X2 by auto. destruct V. lia.
  - exists buf'. rewrite S1. rewrite HS in S8.
    assert (LM : length d = length msg).
    { assert (len4 (frame d ++ rest) = len4 (hdr ++ msg ++ avail')) by (now rewrite S8).
      rewrite len4_frame in H by auto. rewrite len4_app in H by lia. lia. }
    rewrite (app_assoc hdr) in S8. apply app_inv_len in S8; [|rewrite frame_length, app_length; lia].
    destruct S8 as [E3 <-]. unfold frame in E3. apply app_inv_len in E3; [|now rewrite be4_length].
    destruct E3 as [_ ->]. reflexivity.
Qed.

(** Against any peer: whatever bytes arrive in whatever pieces, a receiver stays
    within its buffers.  [feed]: receives with new bytes before each. *)
Fixpoint feed (cap : nat) (xs : list (list N * sys * sys)) (off : nat) (buf avail : list N) : option (list (list N)) :=
  match xs with
  | [] => Some []
  | (new, r1, r2) :: xs' =>
      match tcp_recv MTU r1 r2 cap off buf (avail ++ new) with
      | None => None
      | Some (rc, off', buf', avail', m) =>
          match feed cap xs' off' buf' avail' with
          | None => None
          | Some ms => Some (match m with Some x => x :: ms | None => ms end)
          end
      end
  end.
Theorem feed_safe : forall cap xs, (MTU <= cap)%nat ->
  exists ms, feed cap xs 0 (repeat 0 (BUF MTU)) [] = Some ms /\ Forall (fun m => 0 < length m <= MTU)%nat ms.
Proof.
  intros cap xs HC.
  assert (G : forall off buf avail, rinv off buf -> exists ms, feed cap xs off buf avail = Some ms /\ Forall (fun m => 0 < length m <= MTU)%nat ms).
  { induction xs as [|[[new r1] r2] xs IH]; intros off buf avail HR; cbn [feed]; [exists []; auto|].
    destruct (recv_spec r1 r2 cap off buf (avail ++ new) HR HC) as (rc & off' & buf' & avail' & m & S1 & S2). rewrite S1.
    assert (HR' : rinv off' buf' /\ forall x, m = Some x -> (0 < length x <= MTU)%nat).
    { destruct S2 as [(-> & -> & S3 & _)|[(-> & -> & -> & S4 & _)|(-> & -> & S4 & msg & hdr & -> & S5 & _)]].
      - split; [auto|discriminate].
      - split; [split; [auto|left; lia]|discriminate].
      - split; [split; [auto|left; lia]|intros x [= <-]; exact S5]. }
    destruct HR' as [HR' HM]. destruct (IH off' buf' avail' HR') as (ms & -> & F).
    destruct m as [x|]; eexists; (split; [reflexivity|]); auto. }
  apply G. split; [apply repeat_length|left; lia].
Qed.
End Proof.
