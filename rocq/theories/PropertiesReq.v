(** C67: what the client library sends.  Specification: ReqSpec.v. *)
From Verif Require Import Base ReqModel ReqSpec ReqProof.
From Coq Require Import Lia.
Local Open Scope N_scope.

(** *** A call sends the caller's data, all of it and nothing else, or refuses.
    Missing: the calls [regular] leaves out; see the theorems below. *)
Theorem C67_request_partial : forall cf enc buf c,
  sane cf -> good_fields cf enc -> in_range c -> regular cf c -> len buf = c_dl cf ->
  (nothing_to_do c -> request cf enc buf c = Quiet) /\
  (~ nothing_to_do c -> acceptable cf c -> fits cf c -> request cf enc buf c = Sent (message enc c)) /\
  (~ nothing_to_do c -> ~ (acceptable cf c /\ fits cf c) ->
     exists rc, rc <> OK /\ request cf enc buf c = Refused rc).
Proof. intros cf enc buf c Sa G R Q L. apply request_exact; assumption. Qed.
Print Assumptions C67_request_partial.

(** *** Nothing is written outside the message buffer, and what is sent fits it. *)
Theorem C67_in_the_buffer_partial : forall cf enc buf c,
  sane cf -> good_fields cf enc -> in_range c -> regular cf c -> len buf = c_dl cf ->
  request cf enc buf c <> Overrun /\
  forall m, request cf enc buf c = Sent m -> len m <= c_dl cf.
Proof.
  intros cf enc buf c Sa G R Q L. pose proof (shape_all cf enc Sa G c R Q) as S.
  destruct (request_exact cf enc Sa G c buf R Q L) as (A & B & C).
  destruct (prepare cf enc c) as [rc | | ws t] eqn:P; cbn [shape] in S.
  - destruct S as (_ & S1 & S2). destruct (C S2 S1) as (rc' & _ & E). rewrite E. split; [discriminate | intros m D; discriminate D].
  - rewrite (A S). split; [discriminate | intros m D; discriminate D].
  - destruct S as (S1 & S2 & S3 & _). rewrite (B S3 S1 S2). split; [discriminate |].
    intros m D. injection D as <-. unfold fits in S2. unfold message. rewrite len_app.
    replace (len _) with (fixed cf c); [exact S2 |].
    pose proof (enc_len cf enc G c) as EL. symmetry.
    destruct (among c) as [[o d] |] eqn:Ea; [| exact EL]. rewrite with_at_len; [exact EL |].
    rewrite EL. destruct c; inversion Ea; subst; unfold first; rewrite len_firstn; cbn [fixed]; lia.
Qed.
Print Assumptions C67_in_the_buffer_partial.

(** *** A label arrives as its first 24 bytes, filled up with zeros. *)
Definition label_of (c : call) : arg :=
  match c with
  | KeyCache l _ | KeyCacheRandom l _ | KeyCacheDma l | CertAdd l _ | NvmAdd l _ | Hkdf l _ _ _ | CmacKdf l _ _ _ _ => l
  | _ => Null 0
  end.
Theorem C67_label_partial : forall cf enc buf c o m,
  sane cf -> good_fields cf enc -> in_range c -> regular cf c -> len buf = c_dl cf ->
  label_area c = Some o -> request cf enc buf c = Sent m ->
  firstn 24 (skipn (N.to_nat o) m) =
  firstn 24 (data (label_of c)) ++ repeat 0 (24 - length (firstn 24 (data (label_of c)))).
Proof.
  intros cf enc buf c o m Sa G R Q L A E. pose proof (shape_all cf enc Sa G c R Q) as S.
  destruct (request_exact cf enc Sa G c buf R Q L) as (X & Y & Z).
  destruct (prepare cf enc c) as [rc | | ws t] eqn:P; cbn [shape] in S.
  - destruct S as (_ & S1 & S2). destruct (Z S2 S1) as (rc' & _ & F). rewrite F in E. discriminate E.
  - rewrite (X S) in E. discriminate E.
  - destruct S as (S1 & S2 & S3 & _). rewrite (Y S3 S1 S2) in E. injection E as <-.
    destruct (G c) as [EL LZ]. specialize (LZ o A).
    assert (Am : among c = Some (o, firstn 24 (data (label_of c)))) by (destruct c; inversion A; reflexivity).
    assert (H24 : o + 24 <= fixed cf c) by (destruct c; inversion A; subst; cbn [fixed]; lia).
    assert (D24 : (length (firstn 24 (data (label_of c))) <= 24)%nat) by (rewrite firstn_length; lia).
    rewrite <- EL in H24. unfold message. rewrite Am.
    rewrite <- (label_read (enc c) o _ H24 D24 LZ).
    assert (W : len (with_at (enc c) o (firstn 24 (data (label_of c)))) = len (enc c))
      by (apply with_at_len; unfold len in *; lia).
    rewrite skipn_app, firstn_app. replace (24 - _)%nat with 0%nat.
    + cbn [firstn]. apply app_nil_r.
    + rewrite skipn_length. unfold len in *. lia.
Qed.
Print Assumptions C67_label_partial.

(** *** Refuted: a sum of lengths that is cut off.  The check of the sum passes, and
    the function writes outside the buffer. *)
Theorem C67_wrapped_sum_refuted : forall cf enc buf c w l,
  sane cf -> in_range c -> acceptable cf c -> some_blocks c -> stated c = Some (w, l) ->
  w <= fixed cf c + total l -> (fixed cf c + total l) mod w <= c_dl cf ->
  request cf enc buf c = Overrun.
Proof. intros cf enc buf c w l Sa R A B St W M. exact (wrapped_overrun cf enc c w l buf Sa R A St W M B). Qed.
Print Assumptions C67_wrapped_sum_refuted.
Theorem C67_she_wrapped_sum_refuted : forall cf enc buf c n,
  sane cf -> in_range c -> acceptable cf c -> she_stated c = Some n ->
  c_sizet cf <= fixed cf c + n -> (fixed cf c + n) mod c_sizet cf <= c_dl cf ->
  request cf enc buf c = Overrun.
Proof. intros cf enc buf c n Sa R A St W M. exact (she_wrapped cf enc c n buf Sa R A St W M). Qed.
Print Assumptions C67_she_wrapped_sum_refuted.

(** *** Refuted: SHE CBC copies the vector with the length the caller states. *)
Theorem C67_she_vector_refuted : forall cf enc buf iv d,
  sane cf -> given iv = true -> at_least 16 d -> 24 + size d <= c_dl cf -> c_dl cf < 8 + size iv ->
  request cf enc buf (SheCbc iv d) = Overrun.
Proof.
  intros cf enc buf iv d Sa Gi [Gd Ld] F V. pose proof Sa as (S1 & _).
  unfold request, prepare. cbn [fixed]. rewrite (st_small cf Sa) by lia. rewrite Gd, Gi. cbn [negb orb].
  replace (size d <? 16) with false by (symmetry; apply N.ltb_ge; exact Ld).
  replace (size iv <? 16) with false by (symmetry; apply N.ltb_ge; lia).
  replace (c_dl cf <? 24 + size d) with false by (symmetry; apply N.ltb_ge; exact F). cbn [orb].
  destruct iv as [b | n]; [| discriminate Gi]. cbn [size] in V.
  rewrite (puts_overrun cf _ 8 b); [reflexivity | | exact V].
  right. apply in_or_app. left. destruct b; [cbn in V; lia | left; reflexivity].
Qed.
Print Assumptions C67_she_vector_refuted.

(** *** Refuted: AES ECB and CBC of a multiple of 65536 blocks.  The call succeeds and
    nothing is sent. *)
Theorem C67_aes_blocks_refuted : forall cf enc buf b key iv, len b mod 2 ^ 20 = 0 ->
  request cf enc buf (AesEcb (Buf b) key) = Quiet /\ request cf enc buf (AesCbc (Buf b) key iv) = Quiet.
Proof.
  intros cf enc buf b key iv H.
  assert (A : len b mod 16 = 0).
  { apply N.mod_divide in H; [| discriminate]. destruct H as [k H]. rewrite H.
    change (2 ^ 20) with (65536 * 16). rewrite N.mul_assoc. apply N.mod_mul. discriminate. }
  assert (B : U16 (len b / 16) = 0).
  { apply N.mod_divide in H; [| discriminate]. destruct H as [k H]. rewrite H.
    change (2 ^ 20) with (65536 * 16). rewrite N.mul_assoc, N.div_mul by discriminate.
    unfold U16. apply N.mod_mul. discriminate. }
  unfold request, prepare. cbn [size given missing negb andb]. rewrite A, B. cbn. split; reflexivity.
Qed.
Print Assumptions C67_aes_blocks_refuted.

(** *** Refuted: NULL with a length for the salt of HKDF or the context of ML-DSA.  The
    request ends with bytes of the buffer, that is, of an earlier message. *)
Theorem C67_stale_bytes_refuted : forall cf enc buf a n,
  sane cf -> good_fields cf enc -> len buf = c_dl cf -> supplied a ->
  (12 + 56 + size a + n <= c_dl cf ->
   request cf enc buf (Hkdf (Null 0) a (Null n) (Null 0)) =
   Sent (enc (Hkdf (Null 0) a (Null n) (Null 0)) ++ data a ++
         firstn (N.to_nat n) (skipn (N.to_nat (12 + 56 + size a)) buf))) /\
  (12 + 24 + size a + n <= c_dl cf ->
   request cf enc buf (MlSign false a (Null n)) =
   Sent (enc (MlSign false a (Null n)) ++ data a ++
         firstn (N.to_nat n) (skipn (N.to_nat (12 + 24 + size a)) buf))).
Proof.
  intros cf enc buf a n Sa G L S. split; intro F.
  - exact (stale cf enc buf (Hkdf (Null 0) a (Null n) (Null 0)) a n Sa G L S F (hkdf_plan cf enc a n Sa S F)).
  - exact (stale cf enc buf (MlSign false a (Null n)) a n Sa G L S F (mlsign_plan cf enc a n Sa S F)).
Qed.
Print Assumptions C67_stale_bytes_refuted.

(** ** Cases *)
Module ReqExamples.
  Definition cf := mkConf 1280 2000 2048 8 88 (2 ^ 64).
  Definition bytes (n : N) (x : N) : list N := repeat x (N.to_nat n).
  (** Fixed fields that are all 9, a label zero. *)
  Definition enc (c : call) : list N :=
    match label_area c with
    | Some o => bytes o 9 ++ bytes 24 0 ++ bytes (fixed cf c - o - 24) 9
    | None => bytes (fixed cf c) 9
    end.
  (** The buffer after an earlier message. *)
  Definition buf := bytes 1280 5.

  Example cf_sane : sane cf.
  Proof. unfold sane, cf. cbn [c_dl c_useradd c_kwdata c_sizet]. repeat split; try lia. Qed.
  Example buf_len : len buf = c_dl cf. Proof. vm_compute. reflexivity. Qed.
  Example enc_good : good_fields cf enc.
  Proof.
    intro c. split.
    - destruct c; try reflexivity; destruct dma; reflexivity.
    - intros o H. destruct c; inversion H; subst; reflexivity.
  Qed.

  (** A signature of 72 bytes over a hash of 32. *)
  Definition verify := EccVerify (Buf (bytes 72 1)) (Buf (bytes 32 2)).
  Example verify_meets : in_range verify /\ regular cf verify /\ acceptable cf verify /\ fits cf verify /\
    ~ nothing_to_do verify.
  Proof. vm_compute. repeat split; auto; intro; discriminate. Qed.
  Example verify_sent : request cf enc buf verify = Sent (bytes 28 9 ++ bytes 72 1 ++ bytes 32 2).
  Proof. vm_compute. reflexivity. Qed.
  (** One byte too many. *)
  Example verify_refused : request cf enc buf (EccVerify (Buf (bytes 1221 1)) (Buf (bytes 32 2))) = Refused BADARGS.
  Proof. vm_compute. reflexivity. Qed.
  (** A label of 30 bytes, and one of 3. *)
  Example long_label : request cf enc buf (KeyCache (Buf (bytes 30 4)) (Buf (bytes 16 1))) =
    Sent (bytes 16 9 ++ bytes 24 4 ++ bytes 16 1).
  Proof. vm_compute. reflexivity. Qed.
  Example short_label : request cf enc buf (KeyCache (Buf (bytes 3 4)) (Buf (bytes 16 1))) =
    Sent (bytes 16 9 ++ bytes 3 4 ++ bytes 21 0 ++ bytes 16 1).
  Proof. vm_compute. reflexivity. Qed.
  Example label_meets : label_area (KeyCache (Buf (bytes 3 4)) (Buf (bytes 16 1))) = Some 16 /\
    in_range (KeyCache (Buf (bytes 3 4)) (Buf (bytes 16 1))) /\ regular cf (KeyCache (Buf (bytes 3 4)) (Buf (bytes 16 1))).
  Proof. vm_compute. auto. Qed.
  (** The CMAC key of the context is sent when the call has none. *)
  Example cmac_cached : request cf enc buf (CmacUpd false (bytes 16 7) (Null 0) (Buf (bytes 4 1))) =
    Sent (bytes 68 9 ++ bytes 4 1 ++ bytes 16 7).
  Proof. vm_compute. reflexivity. Qed.
  Example cmac_quiet : request cf enc buf (CmacUpd true (bytes 16 7) (Null 0) (Null 0)) = Quiet.
  Proof. vm_compute. reflexivity. Qed.

  (** A hash of 65520 bytes: the sum is 65544, cut off to 8. *)
  Definition hash := EccSign (Buf (bytes 65520 1)).
  Example hash_meets : in_range hash /\ acceptable cf hash /\ some_blocks hash /\
    exists l, stated hash = Some (65536, l) /\ 65536 <= fixed cf hash + total l /\
    (fixed cf hash + total l) mod 65536 <= c_dl cf.
  Proof.
    split; [vm_compute; reflexivity |]. split; [left; reflexivity |]. split; [exact Logic.I |].
    eexists. split; [reflexivity |]. vm_compute. split; discriminate.
  Qed.
  Example hash_overrun : request cf enc buf hash = Overrun.
  Proof. vm_compute. reflexivity. Qed.
  (** A vector of 1300 bytes. *)
  Example vector_overrun : request cf enc buf (SheCbc (Buf (bytes 1300 1)) (Buf (bytes 16 2))) = Overrun.
  Proof. vm_compute. reflexivity. Qed.
  (** A vector of 100 bytes only loses its end. *)
  Example vector_cut : request cf enc buf (SheCbc (Buf (bytes 100 1)) (Buf (bytes 16 2))) =
    Sent (bytes 8 9 ++ bytes 16 1 ++ bytes 16 2).
  Proof. vm_compute. reflexivity. Qed.
  (** Eight bytes of an earlier message in the place of a salt. *)
  Example stale_salt : request cf enc buf (Hkdf (Null 0) (Buf (bytes 16 1)) (Null 8) (Null 0)) =
    Sent (bytes 44 9 ++ bytes 24 0 ++ bytes 16 1 ++ bytes 8 5).
  Proof. vm_compute. reflexivity. Qed.
  (** A program with a size_t of 32 bits: a message of 2^32 - 8 bytes meets the conditions. *)
  Example she_meets : sane (mkConf 1280 2000 2048 8 88 (2 ^ 32)) /\
    forall b, len b = 2 ^ 32 - 8 -> in_range (SheMac (Buf b)) /\ acceptable (mkConf 1280 2000 2048 8 88 (2 ^ 32)) (SheMac (Buf b)) /\
    she_stated (SheMac (Buf b)) = Some (2 ^ 32 - 8).
  Proof.
    split; [unfold sane; cbn [c_dl c_useradd c_kwdata c_sizet]; repeat split; try lia; auto |].
    intros b E. cbn [in_range acceptable she_stated size]. unfold u32_arg, at_least. cbn [size given]. rewrite E.
    repeat split; lia.
  Qed.
End ReqExamples.
