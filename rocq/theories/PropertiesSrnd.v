(** The SHE extension: the random generator (C78).  Vocabulary: SrndSpec.v, SheSpec.v. *)
From Coq Require Import Lia.
From Verif Require Import Base BaseLemmas NvmSpec Flags KeyId Store NvmReqModel CounterModel KsModel KsReq KsSys KsSpec KsSysProof SheModel SheSys SheSpec SheEff SheBoot SrndSpec SrndProof PropertiesShe PropertiesSheKey.
Local Open Scope N_scope.

Section Props.
Variable C : kscfg.
Variable crypt : cop -> list N -> list N -> Z * list N.
Variable pub : N -> list N -> Z * list N.
Variable ots : list N -> list N -> option (list N * list N).
Variable gcm_enc : list N -> list N -> N -> list N -> option (list N).
Variable gcm_dec : list N -> list N -> N -> list N -> option (list N).
Variable max_read : nat.
Variable aes : list N -> list N -> list N.
Variable cbc_enc cbc_dec : list N -> list N -> list N.
Variable cmac : list N -> list N -> list N.
Variable use_op : sop -> list N -> list N -> option (list N).
(** Encryption keeps the length; AES yields a block. *)
Hypothesis enc_len : forall k d, length (cbc_enc k d) = length d.
Hypothesis aes_len : forall k d, length (aes k d) = 16%nat.
Notation step := (hstep C crypt pub ots gcm_enc gcm_dec max_read aes cbc_enc cbc_dec cmac use_op).
Notation after := (hafter C crypt pub ots gcm_enc gcm_dec max_read aes cbc_enc cbc_dec cmac use_op).
Notation generates := (generates C crypt pub ots gcm_enc gcm_dec max_read aes cbc_enc cbc_dec cmac use_op).
Notation blocks := (blocks C crypt pub ots gcm_enc gcm_dec max_read aes cbc_enc cbc_dec cmac use_op).
Notation starts := (starts C crypt pub ots gcm_enc gcm_dec max_read aes cbc_enc cbc_dec cmac use_op).

(** C78: in every history of every context the generator is that of the
    specification: each event moves its state as [gen_by] says. *)
Theorem C78_stream i evs st r b : nvm_sane st -> exists g, generates i evs (fresh_hsys st r b) None g.
Proof.
  intros N1. destruct (gen_run C crypt pub ots gcm_enc gcm_dec max_read aes cbc_enc cbc_dec cmac use_op enc_len aes_len i evs (fresh_hsys st r b) None) as (g & G & _).
  - apply fresh_hok; auto.
  - apply Gen_zero.
  - exists g. exact G.
Qed.

(** C78: the blocks handed out after an initialisation, until entropy is added or
    the context is set up again, whatever else is asked of the device: AES of AES
    of ... of the seed this initialisation stored, under one key, which is the one
    derived from the secret key. *)
Theorem C78_session i client e evs1 evs2 st r b : let Y0 := fresh_hsys st r b in let Y := after evs1 Y0 in
  let ev := HShe i client e SInitRnd in let Y1 := snd (step ev Y) in
  nvm_sane st -> rc_is (fst (step ev Y)) OK = true -> Forall (undisturbed i) evs2 ->
  exists ms sec mo old m seed k,
    slot_key C Y i client SLOT_SECRET = Some (ms, sec) /\
    (slot_key C Y i client SLOT_SEED = Some (mo, old) \/ in_nvm (hy_ks Y) (she_id C client SLOT_SEED) = Some (mo, old)) /\
    in_nvm (hy_ks Y1) (she_id C client SLOT_SEED) = Some (m, seed) /\
    (length sec = 16%nat -> k = prng_key aes sec /\ (length old = 16%nat -> seed = next_seed aes cbc_enc sec old)) /\
    blocks i evs2 Y1 = map (fun n => Nat.iter (S n) (cbc_enc k) seed) (seq 0 (length (blocks i evs2 Y1))).
Proof.
  intros Y0 Y ev Y1 N1 OKR U. pose proof (fresh_hok C st r b N1) as O.
  destruct (gen_run C crypt pub ots gcm_enc gcm_dec max_read aes cbc_enc cbc_dec cmac use_op enc_len aes_len i evs1 Y0 None O Gen_zero) as (g & _ & H).
  pose proof (hafter_ok C crypt pub ots gcm_enc gcm_dec max_read aes cbc_enc cbc_dec cmac use_op evs1 Y0 O) as O1. fold Y in O1, H.
  destruct (gen_step C crypt pub ots gcm_enc gcm_dec max_read aes cbc_enc cbc_dec cmac use_op enc_len aes_len i ev Y g O1 H) as (g1 & B & H1).
  pose proof (hstep_ok C crypt pub ots gcm_enc gcm_dec max_read aes cbc_enc cbc_dec cmac use_op ev Y O1) as O2. fold Y1 in O2, H1, B.
  destruct (gen_run C crypt pub ots gcm_enc gcm_dec max_read aes cbc_enc cbc_dec cmac use_op enc_len aes_len i evs2 Y1 g1 O2 H1) as (g2 & G & _).
  unfold ev in B. cbn [gen_by] in B. rewrite Nat.eqb_refl in B. fold ev in B. rewrite OKR in B.
  destruct B as (_ & ms & sec & mo & old & m & seed & k & A1 & A2 & A3 & -> & A5).
  exists ms, sec, mo, old, m, seed, k. repeat (split; [assumption|]). eapply blocks_run; eauto.
Qed.

(** C78: no block before initialisation, and no second initialisation, until the
    context is set up again. *)
Definition fresh_ctx (i : nat) (ev : hev) : bool := match ev with HSys (SServer j) => Nat.eqb j i | HSys SReset => true | _ => false end.
Definition inits_ok (i : nat) (ev : hev) (a : option sresp) : bool := match ev with HShe j _ _ SInitRnd => Nat.eqb j i && rc_is a OK | _ => false end.
Fixpoint ready (i : nat) (evs : list hev) (Y : hsys) (on : bool) : bool :=
  match evs with
  | [] => on
  | ev :: t => ready i t (snd (step ev Y)) (if fresh_ctx i ev then false else on || inits_ok i ev (fst (step ev Y)))
  end.
Lemma gen_ready i evs : forall Y g g', generates i evs Y g g' -> (ready i evs Y (match g with Some _ => true | None => false end)) = match g' with Some _ => true | None => false end.
Proof.
  induction evs as [|ev evs IH]; intros Y g g' H; inversion H as [|? ? ? ? g1 ? B R]; subst; [reflexivity|].
  cbn [ready]. rewrite <- (IH _ _ _ R). f_equal. clear R IH H.
  destruct ev as [j client e q|ev]; cbn [fresh_ctx inits_ok gen_by] in *.
  - destruct q; try (destruct (Nat.eqb j i); subst; rewrite Bool.orb_false_r; reflexivity).
    + destruct (Nat.eqb j i); cbn [andb]; [|subst; rewrite Bool.orb_false_r; reflexivity].
      destruct (rc_is _ _); [|subst; rewrite Bool.orb_false_r; reflexivity]. destruct B as (_ & ? & ? & ? & ? & ? & ? & ? & _ & _ & _ & -> & _). rewrite Bool.orb_true_r. reflexivity.
    + rewrite Bool.orb_false_r. destruct (Nat.eqb j i); [|subst; reflexivity]. destruct (rc_is _ _); [|subst; reflexivity]. destruct B as (? & ? & -> & -> & _). reflexivity.
    + rewrite Bool.orb_false_r. destruct (Nat.eqb j i); [|subst; reflexivity]. destruct (rc_is _ _); [destruct B as (? & ? & -> & ->); reflexivity|].
      destruct B as [->|(? & ? & -> & ->)]; reflexivity.
  - destruct ev as [? ? ? ?|? ?|? ? ?|x|]; subst; try (rewrite Bool.orb_false_r; reflexivity).
    + destruct (Nat.eqb x i); subst; [reflexivity|rewrite Bool.orb_false_r; reflexivity].
    + reflexivity.
Qed.
Theorem C78_once i evs st r b client e : let Y0 := fresh_hsys st r b in let Y := after evs Y0 in nvm_sane st ->
  (rc_is (fst (step (HShe i client e SInitRnd) Y)) OK = true -> ready i evs Y0 false = false) /\
  (rc_is (fst (step (HShe i client e SRnd) Y)) OK = true -> ready i evs Y0 false = true) /\
  (forall x, rc_is (fst (step (HShe i client e (SExtendSeed x)) Y)) OK = true -> ready i evs Y0 false = true).
Proof.
  intros Y0 Y N1. pose proof (fresh_hok C st r b N1) as O.
  destruct (gen_run C crypt pub ots gcm_enc gcm_dec max_read aes cbc_enc cbc_dec cmac use_op enc_len aes_len i evs Y0 None O Gen_zero) as (g & G & H).
  pose proof (hafter_ok C crypt pub ots gcm_enc gcm_dec max_read aes cbc_enc cbc_dec cmac use_op evs Y0 O) as O1. fold Y in O1, H.
  rewrite (gen_ready i evs Y0 None g G).
  assert (B : forall q, exists g1, gen_by C aes cbc_enc i (HShe i client e q) (fst (step (HShe i client e q) Y)) Y (snd (step (HShe i client e q) Y)) g g1).
  { intros q. destruct (gen_step C crypt pub ots gcm_enc gcm_dec max_read aes cbc_enc cbc_dec cmac use_op enc_len aes_len i (HShe i client e q) Y g O1 H) as (g1 & B & _). exists g1. exact B. }
  split; [|split].
  - intros Q. destruct (B SInitRnd) as (g1 & X). cbn [gen_by] in X. rewrite Nat.eqb_refl, Q in X. destruct X as [-> _]. reflexivity.
  - intros Q. destruct (B SRnd) as (g1 & X). cbn [gen_by] in X. rewrite Nat.eqb_refl, Q in X. destruct X as (k & s & -> & _). reflexivity.
  - intros x Q. destruct (B (SExtendSeed x)) as (g1 & X). cbn [gen_by] in X. rewrite Nat.eqb_refl, Q in X. destruct X as (k & s & -> & _). reflexivity.
Qed.

(** C78: entropy added with an OK answer is compressed into the stored seed the
    request sees. *)
Theorem C78_extend i client e x evs st r b a : let Y := after evs (fresh_hsys st r b) in let ev := HShe i client e (SExtendSeed x) in
  nvm_sane st -> fst (step ev Y) = Some a -> sr_rc a = OK ->
  exists m d m' d', slot_key C Y i client SLOT_SEED = Some (m, d) /\
    in_nvm (hy_ks (snd (step ev Y))) (she_id C client SLOT_SEED) = Some (m', d') /\
    (length d = 16%nat -> d' = compress aes d (exactly 16 x)).
Proof.
  intros Y ev N1. apply extend_stores; auto. apply hafter_ok. apply fresh_hok; auto.
Qed.

(** C78: if one context alone serves a client's slots and the seed is not written
    from outside, the streams begin at seeds ever further along the sequence of the
    specification, over resets, failed writes and everything else the device is
    asked: never at one they began at before, as long as the sequence does not
    repeat itself.  Missing: several contexts, and entropy; see below. *)
Theorem C78_starts_partial i0 client0 evs st r b ms sec m s0 : let k := she_id C client0 SLOT_SEED in
  nvm_sane st -> sp_find st k = Some (m, s0) -> length s0 = 16%nat ->
  sp_find st (she_id C client0 SLOT_SECRET) = Some (ms, sec) -> length sec = 16%nat ->
  Forall (alone C i0 client0) evs ->
  exists ns, starts k evs (fresh_hsys st r b) = map (fun n => Nat.iter n (next_seed aes cbc_enc sec) s0) ns /\
    later 0 ns /\ Forall (fun n => (n <= inits evs)%nat) ns.
Proof.
  intros k N1 FS L0 FK LS AL.
  destruct (starts_run C crypt pub ots gcm_enc gcm_dec max_read aes cbc_enc cbc_dec cmac use_op enc_len aes_len i0 client0 s0 sec L0 LS evs 0 0 (fresh_hsys st r b)) as (ns & A & B & D); auto.
  - apply fresh_hok; auto.
  - eapply Inv_fresh; eauto.
  - exists ns. auto.
Qed.
Theorem C78_no_repeat_partial i0 client0 evs st r b ms sec m s0 : let k := she_id C client0 SLOT_SEED in
  nvm_sane st -> sp_find st k = Some (m, s0) -> length s0 = 16%nat ->
  sp_find st (she_id C client0 SLOT_SECRET) = Some (ms, sec) -> length sec = 16%nat ->
  Forall (alone C i0 client0) evs ->
  (forall x y, (x < y <= inits evs)%nat -> Nat.iter x (next_seed aes cbc_enc sec) s0 <> Nat.iter y (next_seed aes cbc_enc sec) s0) ->
  NoDup (starts k evs (fresh_hsys st r b)).
Proof.
  intros k N1 FS L0 FK LS AL NR. destruct (C78_starts_partial i0 client0 evs st r b ms sec m s0 N1 FS L0 FK LS AL) as (ns & E & L & F). fold k in E. rewrite E.
  eapply later_nodup; eauto.
Qed.
End Props.

Module SrndExamples.
Import SheExamples SheKeyExamples.
Lemma aes_len k d : length (aes k d) = 16%nat.
Proof. unfold aes. rewrite map_length. apply exact_len. Qed.
Definition secret : list N := repeat 3 16.
Definition seed0 : list N := repeat 1 16.
Definition st : store := [kobj SLOT_SECRET 0 0 secret; kobj SLOT_SEED 0 0 seed0].
Definition k := she_id cfg 1 SLOT_SEED.
Lemma st_sane : nvm_sane st. Proof. repeat apply sane_kobj. apply sane_nil. Qed.
Notation "'at2' f" := (f toy_crypt toy_pub toy_ots toy_gcm toy_dec 100%nat aes enc dec toy_cmac toy_use) (at level 1).
Definition rnds c := at2 (SrndSpec.blocks c).
Definition begins c := at2 (SrndSpec.starts c).
Definition seeds (n : nat) : list N := Nat.iter n (SrndSpec.next_seed aes enc secret) seed0.
Definition in_ (i : nat) (c : N) (q : sreq) : hev := HShe i c env q.
Definition boot_ (i : nat) (c : N) : list hev := [in_ i c (SSetUid uid); in_ i c (SBootInit 5)].
Definition session (i : nat) (c : N) : list hev := boot_ i c ++ [in_ i c SInitRnd; in_ i c SRnd; in_ i c SRnd].
(** An initialisation that fails in its last step: the stored seed has moved on, the
    cached copy has not. *)
Definition bad2 : hev := HShe 0 1 (mkSenv true (fun _ => OK) OK true false (repeat 0 16)) SInitRnd.
Definition days : list hev := session 0 1 ++ [HSys SReset] ++ boot_ 0 1 ++ [bad2; in_ 0 1 SInitRnd; in_ 0 1 SRnd; HSys (SServer 0)] ++ session 0 1.
Example ex_C78_session : nvm_sane st /\
  rc_is (fst (step (in_ 0 1 SInitRnd) (after (boot_ 0 1) (start st)))) OK = true /\
  Forall (undisturbed 0) [in_ 0 1 SRnd; in_ 0 1 (SLoadPlain (repeat 2 16)); in_ 0 1 SRnd] /\
  rnds cfg 0%nat [in_ 0 1 SRnd; in_ 0 1 (SLoadPlain (repeat 2 16)); in_ 0 1 SRnd] (after (boot_ 0 1 ++ [in_ 0 1 SInitRnd]) (start st)) =
    [enc (prng_key aes secret) (seeds 1); enc (prng_key aes secret) (enc (prng_key aes secret) (seeds 1))].
Proof. split; [apply st_sane|]. repeat split; try (vm_compute; reflexivity). repeat constructor. Qed.
Example ex_C78_once : rc_is (fst (step (in_ 0 1 SRnd) (after (boot_ 0 1) (start st)))) RNG_SEED = true /\
  rc_is (fst (step (in_ 0 1 SInitRnd) (after (session 0 1) (start st)))) SEQUENCE_ERROR = true.
Proof. split; vm_compute; reflexivity. Qed.
Lemma alone_req i c e q : match q with SExtendSeed _ => False | SLoadKey _ _ _ => False | _ => True end -> alone cfg i 1 (HShe i c e q).
Proof. intros H. left. split; auto. destruct q; auto; destruct H. Qed.
Example ex_C78_starts : nvm_sane st /\ Forall (alone cfg 0 1) days /\ inits days = 4%nat /\
  begins cfg k days (start st) = [seeds 1; seeds 2; seeds 3] /\
  (forall x y, (x < y <= 4)%nat -> seeds x <> seeds y).
Proof.
  split; [apply st_sane|]. split.
  { repeat (apply Forall_cons; [first [apply alone_req; exact I|exact I|intros _; vm_compute; reflexivity]|]). constructor. }
  split; [reflexivity|]. split; [vm_compute; reflexivity|]. intros x y [A B].
  do 5 (destruct x as [|x]; [do 5 (destruct y as [|y]; [lia || (vm_compute; discriminate)|]); lia|]). lia.
Qed.
Example ex_C78_extend : let Y := after (session 0 1) (start st) in
  rc_is (fst (step (in_ 0 1 (SExtendSeed (repeat 9 16))) Y)) OK = true /\ slot_key cfg Y 0 1 SLOT_SEED = Some (kobj SLOT_SEED 0 0 seed0) /\
  option_map snd (in_nvm (hy_ks (snd (step (in_ 0 1 (SExtendSeed (repeat 9 16))) Y))) k) = Some (compress aes seed0 (repeat 9 16)).
Proof. repeat split; vm_compute; reflexivity. Qed.

(** Not so in general.  The new seed is written to NVM past the cache, where the
    read of the old one has left a copy.
    (1) Slots of all clients in one shared cache (WOLFHSM_CFG_SHE_GLOBAL_KEYS): two
    server contexts on one NVM hand out the same random blocks. *)
Definition gcfg : kscfg := mkKs_cfg (mkKcfg true true true) 16 32 true true true 100 32 32 200 196.
Definition gobj (s : N) (d : list N) : meta * list N := (mkMeta (she_id gcfg 1 s) 0 0 (N.of_nat (length d)) (repeat 0 24), d).
Definition gst : store := [gobj SLOT_SECRET secret; gobj SLOT_SEED seed0].
Theorem C78_shared_cache_refuted : exists evs, nvm_sane gst /\
  rnds gcfg 0%nat evs (start gst) <> [] /\ rnds gcfg 0%nat evs (start gst) = rnds gcfg 1%nat evs (start gst) /\
  begins gcfg (she_id gcfg 1 SLOT_SEED) evs (start gst) = [seeds 1; seeds 1].
Proof.
  exists (session 0 1 ++ session 1 2). split; [repeat (apply sane_cons; [reflexivity|]); apply sane_nil|].
  repeat split; try (vm_compute; reflexivity). vm_compute. discriminate.
Qed.
(** (2) and so does one context that is set up again while the NVM context and its
    cache live on. *)
Theorem C78_new_context_refuted : exists evs, nvm_sane gst /\
  begins gcfg (she_id gcfg 1 SLOT_SEED) evs (start gst) = [seeds 1; seeds 1] /\
  (exists x y, rnds gcfg 0%nat evs (start gst) = [x; y; x; y]).
Proof.
  exists (session 0 1 ++ [HSys (SServer 0)] ++ session 0 1). split; [repeat (apply sane_cons; [reflexivity|]); apply sane_nil|].
  split; [vm_compute; reflexivity|]. eexists _, _. vm_compute. reflexivity.
Qed.
(** (3) With a cache of its own, a context that used the slot before another one
    moved the seed on. *)
Theorem C78_two_contexts_refuted : exists evs, nvm_sane st /\ begins cfg k evs (start st) = [seeds 1; seeds 1] /\
  rnds cfg 0%nat evs (start st) = rnds cfg 1%nat evs (start st) /\ rnds cfg 0%nat evs (start st) <> [].
Proof.
  exists (boot_ 1 1 ++ [in_ 1 1 (SUse OEncEcb SLOT_SEED (repeat 0 16))] ++ session 0 1 ++ [in_ 1 1 SInitRnd; in_ 1 1 SRnd; in_ 1 1 SRnd]).
  split; [apply st_sane|]. repeat split; try (vm_compute; reflexivity). vm_compute. discriminate.
Qed.
(** (4) Entropy added twice: the stored seed keeps only the second, on top of the
    seed from before the initialisation. *)
Theorem C78_entropy_lost_refuted : exists evs x y, nvm_sane st /\ x <> y /\
  evs = session 0 1 ++ [in_ 0 1 (SExtendSeed x); in_ 0 1 (SExtendSeed y)] /\
  rc_is (fst (step (in_ 0 1 (SExtendSeed x)) (after (session 0 1) (start st)))) OK = true /\
  option_map snd (in_nvm (hy_ks (after evs (start st))) k) = Some (compress aes seed0 y) /\
  compress aes seed0 y <> compress aes (compress aes (seeds 1) x) y.
Proof.
  eexists _, (repeat 9 16), (repeat 4 16). split; [apply st_sane|]. split; [discriminate|]. split; [reflexivity|].
  split; [vm_compute; reflexivity|]. split; [vm_compute; reflexivity|]. vm_compute. discriminate.
Qed.
(** (5) The generator belongs to the context, not to the client: the next client
    goes on with the stream of the one before, whose key and seed are not its own. *)
Theorem C78_per_client_refuted : exists evs a, nvm_sane st /\ slot_key cfg (after evs (start st)) 0 2 SLOT_SEED = None /\
  evs = session 0 1 /\ fst (step (in_ 0 2 SRnd) (after evs (start st))) = Some a /\ sr_rc a = OK /\
  sr_out a = Nat.iter 3 (enc (prng_key aes secret)) (seeds 1).
Proof.
  eexists _, _. split; [apply st_sane|]. split; [|split; [reflexivity|]]; [vm_compute; reflexivity|]. repeat split; vm_compute; reflexivity.
Qed.
End SrndExamples.
Print Assumptions C78_stream.
Print Assumptions C78_session.
Print Assumptions C78_once.
Print Assumptions C78_extend.
Print Assumptions C78_starts_partial.
Print Assumptions C78_no_repeat_partial.
Print Assumptions SrndExamples.C78_shared_cache_refuted.
Print Assumptions SrndExamples.C78_new_context_refuted.
Print Assumptions SrndExamples.C78_two_contexts_refuted.
Print Assumptions SrndExamples.C78_entropy_lost_refuted.
Print Assumptions SrndExamples.C78_per_client_refuted.
