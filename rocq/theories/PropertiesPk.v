(** C66: a public-key call uses the caller's key and inputs, and leaves no copy of
    a key it brought along.

    [pk_call C DL level_ok alg e client c kid key S] is the call [c] of client
    [client] with a key object that holds key id [kid] and, when that id names no
    key, the key whose serialised bytes are [key]; [alg] is wolfCrypt, [e] decides
    everything else, [S] is what the server's key store holds. *)
From Verif Require Import Base BaseLemmas NvmSpec Flags KeyId Store NvmReqModel CounterModel KsModel KsCache KsReq KsEff KsStep KsSys KsSysProof KsSpec KsKeep.
From Verif Require Import PkModel PkSpec PkProof PropertiesKeys.
Local Open Scope N_scope.

(** What other connections do between two steps of connection [i]. *)
Definition elsewhere (i : nat) (ev : sev) : Prop :=
  match ev with
  | SKey x _ _ _ | SServer x => x <> i
  | SNvm _ _ | SCounter _ _ _ => True
  | SReset => False
  end.

Section Props.
Variable C : kscfg.
Variable crypt : cop -> list N -> list N -> Z * list N.
Variable pub : N -> list N -> Z * list N.
Variable ots : list N -> list N -> option (list N * list N).
Variable gcm_enc : list N -> list N -> N -> list N -> option (list N).
Variable gcm_dec : list N -> list N -> N -> list N -> option (list N).
Variable she_count : list N -> N.
Variable mx : nat.
Notation okY := (reachable C crypt pub ots gcm_enc gcm_dec she_count mx).
Notation after := (sys_after C crypt pub ots gcm_enc gcm_dec she_count mx).
Variable DL : N.
Variable level_ok : N -> bool.
Variable alg : cop -> list N -> list (list N) -> list N -> Z * list N.
Notation pk_call := (pk_call C DL level_ok alg).

Definition others (Y : sys) (i : nat) (evs : list sev) (S : ks) : ks := ks_of (after evs (put_ks Y i S)) i.

Lemma others_gap Y i evs j : okY Y -> Forall (elsewhere i) evs -> j <> 0 -> is_global C j = false ->
  gap_ok C (others Y i evs) j.
Proof.
  intros R F NJ LJ S W G. unfold others, sys_after.
  destruct (sys_run C crypt pub ots gcm_enc gcm_dec she_count mx evs (put_ks Y i S)) as [rs Y'] eqn:RU. cbn [snd].
  pose proof (good_glob C Y i S (reachable_ok C crypt pub ots gcm_enc gcm_dec she_count mx Y R) W G) as O0.
  destruct (run_inv C crypt pub ots gcm_enc gcm_dec she_count mx (fun Y1 => copy C Y1 i j = copy C (put_ks Y i S) i j) (elsewhere i)) with (evs := evs) (Y := put_ks Y i S) (rs := rs) (Y' := Y') as [O1 P1]; auto.
  - intros ev Y1 r Y2 EV O1 P1 ST. rewrite <- P1. destruct (step_effect C crypt pub ots gcm_enc gcm_dec she_count mx ev Y1 r Y2 O1 ST) as [_ X].
    specialize (X j NJ). destruct ev; cbn [elsewhere] in EV.
    + apply X; auto.
    + apply X.
    + apply X.
    + destruct X as [_ X]. rewrite X. apply Nat.eqb_neq in EV. rewrite Nat.eqb_sym in EV. rewrite EV. reflexivity.
    + contradiction.
  - destruct (O1 i) as [W1 G1]. split; [auto|]. split; [auto|]. unfold copy in P1. rewrite ks_put in P1. exact P1.
Qed.
Lemma quiet_gap e j : quiet e -> gap_ok C (v_gap1 e) j /\ gap_ok C (v_gap2 e) j.
Proof. intros Q. split; intros S W G; destruct (Q S) as [A B]; rewrite ?A, ?B; auto. Qed.
Lemma okY_wf Y i : okY Y -> wf (ks_of Y i) /\ good C (ks_of Y i).
Proof. intros R. apply (reachable_ok C crypt pub ots gcm_enc gcm_dec she_count mx Y R). Qed.

(** The key object names no key on the server ([kid_erased]): the call brings its
    key along.  Afterwards every key is as it was, a committed cached copy dropped
    for room aside, and NVM is untouched; whatever the outcome of the call.
    Missing: see the refutations below. *)
Theorem C66_no_trace_partial : forall Y i e client c kid key rc out S',
  okY Y -> 1 <= client <= 15 -> kid_erased kid = true -> len key < 65536 -> well_typed c -> quiet e ->
  (* the RSA operation is one of the four; the import is answered; the request gets
     to its handler; the handler gets the lock to evict; an ML-DSA DMA verification
     can set up its key object; a cleanup request gets through *)
  known_rsa c -> h_recv (v_imp e) = OK -> h_auth (v_op e) = OK -> v_elock e = OK ->
  match c with MlVer true _ _ _ _ _ => v_init e = OK | _ => True end ->
  h_send (v_man e) = OK -> h_auth (v_man e) = OK -> h_lock (v_man e) = OK ->
  pk_call e client c kid key (ks_of Y i) = (Done rc out, S') ->
  k_st S' = y_st Y /\ forall k, k <> 0 -> kept C (ks_of Y i) S' k.
Proof.
  intros Y i e client c kid key rc out S' R CL E LK WT Q KR H1 H2 H3 H4 M1 M2 M3 H. destruct (okY_wf Y i R) as [W G].
  assert (X : forall j, j <> 0 -> kept C (ks_of Y i) S' j /\
    ((forall S0, k_st (v_gap1 e S0) = k_st S0) -> (forall S0, k_st (v_gap2 e S0) = k_st S0) -> k_st S' = k_st (ks_of Y i))).
  { intros j NJ. destruct (quiet_gap e j Q) as [G1 G2]. apply (call_kept C DL level_ok alg e client c kid key (ks_of Y i) rc out S' j); auto.
    intros k _. apply (quiet_gap e k Q). }
  split; [|intros k NK; apply (X k NK)].
  destruct (X 1 ltac:(discriminate)) as [_ X1]. apply X1; intros S0; destruct (Q S0) as [A B]; congruence.
Qed.

(** The same while other connections go on: for the keys of this connection,
    unless the caller asks for the key to be shared. *)
Theorem C66_no_trace_concurrent_partial : forall Y Y1 Y2 i evs1 evs2 e client c kid key rc out S',
  okY Y -> okY Y1 -> okY Y2 -> Forall (elsewhere i) evs1 -> Forall (elsewhere i) evs2 ->
  v_gap1 e = others Y1 i evs1 -> v_gap2 e = others Y2 i evs2 ->
  1 <= client <= 15 -> kid_erased kid = true -> k_global (kc C) && has kid CF_GLOBAL = false ->
  len key < 65536 -> well_typed c ->
  known_rsa c -> h_recv (v_imp e) = OK -> h_auth (v_op e) = OK -> v_elock e = OK ->
  match c with MlVer true _ _ _ _ _ => v_init e = OK | _ => True end ->
  h_send (v_man e) = OK -> h_auth (v_man e) = OK -> h_lock (v_man e) = OK ->
  pk_call e client c kid key (ks_of Y i) = (Done rc out, S') ->
  forall k, k <> 0 -> is_global C k = false -> kept C (ks_of Y i) S' k.
Proof.
  intros Y Y1 Y2 i evs1 evs2 e client c kid key rc out S' R R1 R2 F1 F2 E1 E2 CL E LG LK WT KR H1 H2 H3 H4 M1 M2 M3 H k NK LC.
  destruct (okY_wf Y i R) as [W G].
  apply (call_kept C DL level_ok alg e client c kid key (ks_of Y i) rc out S' k); auto.
  - intros k0 (NZ & _ & _ & _ & _ & _ & GL). rewrite E1. apply others_gap; auto. congruence.
  - rewrite E1. apply others_gap; auto.
  - rewrite E2. apply others_gap; auto.
Qed.

(** A result comes from the operation the call stands for, on the caller's key,
    parameters and inputs. *)
Theorem C66_result : forall Y i e client c kid key out S',
  okY Y -> 1 <= client <= 15 -> kid_erased kid = true -> len key < 65536 -> well_typed c -> quiet e ->
  pk_call e client c kid key (ks_of Y i) = (Done OK out, S') ->
  exists o, asks c = Some o /\ alg o (parameters DL c) (inputs c) key = (OK, out).
Proof.
  intros Y i e client c kid key out S' R CL E LK WT Q H. destruct (okY_wf Y i R) as [W G].
  eapply call_result; eauto. intros k _. apply (quiet_gap e k Q).
Qed.
(** Also while other connections go on. *)
Theorem C66_result_concurrent : forall Y Y1 i evs e client c kid key out S',
  okY Y -> okY Y1 -> Forall (elsewhere i) evs -> v_gap1 e = others Y1 i evs ->
  1 <= client <= 15 -> kid_erased kid = true -> k_global (kc C) && has kid CF_GLOBAL = false ->
  len key < 65536 -> well_typed c ->
  pk_call e client c kid key (ks_of Y i) = (Done OK out, S') ->
  exists o, asks c = Some o /\ alg o (parameters DL c) (inputs c) key = (OK, out).
Proof.
  intros Y Y1 i evs e client c kid key out S' R R1 F1 E1 CL E LG LK WT H. destruct (okY_wf Y i R) as [W G].
  eapply call_result; eauto. intros k0 (NZ & _ & _ & _ & _ & _ & GL). rewrite E1. apply others_gap; auto. congruence.
Qed.
(** When nothing else goes wrong, the caller gets exactly the operation's outcome. *)
Theorem C66_completes : forall Y i e client c kid key o,
  okY Y -> 1 <= client <= 15 -> kid_erased kid = true -> len key < 65536 -> well_typed c -> quiet e ->
  asks c = Some o -> proper c -> known_level level_ok c -> request_bytes c <= DL ->
  faultless e -> key_fits DL c key -> accepts C client c kid (v_label e) key (ks_of Y i) ->
  fst (pk_call e client c kid key (ks_of Y i)) = reported c (alg o (parameters DL c) (inputs c) key).
Proof.
  intros Y i e client c kid key o R CL E LK WT Q A PR KL RB FL KF AC. destruct (okY_wf Y i R) as [W G].
  apply call_completes; auto. intros k _. apply (quiet_gap e k Q).
Qed.
(** An error hands out nothing. *)
Theorem C66_error_no_output : forall e client c kid key S rc out S',
  pk_call e client c kid key S = (Done rc out, S') -> rc <> OK -> out = [].
Proof. intros. eapply call_error; eauto. Qed.

(** The key object names a key on the server: that key is used, as far as its
    usage flags allow, and it is not evicted; nothing else changes. *)
Theorem C66_named_key_stays : forall Y i e client c kid key r S',
  okY Y -> kid_erased kid = false -> well_typed c ->
  pk_call e client c kid key (ks_of Y i) = (r, S') ->
  k_st S' = y_st Y /\
  forall k s, k <> 0 -> find_cache C (ks_of Y i) k = Some s ->
    (sl_comm s = false -> find_cache C S' k = Some s) /\
    (sl_comm s = true -> find_cache C S' k = Some s \/ find_cache C S' k = None \/
       exists m d, sp_find (y_st Y) k = Some (m, d) /\ find_cache C S' k = Some (mkSlot m d true)).
Proof.
  intros Y i e client c kid key r S' R E WT H. destruct (okY_wf Y i R) as [W G].
  destruct (call_named C DL level_ok alg e client c kid key (ks_of Y i) r S' W G E WT H) as (_ & _ & T & F & _). split; [exact T|].
  intros k s NK V. destruct (F k NK) as [_ [X|[U X]]].
  - rewrite X, V. auto.
  - split; [intros SC; rewrite (U s V) in SC; discriminate|]. intros _. right. exact X.
Qed.
Theorem C66_named_key_result : forall Y i e client c kid key out S',
  okY Y -> kid_erased kid = false -> well_typed c ->
  pk_call e client c kid key (ks_of Y i) = (Done OK out, S') ->
  exists o m d, asks c = Some o /\ current C (ks_of Y i) (key_of C client kid) = Some (m, d) /\
    may_use o (m_flags m) = true /\ alg o (parameters DL c) (inputs c) d = (OK, out).
Proof.
  intros Y i e client c kid key out S' R E WT H. destruct (okY_wf Y i R) as [W G].
  destruct (call_named C DL level_ok alg e client c kid key (ks_of Y i) _ S' W G E WT H) as (_ & _ & _ & _ & K). apply (K out eq_refl).
Qed.
Theorem C66_named_key_completes : forall Y i e client c kid key o s,
  okY Y -> kid_erased kid = false -> well_typed c ->
  asks c = Some o -> proper c -> known_level level_ok c -> request_bytes c <= DL -> faultless e ->
  hwkey C (key_of C client kid) = false -> find_cache C (ks_of Y i) (key_of C client kid) = Some s ->
  fst (pk_call e client c kid key (ks_of Y i)) =
    if may_use o (m_flags (sl_meta s)) then reported c (alg o (parameters DL c) (inputs c) (sl_buf s)) else Done USAGE [].
Proof.
  intros Y i e client c kid key o s R E WT A PR KL RB FL HW V. destruct (okY_wf Y i R) as [W G].
  apply call_named_done; auto.
Qed.
End Props.

Print Assumptions C66_no_trace_partial.
Print Assumptions C66_no_trace_concurrent_partial.
Print Assumptions C66_result.
Print Assumptions C66_result_concurrent.
Print Assumptions C66_completes.
Print Assumptions C66_error_no_output.
Print Assumptions C66_named_key_stays.
Print Assumptions C66_named_key_result.
Print Assumptions C66_named_key_completes.

Module PkExamples.
Import KeyExamples.
(** Toy wolfCrypt: the output is everything it was given. *)
Definition toy_alg (o : cop) (ps : list N) (args : list (list N)) (d : list N) : Z * list N :=
  match d with [] => ((-140)%Z, []) | _ => (OK, ps ++ concat args ++ d) end.
Definition lv (l : N) : bool := N.ltb l 3.
Notation call := (pk_call cfg 100 lv toy_alg).
Definition good_hop := mkHop OK OK OK OK.
Definition env0 := mkPk OK [] good_hop OK OK good_hop good_hop OK OK OK (fun S => S) (fun S => S).
Definition Y0 := snd (run [req 0 1 (KCache 3 32 [] [1; 2; 3])]).
Definition S0 := ks_of Y0 0.
Lemma Y0_ok : okY Y0. Proof. apply run_reachable. Qed.
Lemma quiet0 : quiet env0. Proof. intros S. split; reflexivity. Qed.

Definition view (x : result * ks) : result * option slot * option (list N) :=
  (fst x, find_cache cfg (snd x) (mk_keyid KT_CRYPTO 1 255), option_map sl_buf (find_cache cfg (snd x) (mk_keyid KT_CRYPTO 1 3))).
(** A signature with a key brought along: the answer is right, the key was in the
    cache meanwhile and is gone. *)
Example ex_C66_sign :
  view (call env0 1 (EccSig [7; 8]) 0 [4; 5] S0) = (Done OK [7; 8; 4; 5], None, Some [1; 2; 3]) /\
  find_cache cfg (snd (import cfg 100 env0 1 (EccSig [7; 8]) 0 [4; 5] S0)) (mk_keyid KT_CRYPTO 1 255) <> None /\
  faultless env0 /\ key_fits 100 (EccSig [7; 8]) [4; 5] /\ accepts cfg 1 (EccSig [7; 8]) 0 [] [4; 5] S0.
Proof.
  split; [vm_compute; reflexivity|]. split; [vm_compute; discriminate|]. split; [repeat split|].
  split; [right; split; [discriminate|vm_compute; discriminate]|vm_compute; reflexivity].
Qed.
(** A failing operation, a request too long, a failing send: gone as well. *)
Definition no_send := mkPk OK [] good_hop OK OK (mkHop ABORTED OK OK OK) good_hop OK OK OK (fun S => S) (fun S => S).
Example ex_C66_errors :
  view (call env0 1 (EdSig true 0 [1] [2] 64) 0 [] S0) = (Done BADARGS [], None, Some [1; 2; 3]) /\
  view (call env0 1 (EccVer true (repeat 1 50) (repeat 2 50)) 0 [4; 5] S0) = (Done BADARGS [], None, Some [1; 2; 3]) /\
  view (call no_send 1 (RsaFn 3 [9] 64) 0 [4; 5] S0) = (Done ABORTED [], None, Some [1; 2; 3]) /\
  view (call env0 1 (KemDec true 7 [9]) 0 [4; 5] S0) = (Done BADARGS [], None, Some [1; 2; 3]) /\
  view (call env0 1 (KemDec true 2 [9]) 0 [4; 5] S0) = (Done OK [2; 9; 4; 5], None, Some [1; 2; 3]).
Proof. vm_compute. repeat split. Qed.
(** While another connection caches a shared key and a third reads NVM. *)
Definition ev1 := [req 1 2 (KCache (3 + CF_GLOBAL) 0 [] [6; 6])].
Definition busy := mkPk OK [] good_hop OK OK good_hop good_hop OK OK OK
  (others cfg toy_crypt toy_pub toy_ots toy_enc toy_dec toy_count 100 Y0 0 ev1) (fun S => S).
Example ex_C66_concurrent :
  fst (call busy 1 (EccSig [7; 8]) 0 [4; 5] S0) = Done OK [7; 8; 4; 5] /\
  Forall (elsewhere 0) ev1 /\
  find_cache cfg (snd (call busy 1 (EccSig [7; 8]) 0 [4; 5] S0)) (mk_keyid KT_CRYPTO 0 3) <> None /\
  find_cache cfg S0 (mk_keyid KT_CRYPTO 0 3) = None /\
  find_cache cfg (snd (call busy 1 (EccSig [7; 8]) 0 [4; 5] S0)) (mk_keyid KT_CRYPTO 1 255) = None.
Proof.
  split; [vm_compute; reflexivity|]. split; [repeat constructor; discriminate|].
  split; [vm_compute; discriminate|]. split; vm_compute; reflexivity.
Qed.
(** A key the server holds: its usage flags decide (here: encrypt), and it stays. *)
Example ex_C66_named :
  kid_erased 3 = false /\ key_of cfg 1 3 = mk_keyid KT_CRYPTO 1 3 /\
  view (call env0 1 (RsaFn 0 [9] 64) 3 [] S0) = (Done OK [64; 9; 1; 2; 3], None, Some [1; 2; 3]) /\
  view (call env0 1 (RsaFn 1 [9] 64) 3 [] S0) = (Done USAGE [], None, Some [1; 2; 3]) /\
  option_map sl_buf (find_cache cfg S0 (mk_keyid KT_CRYPTO 1 3)) = Some [1; 2; 3].
Proof. vm_compute. repeat split. Qed.

(** Refuted without the conditions: the key stays in the cache, [left_behind],
    (1) after an RSA call with an operation that is none of the four, although
    nothing else goes wrong; *)
Definition left_behind (e : PkModel.env) (c : PkModel.call) : Prop :=
  exists rc, fst (call e 1 c 0 [4; 5] S0) = Done rc [] /\ rc <> OK /\
  find_cache cfg S0 (mk_keyid KT_CRYPTO 1 255) = None /\
  option_map sl_buf (find_cache cfg (snd (call e 1 c 0 [4; 5] S0)) (mk_keyid KT_CRYPTO 1 255)) = Some [4; 5].
Theorem C66_unknown_rsa_type_refuted : left_behind env0 (RsaFn 4 [9] 64).
Proof. exists BAD_FUNC_ARG. vm_compute. repeat split; discriminate. Qed.
(** (2) when the request is refused before it gets to its handler; *)
Theorem C66_refused_request_refuted :
  left_behind (mkPk OK [] good_hop OK OK (mkHop OK ACCESS OK OK) good_hop OK OK OK (fun S => S) (fun S => S)) (EccSig [7; 8]).
Proof. exists ACCESS. vm_compute. repeat split; discriminate. Qed.
(** (3) when an ML-DSA verification with DMA cannot set up its key object; *)
Theorem C66_key_setup_refuted :
  left_behind (mkPk OK [] good_hop OK OK good_hop good_hop (-125)%Z OK OK (fun S => S) (fun S => S)) (MlVer true 2 0 [1] [2] []).
Proof. exists (-125)%Z. vm_compute. repeat split; discriminate. Qed.
(** (4) when the answer to the import is lost. *)
Theorem C66_lost_answer_refuted :
  left_behind (mkPk OK [] (mkHop OK OK OK ABORTED) OK OK good_hop good_hop OK OK OK (fun S => S) (fun S => S)) (EccSig [7; 8]).
Proof. exists ABORTED. vm_compute. repeat split; discriminate. Qed.
(** (5) when the lock is not available for the eviction: here even though the call
    succeeds. *)
Theorem C66_evict_lock_refuted :
  let e := mkPk OK [] good_hop OK OK good_hop good_hop OK OK ABORTED (fun S => S) (fun S => S) in
  fst (call e 1 (EccSig [7; 8]) 0 [4; 5] S0) = Done OK [7; 8; 4; 5] /\
  find_cache cfg S0 (mk_keyid KT_CRYPTO 1 255) = None /\
  option_map sl_buf (find_cache cfg (snd (call e 1 (EccSig [7; 8]) 0 [4; 5] S0)) (mk_keyid KT_CRYPTO 1 255)) = Some [4; 5].
Proof. vm_compute. repeat split. Qed.
End PkExamples.
Print Assumptions PkExamples.C66_unknown_rsa_type_refuted.
Print Assumptions PkExamples.C66_refused_request_refuted.
Print Assumptions PkExamples.C66_key_setup_refuted.
Print Assumptions PkExamples.C66_lost_answer_refuted.
Print Assumptions PkExamples.C66_evict_lock_refuted.
