(** Slots of stateful signature keys (LMS, XMSS): C69.  Vocabulary:
    StatefulSpec.v. *)
From Verif Require Import Base NvmReqModel StatefulModel StatefulSpec StatefulProof.
From Verif Require Import NvmSpec Flags KeyId Store CounterModel KsModel KsCache KsReq KsSys KsSpec PropertiesKeyId PropertiesKeys.
Local Open Scope N_scope.

Section Props.
Variable tab : kind -> list N -> option (N * N).
Variable lib_sign : kind -> list N -> list N -> list N -> list N -> option (list N * list N).
Variable lib_left : kind -> list N -> list N -> N.
Variable cap : N.
Hypothesis sized : lib_sized lib_sign.

(** Key generation: whatever the slot held before, afterwards the slot holds the
    parameters, the public and the private key in the documented layout; so does
    the NVM object when the commit succeeded, and the code is the commit's. *)
Theorem C69_keygen : forall kd par pub priv nv buf stored,
  N.of_nat (length buf) = cap -> proper tab cap kd par pub priv ->
  exists sl, keygen cap kd par pub priv nv buf stored =
      Val (nv, sl, if Z.eqb nv OK then Some (layout kd par pub priv) else stored) /\
    holds sl (layout kd par pub priv).
Proof. intros. apply (keygen_layout tab lib_sign lib_left cap); auto. Qed.

(** A sign request for a slot that holds a key: the library is asked with exactly
    this key's parameters, public key and private key.  If it does not sign, or
    the client's memory is refused, nothing changes.  If it signs, the slot holds
    the next private key; the signature is handed out, with code OK, if and only if
    the NVM object now holds it as well. *)
Theorem C69_sign : forall kd par pub priv sl dma nv msg stored,
  proper tab cap kd par pub priv -> holds sl (layout kd par pub priv) ->
  exists r, sign tab lib_sign cap kd dma nv msg sl stored = Val r /\
    match (if Z.eqb dma OK then lib_sign kd par pub priv msg else None) with
    | None => t_sig r = None /\ t_rc r <> OK /\ t_slot r = sl /\ t_nvm r = stored
    | Some (sg, priv') =>
        holds (t_slot r) (layout kd par pub priv') /\
        (if Z.eqb nv OK then t_rc r = OK /\ t_sig r = Some sg /\ t_nvm r = Some (layout kd par pub priv')
         else t_rc r <> OK /\ t_sig r = None /\ t_nvm r = stored)
    end.
Proof.
  intros kd par pub priv sl dma nv msg stored P H. destruct (sign_layout tab lib_sign lib_left cap kd par pub priv sl dma nv msg stored sized P H) as (r & E & C).
  exists r. split; auto. destruct C as [(A1 & A2 & A3 & A4 & [D|D])|(sg & v & D & -> & A1 & _ & A2)].
  - apply Z.eqb_neq in D. rewrite D. auto.
  - rewrite D. destruct (Z.eqb dma OK); auto.
  - rewrite Z.eqb_refl, D. auto.
Qed.

(** What else can be asked of such a slot: verification and export use the public
    key, the number of signatures left is that of the private key. *)
Theorem C69_read : forall kd par pub priv sl,
  proper tab cap kd par pub priv -> holds sl (layout kd par pub priv) ->
  public_of tab kd sl = Val (par, pub) /\ sigs_left tab lib_left kd sl = Val (lib_left kd par priv) /\
  forall room, export_public tab kd room sl = if room <? N.of_nat (length pub) then Fail NOSPACE else Val pub.
Proof.
  intros kd par pub priv sl P H. pose proof (public_layout tab lib_sign lib_left cap _ _ _ _ _ P H) as PU. split; auto. split; [apply (left_layout tab lib_sign lib_left cap _ _ _ _ _ P H)|].
  intros room. unfold export_public. rewrite PU. reflexivity.
Qed.

(** Over every history of signing, counting, exporting, evicting and restarting,
    with NVM writes failing at will: every signature handed out was made by the
    library with the key's parameters and public key and a private key that
    follows the first; the private key used for a later one follows the one that
    an earlier one left behind; the other answers are as they should be; and NVM
    object and slot still hold the key, NVM object first. *)
Theorem C69_history : forall kd par pub v0 q s os answers s',
  proper tab cap kd par pub v0 -> key_at lib_sign kd par pub v0 q s ->
  op_run tab lib_sign lib_left cap kd os s = (answers, s') ->
  Forall (plain_answer lib_sign lib_left kd par pub v0) answers /\ length answers = length os /\
  exists us p' q', map (fun u => (u_msg u, u_sig u)) us = made os answers /\
    Forall (fun u => lib_sign kd par pub (u_key u) (u_msg u) = Some (u_sig u, u_next u)) us /\
    Forall (fun u => follows lib_sign kd par pub v0 (u_key u)) us /\
    ForallOrdPairs (fun u w => follows lib_sign kd par pub (u_next u) (u_key w)) us /\
    key_at lib_sign kd par pub p' q' s' /\ Forall (fun u => follows lib_sign kd par pub (u_next u) p') us.
Proof.
  intros kd par pub v0 q s os answers s' P K E.
  destruct (run_key tab lib_sign lib_left cap kd par pub v0 os v0 q s answers s' sized P (f_same _ _ _ _ _) K E)
    as (A & L & us & p' & q' & B1 & B2 & B3 & B4 & B5 & _ & B6).
  split; auto. split; auto. exists us, p', q'. auto 10.
Qed.

(** Key generation touches no memory outside the slot, whatever the sizes of the
    keys.  No bytes in a slot, however they got there, make a request touch memory
    outside the slot's buffer, which need not have the size of a big slot. *)
Theorem C69_memory :
  (forall kd par pub priv nv buf stored, N.of_nat (length buf) = cap -> cap < 65536 -> keygen cap kd par pub priv nv buf stored <> Wild) /\
  forall kd sl dma nv msg stored room,
  s_len sl <= N.of_nat (length (s_buf sl)) -> s_len sl < 65536 ->
  sign tab lib_sign cap kd dma nv msg sl stored <> Wild /\ sigs_left tab lib_left kd sl <> Wild /\ export_public tab kd room sl <> Wild /\
  forall r, sign tab lib_sign cap kd dma nv msg sl stored = Val r ->
    length (s_buf (t_slot r)) = length (s_buf sl) /\ s_len (t_slot r) <= N.of_nat (length (s_buf (t_slot r))) /\ s_len (t_slot r) < 65536.
Proof.
  split; [intros; apply (keygen_in tab lib_sign lib_left cap); auto|].
  intros kd sl dma nv msg stored room L1 L2. assert (H : sound_slot sl) by (split; auto).
  destruct (sign_any tab lib_sign lib_left cap kd sl dma nv msg stored sized H) as (r & E & [S1 S2] & SL). rewrite E.
  split; [discriminate|]. split; [apply (left_any tab lib_sign lib_left); auto|]. split; [apply (export_any tab lib_sign lib_left); auto|]. intros r' X. injection X as <-. auto.
Qed.

(** Whatever a slot holds, the library is called with a public key and a private
    key of the sizes of the parameter set it is called with (how it behaves for
    others does not matter), and never for a slot of another kind of key. *)
Theorem C69_calls : forall kd sl,
  (forall par pub, public_of tab kd sl = Val (par, pub) -> exists vl, tab kd par = Some (N.of_nat (length pub), vl)) /\
  (forall lib2, (forall par pub v msg, tab kd par = Some (N.of_nat (length pub), N.of_nat (length v)) -> lib_sign kd par pub v msg = lib2 kd par pub v msg) ->
    forall dma nv msg stored, sign tab lib_sign cap kd dma nv msg sl stored = sign tab lib2 cap kd dma nv msg sl stored) /\
  (forall left2, (forall par pl vl, tab kd par = Some (pl, vl) -> vl < 65536) ->
    (forall par v, (exists pl, tab kd par = Some (pl, N.of_nat (length v))) -> lib_left kd par v = left2 kd par v) ->
    sigs_left tab lib_left kd sl = sigs_left tab left2 kd sl) /\
  (Forall (fun b => b < 256) (s_buf sl) -> firstn 4 (s_buf sl) <> magic_bytes kd ->
    (forall p, public_of tab kd sl <> Val p) /\ (forall n, sigs_left tab lib_left kd sl <> Val n) /\
    forall dma nv msg stored r, sign tab lib_sign cap kd dma nv msg sl stored = Val r ->
      t_sig r = None /\ t_rc r <> OK /\ t_slot r = sl /\ t_nvm r = stored).
Proof.
  intros kd sl. split; [|split; [|split]].
  - intros par pub E. unfold public_of in E. destruct (deserialize tab kd (s_buf sl) (s_len sl)) as [k|rc|] eqn:D; [|discriminate|discriminate]. cbn [bind] in E.
    injection E as <- <-. destruct (deserialize_sized tab lib_sign lib_left _ _ _ _ D) as ((vl & T & _) & _). eauto.
  - intros lib2 A dma nv msg stored. apply sign_ext; auto.
  - intros left2 B A. apply left_ext; auto.
  - intros F NM.
    assert (ND : forall k, deserialize tab kd (s_buf sl) (s_len sl) <> Val k).
    { intros k D. destruct (deserialize_sized tab lib_sign lib_left _ _ _ _ D) as (_ & h & R & M). apply NM. eapply magic_read; eauto. }
    assert (NL : forall x, load_priv tab kd sl <> Val x).
    { intros x L. unfold load_priv in L. destruct (deserialize tab kd (s_buf sl) (s_len sl)) as [k|rc|]; [eapply ND; eauto|discriminate|discriminate]. }
    split; [|split].
    + intros p E. unfold public_of in E. destruct (deserialize tab kd (s_buf sl) (s_len sl)) as [k|rc|]; [eapply ND; eauto|discriminate|discriminate].
    + intros n E. unfold sigs_left in E. destruct kd; [destruct (deserialize tab Lms (s_buf sl) (s_len sl)) as [k|rc|]|destruct (load_priv tab Xmss sl) as [x|rc|]];
        try discriminate; [eapply ND; eauto|eapply NL; eauto].
    + intros dma nv msg stored r E. unfold sign in E. destruct (load_priv tab kd sl) as [x|rc|] eqn:L; [exfalso; eapply NL; eauto| |discriminate].
      injection E as <-. cbn [t_sig t_rc t_slot t_nvm]. split; auto. split; auto. intros ->. exact (load_code tab kd sl L).
Qed.

(** What a request does depends on the slot's contents only, not on what earlier
    keys left in the buffer behind them. *)
Theorem C69_leftovers : forall kd d tail dma nv msg stored r,
  N.of_nat (length d) < 65536 ->
  sign tab lib_sign cap kd dma nv msg (mkSl d (N.of_nat (length d))) stored = Val r ->
  sign tab lib_sign cap kd dma nv msg (mkSl (d ++ tail) (N.of_nat (length d))) stored =
    Val (mkRes (t_rc r) (t_sig r) (mkSl (s_buf (t_slot r) ++ tail) (s_len (t_slot r))) (t_nvm r)).
Proof.
  intros kd d tail dma nv msg stored r L E. destruct (sign_tail tab lib_sign lib_left cap kd d tail dma nv msg stored sized L) as [T _].
  change (nlen d) with (N.of_nat (length d)) in T. rewrite T, E. reflexivity.
Qed.

(** The check at the import calls.  A slot filled with client bytes that pass it
    and are exactly as long as their header says cannot sign; for bytes longer than
    that see C69_trailing_refuted. *)
Theorem C69_import_partial : forall kd b tail dma nv msg stored,
  N.of_nat (length b) < 65536 -> stateful_blob b = false -> declared b = N.of_nat (length b) ->
  (forall par pl vl, tab kd par = Some (pl, vl) -> 0 < vl) ->
  exists r, sign tab lib_sign cap kd dma nv msg (mkSl (b ++ tail) (N.of_nat (length b))) stored = Val r /\
    t_sig r = None /\ t_rc r <> OK /\ t_slot r = mkSl (b ++ tail) (N.of_nat (length b)) /\ t_nvm r = stored.
Proof. intros. apply (import_cannot_sign tab lib_sign lib_left cap); auto. Qed.

(** A public key alone: what the client library sends is the layout with an empty
    private part, passes the check, and is read back as this public key. *)
Theorem C69_public : forall kd par pub max buf,
  N.of_nat (length buf) = max -> max <= 65535 -> 12 + N.of_nat (length (named kd par)) + N.of_nat (length pub) <= max ->
  (exists vl, tab kd par = Some (N.of_nat (length pub), vl)) ->
  match kd with Lms => length par = 3%nat | Xmss => Forall (fun b => b <> 0) par end ->
  exists rest, serialize kd par pub None 0 max buf = Val (layout kd par pub [] ++ rest, N.of_nat (length (layout kd par pub []))) /\
    stateful_blob (layout kd par pub []) = false /\ declared (layout kd par pub []) = N.of_nat (length (layout kd par pub [])) /\
    forall tail, public_of tab kd (mkSl (layout kd par pub [] ++ tail) (N.of_nat (length (layout kd par pub [])))) = Val (par, pub).
Proof.
  intros kd par pub max buf BL M L [vl T] K. destruct (public_blob tab lib_sign lib_left kd par pub buf max BL M L) as [rest S]. exists rest. split; [exact S|].
  assert (F : stateful_blob (layout kd par pub []) = false).
  { unfold layout. destruct kd; reflexivity. }
  split; auto. split.
  - unfold declared, at16, layout. destruct kd; cbn [magic_bytes two named app nth]; cbn [length]; rewrite !app_length; cbn [length]; lia.
  - intros tail. apply (public_only tab lib_sign lib_left kd par pub tail vl); auto. rewrite layout_length. change (nlen []) with 0. unfold nlen. lia.
Qed.
End Props.
Print Assumptions C69_keygen.
Print Assumptions C69_sign.
Print Assumptions C69_read.
Print Assumptions C69_history.
Print Assumptions C69_memory.
Print Assumptions C69_calls.
Print Assumptions C69_leftovers.
Print Assumptions C69_import_partial.
Print Assumptions C69_public.

Module StatefulExamples.
Import KeyExamples.
(** A library with one LMS set of two public bytes and one private byte, and one
    XMSS set named by 88 with one and two.  A signature is the index and the
    message. *)
Definition tab (kd : kind) (par : list N) : option (N * N) :=
  match kd, par with
  | Lms, [1; 5; 4] => Some (2, 1)
  | Xmss, [88] => Some (1, 2)
  | _, _ => None
  end.
Definition lsign (kd : kind) (par pub v msg : list N) : option (list N * list N) :=
  match v with i :: r => if i <? 200 then Some (i :: msg, i + 1 :: r) else None | [] => None end.
Definition left_ (kd : kind) (par v : list N) : N := 200 - nth 0 v 0.
Lemma lsign_sized : lib_sized lsign.
Proof. intros kd par pub v msg sg v' H. destruct v as [|i r]; [discriminate|]. cbn [lsign] in H. destruct (i <? 200); [|discriminate]. injection H as <- <-. reflexivity. Qed.

(** A key is made, used, fails to be stored, is evicted, used again. *)
Definition made_lms := keygen 32 Lms [1; 5; 4] [60; 61] [7] OK (repeat 99 32) None.
Definition lms_blob (v : N) : list N := [1; 83; 77; 76; 2; 0; 1; 0; 3; 0; 0; 0; 1; 5; 4; 60; 61; v].
Definition history : list op :=
  [OSign OK OK [1] false []; OSign OK NOSPACE [2] false []; OLeft []; OSign OK OK [3] true [];
   OPublic 2 [9; 9]; OPublic 1 []; OEvict; OSign OK OK [4] false [5]; OSign ACCESS OK [5] false []].
Example C69_case :
  proper tab 32 Lms [1; 5; 4] [60; 61] [7] /\ layout Lms [1; 5; 4] [60; 61] [7] = lms_blob 7 /\
  made_lms = Val (OK, mkSl (lms_blob 7 ++ repeat 99 14) 18, Some (lms_blob 7)) /\
  key_at lsign Lms [1; 5; 4] [60; 61] [7] [7] (mkSt (Some (mkSl (lms_blob 7 ++ repeat 99 14) 18)) (Some (lms_blob 7))) /\
  fst (op_run tab lsign left_ 32 Lms history (mkSt (Some (mkSl (lms_blob 7 ++ repeat 99 14) 18)) (Some (lms_blob 7)))) =
    [ASig OK (Some [7; 1]); ASig IO_FAILED None; ALeft (Val 191); ASig OK (Some [9; 3]); APub (Val [60; 61]); APub (Fail NOSPACE); ANone;
     ASig OK (Some [10; 4]); ASig ACCESS None].
Proof.
  split.
  { split; [reflexivity|]. split; [discriminate|]. split; [reflexivity|]. split; [vm_compute; discriminate|lia]. }
  split; [reflexivity|]. split; [vm_compute; reflexivity|]. split; [|vm_compute; reflexivity].
  split; [reflexivity|]. split; [constructor|]. split; [reflexivity|]. exists (repeat 99 14). reflexivity.
Qed.
Definition xmss_blob : list N := [1; 83; 77; 88; 1; 0; 2; 0; 2; 0; 0; 0; 88; 0; 50; 7; 8].
Example C69_xmss_case :
  proper tab 32 Xmss [88] [50] [7; 8] /\ keygen 32 Xmss [88] [50] [7; 8] OK (repeat 99 32) None = Val (OK, mkSl (xmss_blob ++ repeat 99 15) 17, Some xmss_blob) /\
  sign tab lsign 32 Xmss OK OK [1] (mkSl xmss_blob 17) None =
    Val (mkRes OK (Some [7; 1]) (mkSl (firstn 15 xmss_blob ++ [8; 8]) 17) (Some (firstn 15 xmss_blob ++ [8; 8]))).
Proof.
  split; [|vm_compute; auto]. split; [reflexivity|]. split; [discriminate|]. split; [repeat constructor; discriminate|]. split; [vm_compute; discriminate|lia].
Qed.

(** A public key alone is refused for signing; so are other bytes. *)
Definition pub_blob : list N := [1; 83; 77; 76; 2; 0; 0; 0; 3; 0; 0; 0; 1; 5; 4; 60; 61].
Example C69_public_case :
  pub_blob = layout Lms [1; 5; 4] [60; 61] [] /\ stateful_blob pub_blob = false /\ declared pub_blob = 17 /\
  sign tab lsign 32 Lms OK OK [1] (mkSl pub_blob 17) None = Val (mkRes IO_FAILED None (mkSl pub_blob 17) None) /\
  sign tab lsign 32 Xmss OK OK [1] (mkSl (lms_blob 7) 18) None = Val (mkRes BADARGS None (mkSl (lms_blob 7) 18) None).
Proof. repeat split; vm_compute; reflexivity. Qed.

(** The check looks at the private length in the header only.  The signing path
    reads the private key from behind the public key whatever the header says, so a
    client that sends the private key behind a header claiming there is none gets a
    key that signs, from the state it chose. *)
Theorem C69_trailing_refuted : exists b,
  b = pub_blob ++ [7] /\ stateful_blob b = false /\
  sign tab lsign 32 Lms OK OK [1] (mkSl b 18) None = Val (mkRes OK (Some [7; 1]) (mkSl (lms_blob 8) 18) (Some (lms_blob 8))).
Proof. eexists. repeat split; vm_compute; reflexivity. Qed.

(** In the keystore: a client caches such bytes, signs, caches them again under the
    same id and signs again.  All requests are answered OK, and both signatures are
    made with the same one-time key. *)
Definition roll : list sev :=
  [req 0 1 (KCache 3 0 [] (pub_blob ++ [7])); req 0 1 (KSign 3 [1] false); req 0 1 (KCache 3 0 [] (pub_blob ++ [7])); req 0 1 (KSign 3 [2] false)].
Theorem C69_rollback_refuted :
  map (option_map (fun r => (r_rc r, r_data r)))
    (fst (sys_run cfg toy_crypt toy_pub (ots_of tab lsign 32 Lms) toy_enc toy_dec toy_count 100 roll (fresh_sys [] 2 1))) =
    [Some (OK, []); Some (OK, [7; 1]); Some (OK, []); Some (OK, [7; 2])] /\
  (exists v1, lsign Lms [1; 5; 4] [60; 61] [7] [1] = Some ([7; 1], v1)) /\ (exists v2, lsign Lms [1; 5; 4] [60; 61] [7] [2] = Some ([7; 2], v2)).
Proof. split; [vm_compute; reflexivity|]. split; eexists; vm_compute; reflexivity. Qed.
End StatefulExamples.
Print Assumptions StatefulExamples.C69_case.
Print Assumptions StatefulExamples.C69_xmss_case.
Print Assumptions StatefulExamples.C69_public_case.
Print Assumptions StatefulExamples.C69_trailing_refuted.
Print Assumptions StatefulExamples.C69_rollback_refuted.
