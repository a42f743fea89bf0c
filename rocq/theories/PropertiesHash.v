(** C60: hashing through the server gives the digest of the message. *)
From Coq Require Import Lia.
From Verif Require Import Base HashModel HashSpec HashProof.

(** * The split API *)

(** Any sequence of update and final calls, inline or DMA in any mix, any way of
    cutting the message, with any failures of the transport, of the server or of
    address checks in between: a digest handed out is the digest of the
    concatenation of the updates that were accepted since the last digest.
    Missing for the full property: SHA-384/512 messages from 4 GiB, SHA-2 between
    peers of different byte order, and updates made while a final request is under
    way (the refuted theorems below). *)
Theorem C60_split_calls_partial :
  forall DL same sup iv comp fin v es log s,
    library_ok iv comp fin -> (N.of_nat DL < 65536)%N ->
    same = true \/ fam v = Keccak ->
    Forall call_fits es ->
    hrun DL same sup iv comp fin v es (mkHs (fresh iv v) None) = Some (log, s) ->
    digests_right (digest iv comp fin v) (size_ok v) (mkHv (Some []) false) log.
Proof.
  intros DL same sup iv comp fin v es log s LIB DLB SM CF R.
  destruct (run_right DL same sup iv comp fin LIB DLB v es _ _ _ _ SM CF (fresh_tracks sup iv comp fin LIB v) R) as [D _].
  clear R. revert D. generalize (mkHv (Some []) false).
  induction log as [|[[e rc] o] log IH]; intros w D; cbn [digests_right] in *; [exact I|].
  destruct D as [D1 D2]. split; [|apply IH; exact D2].
  destruct e; try exact I. destruct (v_msg w) as [m|]; [|exact I].
  intros E SZ. rewrite D1 by (auto; exact I). apply (wire_digest_small sup iv comp fin LIB). exact SZ.
Qed.
Print Assumptions C60_split_calls_partial.

(** The partial block held by the client never fills its buffer. *)
Theorem C60_buffer_bounded :
  forall DL same sup iv comp fin v es log s,
    library_ok iv comp fin -> (N.of_nat DL < 65536)%N ->
    same = true \/ fam v = Keccak ->
    Forall call_fits es ->
    hrun DL same sup iv comp fin v es (mkHs (fresh iv v) None) = Some (log, s) ->
    length (c_buf (hs_c s)) < bs v.
Proof.
  intros DL same sup iv comp fin v es log s LIB DLB SM CF R.
  apply (run_right DL same sup iv comp fin LIB DLB v es _ _ _ _ SM CF (fresh_tracks sup iv comp fin LIB v) R).
Qed.
Print Assumptions C60_buffer_bounded.

(** A call that fails on the client's side changes nothing, so it can be repeated. *)
Theorem C60_refused_request_changes_nothing :
  forall DL dma v data src s rc s',
    length (c_buf (hs_c s)) < bs v ->
    (upd_req DL dma v data src s = (rc, s') -> rc <> OK -> s' = s) /\
    (fin_req DL dma v src s = (rc, s') -> rc <> OK -> s' = s).
Proof.
  intros DL dma v data src s rc s' B. split; intros U NE.
  - destruct (upd_req_ok DL dma v data src s rc s' B U) as [[_ E]|[E _]]; [exact E|contradiction].
  - destruct (fin_req_ok DL dma v src s rc s' U) as [[_ E]|[E _]]; [exact E|contradiction].
Qed.
Print Assumptions C60_refused_request_changes_nothing.

(** What a client sends fits the communication buffer, and a server with the
    algorithm refuses it only if it may not read the caller's memory. *)
Theorem C60_requests_served :
  forall DL same sup iv comp fin v es log s q k,
    library_ok iv comp fin -> (N.of_nat DL < 65536)%N ->
    same = true \/ fam v = Keccak ->
    Forall call_fits es ->
    hrun DL same sup iv comp fin v es (mkHs (fresh iv v) None) = Some (log, s) ->
    v_msg (view_after (mkHv (Some []) false) log) <> None ->
    sup (algo v) = true -> hs_p s = Some q ->
    q_size q <= DL /\
    (fst (handle_hash same sup iv comp fin k q) = OK \/
     (fst (handle_hash same sup iv comp fin k q) = k /\ q_dmain q <> [])).
Proof.
  intros DL same sup iv comp fin v es log s q k LIB DLB SM CF R VM SU P.
  destruct (run_tracks DL same sup iv comp fin LIB DLB v es _ _ _ _ SM CF (fresh_tracks sup iv comp fin LIB v)
              ltac:(discriminate) R) as [[B T] Q].
  split; [apply Q; exact P|].
  destruct (v_msg _) as [m|]; [|contradiction]. destruct T as (d & f & G1 & G2 & G3 & G4).
  rewrite P in G4. destruct (q_last q).
  - destruct G4 as (_ & _ & dma & ->).
    destruct (serve_final same sup iv comp fin LIB dma v (hs_c s) d k SM G3 B) as [(p & _ & X)|(p & -> & _)];
      [congruence|]. left. reflexivity.
  - destruct G4 as (_ & dma & w & e & _ & -> & M1 & M2 & B1 & B2).
    destruct (serve_update same sup iv comp fin LIB dma v (hs_c s) d w e k SM G3 M1 M2 B1 B2)
      as [(rc & p & -> & O & [[_ X]|(-> & _ & N0)])|(p & -> & _)]; [congruence| |left; reflexivity].
    right. split; [reflexivity|exact N0].
Qed.
Print Assumptions C60_requests_served.

(** * The blocking functions *)

(** The same for the blocking functions; in addition a failed SHA-3 call can be
    repeated. *)
Theorem C60_blocking_calls_partial :
  forall DL same sup iv comp fin v es,
    library_ok iv comp fin -> (N.of_nat DL < 65536)%N -> bs v <= max_inline DL v ->
    same = true \/ fam v = Keccak ->
    Forall bcall_fits es ->
    bdigests_right v (digest iv comp fin v) (size_ok v) (Some [])
      (brun DL same sup iv comp fin v es (fresh iv v)).
Proof.
  intros DL same sup iv comp fin v es LIB DLB MI SM CF.
  destruct (fresh_tracks sup iv comp fin LIB v) as [B G].
  pose proof (brun_right DL same sup iv comp fin LIB DLB v es (fresh iv v) (Some []) SM MI CF B G) as D.
  revert D. generalize (brun DL same sup iv comp fin v es (fresh iv v)) as log. generalize (Some (@nil N)).
  intros w log. revert w.
  induction log as [|[[e rc] o] log IH]; intros w D; cbn [bdigests_right] in *; [exact I|].
  destruct D as [D1 D2]. split; [|apply IH; exact D2].
  destruct e as [|dma data out env]; [destruct w; exact I|]. destruct out; [|destruct w; exact I].
  destruct w as [m|]; [|exact I].
  intros E SZ. rewrite D1 by (auto; exact I). apply (wire_digest_small sup iv comp fin LIB). exact SZ.
Qed.
Print Assumptions C60_blocking_calls_partial.

(** Every message of any length, given in one call to a server that has the
    algorithm, is hashed: the exchanges suffice and the answer is the digest. *)
Theorem C60_one_call_hashes :
  forall DL same sup iv comp fin v dma m k,
    library_ok iv comp fin -> (N.of_nat DL < 65536)%N ->
    bs v <= max_inline DL v -> (dma = true -> 12 + reqsz true v + bs v <= DL) ->
    same = true \/ fam v = Keccak ->
    sup (algo v) = true -> (N.of_nat (length m) < 4294967296)%N -> length m < k ->
    exists c, hash_call DL same sup iv comp fin dma v m true (repeat (OK, Served OK) k) (fresh iv v)
      = (OK, digest iv comp fin v m, c).
Proof.
  intros DL same sup iv comp fin v dma m k LIB DLB MI DM SM SU ML LK.
  destruct (fresh_tracks sup iv comp fin LIB v) as [B G].
  destruct (hash_call_live DL same sup iv comp fin LIB DLB dma v m true k (fresh iv v) [] SM SU (conj MI DM) ML LK B G)
    as (o & c & HC).
  assert (EF : env_fits (repeat ready k)).
  { apply Forall_forall. intros x X. apply repeat_spec in X. subst x. cbn. discriminate. }
  destruct (hash_call_ok DL same sup iv comp fin LIB DLB dma v m true _ (fresh iv v) (Some []) OK o c SM MI ML EF B G HC)
    as (_ & K & _).
  destruct (K eq_refl) as [_ K2]. destruct (K2 eq_refl) as [_ K3]. specialize (K3 [] eq_refl). cbn [app] in K3.
  exists c. transitivity (OK, o, c); [exact HC|]. rewrite K3. f_equal. f_equal. apply (wire_digest_small sup iv comp fin LIB).
  unfold size_ok. destruct (fam v); auto.
Qed.
Print Assumptions C60_one_call_hashes.

(** * Behind wolfCrypt's callback *)

(** SHA-3: whatever the server answers, also that it has no SHA-3 (then, or for some
    of the calls, wolfCrypt hashes in software), and whatever fails and is repeated:
    the digest is that of the updates that succeeded. *)
Theorem C60_sha3_software_path :
  forall DL same sup iv comp fin v es,
    library_ok iv comp fin -> (N.of_nat DL < 65536)%N -> bs v <= max_inline DL v ->
    fam v = Keccak -> Forall wcall_fits es ->
    wdigests_right (digest iv comp fin v) [] (wrun DL same sup iv comp fin v es (fresh iv v)).
Proof.
  intros DL same sup iv comp fin v es LIB DLB MI K CF.
  destruct (fresh_tracks sup iv comp fin LIB v) as [B G].
  pose proof (wrun_right DL same sup iv comp fin LIB DLB v es (fresh iv v) [] K MI CF B G) as D.
  assert (E : forall m, wire_digest iv comp fin v m = digest iv comp fin v m).
  { intros m. apply (wire_digest_small sup iv comp fin LIB). unfold size_ok. rewrite K. exact I. }
  revert D. generalize (wrun DL same sup iv comp fin v es (fresh iv v)) as log. generalize (@nil N).
  intros w log. revert w.
  induction log as [|[[e rc] o] log IH]; intros w D; cbn [wdigests_right] in *; [exact I|].
  destruct D as [D1 D2]. split; [|apply IH; exact D2].
  destruct e; try exact I. intros X. rewrite D1 by exact X. apply E.
Qed.
Print Assumptions C60_sha3_software_path.

(** * A toy hash for the examples and the refutations *)
Module HashToy.
Definition iv (v : variant) : list N := repeat 7%N (cw v).
Definition comp (f : family) (st b : list N) : list N :=
  match st with [] => [] | h :: t => wrap32 (h * 31 + fold_left N.add b 1) :: t end%N.
Definition fin (f : family) (b : nat) (st : list N) (n : N) (t : list N) : list N :=
  [n mod 256; (n / 4294967296) mod 256; (fold_left N.add st 0) mod 256;
   (fold_left (fun a x => a * 3 + x) t 7) mod 256]%N ++ repeat 0%N 60.
Lemma lib_ok : library_ok iv comp fin.
Proof.
  split; [|split].
  - intros v. apply repeat_length.
  - intros f [|h t] b; reflexivity.
  - intros v st n t. unfold fin. rewrite app_length, repeat_length. cbn [length].
    destruct v; cbn [dsz]; lia.
Qed.
Definition DL := 512.
Definition all (v : variant) := true.
Definition none (v : variant) := false.
Definition bytes (n : nat) : list N := map (fun i => N.modulo (N.of_nat i * 7 + 3) 256) (seq 0 n).
Definition rdy : exchange := (OK, Served OK).
Notation run3 same sup v es := (hrun DL same sup iv comp fin v es (mkHs (fresh iv v) None)).
Notation dg v m := (digest iv comp fin v m).

(** A run of the split API: partial block, failed send, DMA, a pending request. *)
Definition calls : list hcall :=
  [HInit; HUpdReq false (bytes 50) OK; HUpdReq false (bytes 100) (-5)%Z;
   HUpdReq false (bytes 100) OK; HUpdReq true (bytes 9) OK; HUpdReq false (bytes 10) OK; HUpdResp NotReady;
   HUpdResp (Served OK); HUpdReq true (bytes 200) OK; HUpdResp (Served OK);
   HFinReq false OK; HFinResp (Failed ABORTED); HFinReq true OK; HFinResp (Served OK)].
Example C60_split_runs :
  forall v, v = SHA256 \/ v = SHA512_224 ->
  exists log s, run3 true all v calls = Some (log, s) /\ Forall call_fits calls /\
    map (fun x => snd (fst x)) log = [OK; OK; (-5)%Z; OK; REQUEST_PENDING; OK; NOTREADY; OK; OK; OK; OK; ABORTED; OK; OK] /\
    snd (last log (HInit, OK, [])) = dg v (bytes 50 ++ bytes 100 ++ bytes 10 ++ bytes 200).
Proof.
  assert (CF : Forall call_fits calls).
  { repeat constructor; cbn; try lia; discriminate. }
  intros v [-> | ->].
  all: eexists; eexists; split; [vm_compute; reflexivity|]; split; [exact CF|]; split; vm_compute; reflexivity.
Qed.

Example C60_blocking_runs :
  (forall v, bs v <= max_inline DL v /\ 12 + reqsz true v + bs v <= DL) /\
  exists c, hash_call DL true all iv comp fin false SHA3_256 (bytes 1000) true (repeat rdy 8) (fresh iv SHA3_256)
    = (OK, dg SHA3_256 (bytes 1000), c).
Proof.
  split.
  - intros v. split; [apply Nat.leb_le; destruct v; vm_compute; reflexivity|].
    apply Nat.leb_le. destruct v; vm_compute; reflexivity.
  - eexists. vm_compute. reflexivity.
Qed.

(** SHA-3 with a server that stops answering for it in the middle of a call. *)
Example C60_fallback_runs :
  let es := [WUpdate false (bytes 300) [rdy; (OK, Served OK)]; WUpdate false (bytes 700) [rdy; (OK, Failed NOT_COMPILED_IN)];
             WFinal false [(OK, Failed NOT_COMPILED_IN)]] in
  map (fun x => snd (fst x)) (wrun DL true all iv comp fin SHA3_256 es (fresh iv SHA3_256)) = [OK; OK; OK] /\
  map snd (wrun DL true all iv comp fin SHA3_256 es (fresh iv SHA3_256)) =
    [[]; []; dg SHA3_256 (bytes 300 ++ bytes 700)].
Proof. split; vm_compute; reflexivity. Qed.

(** * What does not hold *)

(** SHA-384/512 of 4 GiB or more: the byte count travels in 32 bits.  Two DMA calls
    with 2 GiB each, both successful, give another digest than that of the
    message. *)
Example C60_two_gib_exists : exists m : list N, N.of_nat (length m) = 2147483648%N.
Proof.
  exists (repeat 0%N (N.to_nat 2147483648)). generalize 2147483648%N. intros n.
  rewrite repeat_length. apply N2Nat.id.
Qed.

Theorem C60_four_gib_refuted :
  forall m, N.of_nat (length m) = 2147483648%N ->
  let env := repeat rdy (S (length m)) in
  exists o c1 c2,
    hash_call DL true all iv comp fin true SHA512 m false env (fresh iv SHA512) = (OK, [], c1) /\
    hash_call DL true all iv comp fin true SHA512 m true env c1 = (OK, o, c2) /\
    o <> dg SHA512 (m ++ m).
Proof.
  intros m ML env.
  assert (MN : (N.of_nat (length m) < 4294967296)%N) by (rewrite ML; reflexivity).
  assert (DLB : (N.of_nat DL < 65536)%N) by reflexivity.
  assert (MI : bs SHA512 <= max_inline DL SHA512) by (apply Nat.leb_le; vm_compute; reflexivity).
  assert (FD : fits_dl DL true SHA512).
  { split; [exact MI|]. intros _. apply Nat.leb_le. vm_compute. reflexivity. }
  assert (SM : true = true \/ fam SHA512 = Keccak) by (left; reflexivity).
  assert (EF : env_fits env).
  { apply Forall_forall. intros x X. apply repeat_spec in X. subst x. cbn. discriminate. }
  pose proof lib_ok as LIB. destruct (fresh_tracks all iv comp fin LIB SHA512) as [B G].
  destruct (hash_call_live DL true all iv comp fin LIB DLB true SHA512 m false (S (length m)) (fresh iv SHA512) []
              SM eq_refl FD MN (le_n _) B G) as (o1 & c1 & H1).
  destruct (hash_call_ok DL true all iv comp fin LIB DLB true SHA512 m false env (fresh iv SHA512) (Some []) OK o1 c1
              SM MI MN EF B G H1) as (B1 & K1 & _).
  destruct (K1 eq_refl) as [G1 _]. specialize (G1 eq_refl). cbn [appo app goodo] in G1.
  destruct (hash_call_live DL true all iv comp fin LIB DLB true SHA512 m true (S (length m)) c1 m
              SM eq_refl FD MN (le_n _) B1 G1) as (o2 & c2 & H2).
  destruct (hash_call_ok DL true all iv comp fin LIB DLB true SHA512 m true env c1 (Some m) OK o2 c2
              SM MI MN EF B1 G1 H2) as (_ & K2 & _).
  destruct (K2 eq_refl) as [_ D2]. destruct (D2 eq_refl) as [_ D]. specialize (D m eq_refl).
  assert (O1 : o1 = []).
  { unfold hash_call in H1. revert H1. destruct (if length m =? 0 then _ else _) as [[r0 c0] e0].
    rewrite andb_false_r. cbn [negb]. destruct (is3 SHA512 && negb (is_ok r0)); intros H1; injection H1; auto. }
  subst o1. exists o2, c1, c2. split; [exact H1|]. split; [exact H2|].
  rewrite D. clear - ML. intros E. apply (f_equal (fun l => nth 1 l 99%N)) in E.
  assert (LN : N.of_nat (length (m ++ m)) = 4294967296%N).
  { rewrite app_length, Nat2N.inj_add, ML. reflexivity. }
  assert (LD : N.of_nat (length (m ++ m) / 128 * 128) = 4294967296%N).
  { rewrite Nat2N.inj_mul, Nat2N.inj_div, LN. reflexivity. }
  assert (LM : N.of_nat (length (m ++ m) mod 128) = 0%N).
  { rewrite Nat2N.inj_mod, LN. reflexivity. }
  unfold wire_digest, digest, digest_with in E. cbn [fam dsz] in E.
  unfold fin in E. cbn [app firstn nth] in E.
  unfold wire_len, msg_len in E. rewrite LD, LM, LN in E. discriminate E.
Qed.
Print Assumptions C60_four_gib_refuted.

(** Peers of different byte order: SHA-2 states are not translated.  65 bytes, every
    call successful. *)
Theorem C60_byte_order_refuted :
  exists es log s o,
    run3 false all SHA256 es = Some (log, s) /\ Forall call_fits es /\
    Forall (fun x => snd (fst x) = OK) log /\ last log (HInit, OK, []) = (HFinResp (Served OK), OK, o) /\
    view_after (mkHv (Some []) false) (firstn 3 log) = mkHv (Some (bytes 65)) true /\
    o <> dg SHA256 (bytes 65).
Proof.
  exists [HUpdReq false (bytes 65) OK; HUpdResp (Served OK); HFinReq false OK; HFinResp (Served OK)].
  eexists. eexists. eexists. split; [vm_compute; reflexivity|].
  split; [repeat constructor; cbn; lia || discriminate|].
  split; [repeat constructor|]. split; [reflexivity|]. split; [vm_compute; reflexivity|].
  vm_compute. discriminate.
Qed.
Print Assumptions C60_byte_order_refuted.

(** wolfCrypt's SHA-256 over a server without SHA-256: five bytes are kept by the
    client without counting them, the final call falls back to software, every call
    succeeds and the digest is wrong.  With 70 bytes the update itself falls back, on a
    context that already holds the end of the input. *)
Theorem C60_software_path_refuted :
  (exists log, wrun DL true none iv comp fin SHA256 [WUpdate false (bytes 5) [rdy]; WFinal false [rdy]] (fresh iv SHA256) = log
     /\ map (fun x => snd (fst x)) log = [OK; OK]
     /\ forall o, map snd log = [[]; o] -> o <> dg SHA256 (bytes 5)) /\
  (exists log, wrun DL true none iv comp fin SHA256 [WUpdate false (bytes 70) [rdy]; WFinal false [rdy]] (fresh iv SHA256) = log
     /\ map (fun x => snd (fst x)) log = [OK; OK]
     /\ forall o, map snd log = [[]; o] -> o <> dg SHA256 (bytes 70)).
Proof.
  split; eexists; (split; [vm_compute; reflexivity|]); (split; [reflexivity|]);
    intros o E; cbn [map snd] in E; injection E as <-; vm_compute; discriminate.
Qed.
Print Assumptions C60_software_path_refuted.

(** A small update between the final request and its response returns success and
    is in no digest: not in the one under way and not in the next. *)
Theorem C60_update_during_final_refuted :
  exists es log s,
    run3 true all SHA256 es = Some (log, s) /\ Forall (fun x => snd (fst x) = OK) log /\
    es = [HUpdReq false (bytes 5) OK; HFinReq false OK; HUpdReq false (bytes 3) OK; HFinResp (Served OK);
          HFinReq false OK; HFinResp (Served OK)] /\
    map snd log = [[]; []; []; dg SHA256 (bytes 5); []; dg SHA256 []].
Proof.
  eexists. eexists. eexists. split; [|split; [|split; [reflexivity|]]].
  - vm_compute. reflexivity.
  - repeat constructor.
  - vm_compute. reflexivity.
Qed.
Print Assumptions C60_update_during_final_refuted.

(** A SHA-256 update that failed cannot be repeated: the transport fails once, the
    call is made again, everything after succeeds, and the digest is wrong.  (SHA-3:
    [C60_blocking_calls_partial] and [C60_sha3_software_path].) *)
Theorem C60_repeat_refuted :
  exists o,
    let log := brun DL true all iv comp fin SHA256
      [BHash false (bytes 70) false [(OK, Failed ABORTED)]; BHash false (bytes 70) true [rdy; rdy]] (fresh iv SHA256) in
    map (fun x => snd (fst x)) log = [ABORTED; OK] /\ map snd log = [[]; o] /\ o <> dg SHA256 (bytes 70).
Proof.
  eexists. split; [vm_compute; reflexivity|]. split; [vm_compute; reflexivity|]. vm_compute. discriminate.
Qed.
Print Assumptions C60_repeat_refuted.

End HashToy.
