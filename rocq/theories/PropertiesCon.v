(** C95: a connection acts for the client that claimed it. *)
From Verif Require Import Base BaseLemmas NvmSpec Flags Store EndianModel EndianProof KdfModel KsReq NvcModel NvcSpec NvcProof.
From Verif Require Import ServerModel AuthCodec AucProof ConModel ConSpec.

Lemma num_wire sb cb v rest : u32 v -> fld 0 (take sb cb [4] (wire cb [(4, v)] ++ rest)) = v.
Proof. intros H. change [4] with (map fst [(4, v)]). rewrite take_wire by (constructor; auto using fit4). reflexivity. Qed.
Lemma num_bytes sb cb p rest : 4 <= length p -> Forall (fun b => b < 256)%N p -> fld 0 (take sb cb [4] (p ++ rest)) = number cb p.
Proof.
  intros H F. assert (L4 : length (firstn 4 p) = 4) by (rewrite firstn_length; lia).
  assert (OK4 : bytes_ok (firstn 4 p)) by (apply bytes_ok_firstn; exact F).
  assert (E : firstn 4 p = wire cb [(4, number cb p)]).
  { unfold number. cbn [wire flat_map fst snd]. rewrite app_nil_r. unfold enc, dec. destruct cb.
    - replace 4 with (length (rev (firstn 4 p))) at 2 by (rewrite rev_length; exact L4).
      rewrite le_enc_dec by (apply Forall_rev; exact OK4). rewrite rev_involutive. reflexivity.
    - rewrite <- L4 at 2. rewrite le_enc_dec by exact OK4. reflexivity. }
  replace (p ++ rest) with (wire cb [(4, number cb p)] ++ (skipn 4 p ++ rest)) by (rewrite <- E, app_assoc, firstn_skipn; reflexivity).
  apply num_wire. unfold u32, number, dec.
  destruct cb; [assert (Q : bytes_ok (rev (firstn 4 p))) by (apply Forall_rev; exact OK4)|assert (Q : bytes_ok (firstn 4 p)) by exact OK4];
    apply le_dec_bound in Q; rewrite ?rev_length, L4 in Q; exact Q.
Qed.
Lemma ok_z z : is_ok z = true <-> z = OK.
Proof. unfold is_ok. apply Z.eqb_eq. Qed.
Lemma claim_test global id : ((CLIENT_ID_MAX <? id)%N || (global && N.eqb id 0) = false) <-> claimable global id.
Proof.
  unfold claimable, CLIENT_ID_MAX. rewrite orb_false_iff, andb_false_iff, N.ltb_ge, N.eqb_neq. destruct global; intuition congruence.
Qed.
Lemma claim_dec global id : claimable global id \/ ~ claimable global id.
Proof. unfold claimable. destruct global; lia. Qed.
Lemma claim_refuse global id : ~ claimable global id -> (CLIENT_ID_MAX <? id)%N || (global && N.eqb id 0) = true.
Proof. rewrite <- claim_test. destruct ((CLIENT_ID_MAX <? id)%N || _); congruence. Qed.

(** ** The calls *)
(** Every call on an open connection whose packets arrive answers and acts as
    the specification says, whatever the two byte orders and whatever the packet
    buffer of the server held. *)
Theorem C95_call global CD SD sb sid B cb cid k L S :
  n_open S = true -> u32 cid -> u32 sid -> build_ok B -> 72 <= CD -> 4 <= SD ->
  (forall d, k = CnEcho d -> length d <= CD /\ length d <= SD) ->
  nl_send L = OK -> nl_recv L = OK ->
  outcome global sid B cid (nl_logout L || Z.eqb (nl_reset L) OK) k S
    (fst (con_call global CD SD sb sid B cb cid k L S)) (snd (con_call global CD SD sb sid B cb cid k L S)).
Proof.
  intros HO HC HS HB HCD HSD HE HL1 HL2. unfold con_call.
  assert (R : exists p, con_request CD cb cid k = inr p /\ length p <= SD /\ (k = CnInit -> p = wire cb [(4, cid)]) /\ forall d, k = CnEcho d -> p = d).
  { destruct k; cbn [con_request].
    - exists (wire cb [(4, cid)]). split; [auto|split; [rewrite wire_length; cbn; lia|split; [auto|discriminate]]].
    - exists []. split; [auto|split; [cbn; lia|split; discriminate]].
    - exists []. split; [auto|split; [cbn; lia|split; discriminate]].
    - destruct (HE d eq_refl) as [A A']. destruct (CD <? length d) eqn:X; [apply Nat.ltb_lt in X; lia|].
      exists d. split; [auto|split; [auto|split; [discriminate|]]]. intros d' Q. injection Q. auto. }
  destruct R as (p & R1 & R2 & R3 & R4). rewrite R1, HL1, HL2. change (is_ok OK) with true. cbn [negb].
  unfold con_serve. rewrite HO. cbn [negb].
  assert (X : (SD <? length p) = false) by (apply Nat.ltb_ge; lia). rewrite X. clear X.
  destruct S as [op cl us buf]. cbn [n_open n_client n_user n_buf] in *. subst op.
  destruct k; cbn [naction]; unfold con_handle; cbn [N.eqb Pos.eqb n_buf n_open n_client n_user].
  - rewrite (R3 eq_refl). rewrite num_wire by auto. destruct (claim_dec global cid) as [C|C].
    + rewrite (proj2 (claim_test global cid) C). unfold con_response.
      assert (LG : length (give sb cb [(4, cid); (4, sid)]) = 8) by (rewrite give_length; reflexivity).
      rewrite LG. change (Z_INITRESP <? 8) with false. change (negb (8 =? Z_INITRESP)) with false.
      assert (X : (CD <? 8) = false) by (apply Nat.ltb_ge; lia). rewrite X.
      rewrite <- (app_nil_r (give sb cb [(4, cid); (4, sid)])) at 1.
      rewrite <- (app_nil_r (give sb cb [(4, cid); (4, sid)])) at 2.
      change [4; 4] with (map fst [(4, cid); (4, sid)]).
      rewrite unwire_give by (repeat constructor; apply fit4; auto).
      cbn [map snd fld nth fst]. exact (oc_init global sid B cid _ (mkCn true cl us buf) _ C).
    + rewrite (claim_refuse global cid C). unfold con_response. cbn [length].
      assert (X : (CD <? 0) = false) by (apply Nat.ltb_ge; lia). rewrite X.
      change (Z_INITRESP <? 0) with false. change (negb (0 =? Z_INITRESP)) with true. cbn [fst snd].
      exact (oc_init_refused global sid B cid _ (mkCn true cl us buf) _ C).
  - unfold con_response. set (b1 := p ++ skipn (length p) buf).
    destruct HB as (V & V2 & B1 & B2 & B3 & B4 & B5 & B6 & B7 & B8).
    set (fs := [(4, b_comm B); (4, b_objects B); (4, b_keys B); (4, b_keylen B); (4, b_bigkeys B); (4, b_biglen B);
              (4, b_callbacks B); (4, b_dma B); (4, 1%N); (4, 2%N); (4, 3%N); (4, 4%N)]).
    assert (F : Forall fit fs). { unfold fs. repeat (constructor; [apply fit4; first [assumption|reflexivity]|]). constructor. }
    assert (LG : length (give sb cb fs) = 48) by (rewrite give_length; reflexivity).
    assert (LI : length (info_resp sb B cb b1) = 72) by (unfold info_resp; fold fs; rewrite !app_length, LG, !exactly_len; reflexivity).
    rewrite LI. assert (X : (CD <? 72) = false) by (apply Nat.ltb_ge; lia). rewrite X.
    change (Z_INFORESP <? 72) with false. change (negb (72 =? Z_INFORESP)) with false. cbv beta iota zeta.
    assert (EV : exactly 9 (b_version B) = b_version B).
    { unfold exactly. rewrite <- V at 1. apply first_exact. reflexivity. }
    assert (EB : exactly 9 (b_build B) = b_build B).
    { unfold exactly. rewrite <- V2 at 1. apply first_exact. reflexivity. }
    assert (RV : rd 48 9 (info_resp sb B cb b1) = b_version B).
    { unfold info_resp. fold fs. rewrite EV. apply rd_at; auto. }
    assert (RB : rd 57 9 (info_resp sb B cb b1) = b_build B).
    { unfold info_resp. fold fs. rewrite EV, EB. rewrite app_assoc. apply rd_at; auto. rewrite app_length, LG, V. reflexivity. }
    rewrite RV, RB. unfold info_resp at 1 2 3 4 5 6 7 8 9 10 11 12. fold fs.
    change [4; 4; 4; 4; 4; 4; 4; 4; 4; 4; 4; 4] with (map fst fs). rewrite unwire_give by exact F.
    unfold fs. cbn [map snd fld nth fst]. destruct B as [bv bb c1 c2 c3 c4 c5 c6 c7 c8].
    cbn [b_version b_build b_comm b_objects b_keys b_keylen b_bigkeys b_biglen b_callbacks b_dma].
    exact (oc_info global sid _ cid _ (mkCn true cl us buf) _).
  - unfold con_response, set_connected. cbn [length n_client n_user n_buf fst snd].
    assert (X : (CD <? 0) = false) by (apply Nat.ltb_ge; lia). rewrite X. cbn [Nat.eqb negb].
    exact (oc_close global sid B cid _ (mkCn true cl us buf) _).
  - rewrite (R4 d eq_refl). destruct (HE d eq_refl) as [A A']. rewrite first_exact by reflexivity. unfold con_response.
    assert (X : (CD <? length d) = false) by (apply Nat.ltb_ge; lia). rewrite X. cbn [fst snd].
    exact (oc_echo global sid B cid _ (mkCn true cl us buf) d _).
Qed.
Print Assumptions C95_call.

(** Calls that change nothing: too much data for an echo is refused before
    sending; on a closed connection nothing is answered. *)
Theorem C95_no_effect global CD SD sb sid B cb cid k L S :
  (exists d, k = CnEcho d /\ CD < length d /\ con_call global CD SD sb sid B cb cid k L S = (nfail BADARGS, S)) \/
  (forall d, k = CnEcho d -> length d <= CD) /\
  ((nl_send L <> OK -> con_call global CD SD sb sid B cb cid k L S = (nfail (nl_send L), S)) /\
   (nl_send L = OK -> n_open S = false -> con_call global CD SD sb sid B cb cid k L S = (nfail (nl_lost L), S))).
Proof.
  assert (G : (forall d, k = CnEcho d -> length d <= CD) ->
    (nl_send L <> OK -> con_call global CD SD sb sid B cb cid k L S = (nfail (nl_send L), S)) /\
    (nl_send L = OK -> n_open S = false -> con_call global CD SD sb sid B cb cid k L S = (nfail (nl_lost L), S))).
  { intros HE. assert (R : exists p, con_request CD cb cid k = inr p).
    { destruct k; cbn [con_request]; eauto. specialize (HE d eq_refl). destruct (CD <? length d) eqn:X; eauto. apply Nat.ltb_lt in X. lia. }
    destruct R as [p R]. unfold con_call. rewrite R. split.
    - intros HS. assert (X : is_ok (nl_send L) = false). { destruct (is_ok (nl_send L)) eqn:X; auto. apply ok_z in X. contradiction. }
      rewrite X. reflexivity.
    - intros HS HO. rewrite HS. change (is_ok OK) with true. unfold con_serve. rewrite HO. reflexivity. }
  destruct k; try (right; split; [discriminate|apply G; discriminate]).
  destruct (le_gt_dec (length d) CD) as [X|X].
  - right. assert (E : forall d', CnEcho d = CnEcho d' -> length d' <= CD) by (intros d' Q; injection Q as <-; exact X). split; auto.
  - left. exists d. split; [auto|split; [lia|]]. unfold con_call. cbn [con_request].
    destruct (CD <? length d) eqn:Y; [reflexivity|apply Nat.ltb_ge in Y; lia].
Qed.
Print Assumptions C95_no_effect.

(** ** Whose requests they are *)
Lemma follows_fun global SD v s a b : follows global SD v s a -> follows global SD v s b -> a = b.
Proof.
  assert (D : forall w id, claims SD w = Some id -> closes SD w = true -> False).
  { intros w id. destruct w as [|lo rs|cb cid [| | |d] L|cb x p lo rs|u|buf]; cbn [claims closes]; try discriminate.
    destruct (N.eqb_spec x 1) as [->|]; cbn [andb]; discriminate. }
  intros H1 H2. destruct H1; inversion H2; subst; auto; try congruence; try (exfalso; eauto; fail);
    try match goal with A : claims SD NvOpen = Some _ |- _ => discriminate A end;
    try match goal with A : closes SD NvOpen = true |- _ => discriminate A end;
    try match goal with A : claims SD ?v = Some ?x, B : claims SD ?v = Some ?y |- _ => rewrite A in B; injection B as <- end; auto; try contradiction.
Qed.
Lemma follow_fun global SD vs : forall s a b, follow global SD vs s a -> follow global SD vs s b -> a = b.
Proof.
  induction vs as [|v vs IH]; intros s a b H1 H2; inversion H1; inversion H2; subst; auto.
  assert (E : s' = s'0) by (eapply follows_fun; eauto). subst. eapply IH; eauto.
Qed.
Definition view (S : conn) : seen := mkSn (n_open S) (n_client S).
Lemma view_eta S : mkSn (se_open (view S)) (se_id (view S)) = view S. Proof. reflexivity. Qed.

(** A packet of the comm group on an open connection. *)
Lemma serve_view global SD sb sid B cb lo rs a p S : n_open S = true -> length p <= SD ->
  view (snd (con_serve global SD sb sid B cb lo rs a p S)) =
  if N.eqb a 1 then (let id := fld 0 (take sb cb [4] (p ++ skipn (length p) (n_buf S))) in
                     if (CLIENT_ID_MAX <? id)%N || (global && N.eqb id 0) then view S else mkSn true id)
  else if N.eqb a 3 then mkSn false (n_client S) else view S.
Proof.
  intros HO HL. unfold con_serve. rewrite HO. cbn [negb].
  assert (X : (SD <? length p) = false) by (apply Nat.ltb_ge; lia). rewrite X. clear X.
  unfold con_handle. cbn [n_buf n_open n_client n_user].
  destruct (N.eqb_spec a 1) as [->|N1].
  - cbv zeta. destruct ((CLIENT_ID_MAX <? _)%N || _); cbn [snd]; unfold view; cbn [n_open n_client]; rewrite ?HO; reflexivity.
  - destruct (N.eqb_spec a 4) as [->|N4]; [cbn; unfold view; rewrite HO; reflexivity|].
    destruct (N.eqb_spec a 3) as [->|N3]; [reflexivity|].
    destruct (N.eqb a 5); unfold view; cbn [snd n_open n_client]; rewrite HO; reflexivity.
Qed.
Lemma serve_shut global SD sb sid B cb lo rs a p S : n_open S = false \/ SD < length p ->
  snd (con_serve global SD sb sid B cb lo rs a p S) = S.
Proof.
  intros H. unfold con_serve. destruct (n_open S); cbn [negb]; [|reflexivity].
  destruct H as [H|H]; [discriminate|]. assert (X : (SD <? length p) = true) by (apply Nat.ltb_lt; lia). rewrite X. reflexivity.
Qed.
Lemma call_state global CD SD sb sid B cb cid k L S :
  snd (con_call global CD SD sb sid B cb cid k L S) =
  match con_request CD cb cid k with
  | inl _ => S
  | inr p => if is_ok (nl_send L) then snd (con_serve global SD sb sid B cb (nl_logout L) (nl_reset L) (naction k) p S) else S
  end.
Proof.
  unfold con_call. destruct (con_request CD cb cid k) as [rc|p]; auto. destruct (is_ok (nl_send L)); cbn [negb]; auto.
  destruct (con_serve _ _ _ _ _ _ _ _ _ _ _) as [[r|] S1]; auto. destruct (is_ok (nl_recv L)); auto.
Qed.

Lemma step_follows global CD SD sb sid B v S : event_whole v ->
  follows global SD v (view S) (view (nstep global CD SD sb sid B v S)).
Proof.
  intros W. destruct v as [|lo rs|cb cid k L|cb a p lo rs|u|buf]; cbn [nstep event_whole] in *.
  - exact (fo_open global SD (view S)).
  - destruct (n_open S) eqn:HO.
    + exact (fo_close global SD (NvDrop lo rs) (view S) HO eq_refl).
    + replace (view (set_connected false lo rs S)) with (view S) by (unfold view; rewrite HO; reflexivity).
      apply fo_closed; [exact HO|discriminate].
  - rewrite call_state. destruct (n_open S) eqn:HO.
    2:{ replace (match con_request CD cb cid k with inl _ => S | inr _ => _ end) with S.
        - apply fo_closed; [exact HO|discriminate].
        - destruct (con_request CD cb cid k); auto. destruct (is_ok (nl_send L)); auto. rewrite serve_shut; auto. }
    destruct k; cbn [con_request naction].
    + destruct (is_ok (nl_send L)) eqn:HS.
      2:{ apply fo_other; [discriminate|reflexivity|]. cbn [claims]. unfold is_ok in HS. rewrite HS. reflexivity. }
      destruct (4 <=? SD) eqn:H4.
      2:{ rewrite serve_shut. 2:{ right. rewrite wire_length. cbn. apply Nat.leb_gt in H4. lia. }
          apply fo_other; [discriminate|reflexivity|]. cbn [claims]. rewrite H4, andb_false_r. reflexivity. }
      apply Nat.leb_le in H4 as H4'.
      rewrite serve_view by (auto; rewrite wire_length; cbn; lia). cbn [N.eqb Pos.eqb]. cbv zeta.
      rewrite num_wire by (unfold u32; lia).
      assert (CL : claims SD (NvCall cb cid CnInit L) = Some cid) by (cbn [claims]; unfold is_ok in HS; rewrite HS, H4; reflexivity).
      destruct (claim_dec global cid) as [C|C].
      * rewrite (proj2 (claim_test global cid) C). eapply fo_claim; eauto.
      * rewrite (claim_refuse global cid C). eapply fo_refused; eauto.
    + replace (view (if is_ok (nl_send L) then _ else S)) with (view S).
      * apply fo_other; [discriminate|reflexivity|reflexivity].
      * destruct (is_ok (nl_send L)); auto. rewrite serve_view by (auto; cbn; lia). reflexivity.
    + destruct (is_ok (nl_send L)) eqn:HS.
      * rewrite serve_view by (auto; cbn; lia). cbn [N.eqb Pos.eqb].
        exact (fo_close global SD (NvCall cb cid CnClose L) (view S) HO HS).
      * apply fo_other; [discriminate|exact HS|reflexivity].
    + replace (view (match (if CD <? length d then _ else _) with inl _ => S | inr _ => _ end)) with (view S).
      * apply fo_other; [discriminate|reflexivity|reflexivity].
      * destruct (CD <? length d); auto. destruct (is_ok (nl_send L)); auto.
        destruct (le_gt_dec (length d) SD) as [Y|Y]; [rewrite serve_view by auto|rewrite serve_shut by auto]; reflexivity.
  - destruct W as [W1 W2]. destruct (n_open S) eqn:HO.
    2:{ rewrite serve_shut by auto. apply fo_closed; [exact HO|discriminate]. }
    destruct (length p <=? SD) eqn:HL.
    2:{ rewrite serve_shut by (right; apply Nat.leb_gt; exact HL).
        apply fo_other; [discriminate| |]; cbn [closes claims]; rewrite HL, andb_false_r; reflexivity. }
    apply Nat.leb_le in HL as HL'. rewrite serve_view by auto.
    destruct (N.eqb_spec a 1) as [->|N1].
    + cbv zeta. rewrite num_bytes by auto.
      assert (CL : claims SD (NvPacket cb 1 p lo rs) = Some (number cb p)) by (cbn [claims N.eqb Pos.eqb andb]; rewrite HL; reflexivity).
      destruct (claim_dec global (number cb p)) as [C|C].
      * rewrite (proj2 (claim_test global _) C). eapply fo_claim; eauto.
      * rewrite (claim_refuse global _ C). eapply fo_refused; eauto.
    + destruct (N.eqb_spec a 3) as [->|N3].
      * exact (fo_close global SD (NvPacket cb 3 p lo rs) (view S) HO HL).
      * apply fo_other; [discriminate| |]; cbn [closes claims].
        -- destruct (N.eqb_spec a 3); [contradiction|reflexivity].
        -- destruct (N.eqb_spec a 1); [contradiction|reflexivity].
  - replace (view (if n_open S then _ else S)) with (view S); [apply fo_other; [discriminate|reflexivity|reflexivity]|].
    destruct (n_open S) eqn:HO; auto. unfold view. rewrite HO. reflexivity.
  - replace (view (if n_open S then _ else S)) with (view S); [apply fo_other; [discriminate|reflexivity|reflexivity]|].
    destruct (n_open S) eqn:HO; auto. unfold view. rewrite HO. reflexivity.
Qed.

(** Over every history of a server context, the number its requests are taken
    under is the last one claimed in a packet that carried a whole number, and
    nothing else - no other call, packet, log-in, log-out or byte order -
    changes it. *)
Theorem C95_history global CD SD sb sid B vs S s : Forall event_whole vs ->
  follow global SD vs (mkSn (n_open S) (n_client S)) s <->
  s = mkSn (n_open (nrun global CD SD sb sid B vs S)) (n_client (nrun global CD SD sb sid B vs S)).
Proof.
  intros W. assert (G : follow global SD vs (view S) (view (nrun global CD SD sb sid B vs S))).
  { revert S. induction W as [|v vs Hv W IH]; intros S; [constructor|].
    econstructor; [apply step_follows; exact Hv|]. apply IH. }
  split.
  - intros H. eapply follow_fun; [exact H|exact G].
  - intros ->. exact G.
Qed.
Print Assumptions C95_history.

(** ** What is not so *)
(** The number of an open connection is not fixed: whoever holds it can take any
    number, 1 to 15, at any time, without logging in and without giving up the
    user logged in under the former number. *)
Theorem C95_any_identity_refuted global CD SD sb sid B cb S id : 72 <= CD -> 4 <= SD -> u32 sid -> build_ok B ->
  n_open S = true -> (1 <= id <= 15)%N ->
  exists o S', con_call global CD SD sb sid B cb id CnInit (mkNl OK OK OK false OK) S = (o, S') /\
    no_rc o = OK /\ n_client S' = id /\ n_user S' = n_user S /\ n_open S' = true.
Proof.
  intros HC HS HI HB HO H.
  pose proof (C95_call global CD SD sb sid B cb id CnInit (mkNl OK OK OK false OK) S HO ltac:(unfold u32; lia) HI HB HC HS ltac:(discriminate) eq_refl eq_refl) as X.
  destruct (con_call global CD SD sb sid B cb id CnInit (mkNl OK OK OK false OK) S) as [o S']. exists o, S'. split; auto.
  cbn [fst snd] in X. inversion X; subst.
  - repeat split.
  - exfalso. apply H0. split; [lia|]. intros _. lia.
Qed.
Print Assumptions C95_any_identity_refuted.

(** A new connection does not start without a number: it has that of the client
    before it. *)
Theorem C95_inherited_refuted global CD SD sb sid B cb id lo rs : 4 <= SD -> (1 <= id <= 15)%N ->
  let S := nrun global CD SD sb sid B [NvOpen; NvCall cb id CnInit (mkNl OK OK OK false OK); NvDrop lo rs; NvOpen] (conn0 SD) in
  n_open S = true /\ n_client S = id.
Proof.
  intros HS H S.
  set (vs := [NvOpen; NvCall cb id CnInit (mkNl OK OK OK false OK); NvDrop lo rs; NvOpen]) in S.
  assert (W : Forall event_whole vs). { repeat constructor. cbn. lia. }
  assert (F : follow global SD vs (mkSn false 0) (mkSn true id)).
  { assert (C : claimable global id) by (split; [lia|intros _; lia]).
    econstructor; [apply fo_open|]. econstructor.
    { apply fo_claim with (id := id); [reflexivity| |exact C]. cbn [claims nl_send]. change (OK =? OK)%Z with true.
      apply Nat.leb_le in HS. rewrite HS. reflexivity. }
    econstructor; [apply fo_close; reflexivity|]. econstructor; [apply fo_open|]. apply fw_nil. }
  apply (C95_history global CD SD sb sid B vs (conn0 SD)) in F; [|exact W]. fold S in F.
  split; [exact (eq_sym (f_equal se_open F))|exact (eq_sym (f_equal se_id F))].
Qed.
Print Assumptions C95_inherited_refuted.

(** A claim without a number in it is not refused: an empty packet claims the
    number that lies in the packet buffer since an earlier request. *)
Theorem C95_short_refuted global CD SD sb sid B cb id lo rs : 4 <= SD -> (1 <= id <= 15)%N ->
  let S := nrun global CD SD sb sid B [NvOpen; NvPacket cb 5 (wire cb [(4, id)]) lo rs; NvPacket cb 1 [] lo rs] (conn0 SD) in
  n_open S = true /\ n_client S = id.
Proof.
  intros HS H S.
  set (S1 := nrun global CD SD sb sid B [NvOpen; NvPacket cb 5 (wire cb [(4, id)]) lo rs] (conn0 SD)).
  assert (LW : length (wire cb [(4, id)]) = 4) by (rewrite wire_length; reflexivity).
  assert (E : S1 = mkCn true 0 0 (wire cb [(4, id)] ++ skipn 4 (repeat 0%N SD))).
  { unfold S1, nrun. cbn [fold_left nstep]. unfold set_connected, conn0, con_serve. cbn [n_open n_client n_user n_buf negb].
    rewrite LW. assert (X : (SD <? 4) = false) by (apply Nat.ltb_ge; lia). rewrite X. reflexivity. }
  change S with (nstep global CD SD sb sid B (NvPacket cb 1 [] lo rs) S1). cbn [nstep].
  assert (V : view (snd (con_serve global SD sb sid B cb lo rs 1 [] S1)) = mkSn true id).
  { rewrite serve_view by (rewrite ?E; cbn; auto; lia). rewrite E. cbn [N.eqb Pos.eqb length skipn app n_buf]. cbv zeta.
    rewrite num_wire by (unfold u32; lia).
    rewrite (proj2 (claim_test global id)); [reflexivity|]. split; [lia|intros _; lia]. }
  split; [exact (f_equal se_open V)|exact (f_equal se_id V)].
Qed.
Print Assumptions C95_short_refuted.

(** The answer to CommInfo is the same whatever the packet buffer held, up to
    its last six bytes; those are what an earlier packet left in the buffer. *)
Theorem C95_info_padding_refuted global SD sb sid B cb lo rs S : n_open S = true -> build_ok B -> 72 <= length (n_buf S) ->
  exists head, length head = 66 /\
    forall buf us cl, length buf = length (n_buf S) ->
      fst (con_serve global SD sb sid B cb lo rs 4 [] (mkCn true cl us buf)) = Some (head ++ firstn 6 (skipn 66 buf)).
Proof.
  intros HO (V & V2 & _) HL.
  exists (firstn 66 (info_resp sb B cb [])).
  assert (LI : forall b, length (info_resp sb B cb b) = 72).
  { intros b. unfold info_resp. rewrite !app_length, give_length, !exactly_len. reflexivity. }
  split; [rewrite firstn_length, LI; reflexivity|]. intros buf us cl Q. unfold con_serve. cbn [n_open negb n_buf].
  destruct (SD <? 0) eqn:X; [apply Nat.ltb_lt in X; lia|]. change (SD <? length (@nil N)) with (SD <? 0). rewrite X.
  unfold con_handle. cbn [N.eqb Pos.eqb fst n_buf length skipn app]. f_equal.
  unfold info_resp. rewrite !app_assoc.
  match goal with |- context [firstn 66 (?h ++ _)] => assert (LH : length h = 66) by (rewrite !app_length, give_length, !exactly_len; reflexivity) end.
  rewrite (first_exact 66 _ _ LH). f_equal.
  unfold exactly. rewrite firstn_app. assert (LS : length (skipn 66 buf) >= 6) by (rewrite skipn_length; lia).
  replace (6 - length (skipn 66 buf)) with 0 by lia. cbn [firstn]. apply app_nil_r.
Qed.
Print Assumptions C95_info_padding_refuted.

(** ** The hypotheses are met *)
Definition ex_build : build := mkBd (repeat 48%N 9) (repeat 49%N 9) 1288 32 8 512 1 1200 8 10.
Definition ex_link : nlink := mkNl OK OK TIMEOUT true OK.
Definition ex_con (vs : list nevent) : conn := nrun true 1288 1288 true 124 ex_build vs (conn0 1288).
Example ex_build_ok : build_ok ex_build.
Proof. unfold build_ok, u32, ex_build. cbn [b_version b_build b_comm b_objects b_keys b_keylen b_bigkeys b_biglen b_callbacks b_dma].
  repeat split; try reflexivity. Qed.
(** A little-endian client opens a big-endian server as client 7, asks, closes. *)
Example ex_calls :
  let S := ex_con [NvOpen] in
  let '(o1, S1) := con_call true 1288 1288 true 124 ex_build false 7 CnInit ex_link S in
  let '(o2, S2) := con_call true 1288 1288 true 124 ex_build false 7 CnInfo ex_link S1 in
  let '(o3, S3) := con_call true 1288 1288 true 124 ex_build false 7 (CnEcho [1; 2; 3]%N) ex_link S2 in
  let '(o4, S4) := con_call true 1288 1288 true 124 ex_build false 7 CnClose ex_link S3 in
  let '(o5, S5) := con_call true 1288 1288 true 124 ex_build false 7 CnInfo ex_link S4 in
  no_ids o1 = Some (7, 124)%N /\ n_client S1 = 7%N /\ no_info o2 = Some (mkIf ex_build 1 2 3 4) /\ no_echo o3 = Some [1; 2; 3]%N /\
  no_rc o4 = OK /\ n_open S4 = false /\ no_rc o5 = TIMEOUT.
Proof. vm_compute. repeat split; reflexivity. Qed.
(** A number out of range is refused and the former one stays. *)
Example ex_refused : let '(o, S') := con_call true 1288 1288 true 124 ex_build false 16 CnInit ex_link (ex_con [NvOpen; NvCall true 3 CnInit ex_link]) in
  no_rc o = ABORTED /\ n_client S' = 3%N.
Proof. vm_compute. split; reflexivity. Qed.
(** The user logged in under number 1 is still logged in under number 2. *)
Example ex_switch : let S := ex_con [NvOpen; NvCall true 1 CnInit ex_link; NvLogin 9; NvCall false 2 CnInit ex_link] in
  n_client S = 2%N /\ n_user S = 9%N.
Proof. vm_compute. split; reflexivity. Qed.
Example ex_events : Forall event_whole [NvOpen; NvPacket true 1 [0; 0; 0; 5]%N true OK; NvOther (repeat 7%N 1288); NvDrop true OK].
Proof. repeat constructor; cbn; lia. Qed.
