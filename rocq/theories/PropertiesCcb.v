(** C96: a custom callback gets what the client sent, and its answer comes back. *)
From Verif Require Import Base BaseLemmas NvmSpec Flags Store EndianModel EndianProof KdfModel KsReq NvcModel NvcSpec NvcProof.
From Verif Require Import ServerModel AuthCodec AucProof CcbModel CcbSpec.

(** ** Words *)
Lemma field_bytes w sb cb l : wide w -> length l = w -> bytes_ok l -> translate w (magic sb cb) (dec sb l) = dec cb l.
Proof.
  intros HW HL HB.
  assert (HD : (dec cb l < 256 ^ N.of_nat w)%N).
  { unfold dec. destruct cb; [assert (Q : bytes_ok (rev l)) by (apply Forall_rev; exact HB)|assert (Q : bytes_ok l) by exact HB];
      apply le_dec_bound in Q; rewrite ?rev_length, HL in Q; exact Q. }
  assert (E : l = enc cb w (dec cb l)).
  { unfold enc, dec. destruct cb.
    - replace w with (length (rev l)) by (rewrite rev_length; exact HL). rewrite le_enc_dec by (apply Forall_rev; exact HB).
      rewrite rev_involutive. reflexivity.
    - rewrite <- HL. rewrite le_enc_dec by exact HB. reflexivity. }
  rewrite E at 1. unfold magic. apply field_agree; auto.
Qed.
Lemma dec_fits be w l : length l = w -> bytes_ok l -> (dec be l < 256 ^ N.of_nat w)%N.
Proof.
  intros HL HB. unfold dec. destruct be; [assert (Q : bytes_ok (rev l)) by (apply Forall_rev; exact HB)|assert (Q : bytes_ok l) by exact HB];
    apply le_dec_bound in Q; rewrite ?rev_length, HL in Q; exact Q.
Qed.
(** The four slices of [w] bytes. *)
Definition slice (w i : nat) (d : list N) : list N := firstn w (skipn (w * i) d).
Lemma skip_skip {A} (l : list A) a b : skipn a (skipn b l) = skipn (a + b) l.
Proof. revert l. induction b as [|b IH]; intros l; [rewrite Nat.add_0_r; reflexivity|]. rewrite Nat.add_succ_r. destruct l; cbn [skipn]; auto. destruct a; reflexivity. Qed.
Lemma unwire4 be w d : unwire be [w; w; w; w] d = map (fun i => dec be (slice w i d)) [0; 1; 2; 3].
Proof.
  unfold slice. cbn [unwire map]. rewrite !skip_skip. rewrite Nat.mul_0_r, Nat.mul_1_r. cbn [skipn].
  replace (w * 2) with (w + w) by lia. replace (w * 3) with (w + (w + w)) by lia. reflexivity.
Qed.
Lemma slice_ok w i d : 4 * w <= length d -> i < 4 -> bytes_ok d -> length (slice w i d) = w /\ bytes_ok (slice w i d).
Proof.
  intros HL HI HB. unfold slice. split.
  - rewrite firstn_length, skipn_length. nia.
  - apply bytes_ok_firstn. apply Forall_forall. intros x Hx. eapply Forall_forall in HB; [exact HB|].
    rewrite <- (firstn_skipn (w * i) d). apply in_or_app. auto.
Qed.
Lemma words_length sb cb w d : length (words sb cb w d) = 4 * w.
Proof. unfold words. rewrite wire_length. cbn [unwire map fst sum fold_right]. lia. Qed.
Lemma words_eq sb cb w d : words sb cb w d = wire sb (map (fun i => (w, translate w (magic sb cb) (dec sb (slice w i d)))) [0; 1; 2; 3]).
Proof. unfold words. rewrite unwire4, map_map. reflexivity. Qed.
(** Read by the server. *)
Lemma words_in sb cb w d rest : wide w -> 4 * w <= length d -> bytes_ok d ->
  map (fun i => dec sb (slice w i (words sb cb w d ++ rest))) [0; 1; 2; 3] = map (fun i => dec cb (slice w i d)) [0; 1; 2; 3].
Proof.
  intros HW HL HB. rewrite words_eq. rewrite <- (unwire4 sb w (_ ++ rest)).
  change [w; w; w; w] with (map fst (map (fun i => (w, translate w (magic sb cb) (dec sb (slice w i d)))) [0; 1; 2; 3])).
  assert (E : map (fun i => (w, translate w (magic sb cb) (dec sb (slice w i d)))) [0; 1; 2; 3] = map (fun i => (w, dec cb (slice w i d))) [0; 1; 2; 3]).
  { apply map_ext_in. intros i Hi. destruct (slice_ok w i d HL) as [A A']; [cbn in Hi; intuition lia|exact HB|].
    rewrite field_bytes; auto. }
  rewrite E. rewrite unwire_wire; [rewrite map_map; reflexivity|].
  apply Forall_forall. intros x Hx. apply in_map_iff in Hx. destruct Hx as (i & <- & Hi). cbn [fst snd].
  destruct (slice_ok w i d HL) as [A A']; [cbn in Hi; intuition lia|exact HB|]. apply dec_fits; auto.
Qed.
(** Read by the client. *)
Lemma words_out sb cb w d rest : wide w -> 4 * w <= length d -> bytes_ok d ->
  map (fun i => dec cb (slice w i (words sb cb w d ++ rest))) [0; 1; 2; 3] = map (fun i => dec sb (slice w i d)) [0; 1; 2; 3].
Proof.
  intros HW HL HB. rewrite words_eq. rewrite <- (unwire4 cb w (_ ++ rest)).
  replace (wire sb (map (fun i => (w, translate w (magic sb cb) (dec sb (slice w i d)))) [0; 1; 2; 3]))
    with (give sb cb (map (fun i => (w, dec sb (slice w i d))) [0; 1; 2; 3])) by (unfold give; rewrite !map_map; reflexivity).
  change [w; w; w; w] with (map fst (map (fun i => (w, dec sb (slice w i d))) [0; 1; 2; 3])).
  rewrite unwire_give; [rewrite map_map; reflexivity|].
  apply Forall_forall. intros x Hx. apply in_map_iff in Hx. destruct Hx as (i & <- & Hi).
  destruct (slice_ok w i d HL) as [A A']; [cbn in Hi; intuition lia|exact HB|]. split; cbn [fst snd]; [exact HW|]. apply dec_fits; auto.
Qed.

Lemma tdata_length CL sb cb ty d dst : 32 <= CL -> length d = CL -> length dst = CL -> length (tdata CL sb cb ty d dst) = CL.
Proof.
  intros H HD HS. unfold tdata, put.
  destruct (ty <? 8)%N; [destruct (N.eqb ty 1); [|destruct (N.eqb ty 2)]|]; auto;
    rewrite ?app_length, ?skipn_length, ?words_length, ?firstn_length; lia.
Qed.
Lemma tdata_in CL sb cb ty d dst : 32 <= CL -> data_ok CL d -> length dst = CL -> same_data cb sb ty d (tdata CL sb cb ty d dst).
Proof.
  intros H [HD HB] HS. unfold same_data, read_as, tdata, put.
  destruct (N.eqb_spec ty 1) as [->|N1].
  { change (1 <? 8)%N with true. cbv iota. f_equal. symmetry.
    apply (words_in sb cb 4 d (skipn (length (words sb cb 4 d)) dst)); [unfold wide; auto|lia|exact HB]. }
  destruct (N.eqb_spec ty 2) as [->|N2].
  { change (2 <? 8)%N with true. cbv iota. f_equal. symmetry.
    apply (words_in sb cb 8 d (skipn (length (words sb cb 8 d)) dst)); [unfold wide; auto|lia|exact HB]. }
  destruct (N.ltb_spec ty 8) as [X|X].
  - assert (Y : (8 <=? ty)%N = false) by (apply N.leb_gt; exact X). rewrite Y. reflexivity.
  - assert (Y : (8 <=? ty)%N = true) by (apply N.leb_le; exact X). rewrite Y. f_equal.
    rewrite firstn_all2 by lia. rewrite skipn_all2 by lia. symmetry. apply app_nil_r.
Qed.
Lemma tdata_out CL sb cb ty d dst : 32 <= CL -> data_ok CL d -> length dst = CL -> same_data sb cb ty d (tdata CL sb cb ty d dst).
Proof.
  intros H [HD HB] HS. unfold same_data, read_as, tdata, put.
  destruct (N.eqb_spec ty 1) as [->|N1].
  { change (1 <? 8)%N with true. cbv iota. f_equal. symmetry.
    apply (words_out sb cb 4 d (skipn (length (words sb cb 4 d)) dst)); [unfold wide; auto|lia|exact HB]. }
  destruct (N.eqb_spec ty 2) as [->|N2].
  { change (2 <? 8)%N with true. cbv iota. f_equal. symmetry.
    apply (words_out sb cb 8 d (skipn (length (words sb cb 8 d)) dst)); [unfold wide; auto|lia|exact HB]. }
  destruct (N.ltb_spec ty 8) as [X|X].
  - assert (Y : (8 <=? ty)%N = false) by (apply N.leb_gt; exact X). rewrite Y. reflexivity.
  - assert (Y : (8 <=? ty)%N = true) by (apply N.leb_le; exact X). rewrite Y. f_equal.
    rewrite firstn_all2 by lia. rewrite skipn_all2 by lia. symmetry. apply app_nil_r.
Qed.

(** ** Packets *)
Lemma stored_type sb cb ty : u32 ty ->
  dec sb (enc sb 4 (translate 4 (magic sb cb) ty)) = if Bool.eqb cb sb then ty else bswap 4 ty.
Proof.
  intros H. assert (T : translate 4 (magic sb cb) ty = if Bool.eqb cb sb then ty else bswap 4 ty).
  { rewrite translate_eq; [|unfold wide; auto|exact H]. unfold magic. rewrite magic_seen. reflexivity. }
  rewrite T. rewrite dec_enc; [rewrite Bool.eqb_reflx; reflexivity|].
  destruct (Bool.eqb cb sb); [exact H|apply bswap_lt].
Qed.
Lemma packet_length CL cb q : length (cpacket CL cb q) = 8 + CL.
Proof. unfold cpacket. rewrite app_length, wire_length, exactly_len. reflexivity. Qed.
Lemma get_req_packet CL sb cb q rest : u32 (q_id q) -> u32 (q_type q) -> length (q_data q) = CL ->
  get_req CL sb cb (cpacket CL cb q ++ rest) = mkCq (q_id q) (q_type q) (tdata CL sb cb (q_type q) (q_data q) (repeat 0%N CL)).
Proof.
  intros HI HT HL. unfold get_req, cpacket. rewrite <- app_assoc.
  change [4; 4] with (map fst [(4, q_id q); (4, q_type q)]).
  rewrite take_wire by (repeat constructor; apply fit4; auto). cbn [map snd fld nth].
  assert (E : exactly CL (q_data q) = q_data q) by (unfold exactly; apply first_exact; exact HL).
  rewrite E. rewrite rd_at; [reflexivity|rewrite wire_length; reflexivity|exact HL].
Qed.
(** What the packet held where the data of the answer go: the rest of the data of
    the request, and eight bytes the packet did not bring. *)
Lemma left_over CL cb q buf : 16 + CL <= length buf -> 8 <= CL -> length (q_data q) = CL ->
  rd 16 CL (cpacket CL cb q ++ skipn (8 + CL) buf) = skipn 8 (q_data q) ++ firstn 8 (skipn (8 + CL) buf).
Proof.
  intros HB HC HL. unfold cpacket. assert (E : exactly CL (q_data q) = q_data q) by (unfold exactly; apply first_exact; exact HL).
  rewrite E. rewrite <- (firstn_skipn 8 (q_data q)) at 1. rewrite <- !app_assoc, app_assoc.
  set (h := wire cb [(4, q_id q); (4, q_type q)] ++ firstn 8 (q_data q)).
  assert (LH : length h = 16) by (unfold h; rewrite app_length, wire_length, firstn_length, Nat.min_l by lia; reflexivity).
  unfold rd. rewrite skip_exact by exact LH. rewrite firstn_app.
  assert (LS : length (skipn 8 (q_data q)) = CL - 8) by (rewrite skipn_length; lia).
  rewrite LS. rewrite firstn_all2 by lia. replace (CL - (CL - 8)) with 8 by lia. reflexivity.
Qed.
Lemma response_put CL sb cb r buf : 32 <= CL -> u32 (r_id r) -> u32 (r_type r) -> i32 (r_rc r) -> i32 (r_err r) -> length (r_data r) = CL -> 16 + CL <= length buf ->
  cresponse CL cb (put_resp CL sb cb r buf) =
  (OK, Some (mkCr (r_id r) (r_type r) (r_rc r) (r_err r)
               (tdata CL sb cb (if Bool.eqb cb sb then r_type r else bswap 4 (r_type r)) (r_data r) (rd 16 CL buf)))).
Proof.
  intros HC HI HT H1 H2 HL HB. unfold cresponse, put_resp. rewrite stored_type by auto.
  set (st := if Bool.eqb cb sb then r_type r else bswap 4 (r_type r)).
  set (fs := [(4, r_id r); (4, r_type r); (4, rc_n (r_rc r)); (4, rc_n (r_err r))]).
  assert (LG : length (give sb cb fs) = 16) by (rewrite give_length; reflexivity).
  assert (LR : length (rd 16 CL buf) = CL) by (unfold rd; rewrite firstn_length, skipn_length; lia).
  assert (LT : length (tdata CL sb cb st (r_data r) (rd 16 CL buf)) = CL) by (apply tdata_length; auto).
  rewrite app_length, LG, LT. rewrite Nat.ltb_irrefl, Nat.eqb_refl. cbn [negb].
  assert (F : Forall fit fs). { unfold fs. repeat (constructor; [apply fit4; first [assumption|apply rc_fits]|]). constructor. }
  change [4; 4; 4; 4] with (map fst fs). rewrite unwire_give by exact F. unfold fs. cbn [map snd fld nth].
  rewrite !rc_round by auto. repeat f_equal. fold fs. unfold rd at 1. rewrite skip_exact by exact LG.
  rewrite firstn_all2 by lia. reflexivity.
Qed.

(** One request that reaches a registered callback. *)
Lemma call_runs CL COUNT St sb cb tbl q L (s : St) f :
  32 <= CL -> tame CL tbl -> u32 (q_id q) -> (caction (q_id q) < COUNT)%N -> tbl (caction (q_id q)) = Some f ->
  q_type q <> 0%N -> u32 (q_type q) -> data_ok CL (q_data q) ->
  16 + CL <= length (cl_buf L) -> cl_send L = OK -> cl_recv L = OK ->
  let '((rc, ty, d), s') := f (mkCq (q_id q) (q_type q) (tdata CL sb cb (q_type q) (q_data q) (repeat 0%N CL))) s in
  custom_call CL COUNT St sb cb tbl q L s =
    ((OK, Some (mkCr (q_id q) ty rc OK
       (tdata CL sb cb (if Bool.eqb cb sb then ty else bswap 4 ty) d (skipn 8 (q_data q) ++ firstn 8 (skipn (8 + CL) (cl_buf L)))))), s').
Proof.
  intros HC HT HI HA HF HN HY [HD HB] HL H1 H2.
  destruct (f _ s) as [[[rc ty] d] s'] eqn:EF. destruct (HT _ _ _ _ _ _ _ _ HF EF) as (I & U & DL & _).
  unfold custom_call. rewrite H1, H2. change (is_ok OK) with true. cbn [negb]. rewrite packet_length. unfold cserve.
  assert (X : (COUNT <=? caction (q_id q))%N = false) by (apply N.leb_gt; exact HA). rewrite X. rewrite Nat.eqb_refl. cbn [negb].
  rewrite get_req_packet by auto. rewrite HF. cbn [q_type q_id]. rewrite (proj2 (N.eqb_neq _ _) HN). rewrite EF.
  rewrite response_put; cbn [r_id r_type r_rc r_err r_data]; auto.
  - rewrite left_over by (auto; lia). reflexivity.
  - unfold i32, OK; lia.
  - rewrite app_length, packet_length, skipn_length. lia.
Qed.

Lemma caction_small id : (id < 256)%N -> caction id = id.
Proof. intros H. unfold caction. rewrite N.mod_small by lia. change 0xFF%N with (N.ones 8). rewrite N.land_ones. apply N.mod_small. exact H. Qed.
Lemma caction_alias id k : (id < 256)%N -> (256 * k + id < 65536)%N -> caction (256 * k + id) = id.
Proof.
  intros H HK. unfold caction. rewrite N.mod_small by exact HK. change 0xFF%N with (N.ones 8). rewrite N.land_ones.
  change (2 ^ 8)%N with 256%N. rewrite N.add_comm, N.mul_comm, N.mod_add by discriminate. apply N.mod_small. exact H.
Qed.

(** ** The calls *)
(** A request to a registered callback runs that callback once, on the caller's
    id, type and data; its return code, type and data come back.  The data mean
    the same on both sides whatever their byte orders; those of the answer, if
    its type is not mistaken ([plain]). *)
Theorem C96_request CL COUNT St sb cb tbl q L (s : St) f :
  32 <= CL -> (COUNT <= 256)%N -> tame CL tbl -> (q_id q < COUNT)%N -> tbl (q_id q) = Some f ->
  q_type q <> 0%N -> u32 (q_type q) -> data_ok CL (q_data q) ->
  16 + CL <= length (cl_buf L) -> cl_send L = OK -> cl_recv L = OK ->
  exists d', length d' = CL /\ same_data cb sb (q_type q) (q_data q) d' /\
    let '((rc, ty, d), s') := f (mkCq (q_id q) (q_type q) d') s in
    exists o, custom_call CL COUNT St sb cb tbl q L s = ((OK, Some o), s') /\
      r_id o = q_id q /\ r_rc o = rc /\ r_err o = OK /\ r_type o = ty /\
      (plain sb cb ty -> same_data sb cb ty d (r_data o)).
Proof.
  intros HC HN HT HI HF HY HU HD HL H1 H2.
  assert (LZ : length (repeat 0%N CL) = CL) by apply repeat_length.
  exists (tdata CL sb cb (q_type q) (q_data q) (repeat 0%N CL)).
  split; [apply tdata_length; auto; apply HD|]. split; [apply tdata_in; auto|].
  assert (CA : caction (q_id q) = q_id q) by (apply caction_small; lia).
  pose proof (call_runs CL COUNT St sb cb tbl q L s f HC HT ltac:(unfold u32; lia) ltac:(rewrite CA; exact HI) ltac:(rewrite CA; exact HF) HY HU HD HL H1 H2) as X.
  destruct (f _ s) as [[[rc ty] d] s'] eqn:EF. destruct (HT _ _ _ _ _ _ _ _ HF EF) as (I & U & DOK).
  eexists. split; [exact X|]. cbn [r_id r_rc r_err r_type r_data]. do 4 (split; [reflexivity|]).
  set (lo := skipn 8 (q_data q) ++ firstn 8 (skipn (8 + CL) (cl_buf L))).
  assert (LO : length lo = CL). { unfold lo. destruct HD as [HD _]. rewrite app_length, firstn_length, !skipn_length. lia. }
  intros [E|[A A']].
  - subst sb. rewrite Bool.eqb_reflx. apply tdata_out; auto.
  - destruct (Bool.eqb cb sb); [apply tdata_out; auto|]. unfold same_data, read_as.
    destruct (N.eqb_spec ty 1); [lia|]. destruct (N.eqb_spec ty 2); [lia|]. rewrite (proj2 (N.leb_le _ _) A). f_equal.
    unfold tdata, put. rewrite (proj2 (N.ltb_ge _ _) A'). destruct DOK as [DL _].
    rewrite firstn_all2 by lia. rewrite skipn_all2 by lia. symmetry. apply app_nil_r.
Qed.
Print Assumptions C96_request.

(** A query runs nothing, says whether a callback is registered, and refuses
    numbers outside the table. *)
Theorem C96_query CL COUNT St sb cb tbl id L (s : St) :
  32 <= CL -> (id < 256)%N -> 16 + CL <= length (cl_buf L) -> cl_send L = OK -> cl_recv L = OK ->
  check_registered CL COUNT St sb cb tbl id L s =
    ((if (COUNT <=? id)%N then (ABORTED, None) else (OK, Some (match tbl id with Some _ => OK | None => NOHANDLER end))), s).
Proof.
  intros HC HI HL H1 H2. unfold check_registered, custom_call. rewrite H1, H2. change (is_ok OK) with true. cbn [negb].
  set (q := mkCq id 0 (repeat 0%N CL)). change (q_id q) with id. rewrite caction_small by exact HI. rewrite packet_length. unfold cserve.
  assert (LB : 16 + CL <= length (cpacket CL cb q ++ skipn (8 + CL) (cl_buf L))) by (rewrite app_length, packet_length, skipn_length; lia).
  destruct (COUNT <=? id)%N.
  - rewrite first_exact by apply packet_length. cbv iota beta. unfold cresponse. rewrite packet_length.
    assert (X : (16 + CL <? 8 + CL) = false) by (apply Nat.ltb_ge; lia). rewrite X.
    assert (Y : (8 + CL =? 16 + CL) = false) by (apply Nat.eqb_neq; lia). rewrite Y. reflexivity.
  - rewrite Nat.eqb_refl. cbn [negb].
    rewrite get_req_packet by (unfold q; cbn [q_id q_type q_data]; first [apply repeat_length|unfold u32; lia]).
    cbn [q_id q_type q_data]. change (q_type q) with 0%N. cbn [N.eqb].
    destruct (tbl id); rewrite response_put; cbn [r_id r_type r_rc r_err r_data]; auto;
      try apply repeat_length; try (unfold q, u32; cbn [q_id q_type]; lia); try (unfold i32, OK, NOHANDLER; lia); reflexivity.
Qed.
Print Assumptions C96_query.

(** ** What is not so *)
(** A number the table cannot hold is not refused: only its last byte is looked
    at.  A query for it says registered, and a request runs that callback. *)
Theorem C96_alias_refuted CL COUNT St sb cb (tbl : N -> option (callback St)) id k L s f :
  32 <= CL -> (COUNT <= 256)%N -> (id < COUNT)%N -> (1 <= k)%N -> (256 * k + id < 65536)%N -> tbl id = Some f -> tame CL tbl ->
  16 + CL <= length (cl_buf L) -> cl_send L = OK -> cl_recv L = OK ->
  (COUNT <= 256 * k + id)%N /\
  check_registered CL COUNT St sb cb tbl (256 * k + id) L s = ((OK, Some OK), s) /\
  (forall ty d, ty <> 0%N -> u32 ty -> data_ok CL d ->
     exists d', snd (custom_call CL COUNT St sb cb tbl (mkCq (256 * k + id) ty d) L s) = snd (f (mkCq (256 * k + id) ty d') s)).
Proof.
  intros HC HN HI HK HS HF HT HL H1 H2. assert (CA : caction (256 * k + id) = id) by (apply caction_alias; lia).
  split; [lia|]. split.
  - unfold check_registered, custom_call. rewrite H1, H2. change (is_ok OK) with true. cbn [negb].
    set (q := mkCq (256 * k + id) 0 (repeat 0%N CL)). change (q_id q) with (256 * k + id)%N. rewrite CA. rewrite packet_length. unfold cserve.
    assert (LB : 16 + CL <= length (cpacket CL cb q ++ skipn (8 + CL) (cl_buf L))) by (rewrite app_length, packet_length, skipn_length; lia).
    rewrite (proj2 (N.leb_gt _ _) HI). rewrite Nat.eqb_refl. cbn [negb].
    rewrite get_req_packet by (unfold q; cbn [q_id q_type q_data]; first [apply repeat_length|unfold u32; lia]).
    cbn [q_id q_type q_data]. change (q_type q) with 0%N. cbn [N.eqb]. rewrite HF.
    rewrite response_put; cbn [r_id r_type r_rc r_err r_data]; auto;
      try apply repeat_length; try (unfold q, u32; cbn [q_id q_type]; lia); try (unfold i32, OK, NOHANDLER; lia); reflexivity.
  - intros ty d HY HU HD.
    pose proof (call_runs CL COUNT St sb cb tbl (mkCq (256 * k + id) ty d) L s f HC HT ltac:(unfold u32; cbn [q_id]; lia) ltac:(cbn [q_id]; rewrite CA; exact HI) ltac:(cbn [q_id]; rewrite CA; exact HF) HY HU HD HL H1 H2) as X.
    cbn [q_id q_type q_data] in X. exists (tdata CL sb cb ty d (repeat 0%N CL)).
    destruct (f _ s) as [[[rc rty] rd'] s'] eqn:EF. rewrite X. reflexivity.
Qed.
Print Assumptions C96_alias_refuted.

(** Between machines of different byte orders, an answer of a user's type whose
    reversed bytes are a reserved number loses all its data: the caller gets
    their own request back, and eight bytes of an earlier packet. *)
Theorem C96_user_type_refuted CL COUNT St sb cb tbl q L (s : St) f rc d s' :
  32 <= CL -> (COUNT <= 256)%N -> tame CL tbl -> (q_id q < COUNT)%N -> tbl (q_id q) = Some f ->
  q_type q <> 0%N -> u32 (q_type q) -> data_ok CL (q_data q) ->
  16 + CL <= length (cl_buf L) -> cl_send L = OK -> cl_recv L = OK -> sb <> cb ->
  (forall d', f (mkCq (q_id q) (q_type q) d') s = ((rc, 0x03000000%N, d), s')) ->
  exists o, custom_call CL COUNT St sb cb tbl q L s = ((OK, Some o), s') /\ r_type o = 0x03000000%N /\
    r_data o = skipn 8 (q_data q) ++ firstn 8 (skipn (8 + CL) (cl_buf L)).
Proof.
  intros HC HN HT HI HF HY HU HD HL H1 H2 HE HV.
  assert (CA : caction (q_id q) = q_id q) by (apply caction_small; lia).
  pose proof (call_runs CL COUNT St sb cb tbl q L s f HC HT ltac:(unfold u32; lia) ltac:(rewrite CA; exact HI) ltac:(rewrite CA; exact HF) HY HU HD HL H1 H2) as X.
  rewrite HV in X. eexists. split; [exact X|]. cbn [r_type r_data]. split; [reflexivity|].
  assert (B : Bool.eqb cb sb = false) by (destruct sb, cb; auto; contradiction HE; reflexivity). rewrite B.
  change (bswap 4 0x03000000) with 3%N. reflexivity.
Qed.
Print Assumptions C96_user_type_refuted.

(** The answer to a query is not decided by the query: its last eight bytes are
    what an earlier packet left in the server's buffer. *)
Theorem C96_stale_refuted CL COUNT St sb cb (tbl : N -> option (callback St)) id d L s :
  32 <= CL -> (id < COUNT)%N -> (COUNT <= 256)%N -> length d = CL ->
  16 + CL <= length (cl_buf L) -> cl_send L = OK -> cl_recv L = OK ->
  exists o, custom_call CL COUNT St sb cb tbl (mkCq id 0 d) L s = ((OK, Some o), s) /\
    r_data o = skipn 8 d ++ firstn 8 (skipn (8 + CL) (cl_buf L)).
Proof.
  intros HC HI HN HD HL H1 H2. unfold custom_call. rewrite H1, H2. change (is_ok OK) with true. cbn [negb].
  set (q := mkCq id 0 d). change (q_id q) with id. rewrite caction_small by lia. rewrite packet_length. unfold cserve.
  assert (LB : 16 + CL <= length (cpacket CL cb q ++ skipn (8 + CL) (cl_buf L))) by (rewrite app_length, packet_length, skipn_length; lia).
  rewrite (proj2 (N.leb_gt _ _) HI). rewrite Nat.eqb_refl. cbn [negb].
  rewrite get_req_packet by (unfold q; cbn [q_id q_type q_data]; first [exact HD|unfold u32; lia]).
  cbn [q_id q_type q_data]. change (q_type q) with 0%N. cbn [N.eqb].
  assert (LO : rd 16 CL (cpacket CL cb q ++ skipn (8 + CL) (cl_buf L)) = skipn 8 d ++ firstn 8 (skipn (8 + CL) (cl_buf L)))
    by (apply left_over; auto; lia).
  assert (G : forall err, i32 err -> exists o, (cresponse CL cb (put_resp CL sb cb (mkCr (q_id q) 0 0 err (repeat 0%N CL)) (cpacket CL cb q ++ skipn (8 + CL) (cl_buf L))), s) = ((OK, Some o), s) /\
    r_data o = skipn 8 d ++ firstn 8 (skipn (8 + CL) (cl_buf L))).
  { intros err He. rewrite response_put; cbn [r_id r_type r_rc r_err r_data]; auto;
      try apply repeat_length; try (unfold q, u32; cbn [q_id q_type]; lia); try (unfold i32, OK, NOHANDLER; lia).
    eexists. split; [reflexivity|]. cbn [r_data]. rewrite LO. destruct (Bool.eqb cb sb); reflexivity. }
  destruct (tbl id); apply G; unfold i32, OK, NOHANDLER; lia.
Qed.
Print Assumptions C96_stale_refuted.

(** ** The hypotheses are met *)
(** A callback that adds 1 to the state and sends the data back. *)
Definition ex_cb : callback N := fun q s => ((7%Z, q_type q, q_data q), (s + 1)%N).
Definition ex_cb_fixed (ty : N) : callback N := fun q s => ((7%Z, ty, repeat 9%N 32), (s + 1)%N).
Definition ex_tbl (f : callback N) (a : N) : option (callback N) := if N.eqb a 3 then Some f else None.
Definition ex_lk : clink := mkCl OK OK (repeat 170%N 64).
Definition ex_data : list N := map N.of_nat (seq 1 32).
(** Addresses of a little-endian client reach a big-endian server as numbers. *)
Example ex_dma : let '((rc, o), s) := custom_call 32 8 N true false (ex_tbl (ex_cb_fixed 9)) (mkCq 3 1 ex_data) ex_lk 0%N in
  rc = OK /\ s = 1%N /\ match o with Some r => r_rc r = 7%Z /\ r_type r = 9%N /\ r_data r = repeat 9%N 32 | None => False end.
Proof. vm_compute. repeat split; reflexivity. Qed.
Example ex_seen : q_data (get_req 32 true false (cpacket 32 false (mkCq 3 1 ex_data))) = [4; 3; 2; 1; 8; 7; 6; 5; 12; 11; 10; 9; 16; 15; 14; 13]%N ++ repeat 0%N 16.
Proof. vm_compute. reflexivity. Qed.
Example ex_tame : tame 32 (ex_tbl (ex_cb_fixed 9)).
Proof.
  intros a f q s rc ty d s' H E. unfold ex_tbl in H. destruct (N.eqb a 3); [|discriminate]. injection H as <-.
  unfold ex_cb_fixed in E. injection E as <- <- <- <-. unfold i32, u32, data_ok. split; [lia|]. split; [lia|]. split; [reflexivity|].
  repeat constructor.
Qed.
Example ex_plain : plain true false 9 /\ ~ plain true false 1 /\ ~ plain true false 0x01000000.
Proof.
  split; [right; split; vm_compute; discriminate|]. split; intros [H|[H1 H2]]; try discriminate.
  - apply H1. reflexivity.
  - vm_compute in H2. apply H2. reflexivity.
Qed.
Example ex_query : check_registered 32 8 N true false (ex_tbl ex_cb) 3 ex_lk 0%N = ((OK, Some OK), 0%N) /\
  check_registered 32 8 N true false (ex_tbl ex_cb) 4 ex_lk 0%N = ((OK, Some NOHANDLER), 0%N) /\
  check_registered 32 8 N true false (ex_tbl ex_cb) 8 ex_lk 0%N = ((ABORTED, None), 0%N) /\
  check_registered 32 8 N true false (ex_tbl ex_cb) 259 ex_lk 0%N = ((OK, Some OK), 0%N).
Proof. vm_compute. repeat split; reflexivity. Qed.
(** The data of a DMA answer arrive reversed (C18_custom_reply_refuted), and
    those of type 0x03000000 not at all. *)
Example ex_lost : match custom_call 32 8 N true false (ex_tbl (ex_cb_fixed 0x03000000)) (mkCq 3 9 ex_data) ex_lk 0%N with
  | ((_, Some r), _) => r_data r = skipn 8 ex_data ++ repeat 170%N 8 | _ => False end.
Proof. vm_compute. reflexivity. Qed.
