(** C98: a certificate call that hands over a buffer by address makes the server
    work on that buffer with the caller's arguments, and tells what came of it. *)
From Verif Require Import Base BaseLemmas NvmSpec Flags Store NvmReqModel EndianModel EndianProof KdfModel KsReq NvcModel NvcSpec NvcProof.
From Verif Require Import AuthCodec AucProof ShdProof KeyId CertModel CecModel CecSpec PropertiesCec CedModel CedSpec.

Section Peers.
Variables (MAX : nat) (MAXCERT : N) (K : kcfg) (St : Type) (srv : dop -> St -> (Z * N) * St).
Variables (sb cb : bool) (cid : N).

Lemma drefused_iff want c : dchecked MAX MAXCERT want c = false <-> drefused MAX MAXCERT want c.
Proof.
  destruct c as [id acc fl label len|id len|len root key|len roots key]; cbn [dchecked drefused].
  - apply N.leb_gt.
  - split; [discriminate|tauto].
  - reflexivity.
  - rewrite !Bool.andb_false_iff, !Bool.negb_false_iff, Nat.eqb_eq, Nat.ltb_lt, length_zero_iff_nil. tauto.
Qed.

(** The reply to a call. *)
Definition dreply (c : dcall) (rc : Z) (key : N) (buf : list N) : list N :=
  match c with
  | DAdd _ _ _ _ _ | DRead _ _ => simple sb cb rc buf
  | DVerify _ _ _ | DMulti _ _ _ => vresp sb cb rc key buf
  end.
Lemma packet_len addr c : 16 <= length (snd (dpacket MAX cb addr c)).
Proof.
  destruct c as [id acc fl label len|id len|len root key|len roots key]; cbn [dpacket snd]; rewrite !app_length, wire_length.
  - cbn [map fst]. unfold sum. cbn [fold_right]. lia.
  - cbn [map fst]. unfold sum. cbn [fold_right repeat length]. lia.
  - destruct key as [[kf ki]|]; cbn [key_fields app map fst]; unfold sum; cbn [fold_right]; lia.
  - destruct key as [[kf ki]|]; cbn [key_fields app map fst]; unfold sum; cbn [fold_right]; lia.
Qed.
Lemma zeros_wire n : repeat 0%N (2 * n) = wire cb (map (fun r => (2, r)) (repeat 0%N n)).
Proof.
  induction n as [|n IH]; [reflexivity|]. replace (2 * S n) with (S (S (2 * n))) by lia. cbn [repeat map]. rewrite IH.
  destruct cb; reflexivity.
Qed.
Lemma wire_app l1 l2 : wire cb (l1 ++ l2) = wire cb l1 ++ wire cb l2.
Proof. unfold wire. apply flat_map_app. Qed.

Lemma dserved want c (L : dlink) rest (s : St) : dargs_ok c -> (dl_addr L < 2 ^ 64)%N -> dchecked MAX MAXCERT want c = true ->
  let a := fst (dpacket MAX cb (dl_addr L) c) in let p := snd (dpacket MAX cb (dl_addr L) c) in
  dserve MAX K St srv sb cb cid L a (length p) (p ++ rest) s =
  mapped St srv L (fun rc => dreply c rc 0 (p ++ rest)) (dasks MAX K cid (dl_addr L) c)
    (fun rc key => dreply c rc (to_client K key) (p ++ rest)) s.
Proof.
  intros A U. set (addr := dl_addr L) in *. destruct c as [id acc fl label len|id len|len root key|len roots key]; intros CK; cbn [dpacket fst snd]; cbv zeta.
  - destruct A as (A1 & A2 & A3 & A4). unfold u16 in *. rewrite label_exact. set (h := [(8, addr); (4, len); (2, id); (2, acc); (2, fl)]).
    assert (LH : length (wire cb h) = 18) by (rewrite wire_length; reflexivity).
    set (p := wire cb h ++ label24 label ++ repeat 0%N 6).
    assert (LP : length p = 48) by (unfold p; rewrite !app_length, LH, label_len, repeat_length; reflexivity).
    assert (TK : take sb cb [8; 4; 2; 2; 2] (p ++ rest) = [addr; len; id; acc; fl]).
    { unfold p. rewrite <- !app_assoc. change [8; 4; 2; 2; 2] with (map fst h). rewrite take_wire; [reflexivity|]. unfold h. fits. }
    assert (R1 : rd 18 24 (p ++ rest) = label24 label) by (unfold p; rewrite <- !app_assoc; apply rd_at; auto using label_len).
    unfold dserve. change (N.eqb 34 34) with true. cbv iota zeta. rewrite LP. change (negb (48 =? 48)) with false. cbv iota.
    rewrite TK, R1. unfold fld. cbn [nth dasks dreply]. reflexivity.
  - destruct A as (A1 & A2). unfold u16 in *. set (h := [(8, addr); (4, len); (2, id)]).
    assert (LH : length (wire cb h) = 14) by (rewrite wire_length; reflexivity).
    set (p := wire cb h ++ repeat 0%N 2).
    assert (LP : length p = 16) by (unfold p; rewrite !app_length, LH, repeat_length; reflexivity).
    assert (TK : take sb cb [8; 4; 2] (p ++ rest) = [addr; len; id]).
    { unfold p. rewrite <- !app_assoc. change [8; 4; 2] with (map fst h). rewrite take_wire; [reflexivity|]. unfold h. fits. }
    unfold dserve. change (N.eqb 36 34) with false. change (N.eqb 36 36) with true. cbv iota zeta. rewrite LP. change (negb (16 =? 16)) with false. cbv iota.
    rewrite TK. unfold fld. cbn [nth dasks dreply]. reflexivity.
  - destruct A as (A1 & A2 & A3). set (h := [(8, addr); (4, len); (2, root)] ++ key_fields key).
    assert (FH : Forall fit h /\ map fst h = [8; 4; 2; 2; 2; 2]).
    { unfold h. destruct key as [[kf ki]|]; [destruct A3 as [A3 A4]|]; cbn [key_fields app]; unfold u16, USAGE_ANY in *; split; try reflexivity; fits. }
    destruct FH as [FH MH]. assert (LH : length (wire cb h) = 20) by (rewrite wire_length, MH; reflexivity).
    set (p := wire cb h ++ repeat 0%N 4).
    assert (LP : length p = 24) by (unfold p; rewrite !app_length, LH, repeat_length; reflexivity).
    assert (TK : take sb cb [8; 4; 2; 2; 2; 2] (p ++ rest) = map snd h) by (unfold p; rewrite <- !app_assoc, <- MH; apply take_wire; exact FH).
    unfold dserve. change (N.eqb 37 34) with false. change (N.eqb 37 36) with false. change (N.eqb 37 37) with true. cbv iota zeta. rewrite LP.
    change (negb (24 =? 24)) with false. cbv iota. rewrite TK.
    assert (V : map snd h = [addr; len; root] ++ map snd (key_fields key)) by reflexivity. rewrite V. clearbody p.
    destruct key as [[kf ki]|]; cbn [key_fields app map snd]; unfold fld; cbn [nth]; reflexivity.
  - destruct A as (A1 & A0 & A2 & A3). cbn [dchecked] in CK. apply andb_prop in CK. destruct CK as [CK C2]. apply Bool.negb_true_iff, Nat.ltb_ge in C2.
    set (h := [(8, addr); (4, len); (2, N.of_nat (length roots))] ++ key_fields key).
    assert (FH : Forall fit h /\ map fst h = [8; 4; 2; 2; 2; 2]).
    { unfold h. destruct key as [[kf ki]|]; [destruct A3 as [A3 A4]|]; cbn [key_fields app]; unfold u16, USAGE_ANY in *; split; try reflexivity; fits. }
    destruct FH as [FH MH]. assert (LH : length (wire cb h) = 20) by (rewrite wire_length, MH; reflexivity).
    set (arr := roots ++ repeat 0%N (MAX - length roots)).
    assert (LA : length arr = MAX) by (unfold arr; rewrite app_length, repeat_length; lia).
    assert (UA : Forall u16 arr). { apply Forall_app. split; auto. apply Forall_forall. intros x X. apply repeat_spec in X. subst x. reflexivity. }
    assert (WA : wire cb (map (fun r => (2, r)) roots) ++ repeat 0%N (2 * (MAX - length roots) + pad2 MAX) =
                 wire cb (map (fun r => (2, r)) arr) ++ repeat 0%N (pad2 MAX)).
    { unfold arr. rewrite map_app, wire_app, repeat_app, zeros_wire, app_assoc. reflexivity. }
    rewrite WA. set (w := wire cb (map (fun r => (2, r)) arr)) in *. assert (LW : length w = 2 * MAX) by (unfold w; rewrite (roots_len 44 cb (conj (le_n 44) eq_refl)), LA; reflexivity).
    set (p := wire cb h ++ repeat 0%N 4 ++ w ++ repeat 0%N (pad2 MAX)).
    assert (LP : length p = Z_MULTI MAX) by (unfold p, Z_MULTI; rewrite !app_length, LH, LW, !repeat_length; lia).
    assert (TK : take sb cb [8; 4; 2; 2; 2; 2] (p ++ rest) = map snd h) by (unfold p; rewrite <- !app_assoc, <- MH; apply take_wire; exact FH).
    assert (SK : take sb cb (repeat 2 MAX) (skipn 24 (p ++ rest)) = arr).
    { replace (p ++ rest) with ((wire cb h ++ repeat 0%N 4) ++ w ++ repeat 0%N (pad2 MAX) ++ rest) by (unfold p; rewrite <- !app_assoc; reflexivity).
      rewrite skip_exact by (rewrite app_length, LH; reflexivity). rewrite <- LA. apply roots_taken; auto. }
    unfold dserve. change (N.eqb 40 34) with false. change (N.eqb 40 36) with false. change (N.eqb 40 37) with false. change (N.eqb 40 40) with true. cbv iota zeta.
    rewrite LP, Nat.eqb_refl. cbn [negb]. rewrite TK, SK.
    assert (V : map snd h = [addr; len; N.of_nat (length roots)] ++ map snd (key_fields key)) by reflexivity. rewrite V. clearbody p. unfold dverified. cbn [dreply].
    destruct key as [[kf ki]|]; cbn [key_fields app map snd]; unfold fld; cbn [nth]; reflexivity.
Qed.
Lemma dresponded want post c rc key buf : ~ drefused MAX MAXCERT want c -> i32 rc -> 8 <= length buf ->
  dtold K want post c rc key (dresponse cb want post c (dreply c rc (to_client K key) buf)).
Proof.
  intros NR I LB. unfold dtold. destruct c as [id acc fl label len|id len|len root key'|len roots key']; cbn [dresponse dreply drefused] in *.
  - rewrite simple_read by auto. repeat split.
  - rewrite simple_read by auto. cbn [co_ret]. change (is_ok OK) with true. cbv iota. repeat split.
  - rewrite verify_read by (auto; apply to_client_16). destruct want; [|tauto]. destruct key'; repeat split.
  - rewrite verify_read by (auto; apply to_client_16). destruct want; [|tauto]. destruct key'; repeat split.
Qed.
Lemma dresponded0 want post c rc buf : ~ drefused MAX MAXCERT want c -> i32 rc -> 8 <= length buf ->
  let o := dresponse cb want post c (dreply c rc 0 buf) in
  co_ret o = (match c with DRead _ _ => post | _ => OK end) /\ co_rc o = (if want then Some rc else None).
Proof.
  intros NR I LB. destruct c as [id acc fl label len|id len|len root key'|len roots key']; cbn [dresponse dreply drefused] in *.
  - rewrite simple_read by auto. repeat split.
  - rewrite simple_read by auto. cbn [co_ret]. change (is_ok OK) with true. cbv iota. repeat split.
  - rewrite verify_read by (auto; reflexivity). destruct want; [|tauto]. repeat split.
  - rewrite verify_read by (auto; reflexivity). destruct want; [|tauto]. repeat split.
Qed.
(** A call past the client's own checks, mapping and sending. *)
Lemma sent want c L s : dargs_ok c -> (dl_addr L < 2 ^ 64)%N -> ~ drefused MAX MAXCERT want c -> dl_pre L = OK -> dl_send L = OK ->
  exists buf, 8 <= length buf /\
  dma_call MAX MAXCERT K St srv sb cb cid want c L s =
  let '(r, s') := mapped St srv L (fun rc => dreply c rc 0 buf) (dasks MAX K cid (dl_addr L) c) (fun rc key => dreply c rc (to_client K key) buf) s in
  if negb (is_ok (dl_recv L)) then (failed (dl_recv L), s') else (dresponse cb want (dl_post L) c r, s').
Proof.
  intros A U NR HP HS. assert (CK : dchecked MAX MAXCERT want c = true).
  { destruct (dchecked MAX MAXCERT want c) eqn:E; auto. destruct NR. apply drefused_iff. exact E. }
  set (p := snd (dpacket MAX cb (dl_addr L) c)). exists (p ++ skipn (length p) (dl_buf L)). split.
  - pose proof (packet_len (dl_addr L) c). rewrite app_length. fold p in H. lia.
  - unfold dma_call. rewrite CK, HP, HS. change (is_ok OK) with true. cbn [negb].
    pose proof (dserved want c L (skipn (length p) (dl_buf L)) s A U CK) as D. cbv zeta in D. fold p in D.
    rewrite (surjective_pairing (dpacket MAX cb (dl_addr L) c)). fold p. rewrite D. reflexivity.
Qed.
End Peers.

(** ** C98 *)
(** A call that is not refused by the client itself, mapped on both sides, sent,
    locked and answered: the server is asked for exactly what the arguments say,
    on the buffer at the address the mapping gave, whatever the two byte orders,
    and the caller is told what came of it. *)
Theorem C98_call MAX MAXCERT K St (srv : dop -> St -> (Z * N) * St) sb cb cid want c L s rc key s' :
  dargs_ok c -> (dl_addr L < 2 ^ 64)%N -> ~ drefused MAX MAXCERT want c ->
  dl_pre L = OK -> dl_send L = OK -> dl_recv L = OK -> dl_dma L = OK -> dl_lock L = OK ->
  srv (dasks MAX K cid (dl_addr L) c) s = ((rc, key), s') -> i32 rc ->
  exists o, dma_call MAX MAXCERT K St srv sb cb cid want c L s = (o, s') /\ dtold K want (dl_post L) c rc key o.
Proof.
  intros A U NR HP HS HV HD HL ES I. destruct (sent MAX MAXCERT K St srv sb cb cid want c L s A U NR HP HS) as (buf & LB & E).
  rewrite E. unfold mapped. rewrite HD, HL, HV, ES. change (is_ok OK) with true. cbn [negb].
  eexists; split; [reflexivity|]. apply dresponded with (MAX := MAX) (MAXCERT := MAXCERT); auto.
Qed.
Print Assumptions C98_call.

(** A call the client refuses, whose buffer cannot be mapped, or that is not sent,
    changes nothing; one whose reply is lost has been carried out all the same. *)
Theorem C98_no_effect MAX MAXCERT K St (srv : dop -> St -> (Z * N) * St) sb cb cid want c L s :
  dargs_ok c -> (dl_addr L < 2 ^ 64)%N ->
  let call := dma_call MAX MAXCERT K St srv sb cb cid want c L s in
  (drefused MAX MAXCERT want c -> call = (failed BADARGS, s)) /\
  (~ drefused MAX MAXCERT want c -> dl_pre L <> OK -> call = (failed (dl_pre L), s)) /\
  (~ drefused MAX MAXCERT want c -> dl_pre L = OK -> dl_send L <> OK -> call = (failed (dl_send L), s)) /\
  (~ drefused MAX MAXCERT want c -> dl_pre L = OK -> dl_send L = OK -> dl_recv L <> OK -> dl_dma L = OK -> dl_lock L = OK ->
     call = (failed (dl_recv L), snd (srv (dasks MAX K cid (dl_addr L) c) s))).
Proof.
  intros A U call. pose proof (drefused_iff MAX MAXCERT want c) as RI. split; [|split; [|split]].
  - intros F. apply RI in F. unfold call, dma_call. rewrite F. reflexivity.
  - intros F G. apply Z.eqb_neq in G. unfold call, dma_call, is_ok. rewrite G. destruct (dchecked MAX MAXCERT want c); [reflexivity|tauto].
  - intros F G H. apply Z.eqb_neq in H. unfold call, dma_call. rewrite G. destruct (dchecked MAX MAXCERT want c); [|tauto].
    unfold is_ok. rewrite H. destruct (dpacket MAX cb (dl_addr L) c). reflexivity.
  - intros F G H V HD HL. destruct (sent MAX MAXCERT K St srv sb cb cid want c L s A U F G H) as (buf & LB & E).
    unfold call. rewrite E. unfold mapped. rewrite HD, HL. apply Z.eqb_neq in V. unfold is_ok. rewrite V. change (Z.eqb OK OK) with true. cbn [negb].
    destruct (srv _ s) as [[rc key] s']. reflexivity.
Qed.
Print Assumptions C98_no_effect.

(** When the server may not use the buffer, or does not get the NVM lock, nothing
    changes and the code of what failed is told. *)
Theorem C98_unmapped MAX MAXCERT K St (srv : dop -> St -> (Z * N) * St) sb cb cid want c L s :
  dargs_ok c -> (dl_addr L < 2 ^ 64)%N -> ~ drefused MAX MAXCERT want c ->
  dl_pre L = OK -> dl_send L = OK -> dl_recv L = OK -> i32 (dl_dma L) -> i32 (dl_lock L) -> dl_dma L <> OK \/ dl_lock L <> OK ->
  exists o, dma_call MAX MAXCERT K St srv sb cb cid want c L s = (o, s) /\
    co_ret o = (match c with DRead _ _ => dl_post L | _ => OK end) /\
    co_rc o = (if want then Some (if Z.eqb (dl_dma L) OK then dl_lock L else dl_dma L) else None).
Proof.
  intros A U NR HP HS HV I1 I2 HF. destruct (sent MAX MAXCERT K St srv sb cb cid want c L s A U NR HP HS) as (buf & LB & E).
  rewrite E. unfold mapped. rewrite HV. unfold is_ok. change (Z.eqb OK OK) with true. cbn [negb].
  destruct (Z.eqb_spec (dl_dma L) OK) as [D|D]; cbn [negb].
  - destruct HF as [HF|HF]; [contradiction|]. apply Z.eqb_neq in HF. rewrite HF. cbn [negb].
    eexists; split; [reflexivity|]. apply dresponded0 with (MAX := MAX) (MAXCERT := MAXCERT); auto.
  - eexists; split; [reflexivity|]. apply dresponded0 with (MAX := MAX) (MAXCERT := MAXCERT); auto.
Qed.
Print Assumptions C98_unmapped.

(** ** Packets of any kind *)
Lemma state_mapped {St} (srv : dop -> St -> (Z * N) * St) L no op k s :
  snd (mapped St srv L no op k s) = if is_ok (dl_dma L) && is_ok (dl_lock L) then snd (srv op s) else s.
Proof. unfold mapped. destruct (is_ok (dl_dma L)), (is_ok (dl_lock L)); cbn [negb andb]; auto. destruct (srv op s) as [[rc key] s']. reflexivity. Qed.
Lemma dserve_first MAX K St (srv : dop -> St -> (Z * N) * St) sb cb cid L a n buf s :
  snd (dserve MAX K St srv sb cb cid L a n buf s) = snd (dserve MAX K St srv sb cb cid L a n (firstn n buf) s).
Proof.
  unfold dserve. cbv zeta.
  destruct (N.eqb_spec a 34).
  { destruct (Nat.eqb_spec n 48) as [->|]; cbn [negb]; [|reflexivity]. rewrite (take_first sb cb [8; 4; 2; 2; 2]) by (cbn; lia). rewrite rd_first by lia. rewrite !state_mapped. reflexivity. }
  destruct (N.eqb_spec a 36).
  { destruct (Nat.eqb_spec n 16) as [->|]; cbn [negb]; [|reflexivity]. rewrite (take_first sb cb [8; 4; 2]) by (cbn; lia). rewrite !state_mapped. reflexivity. }
  destruct (N.eqb_spec a 37).
  { destruct (Nat.eqb_spec n 24) as [->|]; cbn [negb]; [|reflexivity]. rewrite (take_first sb cb [8; 4; 2; 2; 2; 2]) by (cbn; lia). unfold dverified. rewrite !state_mapped. reflexivity. }
  destruct (N.eqb_spec a 40); [|reflexivity].
  destruct (Nat.eqb_spec n (Z_MULTI MAX)) as [->|]; cbn [negb]; [|reflexivity]. rewrite (take_first sb cb [8; 4; 2; 2; 2; 2]) by (unfold Z_MULTI; cbn; lia).
  rewrite take_at by (rewrite sum_repeat; unfold Z_MULTI; lia). unfold dverified. rewrite !state_mapped. reflexivity.
Qed.
(** For every packet, of any size and content, what the server does depends on
    the received bytes only. *)
Theorem C98_only_received MAX K St (srv : dop -> St -> (Z * N) * St) sb cb cid L a n buf buf' s :
  firstn n buf = firstn n buf' ->
  snd (dserve MAX K St srv sb cb cid L a n buf s) = snd (dserve MAX K St srv sb cb cid L a n buf' s).
Proof. intros E. rewrite dserve_first. rewrite E. symmetry. apply dserve_first. Qed.
Print Assumptions C98_only_received.
(** A packet of another size than its action's request changes nothing. *)
Theorem C98_wrong_size MAX K St (srv : dop -> St -> (Z * N) * St) sb cb cid L a n buf s :
  (a = 34%N -> n <> 48) -> (a = 36%N -> n <> 16) -> (a = 37%N -> n <> 24) -> (a = 40%N -> n <> (24 + 2 * MAX + 7) / 8 * 8) ->
  snd (dserve MAX K St srv sb cb cid L a n buf s) = s.
Proof.
  intros H1 H2 H3 H4. unfold dserve. cbv zeta.
  destruct (N.eqb_spec a 34) as [E|_]; [apply H1, Nat.eqb_neq in E; rewrite E; reflexivity|].
  destruct (N.eqb_spec a 36) as [E|_]; [apply H2, Nat.eqb_neq in E; rewrite E; reflexivity|].
  destruct (N.eqb_spec a 37) as [E|_]; [apply H3, Nat.eqb_neq in E; rewrite E; reflexivity|].
  destruct (N.eqb_spec a 40) as [E|_]; [|reflexivity].
  assert (M : Z_MULTI MAX = (24 + 2 * MAX + 7) / 8 * 8).
  { unfold Z_MULTI, pad2. pose proof (Nat.div_mod MAX 4 ltac:(discriminate)) as D. pose proof (Nat.mod_upper_bound MAX 4 ltac:(discriminate)) as B.
    set (q := MAX / 4) in *. set (r := MAX mod 4) in *. destruct (Nat.eqb_spec r 0) as [R|R].
    - replace (24 + 2 * MAX + 7) with (7 + (3 + q) * 8) by lia. rewrite Nat.div_add by discriminate. change (7 / 8) with 0. lia.
    - replace (24 + 2 * MAX + 7) with ((2 * r - 1) + (4 + q) * 8) by lia. rewrite Nat.div_add by discriminate. rewrite Nat.div_small by lia. lia. }
  rewrite M. apply H4, Nat.eqb_neq in E. rewrite E. reflexivity.
Qed.
Print Assumptions C98_wrong_size.

(** ** Through the server *)
Lemma rd_mid (a d b : list N) : rd (length a) (length d) (a ++ d ++ b) = d.
Proof. apply rd_at; reflexivity. Qed.
Lemma wr_mid (a o d b : list N) : length o = length d -> wr (length a) d (a ++ o ++ b) = a ++ d ++ b.
Proof.
  intros E. unfold wr. rewrite first_exact by reflexivity. do 2 f_equal. rewrite <- E, app_assoc. apply skip_exact. rewrite app_length. reflexivity.
Qed.
Lemma unset_server fl : has (N.ldiff fl F_SERVER_ONLY) (N.lor F_NONEXPORTABLE F_SERVER_ONLY) = has fl F_NONEXPORTABLE.
Proof.
  unfold has. do 2 f_equal. apply N.bits_inj. intros k. rewrite !N.land_spec, N.ldiff_spec, N.lor_spec.
  assert (Z1 : N.testbit (N.land F_NONEXPORTABLE F_SERVER_ONLY) k = false) by apply N.bits_0. rewrite N.land_spec in Z1.
  destruct (N.testbit fl k), (N.testbit F_SERVER_ONLY k), (N.testbit F_NONEXPORTABLE k); cbn in *; auto; discriminate.
Qed.
Section Server.
Variables (max_roots : nat) (World : Type) (vrfy load : World -> list bytes -> bytes -> Z) (parse : bytes -> Z * bool)
  (der : bytes -> Z + nat * nat) (digest : bytes -> bytes) (global : bool) (max_cert max_resp max_read : nat) (hs : bool).
Notation handle := (cert_handle max_roots World vrfy load parse der digest global max_cert max_resp max_read hs).
Lemma add_dma e c id acc fl label cert s : ce_dma _ e = OK ->
  handle e c (CAdd true id acc fl label cert) s = handle e c (CAdd false id acc fl label cert) s.
Proof. intros H. cbn [cert_handle]. rewrite H. reflexivity. Qed.
Lemma read_dma e c id cap s m d : ce_dma _ e = OK -> ce_lock _ e = OK -> sp_find (cs_nv s) id = Some (m, d) -> d <> [] -> m_len m = N.of_nat (length d) ->
  handle e c (CReadDma id cap) s =
  if has (m_flags m) (N.lor F_NONEXPORTABLE F_SERVER_ONLY) then (ACCESS, [], s)
  else if max_cert <? cap then (BADARGS, [], s)
  else if cap <? length d then (BUFFER_SIZE, [], s) else (OK, d, s).
Proof.
  intros HD HL HF ND HM. cbn [cert_handle]. rewrite HD, HL. change (is_ok OK) with true. cbn [negb andb]. cbv iota. unfold nv_meta at 1. rewrite HF. change (is_ok OK) with true. cbn [negb].
  destruct (has (m_flags m) (N.lor F_NONEXPORTABLE F_SERVER_ONLY)); [reflexivity|]. unfold cert_read.
  destruct (max_cert <? cap); [reflexivity|]. unfold nv_meta. rewrite HF. change (is_ok OK) with true. cbn [negb].
  rewrite HM, Nat2N.id. destruct (cap <? length d); [reflexivity|]. unfold sp_read. rewrite HF.
  assert (0 < length d) by (destruct d; [contradiction|cbn; lia]). replace (0 <? length d) with true by (symmetry; apply Nat.ltb_lt; lia).
  rewrite Nat.sub_0_r, Nat.leb_refl. cbn [andb skipn]. rewrite firstn_all. reflexivity.
Qed.
End Server.

(** The bytes one client has at an address when it adds them are the bytes any
    client finds at the address it reads them to, whatever their byte orders; no
    other byte of the memory changes, and none at all when the read is refused. *)
Theorem C98_add_then_read MAX MAXCERT K World vrfy load parse der digest global max_resp max_read hs
    (e1 e2 : cenv World) c1 c2 keys1 keys2 sb cb1 cb2 cid1 cid2 id acc fl label cert len L1 L2 s o1 s1 pre1 post1 mem1 pre2 old2 post2 :
  let srv e c keys := dma_srv MAX World vrfy load parse der digest global (N.to_nat MAXCERT) max_resp max_read hs e c keys in
  let add := DAdd id acc fl label (N.of_nat (length cert)) in
  (MAXCERT < 65536)%N -> dargs_ok add -> ~ drefused MAX MAXCERT true add -> cert <> [] -> (len < 4294967296)%N ->
  dl_addr L1 = N.of_nat (length pre1) -> (dl_addr L1 < 2 ^ 64)%N -> dl_addr L2 = N.of_nat (length pre2) -> (dl_addr L2 < 2 ^ 64)%N ->
  length old2 = length cert ->
  i32 (ce_lock _ e1) -> i32 (ce_nvm _ e1) -> i32 (ce_evict _ e1) -> ce_dma _ e1 = OK -> ce_dma _ e2 = OK -> ce_lock _ e2 = OK ->
  dl_pre L1 = OK -> dl_send L1 = OK -> dl_recv L1 = OK -> dl_dma L1 = OK -> dl_lock L1 = OK ->
  dl_pre L2 = OK -> dl_send L2 = OK -> dl_recv L2 = OK -> dl_dma L2 = OK -> dl_lock L2 = OK ->
  dma_call MAX MAXCERT K _ (srv e1 c1 keys1) sb cb1 cid1 true add L1 (s, pre1 ++ cert ++ post1) = (o1, (s1, mem1)) ->
  co_rc o1 = Some OK ->
  mem1 = pre1 ++ cert ++ post1 /\
  dma_call MAX MAXCERT K _ (srv e2 c2 keys2) sb cb2 cid2 true (DRead id len) L2 (s1, pre2 ++ old2 ++ post2) =
    let rc := if has fl F_NONEXPORTABLE then ACCESS else if (MAXCERT <? len)%N then BADARGS
              else if (len <? N.of_nat (length cert))%N then BUFFER_SIZE else OK in
    (mkCo (dl_post L2) (Some rc) None None None, (s1, pre2 ++ (if Z.eqb rc OK then cert else old2) ++ post2)).
Proof.
  intros srv add HM A NR NE HN D1 U1 D2 U2 HO I1 I2 I3 M1 M2 HL P1 S1 V1 X1 K1 P2 S2 V2 X2 K2 HC RC.
  assert (LC : (N.of_nat (length cert) <= MAXCERT)%N) by (cbn [add drefused] in NR; lia).
  set (mem := pre1 ++ cert ++ post1) in *.
  assert (E1 : srv e1 c1 keys1 (dasks MAX K cid1 (dl_addr L1) add) (s, mem) =
    let '(rc, b, s') := cert_handle MAX World vrfy load parse der digest global (N.to_nat MAXCERT) max_resp max_read hs e1 c1 (CAdd false id acc fl (label24 label) cert) s in
    ((rc, keys1 (OAdd id acc fl (label24 label) (dl_addr L1) (N.of_nat (length cert))) s), (s', mem))).
  { unfold srv, dma_srv, add. cbn [dasks dbehind]. rewrite D1, !Nat2N.id. unfold mem at 1. rewrite rd_mid, add_dma by exact M1. reflexivity. }
  destruct (cert_handle MAX World vrfy load parse der digest global (N.to_nat MAXCERT) max_resp max_read hs e1 c1 (CAdd false id acc fl (label24 label) cert) s) as [[rc b] s'] eqn:EH.
  destruct (add_done MAX World vrfy load parse der digest global (N.to_nat MAXCERT) max_resp max_read hs e1 c1 id acc fl (label24 label) cert s rc b s' ltac:(lia) I1 I2 I3 EH) as [IR FD].
  destruct (C98_call MAX MAXCERT K _ (srv e1 c1 keys1) sb cb1 cid1 true add L1 (s, mem) rc _ (s', mem) A U1 NR P1 S1 V1 X1 K1 E1 IR) as (o & Q1 & Q2).
  rewrite HC in Q1. injection Q1 as <- <- <-. split; [reflexivity|].
  assert (RO : rc = OK) by (destruct Q2 as (_ & Q2 & _); rewrite RC in Q2; injection Q2 as <-; reflexivity). specialize (FD RO). clear Q2 EH IR RO E1.
  cbv zeta. set (rc2 := if has fl F_NONEXPORTABLE then ACCESS else _).
  assert (E2 : srv e2 c2 keys2 (dasks MAX K cid2 (dl_addr L2) (DRead id len)) (s1, pre2 ++ old2 ++ post2) =
    ((rc2, keys2 (ORead id (dl_addr L2) len) s1), (s1, pre2 ++ (if Z.eqb rc2 OK then cert else old2) ++ post2))).
  { unfold srv, dma_srv. cbn [dasks dbehind].
    rewrite (read_dma MAX World vrfy load parse der digest global (N.to_nat MAXCERT) max_resp max_read hs e2 c2 id (N.to_nat len) s1 _ cert M2 HL FD NE eq_refl).
    cbn [m_flags]. rewrite unset_server. unfold rc2. destruct (has fl F_NONEXPORTABLE); [reflexivity|].
    replace (N.to_nat MAXCERT <? N.to_nat len) with (MAXCERT <? len)%N by (destruct (N.ltb_spec MAXCERT len), (Nat.ltb_spec (N.to_nat MAXCERT) (N.to_nat len)); auto; lia).
    destruct (MAXCERT <? len)%N; [reflexivity|].
    replace (N.to_nat len <? length cert) with (len <? N.of_nat (length cert))%N by (destruct (N.ltb_spec len (N.of_nat (length cert))), (Nat.ltb_spec (N.to_nat len) (length cert)); auto; lia).
    destruct (len <? N.of_nat (length cert))%N; [reflexivity|]. change (is_ok OK) with true. change (Z.eqb OK OK) with true. cbv iota. rewrite D2, Nat2N.id, wr_mid by exact HO. reflexivity. }
  assert (IR : i32 rc2) by (unfold rc2; destruct (has fl F_NONEXPORTABLE), (MAXCERT <? len)%N, (len <? N.of_nat (length cert))%N; vm_compute; split; try discriminate; reflexivity).
  destruct (C98_call MAX MAXCERT K _ (srv e2 c2 keys2) sb cb2 cid2 true (DRead id len) L2 (s1, pre2 ++ old2 ++ post2) rc2 _ _
    (conj (proj1 A) HN) U2 (fun F => F) P2 S2 V2 X2 K2 E2 IR) as (o & Q1 & Q2).
  rewrite Q1. f_equal. destruct o as [q1 q2 q3 q4 q5]. destruct Q2 as (Z1 & Z2 & Z3 & Z4 & Z5). cbn [co_ret co_rc co_key co_len co_cert] in *. subst. reflexivity.
Qed.
Print Assumptions C98_add_then_read.

(** ** What does not hold *)
Definition ex_cfg : kcfg := mkKcfg true true false.
Definition ex_link : dlink := mkDl OK 2 OK OK OK OK OK (repeat 255%N 64).
Definition ex_env : cenv unit := mkCenv unit OK OK OK OK true (fun _ => tt) (fun _ => OK) (fun _ => OK) (fun _ => OK) (fun _ => OK) (fun _ => OK) (fun _ _ => []).
Definition ex_state (nv : store) : csys := mkCs nv (fun _ => mkVc [None; None] 0 true) [].
Definition ex_srv := dma_srv 4 unit (fun _ _ _ => SUCCESS) (fun _ _ _ => SUCCESS) (fun _ => (OK, false)) (fun _ => inl 0%Z) (fun b => b)
  false 32 56 32 false ex_env 0 (fun _ _ => 0%N).
(** A read by address does not tell how long the certificate is: nothing computed
    from what the caller gets, buffer and all, gives its length. *)
Theorem C98_length_refuted :
  ~ (exists f : cout -> list N -> nat, forall cs mem m d o cs' mem', sp_find (cs_nv cs) 7 = Some (m, d) ->
      dma_call 4 32 ex_cfg _ ex_srv false false 1 true (DRead 7 4) ex_link (cs, mem) = (o, (cs', mem')) ->
      co_ret o = OK -> co_rc o = Some OK -> f o mem' = length d).
Proof.
  intros (f & H). set (m n := mkMeta 7 0 0 n (repeat 0%N 24)).
  pose proof (H (ex_state [(m 1%N, [5%N])]) (repeat 0%N 8) _ _ _ _ _ eq_refl eq_refl) as H1. 
  pose proof (H (ex_state [(m 2%N, [5%N; 0%N])]) (repeat 0%N 8) _ _ _ _ _ eq_refl eq_refl) as H2.
  vm_compute in H1, H2. specialize (H1 eq_refl eq_refl). specialize (H2 eq_refl eq_refl). congruence.
Qed.
Print Assumptions C98_length_refuted.
(** With a NULL out_rc, wh_Client_CertReadTrustedDma returns 0 although the server
    refused. *)
Theorem C98_silent_refuted :
  ~ (forall St (srv : dop -> St -> (Z * N) * St) sb cb c L s, dargs_ok c -> (dl_addr L < 2 ^ 64)%N ->
      co_ret (fst (dma_call 4 32 ex_cfg St srv sb cb 1 false c L s)) = OK ->
      fst (fst (srv (dasks 4 ex_cfg 1 (dl_addr L) c) s)) = OK).
Proof.
  intros H. specialize (H unit (fun _ s => ((ACCESS, 0%N), s)) false false (DRead 7 4) ex_link tt).
  assert (U : dargs_ok (DRead 7 4)) by (split; reflexivity). specialize (H U eq_refl). vm_compute in H. specialize (H eq_refl). discriminate.
Qed.
Print Assumptions C98_silent_refuted.

(** Where WOLFHSM_CFG_MAX_CERT_SIZE is above 65535, a longer certificate added by
    address is cut to its length modulo 65536 and success is told. *)
Theorem C98_long_refuted :
  ~ (forall World vrfy load parse der digest global max_resp max_read hs (e : cenv World) c keys sb cb cid id acc fl label len L s mem o s' mem',
      let MAXCERT := 70000%N in
      let add := DAdd id acc fl label len in
      dargs_ok add -> ~ drefused 4 MAXCERT true add -> (dl_addr L < 2 ^ 64)%N -> N.to_nat (dl_addr L) + N.to_nat len <= length mem ->
      dma_call 4 MAXCERT ex_cfg _ (dma_srv 4 World vrfy load parse der digest global (N.to_nat MAXCERT) max_resp max_read hs e c keys)
        sb cb cid true add L (s, mem) = (o, (s', mem')) ->
      co_rc o = Some OK ->
      exists m, sp_find (cs_nv s') id = Some (m, rd (N.to_nat (dl_addr L)) (N.to_nat len) mem)).
Proof.
  intros H.
  specialize (H unit (fun _ _ _ => SUCCESS) (fun _ _ _ => SUCCESS) (fun _ => (OK, false)) (fun _ => inl 0%Z) (fun b => b) false 56 32 false ex_env 0 (fun _ _ => 0%N)
    false false 1%N 7%N 0%N 0%N None 65537%N ex_link (ex_state []) (repeat 5%N (N.to_nat 65539))).
  cbv zeta in H.
  match type of H with forall o s' mem', _ -> _ -> _ -> _ -> ?l = _ -> _ => set (r := l) in H end.
  assert (X : (match co_rc (fst r) with Some z => Z.eqb z OK | None => false end &&
               match sp_find (cs_nv (fst (snd r))) 7 with Some (_, d) => length d =? 1 | None => false end) = true) by (vm_compute; reflexivity).
  clearbody r. destruct r as [o [s' mem']]. cbn [fst snd] in X. apply andb_prop in X. destruct X as [X1 X2].
  destruct (H o s' mem') as [m F].
  - repeat split; reflexivity.
  - cbn [drefused]. lia.
  - reflexivity.
  - rewrite repeat_length. cbn [ex_link dl_addr]. lia.
  - reflexivity.
  - destruct (co_rc o) as [z|]; [|discriminate]. apply Z.eqb_eq in X1. congruence.
  - rewrite F in X2. apply Nat.eqb_eq in X2. unfold rd in X2. rewrite firstn_length, skipn_length, repeat_length in X2. cbn [ex_link dl_addr] in X2. lia.
Qed.
Print Assumptions C98_long_refuted.

(** ** Cases *)
Definition ex_log (op : dop) (s : list dop) : (Z * N) * list dop := ((OK, from_client ex_cfg KT_CRYPTO 1 9), op :: s).
Example C98_call_case :
  let c := DMulti 3 [258; 4]%N (Some (32, 0)%N) in
  dargs_ok c /\ ~ drefused 3 32 true c /\
  dma_call 3 32 ex_cfg _ ex_log true false 1 true c ex_link [] =
    (mkCo OK (Some OK) (Some 9%N) None None, [OVerify 2 3 2 [258; 4; 0]%N 1 32 4352]).
Proof.
  cbv zeta. split; [|split].
  - cbn. unfold u16. repeat constructor; reflexivity.
  - cbn. intros [H|[H|H]]; try discriminate. lia.
  - vm_compute. reflexivity.
Qed.
Example C98_unmapped_case : ~ drefused 3 32 true (DAdd 7 1 64 None 3) /\
  dma_call 3 32 ex_cfg _ ex_log true false 1 true (DAdd 7 1 64 None 3) (mkDl OK 2 OK OK OK ACCESS OK []) [] = (mkCo OK (Some ACCESS) None None None, []).
Proof. split; [cbn; lia|vm_compute; reflexivity]. Qed.
Example C98_no_effect_case : drefused 3 32 true (DAdd 7 1 64 None 33) /\ drefused 3 32 true (DMulti 3 [1; 2; 3; 4]%N None).
Proof. cbn. lia. Qed.
Example C98_add_then_read_case :
  let add := DAdd 258 1 64 (Some [116]%N) 3 in
  let o := dma_call 4 32 ex_cfg _ ex_srv false false 1 true add ex_link (ex_state [], [1; 2] ++ [48; 49; 50] ++ [3])%N in
  dargs_ok add /\ ~ drefused 4 32 true add /\ co_rc (fst o) = Some OK /\
  dma_call 4 32 ex_cfg _ ex_srv false true 2 true (DRead 258 4) ex_link (fst (snd o), [7; 8] ++ [0; 0; 0] ++ [9; 9])%N =
    (mkCo OK (Some OK) None None None, (fst (snd o), [7; 8] ++ [48; 49; 50] ++ [9; 9])%N).
Proof.
  cbv zeta. split; [|split; [|split]].
  - cbn. unfold u16. repeat split; reflexivity.
  - cbn. lia.
  - vm_compute. reflexivity.
  - vm_compute. reflexivity.
Qed.
Example C98_only_received_case : firstn 2 [1; 2; 3]%N = firstn 2 [1; 2; 4]%N. Proof. reflexivity. Qed.
Example C98_wrong_size_case : (24 + 2 * 8 + 7) / 8 * 8 = 40 /\ (24 + 2 * 5 + 7) / 8 * 8 = 40. Proof. split; reflexivity. Qed.
