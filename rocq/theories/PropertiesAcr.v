(** C99: a client is told that an attribute certificate is good exactly when the
    library accepts it with the key of the stored root the caller named. *)
From Verif Require Import Base BaseLemmas NvmSpec Store EndianModel EndianProof KdfModel KsReq NvcModel NvcSpec NvcProof.
From Verif Require Import AuthCodec AucProof CertModel CecModel CecSpec PropertiesCec CedModel PropertiesCed AcrModel AcrSpec.

Section Lib.
Variables (max_cert : nat) (Key : Type) (parse : list N -> Z * option Key) (check : list N -> Key -> Z) (sig_bad : Z -> bool).

Lemma root_read st id : lens_ok st ->
  cert_read max_cert st id max_cert =
  match sp_find st id with
  | None => (NOTFOUND, [])
  | Some (m, d) => if max_cert <? length d then (BUFFER_SIZE, []) else if length d =? 0 then (BADARGS, []) else (OK, d)
  end.
Proof.
  intros H. unfold cert_read, nv_meta, sp_read. rewrite Nat.ltb_irrefl. destruct (sp_find st id) as [[m d]|] eqn:E; [|reflexivity].
  rewrite (H _ _ _ E), Nat2N.id. change (is_ok OK) with true. cbn [negb]. destruct (max_cert <? length d); [reflexivity|].
  rewrite Nat.sub_0_r, Nat.leb_refl, Bool.andb_true_r. cbn [skipn]. rewrite firstn_all. destruct d; reflexivity.
Qed.
Lemma acert_ok st cert root : lens_ok st -> (acert max_cert Key parse check st cert root = OK <-> accepted max_cert parse check st cert root).
Proof.
  intros H. unfold acert, accepted. rewrite root_read by exact H. destruct (sp_find st root) as [[m d]|] eqn:E.
  2: { split; [discriminate|]. intros (? & ? & ? & F & _). discriminate. }
  destruct (Nat.ltb_spec max_cert (length d)) as [G|G].
  { split; [discriminate|]. intros (m' & d' & k & F & R & _). injection F as <- <-. lia. }
  destruct (Nat.eqb_spec (length d) 0) as [Z0|Z0].
  { split; [discriminate|]. intros (m' & d' & k & F & R & _). injection F as <- <-. lia. }
  change (is_ok OK) with true. cbn [negb]. destruct (parse d) as [rc k] eqn:EP. destruct (is_ok rc) eqn:EO; cbn [negb].
  2: { apply Z.eqb_neq in EO. split; [contradiction|]. intros (m' & d' & k' & F & R & P & _). injection F as <- <-. rewrite EP in P. injection P as -> _. contradiction. }
  apply Z.eqb_eq in EO. subst rc. destruct k as [k|].
  - split; [intros C; exists m, d, k; repeat split; auto; lia|]. intros (m' & d' & k' & F & R & P & C). injection F as <- <-. rewrite EP in P. injection P as ->. exact C.
  - split; [discriminate|]. intros (m' & d' & k' & F & R & P & C). injection F as <- <-. rewrite EP in P. discriminate.
Qed.
Hypothesis sig_ok : sig_bad OK = false.
Lemma told_ok rc : told_code sig_bad rc = OK <-> rc = OK.
Proof. unfold told_code. destruct (sig_bad rc) eqn:E; split; auto; try discriminate. intros ->. rewrite sig_ok in E. discriminate. Qed.
End Lib.

(** The server's side of a sent call. *)
Lemma aserved DL max_cert Key parse check sig_bad sb cb want c (L : dlink) mem st cert root rest :
  (N.of_nat DL < 65536)%N -> aargs_ok c -> (dl_addr L < 2 ^ 64)%N -> achecked DL want c = true -> names (dl_addr L) mem c cert root -> dl_dma L = OK ->
  let a := fst (apacket cb (dl_addr L) c) in let p := snd (apacket cb (dl_addr L) c) in
  8 <= length p /\
  aserve max_cert Key parse check sig_bad sb cb L mem st a (length p) (p ++ rest) =
  simple sb cb (told_code sig_bad (if is_ok (dl_lock L) then acert max_cert Key parse check st cert root else dl_lock L)) (p ++ rest).
Proof.
  intros HDL A U CK NM HD. destruct c as [cert' root'|len root']; cbn [apacket fst snd names aargs_ok achecked] in *; cbv zeta.
  - destruct NM as [-> ->]. apply andb_prop in CK. destruct CK as [CK C2]. apply Bool.negb_true_iff, Nat.ltb_ge in C2. unfold u16 in A.
    set (h := [(4, N.of_nat (length cert')); (2, root')]). assert (LH : length (wire cb h) = 6) by (rewrite wire_length; reflexivity).
    set (p := wire cb h ++ repeat 0%N 2 ++ cert').
    assert (LP : length p = 8 + length cert') by (unfold p; rewrite !app_length, LH, repeat_length; lia).
    assert (TK : take sb cb [4; 2] (p ++ rest) = [N.of_nat (length cert'); root']).
    { unfold p. rewrite <- !app_assoc. change [4; 2] with (map fst h). rewrite take_wire; [reflexivity|]. unfold h. fits. }
    assert (R1 : rd 8 (length cert') (p ++ rest) = cert').
    { unfold p. replace ((wire cb h ++ repeat 0%N 2 ++ cert') ++ rest) with ((wire cb h ++ repeat 0%N 2) ++ cert' ++ rest) by (rewrite <- !app_assoc; reflexivity).
      apply rd_at; auto. rewrite !app_length, LH, repeat_length. reflexivity. }
    split; [lia|]. unfold aserve. change (N.eqb 38 38) with true. cbv iota zeta. rewrite TK. unfold fld. cbn [nth]. rewrite Nat2N.id, R1, LP.
    replace (8 + length cert' <? 8) with false by (symmetry; apply Nat.ltb_ge; lia). replace (8 + length cert' - 8) with (length cert') by lia. rewrite N.ltb_irrefl. reflexivity.
  - destruct NM as (-> & <- & x & y & -> & HA). destruct A as [A1 A2]. unfold u16 in A2. rewrite <- HA in *.
    set (h := [(8, N.of_nat (length x)); (4, N.of_nat (length cert)); (2, root'); (2, 0%N); (2, 0%N); (2, 0%N)]).
    assert (LH : length (wire cb h) = 20) by (rewrite wire_length; reflexivity).
    set (p := wire cb h ++ repeat 0%N 4).
    assert (LP : length p = 24) by (unfold p; rewrite !app_length, LH, repeat_length; lia).
    assert (TK : take sb cb [8; 4; 2; 2; 2; 2] (p ++ rest) = [N.of_nat (length x); N.of_nat (length cert); root'; 0%N; 0%N; 0%N]).
    { unfold p. rewrite <- !app_assoc. change [8; 4; 2; 2; 2; 2] with (map fst h). rewrite take_wire; [reflexivity|]. unfold h. fits. }
    split; [lia|]. unfold aserve. change (N.eqb 39 38) with false. change (N.eqb 39 39) with true. cbv iota zeta. rewrite LP. change (negb (24 =? 24)) with false. cbv iota.
    rewrite TK, HD. change (is_ok OK) with true. cbn [negb]. unfold fld. cbn [nth]. rewrite !Nat2N.id, rd_mid. reflexivity.
Qed.
Lemma arefused_iff DL want c : achecked DL want c = false <-> (want = false \/ match c with APkt cert root => root = 0%N \/ cert = [] \/ DL - 8 < length cert | AMem _ _ => False end).
Proof.
  destruct c as [cert root|len root]; cbn [achecked].
  - rewrite !Bool.andb_false_iff, !Bool.negb_false_iff, N.eqb_eq, Nat.eqb_eq, Nat.ltb_lt, length_zero_iff_nil. tauto.
  - tauto.
Qed.

(** ** C99 *)
(** A call that is not refused by the client itself, mapped, sent and answered: the
    caller is told OK exactly when the library accepts the certificate with the key
    of the root the caller named, whatever the two byte orders; a signature the
    library finds wrong is CERT_VERIFY, a missing root NOTFOUND. *)
Theorem C99_verdict DL max_cert Key parse check sig_bad sb cb c (L : dlink) mem st cert root :
  44 <= DL -> (N.of_nat DL < 65536)%N -> aargs_ok c -> (dl_addr L < 2 ^ 64)%N -> ~ arefused DL true c -> names (dl_addr L) mem c cert root -> lens_ok st ->
  sig_bad OK = false -> sig_bad NOTFOUND = false -> (forall d, i32 (fst (parse d))) -> (forall d k, i32 (check d k)) ->
  dl_pre L = OK -> dl_send L = OK -> dl_recv L = OK -> dl_dma L = OK -> dl_lock L = OK ->
  exists rc, acert_call DL max_cert Key parse check sig_bad sb cb true c L mem st = mkCo OK (Some rc) None None None /\
    (rc = OK <-> accepted max_cert parse check st cert root) /\
    (sp_find st root = None -> rc = NOTFOUND) /\
    (forall m d k, sp_find st root = Some (m, d) -> 0 < length d <= max_cert -> parse d = (OK, Some k) -> sig_bad (check cert k) = true -> rc = CERT_VERIFY).
Proof.
  intros H1 H2 A U NR NM LO SO SN IP IC HP HS HV HD HL.
  assert (CK : achecked DL true c = true).
  { destruct (achecked DL true c) eqn:E; auto. destruct NR. apply arefused_iff in E. destruct E as [E|E]; [left; auto|right]. destruct c; auto.
    destruct E as [E|[E|E]]; auto. right; right. lia. }
  set (p := snd (apacket cb (dl_addr L) c)).
  destruct (aserved DL max_cert Key parse check sig_bad sb cb true c L mem st cert root (skipn (length p) (dl_buf L)) H2 A U CK NM HD) as [LP SV]. fold p in LP, SV.
  set (rc0 := acert max_cert Key parse check st cert root). exists (told_code sig_bad rc0). split; [|split; [|split]].
  - unfold acert_call. rewrite CK, HP, HS, HV. change (is_ok OK) with true. cbn [negb].
    replace (match c with AMem _ _ => false | APkt _ _ => false end) with false by (destruct c; reflexivity).
    rewrite (surjective_pairing (apacket cb (dl_addr L) c)). fold p. cbv zeta in SV. rewrite SV, HL. change (is_ok OK) with true. cbv iota. fold rc0.
    rewrite simple_read; [reflexivity| |rewrite app_length; lia].
    unfold told_code. destruct (sig_bad rc0); [vm_compute; split; [discriminate|reflexivity]|].
    unfold rc0, acert. rewrite root_read by exact LO. destruct (sp_find st root) as [[m d]|]; [|vm_compute; split; [discriminate|reflexivity]].
    destruct (max_cert <? length d); [vm_compute; split; [discriminate|reflexivity]|]. destruct (length d =? 0); [vm_compute; split; [discriminate|reflexivity]|].
    change (is_ok OK) with true. cbn [negb]. specialize (IP d). destruct (parse d) as [q [k|]]; cbn [fst] in IP; destruct (is_ok q); cbn [negb]; auto. vm_compute; split; [discriminate|reflexivity].
  - rewrite told_ok by exact SO. apply acert_ok. exact LO.
  - intros F. unfold rc0, acert. rewrite root_read by exact LO. rewrite F. change (is_ok NOTFOUND) with false. cbn [negb]. unfold told_code. rewrite SN. reflexivity.
  - intros m d k F R P S. unfold rc0, acert. rewrite root_read by exact LO. rewrite F. replace (max_cert <? length d) with false by (symmetry; apply Nat.ltb_ge; lia).
    replace (length d =? 0) with false by (symmetry; apply Nat.eqb_neq; lia). change (is_ok OK) with true. cbn [negb]. rewrite P. change (is_ok OK) with true. cbn [negb]. unfold told_code. rewrite S. reflexivity.
Qed.
Print Assumptions C99_verdict.

(** Whatever fails on the way, no caller is told OK: with any link, if *out_rc is
    OK then the buffer was mapped by both sides, the lock granted, and the
    certificate accepted. *)
Theorem C99_told_only_accepted DL max_cert Key parse check sig_bad sb cb want c (L : dlink) mem st cert root :
  44 <= DL -> (N.of_nat DL < 65536)%N -> aargs_ok c -> (dl_addr L < 2 ^ 64)%N -> names (dl_addr L) mem c cert root -> lens_ok st ->
  sig_bad OK = false -> (forall d, i32 (fst (parse d))) -> (forall d k, i32 (check d k)) -> i32 (dl_dma L) -> i32 (dl_lock L) ->
  co_rc (acert_call DL max_cert Key parse check sig_bad sb cb want c L mem st) = Some OK ->
  ~ arefused DL want c /\ accepted max_cert parse check st cert root.
Proof.
  intros H1 H2 A U NM LO SO IP IC ID IL. unfold acert_call. destruct (achecked DL want c) eqn:CK; cbn [negb]; [|discriminate].
  assert (NR : ~ arefused DL want c).
  { intros F. assert (achecked DL want c = false) as G; [|rewrite G in CK; discriminate]. apply arefused_iff. destruct F as [F|F]; [auto|right]. destruct c; auto.
    destruct F as [F|[F|F]]; auto. right; right. lia. }
  destruct (match c with AMem _ _ => negb (is_ok (dl_pre L)) | APkt _ _ => false end); [discriminate|].
  destruct (negb (is_ok (dl_send L))); [discriminate|]. rewrite (surjective_pairing (apacket cb (dl_addr L) c)).
  set (p := snd (apacket cb (dl_addr L) c)). destruct (negb (is_ok (dl_recv L))); [discriminate|].
  assert (LP8 : 8 <= length p).
  { unfold p. destruct c; cbn [apacket snd]; rewrite !app_length, wire_length, ?repeat_length; cbn [map fst]; unfold sum; cbn [fold_right]; lia. }
  set (buf := p ++ skipn (length p) (dl_buf L)). assert (LB : 8 <= length buf) by (unfold buf; rewrite app_length; lia).
  assert (CODE : forall rc, i32 rc -> co_rc (got_simple cb want (simple sb cb rc buf)) = Some OK -> rc = OK).
  { intros rc I E. rewrite simple_read in E by auto. cbn [co_rc] in E. destruct want; [|discriminate]. injection E as ->. reflexivity. }
  assert (IA : i32 (acert max_cert Key parse check st cert root)).
  { unfold acert. rewrite root_read by exact LO. destruct (sp_find st root) as [[m d]|]; [|vm_compute; split; [discriminate|reflexivity]].
    destruct (max_cert <? length d); [vm_compute; split; [discriminate|reflexivity]|]. destruct (length d =? 0); [vm_compute; split; [discriminate|reflexivity]|].
    change (is_ok OK) with true. cbn [negb]. specialize (IP d). destruct (parse d) as [q [k|]]; cbn [fst] in IP; destruct (is_ok q); cbn [negb]; auto. vm_compute; split; [discriminate|reflexivity]. }
  assert (IT : forall rc, i32 rc -> i32 (told_code sig_bad rc)) by (intros rc I; unfold told_code; destruct (sig_bad rc); [vm_compute; split; [discriminate|reflexivity]|exact I]).
  destruct (is_ok (dl_dma L)) eqn:ED.
  - apply Z.eqb_eq in ED. destruct (aserved DL max_cert Key parse check sig_bad sb cb want c L mem st cert root (skipn (length p) (dl_buf L)) H2 A U CK NM ED) as [LP SV].
    cbv zeta in SV. fold p in SV. fold buf in SV. rewrite SV. intros E. split; [exact NR|]. destruct (is_ok (dl_lock L)) eqn:EL.
    + apply CODE in E; [|auto]. apply told_ok in E; [|exact SO]. apply acert_ok in E; auto.
    + apply CODE in E; [|auto]. apply told_ok in E; [|exact SO]. rewrite E in EL. discriminate.
  - (* a packet needs no mapping by the server; a buffer does *)
    destruct c as [cert' root'|len root'].
    + pose (L' := mkDl (dl_pre L) (dl_addr L) (dl_send L) (dl_recv L) (dl_post L) OK (dl_lock L) (dl_buf L)).
      destruct (aserved DL max_cert Key parse check sig_bad sb cb want (APkt cert' root') L' mem st cert root (skipn (length p) (dl_buf L)) H2 A U CK NM eq_refl) as [LP SV].
      cbv zeta in SV. change (dl_addr L') with (dl_addr L) in SV. fold p in SV. fold buf in SV.
      change (aserve max_cert Key parse check sig_bad sb cb L' mem st (fst (apacket cb (dl_addr L) (APkt cert' root'))) (length p) buf)
        with (aserve max_cert Key parse check sig_bad sb cb L mem st (fst (apacket cb (dl_addr L) (APkt cert' root'))) (length p) buf) in SV.
      change (dl_lock L') with (dl_lock L) in SV. rewrite SV. intros E. split; [exact NR|]. destruct (is_ok (dl_lock L)) eqn:EL.
      * apply CODE in E; [|auto]. apply told_ok in E; [|exact SO]. apply acert_ok in E; auto.
      * apply CODE in E; [|auto]. apply told_ok in E; [|exact SO]. rewrite E in EL. discriminate.
    + cbn [apacket fst snd] in *. unfold aserve. change (N.eqb 39 38) with false. change (N.eqb 39 39) with true. cbv iota zeta.
      assert (LP : length p = 24) by (unfold p; rewrite app_length, wire_length, repeat_length; reflexivity). rewrite LP. change (negb (24 =? 24)) with false. cbv iota. rewrite ED. cbn [negb].
      intros E. apply CODE in E; [|auto]. rewrite E in ED. discriminate.
Qed.
Print Assumptions C99_told_only_accepted.

(** A call the client refuses, whose buffer cannot be mapped, or that is not sent
    tells its code and writes no verdict. *)
Theorem C99_no_verdict DL max_cert Key parse check sig_bad sb cb want c (L : dlink) mem st :
  44 <= DL -> let call := acert_call DL max_cert Key parse check sig_bad sb cb want c L mem st in
  (arefused DL want c -> call = failed BADARGS) /\
  (~ arefused DL want c -> (forall len root, c = AMem len root -> dl_pre L <> OK -> call = failed (dl_pre L)) /\
    (dl_pre L = OK -> dl_send L <> OK -> call = failed (dl_send L)) /\
    (dl_pre L = OK -> dl_send L = OK -> dl_recv L <> OK -> call = failed (dl_recv L))).
Proof.
  intros H1 call. assert (RI : achecked DL want c = false <-> arefused DL want c).
  { rewrite arefused_iff. unfold arefused. destruct c; [|tauto]. assert (DL - 8 < length cert <-> DL < 8 + length cert) by lia. tauto. }
  unfold call, acert_call. split; [intros F; apply RI in F; rewrite F; reflexivity|]. intros F. destruct (achecked DL want c); [|tauto]. cbn [negb]. split; [|split].
  - intros len root -> G. apply Z.eqb_neq in G. unfold is_ok. rewrite G. reflexivity.
  - intros G H. rewrite G. apply Z.eqb_neq in H. unfold is_ok. rewrite H. destruct c; reflexivity.
  - intros G H V. rewrite G, H. apply Z.eqb_neq in V. unfold is_ok. rewrite V. destruct c; reflexivity.
Qed.
Print Assumptions C99_no_verdict.

(** For every packet, of any size and content: if the server's reply says OK, the
    certificate it accepted lies in the received bytes or in the client's buffer at
    the received address, never in what earlier packets left behind. *)
Theorem C99_any_packet max_cert Key parse check sig_bad sb cb (L : dlink) mem st a n buf :
  lens_ok st -> sig_bad OK = false -> i32 (dl_dma L) -> i32 (dl_lock L) -> (forall d, i32 (fst (parse d))) -> (forall d k, i32 (check d k)) ->
  8 <= length buf -> n <= length buf ->
  co_rc (got_simple cb true (aserve max_cert Key parse check sig_bad sb cb L mem st a n buf)) = Some OK ->
  exists cert root, accepted max_cert parse check st cert root /\
    (a = 38%N /\ (exists x y, firstn n buf = x ++ cert ++ y /\ length x = 8) \/ a = 39%N /\ n = 24 /\ exists at_ len, cert = rd at_ len mem).
Proof.
  intros LO SO ID IL IP IC LB LN.
  assert (CODE : forall rc, i32 rc -> co_rc (got_simple cb true (simple sb cb rc buf)) = Some OK -> rc = OK).
  { intros rc I E. rewrite simple_read in E by auto. cbn [co_rc when] in E. injection E as ->. reflexivity. }
  assert (IA : forall cert root, i32 (acert max_cert Key parse check st cert root)).
  { intros cert root. unfold acert. rewrite root_read by exact LO. destruct (sp_find st root) as [[m d]|]; [|vm_compute; split; [discriminate|reflexivity]].
    destruct (max_cert <? length d); [vm_compute; split; [discriminate|reflexivity]|]. destruct (length d =? 0); [vm_compute; split; [discriminate|reflexivity]|].
    change (is_ok OK) with true. cbn [negb]. specialize (IP d). destruct (parse d) as [q [k|]]; cbn [fst] in IP; destruct (is_ok q); cbn [negb]; auto. vm_compute; split; [discriminate|reflexivity]. }
  assert (IT : forall rc, i32 rc -> i32 (told_code sig_bad rc)) by (intros rc I; unfold told_code; destruct (sig_bad rc); [vm_compute; split; [discriminate|reflexivity]|exact I]).
  assert (VD : forall cert root, co_rc (got_simple cb true (simple sb cb (told_code sig_bad (if is_ok (dl_lock L) then acert max_cert Key parse check st cert root else dl_lock L)) buf)) = Some OK ->
    accepted max_cert parse check st cert root).
  { intros cert root E. destruct (is_ok (dl_lock L)) eqn:EL; apply CODE in E; auto; apply told_ok in E; auto; [apply acert_ok in E; auto|rewrite E in EL; discriminate]. }
  unfold aserve. destruct (N.eqb_spec a 38) as [->|].
  - destruct (Nat.ltb_spec n 8); [intros E; apply CODE in E; [discriminate|vm_compute; split; [discriminate|reflexivity]]|]. cbv zeta.
    set (len := fld 0 (take sb cb [4; 2] buf)). destruct (N.ltb_spec (N.of_nat (n - 8)) len); [intros E; apply CODE in E; [discriminate|vm_compute; split; [discriminate|reflexivity]]|].
    intros E. apply VD in E. do 2 eexists. split; [exact E|]. left. split; auto.
    exists (firstn 8 buf), (skipn (N.to_nat len) (skipn 8 (firstn n buf))). split; [|rewrite firstn_length; lia].
    rewrite <- (rd_first 8 (N.to_nat len) n) by lia. unfold rd. rewrite firstn_skipn.
    replace (firstn 8 buf) with (firstn 8 (firstn n buf)) by (rewrite firstn_firstn, Nat.min_l by lia; reflexivity). symmetry. apply firstn_skipn.
  - destruct (N.eqb_spec a 39) as [->|]; [|discriminate]. destruct (Nat.eqb_spec n 24); cbn [negb]; [|intros E; apply CODE in E; [discriminate|vm_compute; split; [discriminate|reflexivity]]].
    cbv zeta. destruct (is_ok (dl_dma L)) eqn:ED; cbn [negb]; [|intros E; apply CODE in E; [rewrite E in ED; discriminate|auto]].
    intros E. apply VD in E. do 2 eexists. split; [exact E|]. right. repeat split; auto. eauto.
Qed.
Print Assumptions C99_any_packet.

(** ** Cases *)
Definition ex_parse (d : list N) : Z * option N := match d with 48%N :: k :: _ => (OK, Some k) | 49%N :: _ => (OK, None) | _ => ((-140)%Z, None) end.
Definition ex_check (cert : list N) (k : N) : Z := if N.eqb (nth 0 cert 0%N) k then OK else (-155)%Z.
Definition ex_bad (z : Z) : bool := Z.eqb z (-155).
Definition ex_store : store := [(mkMeta 258 0 0 2 [], [48; 7]%N)].
Definition ex_l : dlink := mkDl OK 2 OK OK OK OK OK (repeat 255%N 64).
Example C99_case :
  let call c := acert_call 64 8 N ex_parse ex_check ex_bad true false true c ex_l [1; 1; 7; 5; 1]%N ex_store in
  ~ arefused 64 true (APkt [7; 9]%N 258) /\ lens_ok ex_store /\ names 2 [1; 1; 7; 5; 1]%N (AMem 2 258) [7; 5]%N 258 /\
  co_rc (call (APkt [7; 9]%N 258)) = Some OK /\ co_rc (call (APkt [8; 9]%N 258)) = Some CERT_VERIFY /\
  co_rc (call (APkt [7; 9]%N 259)) = Some NOTFOUND /\ co_rc (call (AMem 2 258)) = Some OK.
Proof.
  cbv zeta. split; [|split; [|split]].
  - intros [H|[H|[H|H]]]; try discriminate. cbn in H. lia.
  - intros id m d. unfold ex_store. cbn [sp_find]. destruct (N.eqb _ id); [|discriminate]. intros [= <- <-]. reflexivity.
  - cbn. repeat split. exists [1; 1]%N, [1]%N. split; reflexivity.
  - vm_compute. repeat split.
Qed.
Example C99_no_verdict_case : arefused 64 true (APkt [] 3) /\ arefused 64 false (AMem 2 3).
Proof. split; [right; auto|left; auto]. Qed.
