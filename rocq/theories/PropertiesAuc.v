(** C93: the client's authentication calls on bytes. *)
From Verif Require Import Base BaseLemmas NvmSpec ServerModel Store EndianModel KdfModel KsReq NvcModel NvcSpec AuthModel AuthCodec AuthRep AuthEff AuthSys AuthSpec AuthInv PropertiesAuth AucModel AucSpec AucCode AucProof.

(** Everything below is for any configuration of the server, any hash function and
    signature check, both byte orders of both sides, any packet size. *)
Section C93.
Variables (nvm crypto certs : bool) (sha : list N -> list N) (verify : list N -> list N -> bool).
Variables (max_read : nat) (have_st : bool) (SD : nat) (sb : bool).
Hypothesis sha_len : forall l, length (sha l) = 32.
Hypothesis SD_max : (N.of_nat SD < 65536)%N.
Notation boot := (auth_boot nvm crypto certs sha verify max_read have_st).
Notation step := (auth_step nvm crypto certs sha verify max_read have_st).
Notation run := (auth_run nvm crypto certs sha verify max_read have_st).
Notation brun := (bev_run nvm crypto certs sha verify max_read have_st SD sb).
Notation call CD cb := (acall_do nvm crypto certs sha verify CD SD sb cb true).

Lemma boot_sound st : factory st -> sound nvm (boot st).
Proof.
  intros F. destruct (start nvm crypto certs sha verify max_read have_st st F) as (U & G & _). split; auto. eauto.
Qed.

(** The history of a server whose clients make these calls is a history of the
    requests they mean: what bytes were left in packets does not matter. *)
Theorem C93_history : forall st bs, factory st -> Forall (bev_ok SD) bs ->
  exists evs, means bs evs /\ Forall ev_wf evs /\ brun bs (boot st) = snd (run evs (boot st)).
Proof using sha_len SD_max.
  intros st bs F B. destruct (history nvm crypto certs sha verify max_read have_st SD sb sha_len SD_max bs B _ (boot_sound st F)) as (evs & M & W & R & _).
  exists evs. auto.
Qed.

(** In any such history every call either is refused for its arguments, or is not
    sent, or is what it means: the server does the request, and the answer is what
    the caller gets. *)
Theorem C93_call : forall st bs CD cb c k e L o bufs Y', factory st -> Forall (bev_ok SD) bs -> bev_ok SD (BCall CD cb c k e L) ->
  let Y := brun bs (boot st) in
  call CD cb c k e L Y = ((o, bufs), Y') ->
  (exists code, refused CD k code /\ silent k false code o /\ Y' = Y) \/
  (forall code, ~ refused CD k code) /\ l_send L <> OK /\ silent k false (l_send L) o /\ Y' = Y \/
  (forall code, ~ refused CD k code) /\ l_send L = OK /\
  exists r, step (EReq c e (meaning k)) Y = (Some r, Y') /\
    (l_recv L = OK -> reported k r o) /\ (l_recv L <> OK -> silent k true (l_recv L) o).
Proof using sha_len SD_max.
  intros st bs CD cb c k e L o bufs Y' F B (B1 & B2 & B3 & B4) Y E.
  destruct (history nvm crypto certs sha verify max_read have_st SD sb sha_len SD_max bs B _ (boot_sound st F)) as (_ & _ & _ & _ & S & _).
  apply (call_does nvm crypto certs sha verify CD SD sb cb B1 B2 SD_max max_read have_st c k e L Y o bufs Y' B3 B4 (sound_users nvm _ S) E).
Qed.

(** A login call that reports success has presented what matches the credential
    last set for the user of that name, and the client's session is that user's. *)
Theorem C93_login : forall st bs CD cb c m name data e L o bufs Y', factory st -> Forall (bev_ok SD) bs -> Forall bev_cred bs ->
  bev_ok SD (BCall CD cb c (UcLogin m name data) e L) ->
  call CD cb c (UcLogin m name data) e L (brun bs (boot st)) = ((o, bufs), Y') -> ao_out o = Some OK ->
  ao_rc o = OK /\
  exists evs id p cred, means bs evs /\ ao_id o = Some id /\
    describes nvm crypto certs sha verify max_read have_st evs (boot st) no_users id = Some (name, p, Some (m, cred)) /\
    matches crypto sha verify m cred data /\ as_sess Y' c = mkSess id p.
Proof using sha_len SD_max.
  intros st bs CD cb c m name data e L o bufs Y' F B BC BK E HO.
  destruct (history nvm crypto certs sha verify max_read have_st SD sb sha_len SD_max bs B _ (boot_sound st F)) as (evs & M & W & R & S & HC).
  destruct (C93_call st bs CD cb c _ e L o bufs Y' F B BK E) as [(code & _ & (_ & H & _) & _)|[(_ & _ & (_ & H & _) & _)|(NR & _ & r & ES & H1 & H2)]];
    [rewrite HO in H; discriminate H..|].
  destruct (Z.eq_dec (l_recv L) OK) as [RO|RO].
  2:{ destruct (H2 RO) as (_ & H & _). rewrite HO in H. discriminate H. }
  destruct (H1 RO) as (A1 & A2 & A3 & _). split; auto. exists evs, (ar_id r).
  assert (RR : ar_rc r = OK) by congruence. clear A2.
  rewrite R in ES. cbn [meaning] in ES.
  destruct (C35_login nvm crypto certs sha verify max_read have_st sha_len st evs c e m name data r F W (HC BC)) as (p & cred & D1 & D2 & D3); auto.
  { rewrite ES. reflexivity. }
  exists p, cred. split; auto. split; auto. rewrite ES in D3. cbn [snd] in D3. split; auto.
  replace name with (uname name) at 1; auto.
  assert (LN : length name <= 31).
  { destruct (Nat.le_gt_cases (length name) 31); auto. exfalso. apply (NR BADARGS). cbn [refused]. unfold bad_name. auto. }
  destruct BK as (_ & _ & (_ & CN) & _). unfold uname. rewrite firstn_all2 by auto. clear - CN.
  induction CN as [|b n Hb Hn IH]; [reflexivity|]. cbn [cstr]. destruct (N.eqb_spec b 0); [lia|]. now f_equal.
Qed.

(** The credentials of a call that is not refused are not left in the client's
    packet buffer, and not in the server's when the request was authorised. *)
Theorem C93_wiped : forall st bs CD cb c k e L o cbuf sbuf Y', factory st -> Forall (bev_ok SD) bs -> bev_ok SD (BCall CD cb c k e L) ->
  (forall code, ~ refused CD k code) ->
  let Y := brun bs (boot st) in
  call CD cb c k e L Y = ((o, (cbuf, sbuf)), Y') ->
  gone k cbuf /\ (l_send L = OK -> ae_lock e = OK -> may_use (as_sess Y c) GROUP_AUTH (uaction k) -> gone k sbuf).
Proof using sha_len SD_max.
  intros st bs CD cb c k e L o cbuf sbuf Y' F B (B1 & B2 & B3 & B4) NR Y E.
  destruct (history nvm crypto certs sha verify max_read have_st SD sb sha_len SD_max bs B _ (boot_sound st F)) as (_ & _ & _ & _ & S & _).
  destruct (call_wipes nvm crypto certs sha verify CD SD sb cb B1 B2 SD_max max_read have_st c k e L Y o cbuf sbuf Y' B3 B4 (sound_users nvm _ S) NR E) as [G1 G2].
  split; auto. intros LS EL MU. apply G2; auto. { apply S. } apply is_ok_iff. apply check_request_spec. auto.
Qed.
End C93.
Print Assumptions C93_history.
Print Assumptions C93_call.
Print Assumptions C93_login.
Print Assumptions C93_wiped.

(** Whatever packet comes back: the caller has an answer exactly when the call
    returns OK, a login is reported only from a packet of the length of its answer,
    and a login call that has no success to report names no user. *)
Theorem C93_any_reply : forall cb k p, let o := aresponse cb k p in
  (ao_rc o = OK <-> exists rc, ao_out o = Some rc) /\
  match k with
  | UcLogin _ _ _ => (ao_out o = Some OK -> length p = 8) /\ (length p <> 8 -> ao_id o = Some 0%N)
  | UcAdd _ _ _ _ => length p <> 8 -> ao_rc o = ABORTED /\ ao_id o = None
  | UcGet _ => length p <> 480 -> ao_rc o = ABORTED /\ ao_id o = None /\ ao_perm o = None
  | _ => length p <> 4 -> ao_rc o = ABORTED
  end.
Proof.
  intros cb k p. cbv zeta. unfold aresponse, Z_IDRESP, Z_GETRESP.
  assert (HA : ABORTED <> OK) by discriminate.
  assert (T : forall x : Z, OK = OK <-> exists rc, Some x = Some rc) by (intros x; split; eauto).
  assert (U : ABORTED = OK <-> exists rc : Z, None = Some rc) by (split; [intros; contradiction|intros [x H]; discriminate H]).
  destruct k; cbv zeta.
  - destruct (Nat.eqb_spec (length p) 8) as [E8|E8]; cbn [negb]; cbn [ao_rc ao_out ao_id].
    + split; auto. split; auto. intros; contradiction.
    + destruct (length p =? 4) eqn:E4; cbn [andb].
      * destruct (is_ok (code_of cb p)) eqn:EC; cbn [negb ao_rc ao_out ao_id].
        { split; auto. split; auto. discriminate. }
        split; auto. split; auto. intros H. injection H as H. apply is_ok_false in EC. contradiction.
      * cbn [ao_rc ao_out ao_id]. split; auto. split; auto. discriminate.
  - destruct (Nat.eqb_spec (length p) 4); cbn [negb ao_rc ao_out ao_id ao_perm]; split; auto; intros; contradiction.
  - destruct (Nat.eqb_spec (length p) 8); cbn [negb ao_rc ao_out ao_id ao_perm]; split; auto; intros; contradiction.
  - destruct (Nat.eqb_spec (length p) 4); cbn [negb ao_rc ao_out ao_id ao_perm]; split; auto; intros; contradiction.
  - destruct (Nat.eqb_spec (length p) 480); cbn [negb ao_rc ao_out ao_id ao_perm]; split; auto; intros; contradiction.
  - destruct (Nat.eqb_spec (length p) 4); cbn [negb ao_rc ao_out ao_id ao_perm]; split; auto; intros; contradiction.
  - destruct (Nat.eqb_spec (length p) 4); cbn [negb ao_rc ao_out ao_id ao_perm]; split; auto; intros; contradiction.
Qed.
Print Assumptions C93_any_reply.

(** A server without an authentication context answers "not enabled" to every
    call, but two calls cannot read that answer: they return ABORTED, and the
    caller learns no reason. *)
Theorem C93_unconfigured_refuted : forall nvm crypto certs sha verify CD SD sb cb c k e L Y,
  510 <= CD -> CD <= SD -> (N.of_nat SD < 65536)%N -> (forall code, ~ refused CD k code) -> acall_ok k -> l_send L = OK -> l_recv L = OK ->
  let x := acall_do nvm crypto certs sha verify CD SD sb cb false c k e L Y in
  let o := fst (fst x) in snd x = Y /\
  match k with
  | UcAdd _ _ _ _ | UcGet _ => ao_rc o = ABORTED /\ ao_out o = None
  | _ => ao_rc o = OK /\ ao_out o = Some NOT_ENABLED
  end.
Proof.
  intros nvm crypto certs sha verify CD SD sb cb c k e L Y H1 H2 H3 NR OKk S R. cbv zeta. unfold acall_do.
  destruct (request_sent nvm crypto certs sha verify CD SD sb cb H1 H2 H3 (l_cbuf L) k OKk NR) as (p & -> & _).
  rewrite S, R. change (is_ok OK) with true. unfold aserve. cbn [negb fst snd].
  assert (CR : code_of cb (give sb cb [(4, rc_n NOT_ENABLED)]) = NOT_ENABLED).
  { pose proof (code_round CD SD sb cb H1 H2 H3 NOT_ENABLED []) as X. rewrite app_nil_r in X. apply X. unfold i32, NOT_ENABLED. lia. }
  split; [reflexivity|]. unfold aresponse. rewrite (give4 sb cb). unfold Z_IDRESP, Z_GETRESP.
  destruct k; cbn [Nat.eqb negb andb]; rewrite ?CR; auto.
Qed.
Print Assumptions C93_unconfigured_refuted.

(** A request that the authorization check refuses is not parsed, and nothing
    clears it: every byte of the credentials stays in the server's packet buffer. *)
Theorem C93_refused_keeps_refuted : forall nvm crypto certs sha verify CD SD sb cb c k e L Y o cbuf sbuf Y',
  510 <= CD -> CD <= SD -> (N.of_nat SD < 65536)%N -> (forall code, ~ refused CD k code) -> acall_ok k -> l_send L = OK ->
  ~ (ae_lock e = OK /\ may_use (as_sess Y c) GROUP_AUTH (uaction k)) ->
  acall_do nvm crypto certs sha verify CD SD sb cb true c k e L Y = ((o, (cbuf, sbuf)), Y') ->
  forall i, i < length (secrets k) -> nth (secret_at k + i) sbuf 0%N = nth i (secrets k) 0%N.
Proof.
  intros nvm crypto certs sha verify CD SD sb cb c k e L Y o cbuf sbuf Y' H1 H2 H3 NR OKk S NU E i Hi. revert E. unfold acall_do.
  destruct (request_sent nvm crypto certs sha verify CD SD sb cb H1 H2 H3 (l_cbuf L) k OKk NR) as (p & -> & LP & LS & SE & _).
  rewrite S. change (is_ok OK) with true. unfold aserve. cbn [negb].
  replace (is_ok (check_request (ae_lock e) (as_sess Y c) GROUP_AUTH (uaction k))) with false.
  2:{ symmetry. apply is_ok_false. intros K. apply check_request_spec in K. contradiction. }
  rewrite Bool.orb_true_r. set (resp := areply _ _ _ _ _). set (buf := p ++ _).
  assert (NB : nth (secret_at k + i) (resp ++ skipn (length resp) buf) 0%N = nth i (secrets k) 0%N).
  { pose proof (reply_short sha verify CD SD sb cb H1 H2 H3 k (arc PERMISSION_ERROR) buf perms_zero_wf) as RS.
    rewrite (over_nth sha verify CD SD H1 H2 H3); [unfold buf; rewrite app_nth1 by lia; auto|]. change (areply sb cb (uaction k) (arc PERMISSION_ERROR) buf) with resp in RS. assert (0 < length (secrets k)) as P by lia. specialize (RS P). lia. }
  destruct (is_ok (l_recv L)); cbn [negb]; intros E; injection E as _ _ <- _; exact NB.
Qed.
Print Assumptions C93_refused_keeps_refuted.

Lemma rd_same i k n (b b' : list N) : firstn n b = firstn n b' -> i + k <= n -> rd i k b = rd i k b'.
Proof.
  intros H L. unfold rd. assert (E : forall l : list N, firstn k (skipn i l) = firstn k (skipn i (firstn n l))).
  { intros l. rewrite skipn_firstn_comm, firstn_firstn. f_equal. lia. }
  rewrite (E b), (E b'), H. reflexivity.
Qed.
Lemma u16_rd sb cb i (b : list N) : fld 0 (take sb cb [2] (skipn i b)) = fld 0 (take sb cb [2] (rd i 2 b)).
Proof.
  unfold rd. generalize (skipn i b). intros l. destruct l as [|x [|y r]]; reflexivity.
Qed.
(** What the server makes of a packet is decided by the bytes that were received:
    nothing an earlier packet left behind them in the buffer is taken for a name, a
    credential or permissions, however short the packet is and whatever lengths it
    claims; only the padding of an answer can be such bytes. *)
Theorem C93_only_packet : forall nvm crypto certs sha verify SD sb cb c e a n buf buf' Y,
  (N.of_nat SD < 65536)%N -> n <= SD -> firstn n buf = firstn n buf' ->
  let x := aserve nvm crypto certs sha verify SD sb cb true c e a n buf Y in
  let x' := aserve nvm crypto certs sha verify SD sb cb true c e a n buf' Y in
  snd x = snd x' /\
  exists ans pad pad', fst (fst x) = ans ++ pad /\ fst (fst x') = ans ++ pad' /\ length pad = length pad' /\ length pad <= 2.
Proof.
  intros nvm crypto certs sha verify SD sb cb c e a n buf buf' Y HS HN HE. cbv zeta.
  assert (PA : forall r b b', exists ans pad pad', areply sb cb a r b = ans ++ pad /\ areply sb cb a r b' = ans ++ pad' /\ length pad = length pad' /\ length pad <= 2).
  { intros r b b'. assert (Q : forall x k, k <= 2 -> exists ans pad pad' : list N, x ++ exactly k (skipn 6 b) = ans ++ pad /\ x ++ exactly k (skipn 6 b') = ans ++ pad' /\ length pad = length pad' /\ length pad <= 2).
    { intros x k Hk. exists x, (exactly k (skipn 6 b)), (exactly k (skipn 6 b')). repeat split; rewrite ?exactly_len; auto. }
    assert (Z : forall x : list N, exists ans pad pad' : list N, x = ans ++ pad /\ x = ans ++ pad' /\ length pad = length pad' /\ length pad <= 2).
    { intros x. exists x, [], []. rewrite app_nil_r. repeat split. auto. }
    unfold areply. destruct (N.eqb a 0); [apply Q; auto|]. destruct (N.eqb a 2); [apply Q; auto|].
    destruct (N.eqb a 4); [|destruct (a <=? 6)%N; apply Z].
    eexists (_ ++ _), (exactly 1 (skipn 479 b)), (exactly 1 (skipn 479 b')). split; [rewrite <- app_assoc; reflexivity|]. split; [rewrite <- app_assoc; reflexivity|]. rewrite !exactly_len. auto. }
  assert (U : forall i, i + 2 <= n -> fld 0 (take sb cb [2] (skipn i buf)) = fld 0 (take sb cb [2] (skipn i buf'))).
  { intros i Hi. rewrite (u16_rd sb cb i buf), (u16_rd sb cb i buf'), (rd_same i 2 n buf buf') by auto. reflexivity. }
  assert (R : forall i k, i + k <= n -> rd i k buf = rd i k buf') by (intros i k; now apply rd_same).
  assert (W : forall k, (k < 65536)%N -> u16s k = k) by (intros k Hk; unfold u16s; now apply N.mod_small).
  assert (AP : aparse SD sb cb a n buf = aparse SD sb cb a n buf').
  { unfold aparse, Z_LOGIN, Z_ADD, Z_GET, Z_PERM, Z_CRED. change FLAT_LEN with 473.
    destruct (N.eqb a 0).
    { destruct (Nat.ltb_spec n 36); [reflexivity|]. rewrite (U 34), (U 0) by lia. set (len := fld 0 (take sb cb [2] (skipn 34 buf'))).
      destruct (N.ltb_spec (N.of_nat (SD - 36)) len) as [C1|C1]; cbn [orb]; [reflexivity|]. rewrite W by lia.
      destruct (N.ltb_spec (N.of_nat n) (N.of_nat 36 + len)) as [C2|C2]; [reflexivity|]. rewrite (R 2 32), (R 36 (N.to_nat len)) by lia. reflexivity. }
    destruct (N.eqb a 1).
    { destruct (Nat.eqb_spec n 4); cbn [negb]; [|reflexivity]. rewrite (U 0) by lia. reflexivity. }
    destruct (N.eqb a 2).
    { destruct (Nat.ltb_spec n 510); [reflexivity|]. rewrite (U 508), (U 506) by lia. set (len := fld 0 (take sb cb [2] (skipn 508 buf'))).
      destruct (N.ltb_spec (N.of_nat (SD - 510)) len) as [C1|C1]; cbn [orb]; [reflexivity|]. rewrite W by lia.
      destruct (N.ltb_spec (N.of_nat n) (N.of_nat 510 + len)) as [C2|C2]; [reflexivity|]. rewrite (R 0 32), (R 32 473), (R 510 (N.to_nat len)) by lia. reflexivity. }
    destruct (N.eqb a 3).
    { destruct (Nat.eqb_spec n 4); cbn [negb]; [|reflexivity]. rewrite (U 0) by lia. reflexivity. }
    destruct (N.eqb a 4).
    { destruct (Nat.eqb_spec n 34); cbn [negb]; [|reflexivity]. rewrite (R 0 32) by lia. reflexivity. }
    destruct (N.eqb a 5).
    { destruct (Nat.eqb_spec n 476); cbn [negb]; [|reflexivity]. rewrite (U 0), (R 2 473) by lia. reflexivity. }
    destruct (N.eqb a 6); [|reflexivity].
    destruct (Nat.ltb_spec n 8); [reflexivity|]. rewrite (U 0), (U 2), (U 4), (U 6) by lia.
    set (l1 := fld 0 (take sb cb [2] (skipn 4 buf'))). set (l2 := fld 0 (take sb cb [2] (skipn 6 buf'))).
    pose proof (Nat.div_mod (SD - 8) 2 ltac:(lia)) as DM.
    destruct (N.ltb_spec (N.of_nat ((SD - 8) / 2)) l1) as [C1|C1]; [reflexivity|].
    destruct (N.ltb_spec (N.of_nat ((SD - 8) / 2)) l2) as [C2|C2]; [reflexivity|].
    assert (SM : (N.of_nat 8 + l1 + l2 < 65536)%N) by lia. rewrite W by auto.
    destruct (N.ltb_spec (N.of_nat n) (N.of_nat 8 + l1 + l2)) as [C3|C3]; [reflexivity|].
    rewrite (R 8 (N.to_nat l1)), (R (8 + N.to_nat l1) (N.to_nat l2)) by lia. reflexivity. }
  unfold aserve. cbn [negb]. destruct (negb (as_up Y) || _); [split; [reflexivity|apply PA]|].
  rewrite AP. destruct (aparse SD sb cb a n buf') as [rc|[q w]]; [split; [reflexivity|apply PA]|].
  destruct (auth_handle nvm crypto certs sha verify e q (as_sess Y c) (as_db Y)) as [[r s1] D1]. split; [reflexivity|apply PA].
Qed.
Print Assumptions C93_only_packet.

(** ** A run on bytes *)
Module AucDemo.
Import Demo.
Notation call := (acall_do true true true sha verify 1280 1280 true false true).
Definition L : alink := mkAl OK OK [] [].
Definition login (c : nat) (n d : list N) : bev := BCall 1280 false c (UcLogin METHOD_PIN n d) e L.
(** The first user is added by the server's own code; a little endian client logs
    in as it, adds a second user, and a second client logs in as that. *)
Definition bs : list bev :=
  [BOther (EAdd e adm padm METHOD_PIN [1; 2; 3; 4]%N); login 0 adm [1; 2; 3; 4]%N;
   BCall 1280 false 0 (UcAdd bob pusr METHOD_PIN [5; 6]%N) e L; login 1 eve [5; 6]%N; BCall 1280 false 1 (UcLogin METHOD_PIN [] []) e L].
Notation Y := (bev_run true true true sha verify 1024 true 1280 true bs boot).
Lemma e_ok : aenv_ok e.
Proof. unfold aenv_ok, i32, e; cbn [ae_lock ae_rd ae_w1 ae_w2 ae_w3]; unfold OK. lia. Qed.
Lemma bob_ok : cname bob /\ cname adm /\ cname eve.
Proof. unfold cname, bob, adm, eve. repeat split; repeat constructor. Qed.
Example bs_ok : Forall (bev_ok 1280) bs /\ Forall bev_cred bs.
Proof.
  destruct pusr_wf as [W1 W2]. destruct bob_ok as (C1 & C2 & C3). pose proof e_ok as E.
  assert (M : u16 METHOD_PIN) by reflexivity. assert (H1 : 510 <= 1280) by (apply Nat.leb_le; reflexivity). pose proof (Nat.le_refl 1280) as H2.
  assert (K : forall c k, acall_ok k -> bev_ok 1280 (BCall 1280 false c k e L)) by (intros c k A; cbn [bev_ok]; auto).
  split; unfold bs, login.
  - constructor; [destruct setup_wf as [X _]; inversion X; assumption|].
    constructor; [apply K; split; assumption|]. constructor; [apply K; split; [|split]; assumption|].
    constructor; [apply K; split; assumption|]. constructor; [apply K; split; [assumption|constructor]|]. constructor.
  - repeat constructor; discriminate.
Qed.
(** The second login is reported with user id 2 to client 1, whose session has bob's
    permissions; a wrong credential is not; the calls wipe what they carried. *)
Example runs :
  (fst (fst (call 1%nat (UcLogin METHOD_PIN bob [5; 6]%N) e L Y)) = mkAo OK (Some OK) (Some 2%N) None) /\
  (ao_out (fst (fst (call 1%nat (UcLogin METHOD_PIN bob [5; 7]%N) e L Y))) <> Some OK) /\
  (map (fun c => u_id (as_sess Y c)) [0; 1] = [1; 0]%N) /\
  let x := call 0%nat (UcGet bob) e L Y in
  ao_id (fst (fst x)) = Some 2%N /\ match ao_perm (fst (fst x)) with Some p => key_ids p = [7%N] | None => False end.
Proof. vm_compute. repeat split; discriminate. Qed.
Example not_refused : forall code, ~ refused 1280 (UcLogin METHOD_PIN bob [5; 6]%N) code.
Proof. intros code. cbn [refused]. unfold bad_name, bob. cbn [length]. intros [[[H|H]|H] _]; [discriminate H|lia|]. apply Nat.ltb_lt in H. vm_compute in H. discriminate H. Qed.
(** A client that is not logged in asks to add a user: the credential stays at the
    server.  One that may add users: it does not. *)
Example refused_keeps :
  (let sbuf := snd (snd (fst (call 1%nat (UcAdd eve pusr METHOD_PIN [5; 6]%N) e L Y))) in firstn 2 (skipn 510 sbuf) = [5; 6]%N) /\
  (let sbuf := snd (snd (fst (call 0%nat (UcAdd eve pusr METHOD_PIN [5; 6]%N) e L Y))) in firstn 2 (skipn 510 sbuf) = [0; 0]%N).
Proof. vm_compute. split; reflexivity. Qed.
(** The hypotheses of the theorem above. *)
Example refused_keeps_hyp : ~ (ae_lock e = OK /\ may_use (as_sess Y 1) GROUP_AUTH (uaction (UcAdd eve pusr METHOD_PIN [5; 6]%N))).
Proof. intros H. apply check_request_spec in H. vm_compute in H. discriminate H. Qed.
(** A login packet of 36 bytes that claims a credential of 4 bytes, in a buffer that
    still holds the right one, is answered with BUFFER_SIZE; the same packet with
    the credential in it logs the client in. *)
Definition claim4 : list N := [1; 0]%N ++ exactly 32 adm ++ [4; 0]%N ++ [1; 2; 3; 4]%N.
Notation Y0 := (bev_run true true true sha verify 1024 true 1280 true (firstn 1 bs) boot).
Example not_taken :
  (let x := aserve true true true sha verify 1280 true false true 1 e 0 36 claim4 Y0 in
   aresponse false (UcLogin 1 [] []) (fst (fst x)) = mkAo OK (Some BUFFER_SIZE) (Some 0%N) None /\ u_id (as_sess (snd x) 1) = 0%N) /\
  (let x := aserve true true true sha verify 1280 true false true 1 e 0 40 claim4 Y0 in u_id (as_sess (snd x) 1) = 1%N).
Proof. vm_compute. repeat split. Qed.
End AucDemo.
