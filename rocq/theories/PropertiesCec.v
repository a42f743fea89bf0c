(** C97: a client's certificate call does to the server what its arguments say,
    and tells the caller what came of it. *)
From Verif Require Import Base BaseLemmas NvmSpec Flags Store NvmReqModel EndianModel EndianProof KdfModel KsReq NvcModel NvcSpec NvcProof.
From Verif Require Import AuthCodec AucProof KeyId CertModel CecModel CecSpec.

Lemma to_client_16 K k : (to_client K k < 65536)%N.
Proof.
  unfold to_client, kid_id, CF_GLOBAL, CF_WRAPPED, CF_HW.
  assert (A : (N.land k 255 < 2 ^ 16)%N) by (change 255%N with (N.ones 8); rewrite N.land_ones; pose proof (N.mod_upper_bound k (2 ^ 8) ltac:(discriminate)); lia).
  assert (B : forall x y, (x < 2 ^ 16)%N -> (y < 2 ^ 16)%N -> (N.lor x y < 2 ^ 16)%N).
  { intros x y X Y. destruct (N.eq_dec (N.lor x y) 0) as [E|E]; [lia|]. apply N.log2_lt_pow2; [lia|]. rewrite N.log2_lor.
    apply N.max_lub_lt; [destruct (N.eq_dec x 0)|destruct (N.eq_dec y 0)]; subst; try reflexivity; apply N.log2_lt_pow2; lia. }
  change 65536%N with (2 ^ 16)%N.
  repeat match goal with |- context [if ?b then _ else _] => destruct b end; repeat apply B; auto; reflexivity.
Qed.
Lemma label_exact l : exactly 24 (match l with Some l => l | None => [] end) = label24 l.
Proof.
  unfold exactly, label24. destruct l as [l|]; [|reflexivity]. rewrite firstn_app. f_equal.
  rewrite <- (firstn_skipn (24 - length l) (repeat 0%N 24)) at 1. rewrite first_exact.
  - assert (G : forall a b, a <= b -> firstn a (repeat 0%N b) = repeat 0%N a).
    { induction a; intros [|b] H; cbn; auto; [lia|]. f_equal. apply IHa. lia. }
    apply G. lia.
  - rewrite firstn_length, repeat_length. lia.
Qed.
Lemma label_len l : length (label24 l) = 24.
Proof. rewrite <- label_exact. apply exactly_len. Qed.
Lemma when_true {A} (x : A) : when true x = Some x. Proof. reflexivity. Qed.

Lemma some_pair {A B} (x a : A) (y b : B) : Some (x, y) = Some (a, b) -> x = a /\ y = b. Proof. intros [= -> ->]. auto. Qed.

Section Peers.
Variables (DL MAX : nat) (K : kcfg) (global : bool) (St : Type) (srv : sop -> St -> sres * St).
Variables (sb cb : bool) (cid : N).

(** ** Replies *)
Lemma pad_len n k (buf : list N) : n + k <= length buf -> length (rd n k buf) = k.
Proof. intros H. unfold rd. rewrite firstn_length, skipn_length. lia. Qed.
Lemma simple_read want rc buf : i32 rc -> 8 <= length buf -> got_simple cb want (simple sb cb rc buf) = mkCo OK (when want rc) None None None.
Proof.
  intros I L. unfold got_simple, simple. assert (E : length (give sb cb [(4, rc_n rc)] ++ rd 4 4 buf) = 8).
  { rewrite app_length, give_length, pad_len by lia. reflexivity. }
  rewrite E. change (8 <? 8) with false. change (8 =? 8) with true. cbn [negb].
  change [4] with (map fst [(4, rc_n rc)]). rewrite unwire_give by fits. cbn [map snd]. unfold fld. cbn [nth]. rewrite rc_round by exact I. reflexivity.
Qed.
Lemma verify_read asked rc key buf : i32 rc -> u16 key -> 8 <= length buf ->
  got_verify cb asked (vresp sb cb rc key buf) = mkCo OK (Some rc) (when asked key) None None.
Proof.
  intros I U L. unfold got_verify, vresp. assert (E : length (give sb cb [(4, rc_n rc); (2, key)] ++ rd 6 2 buf) = 8).
  { rewrite app_length, give_length, pad_len by lia. reflexivity. }
  rewrite E. change (8 <? 8) with false. change (8 =? 8) with true. cbn [negb].
  change [4; 2] with (map fst [(4, rc_n rc); (2, key)]). rewrite unwire_give by fits. cbn [map snd]. unfold fld. cbn [nth]. rewrite rc_round by exact I. reflexivity.
Qed.
Hypothesis HDL : 44 <= DL /\ (N.of_nat DL < 65536)%N.
Lemma read_read want cap r buf : i32 (sr_rc r) -> (sr_len r < 4294967296)%N ->
  (sr_rc r = OK -> sr_len r = N.of_nat (length (sr_data r)) /\ 8 + length (sr_data r) <= DL) ->
  got_read DL cb want cap (rresp sb cb r buf) =
  if is_ok (sr_rc r) then
    if (N.of_nat cap <? sr_len r)%N then mkCo OK (when want BUFFER_SIZE) None (Some (sr_len r)) None
    else mkCo OK (when want OK) None (Some (sr_len r)) (Some (sr_data r))
  else mkCo OK (when want (sr_rc r)) None (if want && Z.eqb (sr_rc r) BUFFER_SIZE then Some (sr_len r) else None) None.
Proof.
  intros I U H. unfold got_read, rresp. destruct (is_ok (sr_rc r)) eqn:EO; cbn [orb].
  - apply Z.eqb_eq in EO. destruct (H EO) as [H1 H2]. rewrite H1, Nat2N.id. rewrite first_exact by reflexivity. rewrite EO.
    set (g := give _ _ _). assert (G : length g = 8) by (unfold g; rewrite give_length; reflexivity).
    rewrite app_length, G. replace (DL <? 8 + length (sr_data r)) with false by (symmetry; apply Nat.ltb_ge; lia).
    change (8 + length (sr_data r) <? 8) with false. unfold g. change [4; 4] with (map fst [(4, rc_n OK); (4, N.of_nat (length (sr_data r)))]).
    rewrite unwire_give by (fits). cbn [map snd]. unfold fld. cbn [nth]. rewrite rc_round by (unfold i32, OK; lia). change (is_ok OK) with true. cbv iota.
    replace (8 + length (sr_data r) - 8) with (length (sr_data r)) by lia. rewrite N.ltb_irrefl.
    destruct (N.of_nat cap <? N.of_nat (length (sr_data r)))%N; [reflexivity|]. do 2 f_equal. rewrite Nat2N.id.
    fold g. replace (g ++ sr_data r) with (g ++ sr_data r ++ []) by (rewrite app_nil_r; reflexivity). apply rd_at; auto.
  - set (len := if Z.eqb (sr_rc r) BUFFER_SIZE then sr_len r else 0%N). rewrite app_nil_r.
    assert (LU : (len < 4294967296)%N) by (unfold len; destruct (Z.eqb (sr_rc r) BUFFER_SIZE); lia).
    rewrite give_length. change (sum _) with 8. replace (DL <? 8) with false by (symmetry; apply Nat.ltb_ge; lia). change (8 <? 8) with false.
    replace (give sb cb [(4, rc_n (sr_rc r)); (4, len)]) with (give sb cb [(4, rc_n (sr_rc r)); (4, len)] ++ []) by apply app_nil_r.
    change [4; 4] with (map fst [(4, rc_n (sr_rc r)); (4, len)]). rewrite unwire_give by fits. cbn [map snd]. unfold fld. cbn [nth].
    rewrite rc_round by exact I. rewrite EO. unfold len. destruct (Z.eqb (sr_rc r) BUFFER_SIZE); destruct want; reflexivity.
Qed.

(** ** Requests *)
Lemma refused_iff want c : request DL MAX cb want c = None <-> refused DL MAX want c.
Proof.
  assert (N0 : forall l : list N, (length l =? 0) = true <-> l = []).
  { intros l. rewrite Nat.eqb_eq. split; [apply length_zero_iff_nil|intros ->; reflexivity]. }
  destruct c; cbn [request refused]; try (split; [discriminate|tauto]).
  - destruct ((length cert =? 0) || (DL - 36 <? length cert)) eqn:E.
    + apply Bool.orb_true_iff in E. rewrite N0, Nat.ltb_lt in E. split; [intros _|reflexivity]. destruct E; [left; auto|right; lia].
    + apply Bool.orb_false_iff in E. destruct E as [E1 E2]. apply Nat.ltb_ge in E2. split; [discriminate|]. intros [->|H]; [discriminate|]. lia.
  - destruct (negb want || (length cert =? 0) || (DL - 12 <? length cert)) eqn:E.
    + apply Bool.orb_true_iff in E. rewrite Bool.orb_true_iff, N0, Nat.ltb_lt, Bool.negb_true_iff in E. split; [intros _|reflexivity].
      destruct E as [[E|E]|E]; auto. right; right; lia.
    + apply Bool.orb_false_iff in E. destruct E as [E1 E2]. apply Bool.orb_false_iff in E1. destruct E1 as [E0 E1]. apply Nat.ltb_ge in E2.
      split; [discriminate|]. intros [->|[->|H]]; try discriminate. lia.
  - destruct (negb want || (length cert =? 0) || (length roots =? 0) || (MAX <? length roots) || (DL - 16 <? 2 * length roots)
              || (DL - 16 - 2 * length roots <? length cert)) eqn:E.
    + repeat rewrite Bool.orb_true_iff in E. rewrite !N0, !Nat.ltb_lt, Bool.negb_true_iff in E. split; [intros _|reflexivity].
      destruct E as [[[[[E|E]|E]|E]|E]|E]; auto; right; right; right; try (left; exact E); right; lia.
    + repeat (apply Bool.orb_false_iff in E; let F := fresh in destruct E as [E F]; try apply Nat.ltb_ge in F).
      split; [discriminate|]. intros [->|[->|[->|[H'|H']]]]; try discriminate; lia.
Qed.

Lemma roots_taken roots rest : Forall u16 roots ->
  take sb cb (repeat 2 (length roots)) (wire cb (map (fun r => (2, r)) roots) ++ rest) = roots.
Proof.
  intros H. assert (E : repeat 2 (length roots) = map fst (map (fun r : N => (2, r)) roots)).
  { clear H. induction roots; cbn; f_equal; auto. }
  rewrite E. rewrite take_wire.
  - rewrite map_map. cbn [snd]. apply map_id.
  - apply Forall_map. eapply Forall_impl; [|exact H]. intros a A. apply fit2. exact A.
Qed.
Lemma roots_len roots : length (wire cb (map (fun r => (2, r)) roots)) = 2 * length roots.
Proof. rewrite wire_length, map_map. cbn [fst]. induction roots; cbn [map sum fold_right length] in *; unfold sum in *; lia. Qed.

Lemma n_ltb_refl n : (N.of_nat n <? N.of_nat n)%N = false. Proof. apply N.ltb_irrefl. Qed.

Lemma id_taken id rest : u16 id -> take sb cb [2] ((wire cb [(2, id)] ++ repeat 0%N 6) ++ rest) = [id].
Proof. intros H. rewrite <- app_assoc. change [2] with (map fst [(2, id)]) at 1. rewrite take_wire; [reflexivity|]. unfold u16 in H. fits. Qed.

(** What the server makes of a sent request. *)
Definition reply (c : ccall) (r : sres) (buf : list N) : list N :=
  match c with
  | KRead _ _ => rresp sb cb r buf
  | KVerify _ _ _ | KMulti _ _ _ => vresp sb cb (sr_rc r) (to_client K (sr_key r)) buf
  | _ => simple sb cb (sr_rc r) buf
  end.
Definition unlocked (c : ccall) (lock : Z) (buf : list N) : list N :=
  match c with
  | KRead _ _ => rresp sb cb (mkSr lock 0 0 []) buf
  | KVerify _ _ _ | KMulti _ _ _ => vresp sb cb lock 0 buf
  | _ => simple sb cb lock buf
  end.
Definition lock_for (c : ccall) (lock : Z) : Z :=
  match c with KInit => OK | KClear | KEnable _ => if global then OK else lock | _ => lock end.

Lemma served want c a p lock rest (s : St) : args_ok c -> request DL MAX cb want c = Some (a, p) ->
  serve MAX K global St srv sb cb cid lock a (length p) (p ++ rest) s =
  if is_ok (lock_for c lock) then let '(r, s') := srv (asks K cid c) s in (reply c r (p ++ rest), s')
  else (unlocked c lock (p ++ rest), s).
Proof.
  intros A. destruct c as [|id acc fl label cert|id|id cap|cert root key|cert roots key| |v]; cbn [request].
  - intros HR; apply some_pair in HR; destruct HR as [<- <-]. reflexivity.
  - destruct ((length cert =? 0) || (DL - 36 <? length cert)) eqn:E; [discriminate|]. intros HR; apply some_pair in HR; destruct HR as [<- <-].
    apply Bool.orb_false_iff in E. destruct E as [_ E]. apply Nat.ltb_ge in E. destruct A as (A1 & A2 & A3).
    rewrite label_exact. set (h := [(4, N.of_nat (length cert)); (2, id); (2, acc); (2, fl)]).
    assert (LH : length (wire cb h) = 10) by (rewrite wire_length; reflexivity).
    set (p := wire cb h ++ label24 label ++ repeat 0%N 2 ++ cert).
    assert (LP : length p = 36 + length cert) by (unfold p; rewrite !app_length, LH, label_len, repeat_length; lia).
    assert (TK : take sb cb [4; 2; 2; 2] (p ++ rest) = [N.of_nat (length cert); id; acc; fl]).
    { unfold p. rewrite <- !app_assoc. change [4; 2; 2; 2] with (map fst h). rewrite take_wire; [reflexivity|]. unfold h. fits. }
    assert (R1 : rd 10 24 (p ++ rest) = label24 label) by (unfold p; rewrite <- !app_assoc; apply rd_at; auto using label_len).
    assert (R2 : rd 36 (length cert) (p ++ rest) = cert).
    { unfold p. replace ((wire cb h ++ label24 label ++ repeat 0%N 2 ++ cert) ++ rest) with ((wire cb h ++ label24 label ++ repeat 0%N 2) ++ cert ++ rest) by (rewrite <- !app_assoc; reflexivity).
      apply rd_at; auto. rewrite !app_length, LH, label_len, repeat_length. reflexivity. }
    unfold serve. change (N.eqb 2 1) with false. change (N.eqb 2 2) with true. cbv iota zeta. rewrite TK. unfold fld. cbn [nth].
    rewrite R1, Nat2N.id, R2, LP. replace (36 + length cert <? 36) with false by (symmetry; apply Nat.ltb_ge; lia).
    replace (36 + length cert - 36) with (length cert) by lia. rewrite n_ltb_refl. unfold locked, run. cbn [asks lock_for reply unlocked]. reflexivity.
  - intros HR; apply some_pair in HR; destruct HR as [<- <-]. unfold serve. change (N.eqb 3 1) with false. change (N.eqb 3 2) with false. change (N.eqb 3 3) with true. cbv iota zeta.
    rewrite id_taken by exact A. reflexivity.
  - intros HR; apply some_pair in HR; destruct HR as [<- <-]. unfold serve. change (N.eqb 4 1) with false. change (N.eqb 4 2) with false. change (N.eqb 4 3) with false. change (N.eqb 4 4) with true. cbv iota zeta.
    rewrite id_taken by exact A. reflexivity.
  - destruct (negb want || (length cert =? 0) || (DL - 12 <? length cert)) eqn:E; [discriminate|]. intros HR; apply some_pair in HR; destruct HR as [<- <-].
    apply Bool.orb_false_iff in E. destruct E as [_ E]. apply Nat.ltb_ge in E. destruct A as (A1 & A2).
    set (h := [(4, N.of_nat (length cert)); (2, root)] ++ key_fields key).
    assert (FH : Forall fit h /\ map fst h = [4; 2; 2; 2; 2]).
    { unfold h. destruct key as [[kf ki]|]; [destruct A2 as [A2 A3]|]; cbn [key_fields app]; unfold u16, USAGE_ANY in *; split; try reflexivity; fits. }
    destruct FH as [FH MH]. assert (LH : length (wire cb h) = 12) by (rewrite wire_length, MH; reflexivity).
    assert (TK : take sb cb [4; 2; 2; 2; 2] ((wire cb h ++ cert) ++ rest) = map snd h) by (rewrite <- app_assoc, <- MH; apply take_wire; exact FH).
    assert (R2 : rd 12 (length cert) ((wire cb h ++ cert) ++ rest) = cert) by (rewrite <- app_assoc; apply rd_at; auto).
    unfold serve. change (N.eqb 5 1) with false. change (N.eqb 5 2) with false. change (N.eqb 5 3) with false. change (N.eqb 5 4) with false. change (N.eqb 5 5) with true. cbv iota zeta.
    rewrite TK. rewrite app_length, LH. replace (12 + length cert <? 12) with false by (symmetry; apply Nat.ltb_ge; lia).
    replace (12 + length cert - 12) with (length cert) by lia.
    assert (V : map snd h = [N.of_nat (length cert); root] ++ map snd (key_fields key)) by reflexivity. rewrite V. clear V.
    clearbody h. destruct key as [[kf ki]|]; cbn [key_fields app map snd]; unfold fld; cbn [nth]; rewrite n_ltb_refl, Nat2N.id, R2; reflexivity.
  - cbv zeta. destruct (negb want || (length cert =? 0) || (length roots =? 0) || (MAX <? length roots) || (DL - 16 <? 2 * length roots)
              || (DL - 16 - 2 * length roots <? length cert)) eqn:E; [discriminate|]. intros HR; apply some_pair in HR; destruct HR as [<- <-].
    repeat (apply Bool.orb_false_iff in E; let F := fresh "F" in destruct E as [E F]; try apply Nat.ltb_ge in F).
    destruct A as (A1 & A2).
    set (h := [(4, N.of_nat (length cert)); (2, N.of_nat (length roots))] ++ key_fields key).
    assert (FH : Forall fit h /\ map fst h = [4; 2; 2; 2; 2]).
    { unfold h. destruct key as [[kf ki]|]; [destruct A2 as [A2 A3]|]; cbn [key_fields app]; unfold u16, USAGE_ANY in *; split; try reflexivity; fits. }
    destruct FH as [FH MH]. assert (LH : length (wire cb h) = 12) by (rewrite wire_length, MH; reflexivity).
    set (w := wire cb (map (fun r => (2, r)) roots)). assert (LW : length w = 2 * length roots) by apply roots_len.
    set (p := wire cb h ++ repeat 0%N 4 ++ w ++ cert).
    assert (LP : length p = 16 + 2 * length roots + length cert) by (unfold p; rewrite !app_length, LH, LW, repeat_length; lia).
    assert (TK : take sb cb [4; 2; 2; 2; 2] (p ++ rest) = map snd h) by (unfold p; rewrite <- !app_assoc, <- MH; apply take_wire; exact FH).
    assert (PS : p ++ rest = ((wire cb h ++ repeat 0%N 4) ++ w ++ cert ++ rest)) by (unfold p; rewrite <- !app_assoc; reflexivity).
    assert (SK : take sb cb (repeat 2 (length roots)) (skipn 16 (p ++ rest)) = roots).
    { rewrite PS, skip_exact by (rewrite app_length, LH; reflexivity). apply roots_taken; auto. }
    assert (R2 : rd (16 + 2 * length roots) (length cert) (p ++ rest) = cert).
    { rewrite PS. rewrite (app_assoc _ w). apply rd_at; auto. rewrite !app_length, LH, LW. reflexivity. }
    unfold serve. change (N.eqb 6 1) with false. change (N.eqb 6 2) with false. change (N.eqb 6 3) with false. change (N.eqb 6 4) with false.
    change (N.eqb 6 5) with false. change (N.eqb 6 6) with true. cbv iota zeta. rewrite TK, LP.
    replace (16 + 2 * length roots + length cert <? 16) with false by (symmetry; apply Nat.ltb_ge; lia).
    assert (V1 : N.to_nat (fld 1 (map snd h)) = length roots) by (unfold h; destruct key as [[kf ki]|]; cbn [key_fields app map snd]; unfold fld; cbn [nth]; apply Nat2N.id).
    assert (V : map snd h = [N.of_nat (length cert); N.of_nat (length roots)] ++ map snd (key_fields key)) by reflexivity.
    assert (V0 : fld 0 (map snd h) = N.of_nat (length cert)) by reflexivity.
    rewrite V1, V0, SK, Nat2N.id, R2. rewrite F2. replace (MAX <? length roots) with false by (symmetry; apply Nat.ltb_ge; lia). cbn [orb].
    replace (16 + 2 * length roots + length cert - 16) with (2 * length roots + length cert) by lia.
    replace (2 * length roots + length cert <? 2 * length roots) with false by (symmetry; apply Nat.ltb_ge; lia).
    replace (2 * length roots + length cert - 2 * length roots) with (length cert) by lia. rewrite n_ltb_refl. cbn [orb].
    rewrite V. clearbody p. destruct key as [[kf ki]|]; cbn [key_fields app map snd]; unfold fld; cbn [nth]; reflexivity.
  - intros HR; apply some_pair in HR; destruct HR as [<- <-]. unfold serve. change (N.eqb 7 1) with false. change (N.eqb 7 2) with false. change (N.eqb 7 3) with false. change (N.eqb 7 4) with false.
    change (N.eqb 7 5) with false. change (N.eqb 7 6) with false. change (N.eqb 7 7) with true. cbv iota zeta. cbn [lock_for].
    unfold locked, run. destruct global; reflexivity.
  - intros HR; apply some_pair in HR; destruct HR as [<- <-]. unfold serve. change (N.eqb 8 1) with false. change (N.eqb 8 2) with false. change (N.eqb 8 3) with false. change (N.eqb 8 4) with false.
    change (N.eqb 8 5) with false. change (N.eqb 8 6) with false. change (N.eqb 8 7) with false. change (N.eqb 8 8) with true. cbv iota zeta. cbn [length repeat Nat.eqb negb app nth lock_for].
    unfold locked, run. destruct global; reflexivity.
Qed.
End Peers.

(** ** C97 *)
(** A call that is not refused by the client itself, sent, locked and answered:
    the server is asked for exactly what the arguments say, whatever the two byte
    orders, and the caller is told what came of it. *)
Theorem C97_call DL MAX K global St (srv : sop -> St -> sres * St) sb cb cid c L s :
  44 <= DL -> (N.of_nat DL < 65536)%N -> args_ok c -> ~ refused DL MAX true c -> DL <= length (tl_buf L) ->
  tl_send L = OK -> tl_recv L = OK -> tl_lock L = OK -> res_ok DL c (fst (srv (asks K cid c) s)) ->
  exists o, cert_call DL MAX K global St srv sb cb cid true c L s = (o, snd (srv (asks K cid c) s)) /\
            told K c (fst (srv (asks K cid c) s)) o.
Proof.
  intros H1 H2 A NR HB HS HV HL. unfold cert_call. destruct (request DL MAX cb true c) as [[a p]|] eqn:R.
  2: { destruct NR. apply (refused_iff DL MAX cb (conj H1 H2) true c). exact R. }
  rewrite HS, HV, HL. change (is_ok OK) with true. cbn [negb]. rewrite (served DL MAX K global St srv sb cb cid (conj H1 H2) true c a p) by auto.
  assert (LK : is_ok (lock_for global c OK) = true) by (destruct c; try reflexivity; cbn [lock_for]; destruct global; reflexivity). rewrite LK.
  destruct (srv (asks K cid c) s) as [r s'] eqn:ES. cbn [fst snd]. intros (I & U & D).
  assert (LB : 8 <= length (p ++ skipn (length p) (tl_buf L))) by (rewrite app_length, skipn_length; lia).
  set (buf := p ++ _) in *. eexists; split; [reflexivity|].
  destruct c as [|id acc fl label cert|id|id cap|cert root key|cert roots key| |v]; cbn [reply response].
  1,2,3,7,8: rewrite simple_read by auto; apply told_code; exact Logic.I.
  - rewrite (read_read DL sb cb (conj H1 H2)) by auto. cbn [when]. destruct (is_ok (sr_rc r)) eqn:EO.
    + apply Z.eqb_eq in EO. destruct (N.ltb_spec (N.of_nat cap) (sr_len r)); [apply told_small|apply told_cert]; auto.
    + apply Z.eqb_neq in EO. cbn [andb]. destruct (Z.eqb_spec (sr_rc r) BUFFER_SIZE) as [E|E]; [rewrite E; apply told_large; auto|apply told_unread; auto].
  - rewrite verify_read by (auto; apply to_client_16). destruct key; [apply told_key|apply told_verdict].
  - rewrite verify_read by (auto; apply to_client_16). destruct key; [apply told_key_m|apply told_verdict_m].
Qed.
Print Assumptions C97_call.

(** A call the client refuses, or that is not sent, changes nothing; one whose
    reply is lost has been carried out all the same, and nothing is written. *)
Theorem C97_no_effect DL MAX K global St (srv : sop -> St -> sres * St) sb cb cid want c L s :
  44 <= DL -> (N.of_nat DL < 65536)%N -> args_ok c ->
  (refused DL MAX want c -> cert_call DL MAX K global St srv sb cb cid want c L s = (failed BADARGS, s)) /\
  (~ refused DL MAX want c -> tl_send L <> OK -> cert_call DL MAX K global St srv sb cb cid want c L s = (failed (tl_send L), s)) /\
  (~ refused DL MAX want c -> tl_send L = OK -> tl_recv L <> OK -> tl_lock L = OK ->
     cert_call DL MAX K global St srv sb cb cid want c L s = (failed (tl_recv L), snd (srv (asks K cid c) s))).
Proof.
  intros H1 H2 A. pose proof (refused_iff DL MAX cb (conj H1 H2) want c) as RI. unfold cert_call.
  destruct (request DL MAX cb want c) as [[a p]|] eqn:R.
  - split; [intros F; apply RI in F; discriminate|]. split.
    + intros _ F. apply Z.eqb_neq in F. unfold is_ok. rewrite F. reflexivity.
    + intros _ F G HL. rewrite F, HL. apply Z.eqb_neq in G. unfold is_ok at 1 2. rewrite G. change (Z.eqb OK OK) with true. cbn [negb].
      rewrite (served DL MAX K global St srv sb cb cid (conj H1 H2) want c a p) by auto.
      assert (LK : is_ok (lock_for global c OK) = true) by (destruct c; try reflexivity; cbn [lock_for]; destruct global; reflexivity). rewrite LK.
      destruct (srv (asks K cid c) s). reflexivity.
  - split; [reflexivity|]. split; intros F; destruct F; apply RI; reflexivity.
Qed.
Print Assumptions C97_no_effect.

(** Without a place for the server's code the same is done; a certificate that
    is written is the server's, whole, and its length is told. *)
Theorem C97_no_code DL MAX K global St (srv : sop -> St -> sres * St) sb cb cid c L s :
  44 <= DL -> (N.of_nat DL < 65536)%N -> args_ok c -> ~ refused DL MAX false c -> DL <= length (tl_buf L) ->
  tl_send L = OK -> tl_recv L = OK -> tl_lock L = OK -> res_ok DL c (fst (srv (asks K cid c) s)) ->
  exists o, cert_call DL MAX K global St srv sb cb cid false c L s = (o, snd (srv (asks K cid c) s)) /\
    co_ret o = OK /\ co_rc o = None /\ co_key o = None /\
    (forall d, co_cert o = Some d -> exists id cap, c = KRead id cap /\ d = sr_data (fst (srv (asks K cid c) s)) /\ length d <= cap /\
       co_len o = Some (N.of_nat (length d))) /\
    (forall id cap, c = KRead id cap -> sr_rc (fst (srv (asks K cid c) s)) = OK -> length (sr_data (fst (srv (asks K cid c) s))) <= cap ->
       co_cert o = Some (sr_data (fst (srv (asks K cid c) s)))).
Proof.
  intros H1 H2 A NR HB HS HV HL. unfold cert_call. destruct (request DL MAX cb false c) as [[a p]|] eqn:R.
  2: { destruct NR. apply (refused_iff DL MAX cb (conj H1 H2) false c). exact R. }
  rewrite HS, HV, HL. change (is_ok OK) with true. cbn [negb]. rewrite (served DL MAX K global St srv sb cb cid (conj H1 H2) false c a p) by auto.
  assert (LK : is_ok (lock_for global c OK) = true) by (destruct c; try reflexivity; cbn [lock_for]; destruct global; reflexivity). rewrite LK.
  destruct (srv (asks K cid c) s) as [r s'] eqn:ES. cbn [fst snd]. intros (I & U & D).
  assert (LB : 8 <= length (p ++ skipn (length p) (tl_buf L))) by (rewrite app_length, skipn_length; lia).
  set (buf := p ++ _) in *. eexists; split; [reflexivity|].
  destruct c as [|id acc fl label cert|id|id cap|cert root key|cert roots key| |v]; cbn [reply response].
  1,2,3,7,8: rewrite simple_read by auto; cbn [co_ret co_rc co_key co_cert when]; repeat split; discriminate.
  2,3: destruct NR; left; reflexivity.
  rewrite (read_read DL sb cb (conj H1 H2)) by auto. cbn [when andb]. destruct (is_ok (sr_rc r)) eqn:EO.
  - apply Z.eqb_eq in EO. destruct (D EO) as [D1 D2]. rewrite D1. destruct (N.ltb_spec (N.of_nat cap) (N.of_nat (length (sr_data r)))) as [G|G]; cbn [co_ret co_rc co_key co_cert co_len]; repeat split; try discriminate.
    + intros id0 cap0 [= <- <-] _ G'. lia.
    + intros d [= <-]. exists id, cap. repeat split; auto. lia.
  - apply Z.eqb_neq in EO. cbn [co_ret co_rc co_key co_cert co_len]. repeat split; try discriminate. intros; contradiction.
Qed.
Print Assumptions C97_no_code.

(** When the NVM lock is not granted nothing changes and its code is told. *)
Theorem C97_unlocked DL MAX K global St (srv : sop -> St -> sres * St) sb cb cid c L s :
  44 <= DL -> (N.of_nat DL < 65536)%N -> args_ok c -> ~ refused DL MAX true c -> DL <= length (tl_buf L) ->
  tl_send L = OK -> tl_recv L = OK -> tl_lock L <> OK -> i32 (tl_lock L) -> takes_lock global c ->
  exists o, cert_call DL MAX K global St srv sb cb cid true c L s = (o, s) /\
            co_ret o = OK /\ co_rc o = Some (tl_lock L) /\ co_cert o = None.
Proof.
  intros H1 H2 A NR HB HS HV HL I TL. unfold cert_call. destruct (request DL MAX cb true c) as [[a p]|] eqn:R.
  2: { destruct NR. apply (refused_iff DL MAX cb (conj H1 H2) true c). exact R. }
  rewrite HS, HV. change (is_ok OK) with true. cbn [negb]. rewrite (served DL MAX K global St srv sb cb cid (conj H1 H2) true c a p) by auto.
  assert (NL : is_ok (tl_lock L) = false) by (apply Z.eqb_neq; exact HL).
  assert (LK : is_ok (lock_for global c (tl_lock L)) = false).
  { destruct c; cbn [lock_for takes_lock] in *; auto; try contradiction; rewrite TL; exact NL. }
  rewrite LK.
  assert (LB : 8 <= length (p ++ skipn (length p) (tl_buf L))) by (rewrite app_length, skipn_length; lia).
  set (buf := p ++ _) in *. eexists; split; [reflexivity|].
  destruct c as [|id acc fl label cert|id|id cap|cert root key|cert roots key| |v]; cbn [unlocked response].
  1,2,3,7,8: rewrite simple_read by auto; auto.
  - rewrite (read_read DL sb cb (conj H1 H2)); auto; cbn [sr_rc sr_len sr_data]; auto; try reflexivity; try (intros; contradiction). rewrite NL. auto.
  - rewrite verify_read by (auto; reflexivity). auto.
  - rewrite verify_read by (auto; reflexivity). auto.
Qed.
Print Assumptions C97_unlocked.

(** ** Packets of any kind *)
Lemma take_first sb cb : forall ws n buf, sum ws <= n -> take sb cb ws (firstn n buf) = take sb cb ws buf.
Proof.
  induction ws as [|w ws IH]; intros n buf H; cbn [take]; auto. unfold sum in *. cbn [fold_right] in H.
  rewrite firstn_firstn, Nat.min_l by lia. rewrite skipn_firstn_comm, IH by lia. reflexivity.
Qed.
Lemma rd_first off len n (buf : list N) : off + len <= n -> rd off len (firstn n buf) = rd off len buf.
Proof. intros H. unfold rd. rewrite skipn_firstn_comm, firstn_firstn, Nat.min_l by lia. reflexivity. Qed.
Lemma take_at sb cb ws k n buf : k + sum ws <= n -> take sb cb ws (skipn k (firstn n buf)) = take sb cb ws (skipn k buf).
Proof. intros H. rewrite skipn_firstn_comm. apply take_first. lia. Qed.
Lemma sum_repeat n : sum (repeat 2 n) = 2 * n.
Proof. induction n; cbn [repeat]; unfold sum in *; cbn [fold_right]; lia. Qed.
Lemma state_locked {St} (srv : sop -> St -> sres * St) lock no op k s : snd (locked St srv lock no op k s) = if is_ok lock then snd (srv op s) else s.
Proof. unfold locked, run. destruct (is_ok lock); auto. destruct (srv op s). reflexivity. Qed.
Lemma head_first n (buf : list N) d : 0 < n -> nth 0 (firstn n buf) d = nth 0 buf d.
Proof. destruct n; [lia|]. destruct buf; reflexivity. Qed.

Lemma serve_first MAX K global St (srv : sop -> St -> sres * St) sb cb cid lock a n buf s : whole a n ->
  snd (serve MAX K global St srv sb cb cid lock a n buf s) = snd (serve MAX K global St srv sb cb cid lock a n (firstn n buf) s).
Proof.
  intros W. unfold serve. cbv zeta.
  destruct (N.eqb_spec a 1); [unfold run; destruct (srv SInit s); reflexivity|].
  destruct (N.eqb_spec a 2).
  { destruct (Nat.ltb_spec n 36); [reflexivity|]. rewrite (take_first sb cb [4; 2; 2; 2]) by (cbn; lia).
    set (v := take sb cb [4; 2; 2; 2] buf). destruct (N.ltb_spec (N.of_nat (n - 36)) (fld 0 v)); [reflexivity|]. rewrite !rd_first by lia.
    rewrite !state_locked. reflexivity. }
  destruct (N.eqb_spec a 3).
  { rewrite (take_first sb cb [2]) by (cbn; apply W; auto). rewrite !state_locked. reflexivity. }
  destruct (N.eqb_spec a 4).
  { rewrite (take_first sb cb [2]) by (cbn; apply W; auto). rewrite !state_locked. reflexivity. }
  destruct (N.eqb_spec a 5).
  { destruct (Nat.ltb_spec n 12); [reflexivity|]. rewrite (take_first sb cb [4; 2; 2; 2; 2]) by (cbn; lia).
    set (v := take sb cb [4; 2; 2; 2; 2] buf). destruct (N.ltb_spec (N.of_nat (n - 12)) (fld 0 v)); [reflexivity|]. rewrite !rd_first by lia.
    unfold verified. rewrite !state_locked. reflexivity. }
  destruct (N.eqb_spec a 6).
  { destruct (Nat.ltb_spec n 16); [reflexivity|]. rewrite (take_first sb cb [4; 2; 2; 2; 2]) by (cbn; lia).
    set (v := take sb cb [4; 2; 2; 2; 2] buf). destruct ((N.to_nat (fld 1 v) =? 0) || (MAX <? N.to_nat (fld 1 v))); [reflexivity|].
    destruct (Nat.ltb_spec (n - 16) (2 * N.to_nat (fld 1 v))); cbn [orb]; [reflexivity|].
    destruct (N.ltb_spec (N.of_nat (n - 16 - 2 * N.to_nat (fld 1 v))) (fld 0 v)); [reflexivity|].
    rewrite (rd_first (16 + 2 * N.to_nat (fld 1 v))) by lia. rewrite take_at by (rewrite sum_repeat; lia).
    unfold verified. rewrite !state_locked. reflexivity. }
  destruct (N.eqb_spec a 7); [rewrite !state_locked; reflexivity|].
  destruct (N.eqb_spec a 8); [|reflexivity].
  destruct (Nat.eqb_spec n 8); cbn [negb]; [|reflexivity]. rewrite head_first by lia. rewrite !state_locked. reflexivity.
Qed.
(** For every packet, of any size and content, what the server does depends on
    the received bytes only, never on what earlier packets left behind them; for
    the erase and read actions, provided the id was received. *)
Theorem C97_only_received MAX K global St (srv : sop -> St -> sres * St) sb cb cid lock a n buf buf' s :
  whole a n -> firstn n buf = firstn n buf' ->
  snd (serve MAX K global St srv sb cb cid lock a n buf s) = snd (serve MAX K global St srv sb cb cid lock a n buf' s).
Proof. intros W E. rewrite serve_first by exact W. rewrite E. symmetry. apply serve_first. exact W. Qed.
Print Assumptions C97_only_received.

(** Whatever packet arrives as a reply, of any size and content: what is written
    to the caller's buffer fits it and is a piece of that packet. *)
Theorem C97_any_reply DL cb want c p d :
  co_cert (response DL cb want c p) = Some d ->
  exists id cap a b, c = KRead id cap /\ length d <= cap /\ p = a ++ d ++ b /\ length a = 8 /\ length p <= DL /\
    co_len (response DL cb want c p) = Some (N.of_nat (length d)).
Proof.
  destruct c as [|id acc fl label cert|id|id cap|cert root key|cert roots key| |v]; cbn [response]; unfold got_simple, got_verify;
    try (destruct (8 <? length p); [discriminate|]; destruct (negb (length p =? 8)); discriminate).
  unfold got_read. destruct (Nat.ltb_spec DL (length p)); [discriminate|]. destruct (Nat.ltb_spec (length p) 8); [discriminate|]. cbv zeta.
  set (len := fld 1 (unwire cb [4; 4] p)). destruct (is_ok _); [|discriminate].
  destruct (N.ltb_spec (N.of_nat (length p - 8)) len); [discriminate|]. destruct (N.ltb_spec (N.of_nat cap) len); [discriminate|].
  cbn [co_cert co_len]. intros [= <-]. assert (E : length (rd 8 (N.to_nat len) p) = N.to_nat len) by (unfold rd; rewrite firstn_length, skipn_length; lia).
  exists id, cap, (firstn 8 p), (skipn (N.to_nat len) (skipn 8 p)). split; [reflexivity|]. split; [lia|]. split; [|split; [rewrite firstn_length; lia|split; [lia|]]].
  - unfold rd. rewrite firstn_skipn. symmetry. apply firstn_skipn.
  - rewrite E, N2Nat.id. reflexivity.
Qed.
Print Assumptions C97_any_reply.

(** ** Through the server *)
Section Server.
Variables (max_roots : nat) (World : Type) (vrfy load : World -> list bytes -> bytes -> Z) (parse : bytes -> Z * bool)
  (der : bytes -> Z + nat * nat) (digest : bytes -> bytes) (global : bool) (max_cert max_resp max_read : nat) (hs : bool).
Notation handle := (cert_handle max_roots World vrfy load parse der digest global max_cert max_resp max_read hs).
Lemma add_done e c id acc fl label cert s rc b s' : (N.of_nat (length cert) < 65536)%N ->
  i32 (ce_lock _ e) -> i32 (ce_nvm _ e) -> i32 (ce_evict _ e) ->
  handle e c (CAdd false id acc fl label cert) s = (rc, b, s') ->
  i32 rc /\ (rc = OK -> sp_find (cs_nv s') id = Some (mkMeta id acc (N.ldiff fl F_SERVER_ONLY) (N.of_nat (length cert)) label, cert)).
Proof.
  intros HC I1 I2 I3. cbn [cert_handle andb]. destruct (is_ok (ce_lock World e)) eqn:EL.
  2: { intros [= <- <- <-]. split; auto. intros E. rewrite E in EL. discriminate. }
  unfold cert_add. destruct (length cert =? 0).
  { cbn [root_changed]. change (is_ok BADARGS) with false. cbn [negb fst snd]. intros [= <- <- <-]. split; [unfold i32, BADARGS; lia|discriminate]. }
  cbv zeta. assert (NS : nvm_size (length cert) = length cert) by (unfold nvm_size; rewrite N.mod_small by exact HC; apply Nat2N.id).
  rewrite NS, firstn_all. unfold add_checked. cbn [m_id m_flags].
  destruct (fatal (check_policy NvAdd (cs_nv s) id)) eqn:EF.
  { assert (G : check_policy NvAdd (cs_nv s) id = ACCESS).
    { unfold check_policy in *. destruct (nv_meta (cs_nv s) id) as [rc0 m0] eqn:EM. unfold nv_meta in EM. destruct (sp_find (cs_nv s) id) as [[m1 d1]|].
      - injection EM as <- <-. change (is_ok OK) with true in *. cbn [negb] in *. destruct (has (m_flags m1) F_TRUSTED); auto. destruct (has (m_flags m1) F_NONMODIFIABLE); auto. discriminate.
      - injection EM as <- <-. discriminate. }
    rewrite G. cbn [root_changed]. change (is_ok ACCESS) with false. cbn [negb fst snd]. intros [= <- <- <-]. split; [unfold i32, ACCESS; lia|discriminate]. }
  unfold nv_add. destruct (is_ok (ce_nvm World e)) eqn:EN.
  2: { cbn [root_changed]. rewrite EN. cbn [negb fst snd]. intros [= <- <- <-]. split; auto. intros E. rewrite E in EN. discriminate. }
  cbn [root_changed]. change (is_ok OK) with true. cbn [negb]. destruct (is_ok (ce_evict World e)) eqn:EV; cbn [negb fst snd].
  2: { intros [= <- <- <-]. split; auto. intros E. rewrite E in EV. discriminate. }
  intros [= <- <- <-]. split; [unfold i32, OK; lia|]. intros _. cbn [cs_nv vc_set set_nv]. rewrite find_add. cbn [m_id with_flags]. rewrite N.eqb_refl. reflexivity.
Qed.
Lemma read_done e c id s m d : ce_lock _ e = OK -> sp_find (cs_nv s) id = Some (m, d) -> d <> [] -> m_len m = N.of_nat (length d) ->
  handle e c (CRead id) s =
  if has (m_flags m) (N.lor F_NONEXPORTABLE F_SERVER_ONLY) then (ACCESS, [], s)
  else if Nat.min max_cert max_resp <? length d then (BUFFER_SIZE, [], s) else (OK, d, s).
Proof.
  intros HL HF ND HM. cbn [cert_handle]. rewrite HL. change (is_ok OK) with true. cbv iota. unfold nv_meta at 1. rewrite HF. change (is_ok OK) with true. cbn [negb].
  destruct (has (m_flags m) (N.lor F_NONEXPORTABLE F_SERVER_ONLY)); [reflexivity|]. unfold cert_read.
  replace (max_cert <? Nat.min max_cert max_resp) with false by (symmetry; apply Nat.ltb_ge; lia). unfold nv_meta. rewrite HF. change (is_ok OK) with true. cbn [negb].
  rewrite HM, Nat2N.id. destruct (Nat.min max_cert max_resp <? length d); [reflexivity|]. unfold sp_read. rewrite HF.
  assert (0 < length d) by (destruct d; [contradiction|cbn; lia]). replace (0 <? length d) with true by (symmetry; apply Nat.ltb_lt; lia).
  rewrite Nat.sub_0_r, Nat.leb_refl. cbn [andb skipn]. rewrite firstn_all. reflexivity.
Qed.
End Server.

(** A certificate one client adds is, byte for byte, what any client reads under
    its id, whatever their byte orders; and if it was added as non-exportable, no
    byte of it is given out. *)
Theorem C97_add_then_read DL MAX K World vrfy load parse der digest global max_cert max_read hs
    (e1 e2 : cenv World) c1 c2 keys1 keys2 sb cb1 cb2 cid1 cid2 id acc fl label cert cap L1 L2 s o1 s1 :
  let srv e c keys := cert_srv MAX World vrfy load parse der digest global max_cert (DL - 8) max_read hs e c keys in
  44 <= DL -> (N.of_nat DL < 65536)%N -> DL <= length (tl_buf L1) -> DL <= length (tl_buf L2) ->
  args_ok (KAdd id acc fl label cert) -> ~ refused DL MAX true (KAdd id acc fl label cert) ->
  i32 (ce_lock _ e1) -> i32 (ce_nvm _ e1) -> i32 (ce_evict _ e1) ->
  tl_send L1 = OK -> tl_recv L1 = OK -> tl_lock L1 = OK ->
  tl_send L2 = OK -> tl_recv L2 = OK -> tl_lock L2 = OK -> ce_lock _ e2 = OK ->
  cert_call DL MAX K global csys (srv e1 c1 keys1) sb cb1 cid1 true (KAdd id acc fl label cert) L1 s = (o1, s1) ->
  co_rc o1 = Some OK ->
  cert_call DL MAX K global csys (srv e2 c2 keys2) sb cb2 cid2 true (KRead id cap) L2 s1 =
  ((if has fl F_NONEXPORTABLE then mkCo OK (Some ACCESS) None None None
    else if (max_cert <? length cert) || (cap <? length cert)
         then mkCo OK (Some BUFFER_SIZE) None (Some (N.of_nat (length cert))) None
         else mkCo OK (Some OK) None (Some (N.of_nat (length cert))) (Some cert)), s1).
Proof.
  intros srv H1 H2 B1 B2 A NR I1 I2 I3 S1 V1 K1 S2 V2 K2 HL HC HO.
  pose proof NR as NR'. cbn [refused] in NR'. assert (LC : cert <> [] /\ 36 + length cert <= DL) by (split; [tauto|lia]). destruct LC as [NE LC].
  pose proof (C97_call DL MAX K global csys (srv e1 c1 keys1) sb cb1 cid1 (KAdd id acc fl label cert) L1 s H1 H2 A NR B1 S1 V1 K1) as X.
  cbn [asks] in X. unfold srv, cert_srv in X. cbn [behind] in X. fold srv in X.
  destruct (cert_handle MAX World vrfy load parse der digest global max_cert (DL - 8) max_read hs e1 c1 (CAdd false id acc fl (label24 label) cert) s) as [[rc b] s'] eqn:EH.
  destruct (add_done MAX World vrfy load parse der digest global max_cert (DL - 8) max_read hs e1 c1 id acc fl (label24 label) cert s rc b s' ltac:(lia) I1 I2 I3 EH) as [IR FD].
  cbn [fst snd] in X. destruct X as (o & X1 & X2); [split; [exact IR|split; [reflexivity|exact Logic.I]]|].
  change (cert_call DL MAX K global csys (srv e1 c1 keys1) sb cb1 cid1 true (KAdd id acc fl label cert) L1 s = (o, s')) in X1.
  rewrite HC in X1. injection X1 as <- <-.
  assert (RC : rc = OK). { inversion X2; subst; cbn [sr_rc co_rc] in *. congruence. }
  specialize (FD RC). clear X2 EH IR RC.
  pose proof (C97_call DL MAX K global csys (srv e2 c2 keys2) sb cb2 cid2 (KRead id cap) L2 s1 H1 H2 (proj1 A) (fun F => F) B2 S2 V2 K2) as X.
  cbn [asks] in X. set (r := srv e2 c2 keys2 (SRead id) s1) in X.
  assert (ER : r = (let '(rc, b) := if has fl F_NONEXPORTABLE then (ACCESS, []) else if max_cert <? length cert then (BUFFER_SIZE, []) else (OK, cert) in
                    mkSr rc (keys2 (SRead id) s1) (N.of_nat (length cert)) b, s1)).
  { unfold r, srv, cert_srv. cbn [behind]. rewrite (read_done MAX World vrfy load parse der digest global max_cert (DL - 8) max_read hs e2 c2 id s1 _ cert HL FD NE eq_refl). rewrite FD. cbn [m_flags m_len].
    rewrite has_two. replace (has (N.ldiff fl F_SERVER_ONLY) F_NONEXPORTABLE) with (has fl F_NONEXPORTABLE).
    2: { unfold has. do 2 f_equal. apply N.bits_inj. intros k. rewrite !N.land_spec, N.ldiff_spec.
         destruct (N.testbit F_NONEXPORTABLE k) eqn:T; [|rewrite !Bool.andb_false_r; reflexivity]. rewrite !Bool.andb_true_r.
         replace (N.testbit F_SERVER_ONLY k) with false; [rewrite Bool.andb_true_r; reflexivity|].
         assert (Z0 : N.land F_NONEXPORTABLE F_SERVER_ONLY = 0%N) by reflexivity. assert (Z1 : N.testbit (N.land F_NONEXPORTABLE F_SERVER_ONLY) k = false) by (rewrite Z0; apply N.bits_0).
         rewrite N.land_spec, T in Z1. symmetry. exact Z1. }
    replace (has (N.ldiff fl F_SERVER_ONLY) F_SERVER_ONLY) with false.
    2: { unfold has. replace (N.land (N.ldiff fl F_SERVER_ONLY) F_SERVER_ONLY) with 0%N; [reflexivity|]. symmetry. apply N.bits_inj. intros k.
         rewrite N.land_spec, N.ldiff_spec, N.bits_0. destruct (N.testbit F_SERVER_ONLY k); rewrite ?Bool.andb_false_r; reflexivity. }
    rewrite Bool.orb_false_r. destruct (has fl F_NONEXPORTABLE); [reflexivity|].
    replace (Nat.min max_cert (DL - 8) <? length cert) with (max_cert <? length cert).
    2: { destruct (Nat.ltb_spec max_cert (length cert)), (Nat.ltb_spec (Nat.min max_cert (DL - 8)) (length cert)); auto; lia. }
    destruct (max_cert <? length cert); reflexivity. }
  rewrite ER in X. clearbody r. destruct (has fl F_NONEXPORTABLE) eqn:EX; [|destruct (max_cert <? length cert) eqn:EM]; cbn [fst snd] in X; cbn [orb].
  - destruct X as (o & X1 & X2); [split; [unfold i32, ACCESS; cbn; lia|split; [cbn [sr_len]; lia|discriminate]]|]. rewrite X1. f_equal.
    inversion X2; subst; cbn [sr_rc sr_len sr_data] in *; auto; try discriminate; try contradiction.
  - destruct X as (o & X1 & X2); [split; [unfold i32, BUFFER_SIZE; cbn; lia|split; [cbn [sr_len]; lia|discriminate]]|]. rewrite X1. f_equal.
    inversion X2; subst; cbn [sr_rc sr_len sr_data] in *; auto; try discriminate; try contradiction.
  - destruct X as (o & X1 & X2); [split; [unfold i32, OK; cbn; lia|split; [cbn [sr_len]; lia|cbn [sr_len sr_data]; intros _; split; [reflexivity|lia]]]|]. rewrite X1. f_equal.
    inversion X2; subst; cbn [sr_rc sr_len sr_data] in *; try discriminate; try contradiction.
    + replace (cap <? length cert) with false by (symmetry; apply Nat.ltb_ge; lia). reflexivity.
    + replace (cap <? length cert) with true by (symmetry; apply Nat.ltb_lt; lia). reflexivity.
Qed.
Print Assumptions C97_add_then_read.

(** ** What does not hold *)
(** With a NULL out_rc, wh_Client_CertEraseTrusted returns 0 although the server
    refused. *)
Theorem C97_silent_refuted :
  ~ (forall St (srv : sop -> St -> sres * St) sb cb c L s, args_ok c -> tl_send L = OK -> tl_recv L = OK -> tl_lock L = OK ->
      co_ret (fst (cert_call 64 4 (mkKcfg false false false) false St srv sb cb 1 false c L s)) = OK ->
      sr_rc (fst (srv (asks (mkKcfg false false false) 1 c) s)) = OK).
Proof.
  intros H. specialize (H unit (fun _ s => (mkSr ACCESS 0 0 [], s)) false false (KErase 7) (mkTl OK OK OK (repeat 0%N 64)) tt).
  cbn [args_ok] in H. assert (U : u16 7) by reflexivity. specialize (H U eq_refl eq_refl eq_refl). vm_compute in H. specialize (H eq_refl). discriminate.
Qed.
Print Assumptions C97_silent_refuted.
(** With a NULL out_rc, wh_Client_CertReadTrusted returns 0 although not one byte
    of the certificate was written. *)
Theorem C97_silent_read_refuted :
  ~ (forall St (srv : sop -> St -> sres * St) sb cb id cap L s, u16 id -> tl_send L = OK -> tl_recv L = OK -> tl_lock L = OK ->
      sr_rc (fst (srv (SRead id) s)) = OK -> res_ok 64 (KRead id cap) (fst (srv (SRead id) s)) ->
      co_ret (fst (cert_call 64 4 (mkKcfg false false false) false St srv sb cb 1 false (KRead id cap) L s)) = OK ->
      co_cert (fst (cert_call 64 4 (mkKcfg false false false) false St srv sb cb 1 false (KRead id cap) L s)) = Some (sr_data (fst (srv (SRead id) s)))).
Proof.
  intros H. specialize (H unit (fun _ s => (mkSr OK 0 2 [48; 49]%N, s)) true false 7%N 1 (mkTl OK OK OK (repeat 0%N 64)) tt).
  assert (U : u16 7) by reflexivity. specialize (H U eq_refl eq_refl eq_refl eq_refl).
  assert (R : res_ok 64 (KRead 7 1) (mkSr OK 0 2 [48; 49]%N)) by (split; [unfold i32, OK; cbn; lia|split; [reflexivity|intros _; split; [reflexivity|cbn; lia]]]).
  specialize (H R). vm_compute in H. specialize (H eq_refl). discriminate.
Qed.
Print Assumptions C97_silent_read_refuted.
(** The erase and read actions do not check the size of the packet: an empty one
    acts on the id an earlier packet left in the buffer. *)
Theorem C97_short_refuted :
  ~ (forall St (srv : sop -> St -> sres * St) sb cb a n buf buf' s, firstn n buf = firstn n buf' ->
      snd (serve 4 (mkKcfg false false false) false St srv sb cb 1 OK a n buf s) =
      snd (serve 4 (mkKcfg false false false) false St srv sb cb 1 OK a n buf' s)).
Proof.
  intros H. specialize (H (list sop) (fun op s => (mkSr OK 0 0 [], op :: s)) false false 3%N 0 [7; 0; 0; 0; 0; 0; 0; 0]%N [8; 0; 0; 0; 0; 0; 0; 0]%N [] eq_refl).
  vm_compute in H. discriminate.
Qed.
Print Assumptions C97_short_refuted.
(** The padding of a reply is not written: it carries what the packet buffer held
    before. *)
Theorem C97_padding_refuted :
  ~ (forall St (srv : sop -> St -> sres * St) sb cb a n buf buf' s, whole a n -> length buf = length buf' -> firstn n buf = firstn n buf' ->
      fst (serve 4 (mkKcfg false false false) false St srv sb cb 1 OK a n buf s) =
      fst (serve 4 (mkKcfg false false false) false St srv sb cb 1 OK a n buf' s)).
Proof.
  intros H. specialize (H unit (fun _ s => (mkSr OK 0 0 [], s)) false false 1%N 0 (repeat 0%N 8) (repeat 9%N 8) tt).
  assert (W : whole 1 0) by (intros [E|E]; discriminate). specialize (H W eq_refl eq_refl). vm_compute in H. discriminate.
Qed.
Print Assumptions C97_padding_refuted.

(** ** Cases *)
Definition ex_cfg : kcfg := mkKcfg true true false.
Definition ex_srv (op : sop) (s : list sop) : sres * list sop := (mkSr OK (from_client ex_cfg KT_CRYPTO 1 9) 3 [48; 49; 50]%N, op :: s).
Definition ex_link : tlink := mkTl OK OK OK (repeat 255%N 64).
(** A little-endian client verifies with two roots and caches the leaf's key in a
    slot the server picks; the server is big endian. *)
Example C97_call_case :
  let c := KMulti [5; 6; 7]%N [258; 4]%N (Some (32, 0)%N) in
  args_ok c /\ ~ refused 64 4 true c /\ res_ok 64 c (fst (ex_srv (asks ex_cfg 1 c) [])) /\
  cert_call 64 4 ex_cfg false _ ex_srv true false 1 true c ex_link [] =
    (mkCo OK (Some OK) (Some 9%N) None None, [SVerify [5; 6; 7]%N [258; 4]%N 1 32 4352]).
Proof.
  cbv zeta. split; [|split; [|split]].
  - cbn. unfold u16. repeat constructor; reflexivity.
  - cbn. intros [H|[H|[H|H]]]; try discriminate. lia.
  - split; [vm_compute; split; [discriminate|reflexivity]|split; [reflexivity|exact Logic.I]].
  - vm_compute. reflexivity.
Qed.
Example C97_read_case :
  cert_call 64 4 ex_cfg false _ ex_srv true false 1 true (KRead 513 3) ex_link [] = (mkCo OK (Some OK) None (Some 3%N) (Some [48; 49; 50]%N), [SRead 513]) /\
  cert_call 64 4 ex_cfg false _ ex_srv true false 1 true (KRead 513 2) ex_link [] = (mkCo OK (Some BUFFER_SIZE) None (Some 3%N) None, [SRead 513]).
Proof. split; vm_compute; reflexivity. Qed.
(** A certificate added by a little-endian client and read by a big-endian one. *)
Definition ex_env : cenv unit := mkCenv unit OK OK OK OK true (fun _ => tt) (fun _ => OK) (fun _ => OK) (fun _ => OK) (fun _ => OK) (fun _ => OK) (fun _ _ => []).
Definition ex_state : csys := mkCs [] (fun _ => mkVc [None; None] 0 true) [].
Definition ex_cert_srv (c : nat) := cert_srv 4 unit (fun _ _ _ => SUCCESS) (fun _ _ _ => SUCCESS) (fun _ => (OK, false)) (fun _ => inl 0%Z) (fun b => b)
  false 32 56 32 false ex_env c (fun _ _ => 0%N).
Example C97_add_then_read_case :
  let c := KAdd 258 1 64 (Some [116]%N) [48; 49; 50]%N in
  let o := cert_call 64 4 ex_cfg false _ (ex_cert_srv 0) false false 1 true c ex_link ex_state in
  args_ok c /\ ~ refused 64 4 true c /\ co_rc (fst o) = Some OK /\
  fst (cert_call 64 4 ex_cfg false _ (ex_cert_srv 1) false true 2 true (KRead 258 8) ex_link (snd o)) =
    mkCo OK (Some OK) None (Some 3%N) (Some [48; 49; 50]%N).
Proof.
  cbv zeta. split; [|split; [|split]].
  - cbn. unfold u16. repeat split; reflexivity.
  - cbn. intros [H|H]; [discriminate|lia].
  - vm_compute. reflexivity.
  - vm_compute. reflexivity.
Qed.
(** A server whose lock is busy. *)
Example C97_no_code_case : ~ refused 64 4 false (KRead 513 3) /\
  cert_call 64 4 ex_cfg false _ ex_srv true false 1 false (KRead 513 3) ex_link [] = (mkCo OK None None (Some 3%N) (Some [48; 49; 50]%N), [SRead 513]).
Proof. split; [exact (fun F => F)|vm_compute; reflexivity]. Qed.
Example C97_any_reply_case : co_cert (response 64 true true (KRead 1 4) [0; 0; 0; 0; 0; 0; 0; 2; 7; 8; 9]%N) = Some [7; 8]%N.
Proof. reflexivity. Qed.
Example C97_unlocked_case : takes_lock false KClear /\
  cert_call 64 4 ex_cfg false _ ex_srv true false 1 true KClear (mkTl OK OK ACCESS (repeat 255%N 64)) [] = (mkCo OK (Some ACCESS) None None None, []).
Proof. split; [reflexivity|vm_compute; reflexivity]. Qed.
Example C97_only_received_case : whole 2 40 /\ firstn 2 [1; 2; 3]%N = firstn 2 [1; 2; 4]%N.
Proof. split; [intros [H|H]; discriminate|reflexivity]. Qed.
