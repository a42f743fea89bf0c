(** Proofs about the counter calls on bytes (CtcModel.v). *)
From Verif Require Import Base BaseLemmas NvmSpec Flags Store KeyId CounterModel NvmReqModel EndianModel EndianProof KdfModel KsReq AuthCodec.
From Verif Require Import NvcModel NvcSpec NvcProof CtcModel CtcSpec.
Local Open Scope N_scope.

(** The request a call stands for. *)
Definition asks (c : ccall) : counter_req :=
  match c with CtInit id v => CInit id v | CtReset id => CInit id 0 | CtInc id => CInc id | CtRead id => CRead id | CtDestroy id => CDestroy id end.

Lemma exactly_length n (l : list N) : length (exactly n l) = n.
Proof. unfold exactly. rewrite firstn_length, app_length, repeat_length. lia. Qed.
Lemma dec_enc4 sb v rest : v < 4294967296 -> dec sb (firstn 4 (enc sb 4 v ++ rest)) = v.
Proof. intros H. rewrite first_exact by apply enc_length. rewrite dec_enc by exact H. rewrite Bool.eqb_reflx. reflexivity. Qed.
Lemma enc_bytes sb w v : bytes_ok (enc sb w v).
Proof. unfold enc. destruct sb; [apply Forall_rev|]; apply le_enc_ok. Qed.
Lemma label_bound sb m : meta_ok m -> label_counter sb m < 4294967296.
Proof.
  intros (_ & L & B). unfold label_counter, dec.
  assert (X : bytes_ok (firstn 4 (m_label m))) by (apply bytes_ok_firstn; auto).
  assert (LN : length (firstn 4 (m_label m)) = 4%nat) by (rewrite firstn_length, L; reflexivity).
  destruct sb.
  - assert (X2 : bytes_ok (rev (firstn 4 (m_label m)))) by (apply Forall_rev; auto).
    apply le_dec_bound in X2. rewrite rev_length, LN in X2. exact X2.
  - apply le_dec_bound in X. rewrite LN in X. exact X.
Qed.
Lemma with_ok sb m v : meta_ok m -> meta_ok (with_counter sb m v).
Proof.
  intros (A & L & E). split; [exact A|split]; unfold with_counter; cbn [m_label].
  - rewrite app_length, enc_length, skipn_length, L. reflexivity.
  - apply Forall_app. split; [apply enc_bytes|]. apply bytes_ok_skipn; auto.
Qed.
Lemma store_add m s : store_ok s -> meta_ok m -> store_ok (sp_add m [] s).
Proof.
  intros H ((A & B & C & D) & L & E). unfold sp_add. apply Forall_app. split; [apply destroy_ok; auto|]. constructor; [|constructor].
  unfold object_ok, meta_ok, with_len; cbn. conjs; auto. lia.
Qed.
Lemma id_meta_ok client id : meta_ok (with_id meta_zero (counter_id client id)).
Proof.
  unfold with_id, meta_zero. repeat split; cbn [m_id m_access m_flags m_len m_label]; try lia; try apply mk_lt; auto.
  apply Forall_forall. intros x I. apply repeat_spec in I. subst. reflexivity.
Qed.

Ltac parts := match goal with |- ?A /\ ?B => match A with forall x, _ -> x < _ => idtac | _ => split; [solve [auto | congruence]|]; parts end | _ => idtac end.

(** What the server does with a request is what the call stands for. *)
Lemma serve_counts sb e client c s : store_ok s -> cargs c ->
  exists rc v' told s',
    counts e c (value sb s client (about c)) = (rc, v', told) /\
    cserve_req sb e client (asks c) s = ((rc, match told with Some x => x | None => 0 end), s') /\
    value sb s' client (about c) = v' /\ store_ok s' /\
    (forall k, k <> counter_id client (about c) -> sp_find s' k = sp_find s k) /\
    (rc <> OK -> s' = s /\ told = None) /\ (forall x, told = Some x -> x < 4294967296) /\ (cenv_ok e -> i32 rc).
Proof.
  intros HS [HA HV]. unfold counts.
  assert (LK : forall q, cserve_req sb e client q s = cserve_req sb e client q s) by reflexivity.
  destruct (Z.eqb_spec (ce_lock e) OK) as [L|L]; cbn [negb].
  2:{ assert (K : is_ok (ce_lock e) = false) by (apply Bool.not_true_iff_false; rewrite is_ok_iff; auto).
      exists (ce_lock e), (value sb s client (about c)), None, s. split; [reflexivity|]. split; [destruct c; cbn [asks cserve_req]; rewrite K; reflexivity|].
      parts. split; [discriminate|]. intros [X _]; exact X. }
  assert (K : is_ok (ce_lock e) = true) by (apply is_ok_iff; auto).
  assert (NV : ce_nvm e <> OK -> is_ok (ce_nvm e) = false) by (intros X; apply Bool.not_true_iff_false; rewrite is_ok_iff; auto).
  assert (PUT : forall m v, meta_ok m -> m_id m = counter_id client (about c) -> v < 4294967296 -> ce_nvm e = OK ->
    nv_add (ce_nvm e) (with_counter sb m v) [] s = (OK, sp_add (with_counter sb m v) [] s) /\
    value sb (sp_add (with_counter sb m v) [] s) client (about c) = Some v /\ store_ok (sp_add (with_counter sb m v) [] s) /\
    (forall k, k <> counter_id client (about c) -> sp_find (sp_add (with_counter sb m v) [] s) k = sp_find s k)).
  { intros m v MO MI VB EN. unfold nv_add. rewrite EN. change (is_ok OK) with true. split; [reflexivity|].
    split; [|split; [apply store_add; auto using with_ok|]].
    - unfold value. rewrite find_add. change (m_id (with_counter sb m v)) with (m_id m). rewrite MI, N.eqb_refl. cbn [with_len m_label with_counter].
      f_equal. apply dec_enc4; auto.
    - intros k NK. rewrite find_add. change (m_id (with_counter sb m v)) with (m_id m). rewrite MI. apply N.eqb_neq in NK. rewrite NK. reflexivity. }
  assert (INIT : forall id v, about c = id -> v < 4294967296 -> asks c = CInit id v ->
    exists rc v' told s', (if Z.eqb (ce_nvm e) OK then (OK, Some v, Some v) else (ce_nvm e, value sb s client (about c), None)) = (rc, v', told) /\
    cserve_req sb e client (asks c) s = ((rc, match told with Some x => x | None => 0 end), s') /\
    value sb s' client (about c) = v' /\ store_ok s' /\
    (forall k, k <> counter_id client (about c) -> sp_find s' k = sp_find s k) /\
    (rc <> OK -> s' = s /\ told = None) /\ (forall x, told = Some x -> x < 4294967296) /\ (cenv_ok e -> i32 rc)).
  { intros id v AB VB AQ. destruct (Z.eqb_spec (ce_nvm e) OK) as [N1|N1].
    - destruct (PUT (with_id meta_zero (counter_id client id)) v (id_meta_ok _ _) ltac:(rewrite AB; reflexivity) VB N1) as (P1 & P2 & P3 & P4).
      exists OK, (Some v), (Some v), (sp_add (with_counter sb (with_id meta_zero (counter_id client id)) v) [] s). split; [reflexivity|].
      split; [rewrite AQ; cbn [cserve_req]; rewrite K; cbn [negb]; rewrite P1; change (is_ok OK) with true; cbv iota; unfold label_counter, with_counter; cbn [m_label]; rewrite dec_enc4 by auto; reflexivity|].
      split; [exact P2|]. split; [exact P3|]. split; [exact P4|]. split; [congruence|]. split; [intros x E; congruence|]. intros _. apply i32_const.
    - exists (ce_nvm e), (value sb s client (about c)), None, s. split; [reflexivity|].
      split; [rewrite AQ; cbn [cserve_req]; rewrite K; cbn [negb]; unfold nv_add; rewrite (NV N1), (NV N1); reflexivity|].
      parts. split; [discriminate|]. intros [_ X]; exact X. }
  destruct c as [id v|id|id|id|id]; cbn [about asks] in *.
  - apply (INIT id v eq_refl HV eq_refl).
  - apply (INIT id 0 eq_refl ltac:(lia) eq_refl).
  - cbn [cserve_req]. rewrite K. cbn [negb]. unfold nv_meta. unfold value at 1. destruct (sp_find s (counter_id client id)) as [[m d]|] eqn:F.
    2:{ exists NOTFOUND, None, None, s. split; [reflexivity|]. split; [reflexivity|]. split; [unfold value; rewrite F; reflexivity|].
        parts. split; [discriminate|]. intros _. apply i32_const. }
    change (negb (is_ok OK)) with false. cbv iota zeta. destruct (find_ok _ _ _ _ HS F) as [[MO _] MI]. cbn [fst] in MO.
    pose proof (label_bound sb m MO) as B. fold (label_counter sb m).
    destruct (N.eqb_spec (label_counter sb m) MAX32) as [EQ|NE].
    { exists OK, (Some (label_counter sb m)), (Some (label_counter sb m)), s. split; [reflexivity|].
      rewrite EQ. change ((MAX32 + 1) mod 4294967296) with 0. cbn [N.eqb]. split; [reflexivity|]. split; [unfold value; rewrite F; fold (label_counter sb m); rewrite EQ; reflexivity|].
      parts. split; [intros x E; injection E as <-; reflexivity|]. intros _. apply i32_const. }
    unfold MAX32 in NE. rewrite N.mod_small by lia. destruct (N.eqb_spec (label_counter sb m + 1) 0); [lia|].
    destruct (Z.eqb_spec (ce_nvm e) OK) as [N1|N1].
    + destruct (PUT m (label_counter sb m + 1) MO MI ltac:(lia) N1) as (P1 & P2 & P3 & P4).
      exists OK, (Some (label_counter sb m + 1)), (Some (label_counter sb m + 1)), (sp_add (with_counter sb m (label_counter sb m + 1)) [] s).
      split; [reflexivity|]. rewrite P1. split; [reflexivity|]. split; [exact P2|]. split; [exact P3|]. split; [exact P4|]. split; [congruence|].
      split; [intros x E; injection E as <-; lia|]. intros _. apply i32_const.
    + exists (ce_nvm e), (Some (label_counter sb m)), None, s. split; [reflexivity|]. unfold nv_add. rewrite !(NV N1).
      split; [reflexivity|]. split; [unfold value; rewrite F; reflexivity|]. parts. split; [discriminate|]. intros [_ X]; exact X.
  - cbn [cserve_req]. rewrite K. cbn [negb]. unfold nv_meta. unfold value at 1. destruct (sp_find s (counter_id client id)) as [[m d]|] eqn:F.
    + destruct (find_ok _ _ _ _ HS F) as [[MO _] MI]. cbn [fst] in MO. pose proof (label_bound sb m MO) as B.
      exists OK, (Some (label_counter sb m)), (Some (label_counter sb m)), s. split; [reflexivity|]. split; [reflexivity|]. split; [unfold value; rewrite F; reflexivity|].
      parts. split; [intros x E; injection E as <-; auto|]. intros _. apply i32_const.
    + exists NOTFOUND, None, None, s. split; [reflexivity|]. split; [reflexivity|]. split; [unfold value; rewrite F; reflexivity|].
      parts. split; [discriminate|]. intros _. apply i32_const.
  - cbn [cserve_req]. rewrite K. cbn [negb]. unfold nv_destroy. destruct (Z.eqb_spec (ce_nvm e) OK) as [N1|N1].
    + rewrite N1. change (is_ok OK) with true. cbv iota. exists OK, None, None, (sp_destroy [counter_id client id] s). split; [reflexivity|]. split; [reflexivity|].
      split; [unfold value; rewrite find_destroy; cbn [existsb]; rewrite N.eqb_refl; reflexivity|]. split; [apply destroy_ok; auto|].
      split; [|split; [congruence|split; [discriminate|intros _; apply i32_const]]]. intros k NK. rewrite find_destroy. cbn [existsb]. apply N.eqb_neq in NK. rewrite NK. reflexivity.
    + rewrite (NV N1). exists (ce_nvm e), (value sb s client id), None, s. parts. split; [discriminate|]. intros [_ X]; exact X.
Qed.

(** ** Packets *)
Lemma request_parses sb cb pad c rest : cargs c -> about c <> 0 -> exists p, crequest cb pad c = Some p /\ length p = 8%nat /\
  cparse sb cb (caction c) (length p) (p ++ rest) = asks c.
Proof.
  intros [A V] NZ. apply N.eqb_neq in NZ.
  assert (I : forall v id, v < 4294967296 -> id < 65536 ->
    length (wire cb [(4%nat, v); (2%nat, id)] ++ exactly 2 pad) = 8%nat /\
    take sb cb W_CINIT ((wire cb [(4%nat, v); (2%nat, id)] ++ exactly 2 pad) ++ rest) = [v; id]).
  { intros v id B1 B2. split; [rewrite app_length, wire_length, exactly_length; reflexivity|]. rewrite <- app_assoc.
    change W_CINIT with (map (@fst nat N) [(4%nat, v); (2%nat, id)]). rewrite take_wire; [reflexivity|fits]. }
  assert (J : forall id, id < 65536 ->
    length (wire cb [(2%nat, id)] ++ exactly 6 pad) = 8%nat /\
    take sb cb W_CID ((wire cb [(2%nat, id)] ++ exactly 6 pad) ++ rest) = [id]).
  { intros id B2. split; [rewrite app_length, wire_length, exactly_length; reflexivity|]. rewrite <- app_assoc.
    change W_CID with (map (@fst nat N) [(2%nat, id)]). rewrite take_wire; [reflexivity|fits]. }
  destruct c as [id v|id|id|id|id]; cbn [about] in *; cbn [crequest]; rewrite NZ; eexists; (split; [reflexivity|]); cbn [caction asks].
  - destruct (I v id V A) as [L T]. split; [exact L|]. unfold cparse. rewrite L. change (Nat.ltb 8 8) with false. cbv iota. rewrite T. reflexivity.
  - destruct (I 0 id ltac:(lia) A) as [L T]. split; [exact L|]. unfold cparse. rewrite L. change (Nat.ltb 8 8) with false. cbv iota. rewrite T. reflexivity.
  - destruct (J id A) as [L T]. split; [exact L|]. unfold cparse. rewrite L. change (Nat.ltb 8 8) with false. cbv iota. rewrite T. reflexivity.
  - destruct (J id A) as [L T]. split; [exact L|]. unfold cparse. rewrite L. change (Nat.ltb 8 8) with false. cbv iota. rewrite T. reflexivity.
  - destruct (J id A) as [L T]. split; [exact L|]. unfold cparse. rewrite L. change (Nat.ltb 8 8) with false. cbv iota. rewrite T. reflexivity.
Qed.
Definition destroys (c : ccall) : bool := match c with CtDestroy _ => true | _ => false end.
Lemma reply_read sb cb c rc x junk : i32 rc -> x < 4294967296 ->
  cresponse cb c (creply sb cb (caction c) (rc, x) junk) = mkCo rc (if Z.eqb rc OK then if destroys c then None else Some x else None).
Proof.
  intros R X. unfold cresponse.
  assert (F : forall rest, n_rc (fld 0 (unwire cb R_COUNTER (give sb cb [(4%nat, rc_n rc)] ++ rest))) = rc).
  { intros rest. pose proof (unwire_give sb cb [(4%nat, rc_n rc)] rest ltac:(fits)) as E. cbn [map fst snd] in E.
    assert (X0 : forall b, fld 0 (unwire cb R_COUNTER b) = fld 0 (unwire cb [4%nat] b)) by reflexivity.
    rewrite X0, E. apply rc_round; auto. }
  destruct (destroys c) eqn:D.
  - destruct c; try discriminate. cbn [caction creply fst snd]. rewrite app_length, give_length, exactly_length.
    change (Nat.ltb _ 8) with false. cbv iota. rewrite F. change 0%Z with OK. destruct (Z.eqb_spec rc OK) as [->|]; reflexivity.
  - assert (E : creply sb cb (caction c) (rc, x) junk = give sb cb [(4%nat, rc_n rc); (4%nat, x)]) by (destruct c; try discriminate; reflexivity).
    rewrite E, give_length. change (Nat.ltb _ 8) with false. cbv iota.
    pose proof (unwire_give sb cb [(4%nat, rc_n rc); (4%nat, x)] [] ltac:(fits)) as U. rewrite app_nil_r in U. cbn [map fst snd] in U.
    change R_COUNTER with [4%nat; 4%nat]. rewrite U. unfold fld. cbn [nth]. rewrite rc_round by auto. change 0%Z with OK.
    destruct (Z.eqb_spec rc OK) as [->|]; cbn [negb]; [|reflexivity]. destruct c; try discriminate; reflexivity.
Qed.

Lemma told_some e c v v' told : counts e c v = (OK, v', told) -> if destroys c then told = None else told <> None.
Proof.
  unfold counts. destruct (Z.eqb_spec (ce_lock e) OK) as [|N1]; cbn [negb]; [|congruence].
  destruct c; cbn [destroys]; try destruct v as [n|]; try destruct (n =? MAX32); try destruct (Z.eqb_spec (ce_nvm e) OK); first [congruence | intros X; injection X as X; discriminate X | idtac].
Qed.

(** ** The calls *)
Section Calls.
Variables sb cb : bool.
Lemma refused client c e L s : about c = 0 -> ccall_do sb cb client c e L s = (cfinal c (mkCo BADARGS None), s).
Proof. intros Z. unfold ccall_do. destruct c; cbn [about] in Z; subst; reflexivity. Qed.
Lemma unsent client c e L s : cargs c -> about c <> 0 -> k_send L <> OK ->
  ccall_do sb cb client c e L s = (cfinal c (mkCo (k_send L) None), s).
Proof.
  intros A NZ K. destruct (request_parses sb cb (k_old L) c [] A NZ) as (p & E & _). unfold ccall_do. rewrite E.
  destruct (is_ok (k_send L)) eqn:O; [apply is_ok_iff in O; contradiction|reflexivity].
Qed.
(** A call that is sent. *)
Lemma done client c e L s rc v' told : store_ok s -> cargs c -> cenv_ok e -> about c <> 0 -> k_send L = OK ->
  counts e c (value sb s client (about c)) = (rc, v', told) ->
  exists s', ccall_do sb cb client c e L s = (cfinal c (if Z.eqb (k_recv L) OK then mkCo rc told else mkCo (k_recv L) None), s') /\
    value sb s' client (about c) = v' /\ store_ok s' /\ (rc <> OK -> s' = s) /\
    forall k, k <> counter_id client (about c) -> sp_find s' k = sp_find s k.
Proof.
  intros HS A EO NZ K E. destruct (serve_counts sb e client c s HS A) as (rc' & v1 & told' & s' & E' & SV & VL & SO & OT & ER & TB & RI).
  rewrite E in E'. injection E' as <- <- <-. exists s'. split; [|split; [exact VL|split; [exact SO|split; [intros X; apply ER; auto|exact OT]]]].
  unfold ccall_do. destruct (request_parses sb cb (k_old L) c (skipn 8 (k_old L)) A NZ) as (p & -> & LP & PA).
  rewrite K. change (negb (is_ok OK)) with false. cbv iota. unfold cserve. rewrite LP in *. rewrite PA, SV.
  fold (is_ok (k_recv L)). destruct (is_ok (k_recv L)); [|reflexivity]. f_equal. f_equal. rewrite reply_read; [|apply RI; auto|destruct told; [apply TB; auto|lia]].
  f_equal. destruct (Z.eqb_spec rc OK) as [->|N1]; [|symmetry; apply ER; auto].
  apply told_some in E. destruct (destroys c), told; congruence.
Qed.
End Calls.

(** ** Histories *)
Section Hist.
Variable DL : nat.
Variable build sb : bool.
Variable sid : N.
Hypothesis HD : (4 <= DL)%nat.
Definition val (k : N) (s : store) : option N := match sp_find s k with Some (m, _) => Some (dec sb (firstn 4 (m_label m))) | None => None end.
Lemma val_bound k s v : store_ok s -> val k s = Some v -> v <= MAX32.
Proof.
  intros HS. unfold val. destruct (sp_find s k) as [[m d]|] eqn:F; [|discriminate]. intros E. assert (V : v = label_counter sb m) by (unfold label_counter; congruence). subst v.
  destruct (find_ok _ _ _ _ HS F) as [[MO _] _]. cbn [fst] in MO. pose proof (label_bound sb m MO). unfold MAX32. lia.
Qed.
Lemma val_same k s s' : sp_find s' k = sp_find s k -> val k s' = val k s.
Proof. unfold val. intros ->. reflexivity. Qed.

Lemma cev_moves k x s v0 : store_ok s -> cev_ok sid x -> only_counts sb k x -> val k s = Some v0 ->
  forall o s1, cev_step DL build sb sid x s = (o, s1) -> store_ok s1 /\
  ((val k s1 = Some v0 /\ forall y, o = Some y -> (inc_of k x && Z.eqb (co_rc y) OK)%bool = false) \/
   ((inc_of k x && sent x)%bool = true /\ val k s1 = Some (N.min MAX32 (v0 + 1)) /\
    forall y, o = Some y -> co_rc y = OK -> co_val y = Some (N.min MAX32 (v0 + 1)))).
Proof.
  intros HS OKX ON VS o s1 ST. destruct x as [cb client c e L|v]; cbn [cev_step cev_ok only_counts] in *.
  2:{ injection ST as <- <-. destruct (event_step DL build sb sid v s k HD OKX HS) as [A B]. split; [exact A|]. left. split; [|discriminate].
      rewrite (val_same k s); auto. }
  destruct OKX as [CA CE]. destruct (N.eq_dec (about c) 0) as [Z0|NZ].
  { rewrite (refused sb cb client c e L s Z0) in ST. injection ST as <- <-. split; [exact HS|]. left. split; [exact VS|].
    intros y E. injection E as <-. destruct c; try reflexivity. cbn [about] in Z0. subst. reflexivity. }
  destruct (Z.eq_dec (k_send L) OK) as [KS|KS].
  2:{ rewrite (unsent sb cb client c e L s CA NZ KS) in ST. injection ST as <- <-. split; [exact HS|]. left. split; [exact VS|].
      intros y E. injection E as <-. destruct c; try reflexivity. cbn [cfinal co_rc]. apply Z.eqb_neq in KS. rewrite KS. apply Bool.andb_false_r. }
  destruct (counts e c (value sb s client (about c))) as [[rc v'] told] eqn:CN.
  destruct (done sb cb client c e L s rc v' told HS CA CE NZ KS CN) as (s' & DO & VL & SO & SAME & OT).
  rewrite DO in ST. injection ST as <- <-. split; [exact SO|].
  destruct (N.eq_dec (counter_id client (about c)) k) as [EK|NK].
  2:{ left. split; [rewrite (val_same k s); auto|]. intros y _. destruct c; try reflexivity. cbn [inc_of about] in *. apply N.eqb_neq in NK. rewrite NK. rewrite Bool.andb_false_r. reflexivity. }
  assert (V1 : value sb s client (about c) = Some v0) by (rewrite <- VS, <- EK; reflexivity).
  assert (V2 : val k s' = v') by (rewrite <- VL, <- EK; reflexivity).
  rewrite V1 in CN. unfold counts in CN. destruct (Z.eqb_spec (ce_lock e) OK) as [LK|LK]; cbn [negb] in CN.
  2:{ injection CN as <- <- <-. left. split; [exact V2|]. intros y E. injection E as <-. destruct c; try reflexivity. cbn [cfinal].
      destruct (Z.eqb_spec (k_recv L) OK) as [|R]; cbn [co_rc]; [apply Z.eqb_neq in LK; rewrite LK|apply Z.eqb_neq in R; rewrite R]; apply Bool.andb_false_r. }
  destruct c as [id v|id|id|id|id]; cbn [about] in *; try (contradiction (ON EK)).
  - pose proof (val_bound _ _ _ HS VS) as BD. destruct (N.eqb_spec v0 MAX32) as [EM|NM].
    + injection CN as <- <- <-. right. split; [cbn [inc_of sent]; apply N.eqb_neq in NZ; rewrite NZ, KS; apply N.eqb_eq in EK; rewrite EK; reflexivity|].
      replace (N.min MAX32 (v0 + 1)) with v0 by lia. split; [exact V2|]. intros y E. injection E as <-. cbn [cfinal].
      destruct (Z.eqb_spec (k_recv L) OK); cbn [co_rc co_val]; [auto|congruence].
    + destruct (Z.eqb_spec (ce_nvm e) OK) as [NV|NV].
      * injection CN as <- <- <-. right. split; [cbn [inc_of sent]; apply N.eqb_neq in NZ; rewrite NZ, KS; apply N.eqb_eq in EK; rewrite EK; reflexivity|].
        replace (N.min MAX32 (v0 + 1)) with (v0 + 1) by lia. split; [exact V2|]. intros y E. injection E as <-. cbn [cfinal].
        destruct (Z.eqb_spec (k_recv L) OK); cbn [co_rc co_val]; [auto|congruence].
      * injection CN as <- <- <-. left. split; [exact V2|]. intros y E. injection E as <-. cbn [cfinal].
        destruct (Z.eqb_spec (k_recv L) OK) as [|R]; cbn [co_rc]; [apply Z.eqb_neq in NV; rewrite NV|apply Z.eqb_neq in R; rewrite R]; apply Bool.andb_false_r.
  - injection CN as <- <- <-. left. split; [exact V2|]. intros y _. reflexivity.
Qed.

Lemma history_counts k xs : forall s v0, store_ok s -> Forall (cev_ok sid) xs -> Forall (only_counts sb k) xs -> val k s = Some v0 ->
  let '(ts, s') := history DL build sb sid k xs s in
  store_ok s' /\ exists n vN, val k s' = Some vN /\ vN = N.min MAX32 (v0 + N.of_nat n) /\ (length ts <= n <= sent_incs k xs)%nat /\
    rising v0 ts /\ Forall (fun t => t <= vN) ts.
Proof.
  induction xs as [|x r IH]; intros s v0 HS OKS ONS VS; cbn [history].
  - pose proof (val_bound _ _ _ HS VS). split; [exact HS|]. exists 0%nat, v0. cbn. split; [exact VS|]. split; [lia|]. split; [lia|]. split; constructor.
  - apply Forall_cons_iff in OKS, ONS. destruct OKS as [O1 O2], ONS as [N1 N2]. pose proof (val_bound _ _ _ HS VS) as BD.
    destruct (cev_step DL build sb sid x s) as [o s1] eqn:ST.
    destruct (cev_moves k x s v0 HS O1 N1 VS o s1 ST) as [S1 [[V1 NT]|(IS & V1 & TK)]].
    + specialize (IH s1 v0 S1 O2 N2 V1). destruct (history DL build sb sid k r s1) as [ts s2]. destruct IH as (S2 & n & vN & A & B & C & D & E).
      assert (X : match o with Some o => if (inc_of k x && Z.eqb (co_rc o) OK)%bool then match co_val o with Some v => v :: ts | None => ts end else ts | None => ts end = ts).
      { destruct o as [y|]; [rewrite (NT y eq_refl)|]; reflexivity. }
      rewrite X. split; [exact S2|]. exists n, vN. split; [exact A|]. split; [exact B|]. split; [|auto].
      unfold sent_incs in *. cbn [filter]. destruct (inc_of k x && sent x)%bool; cbn [length]; lia.
    + specialize (IH s1 _ S1 O2 N2 V1). destruct (history DL build sb sid k r s1) as [ts s2]. destruct IH as (S2 & n & vN & A & B & C & D & E).
      split; [exact S2|]. exists (S n), vN. split; [exact A|]. split; [lia|].
      assert (CC : sent_incs k (x :: r) = S (sent_incs k r)) by (unfold sent_incs; cbn [filter]; rewrite IS; reflexivity). rewrite CC.
      assert (UP : rising v0 ts).
      { inversion D as [|? t ? U W]; subst; constructor; [|exact W]. lia. }
      destruct o as [y|]; [|split; [lia|auto]]. destruct (inc_of k x && Z.eqb (co_rc y) OK)%bool eqn:IO; [|split; [lia|auto]].
      apply Bool.andb_true_iff in IO. destruct IO as [_ IO]. apply Z.eqb_eq in IO. rewrite (TK y eq_refl IO). cbn [length].
      split; [lia|]. split; [|constructor; [lia|exact E]]. constructor; [|exact D]. lia.
Qed.
End Hist.
