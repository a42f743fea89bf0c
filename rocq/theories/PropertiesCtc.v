(** C90: counter calls from the caller's arguments to the stored value and back. *)
From Verif Require Import Base NvmSpec Flags Store KeyId CounterModel EndianModel EndianProof KdfModel KsReq NvmReqModel NvcModel NvcSpec NvcProof CtcModel CtcSpec CtcProof.
Local Open Scope N_scope.

(** Settings of the examples: a big-endian server with id 9, clients of both byte
    orders. *)
Definition good : nlink := mkNl 0 0 (repeat 170 16).
Definition lost : nlink := mkNl 0 (-5) (repeat 170 16).
Definition fine : cenv := mkCenv 0 0.
Definition exC (c : ccall) (s : store) := ccall_do true false 5 c fine good s.
Definition cobj (client id v : N) : object := (mkMeta (counter_id client id) 0 0 0 (enc true 4 v ++ repeat 0 20), []).

(** ** A call that is sent and answered does to its counter what [counts] says,
    tells the caller what [counts] says, and touches no other object. *)
Theorem C90_call : forall sb cb client c e L s rc v' told,
  store_ok s -> cargs c -> cenv_ok e -> about c <> 0 -> k_send L = OK -> k_recv L = OK ->
  counts e c (value sb s client (about c)) = (rc, v', told) ->
  exists s', ccall_do sb cb client c e L s = (mkCo rc (match c with CtReset _ => Some 0 | _ => told end), s') /\
    value sb s' client (about c) = v' /\ store_ok s' /\ (rc <> OK -> s' = s) /\
    forall k, k <> counter_id client (about c) -> sp_find s' k = sp_find s k.
Proof.
  intros sb cb client c e L s rc v' told HS CA CE NZ KS KR CN.
  destruct (done sb cb client c e L s rc v' told HS CA CE NZ KS CN) as (s' & DO & R). exists s'. split; [|exact R].
  rewrite DO, KR. change (Z.eqb OK OK) with true. cbv iota. f_equal. destruct c; try reflexivity. cbn [cfinal co_rc co_val]. f_equal.
  destruct told as [x|]; [|reflexivity]. revert CN. unfold counts. destruct (negb _); [intros X; discriminate X|].
  destruct (Z.eqb (ce_nvm e) OK); intros X; [|discriminate X]. injection X as <- <- <-. reflexivity.
Qed.
Print Assumptions C90_call.
Example C90_example :
  exC (CtInit 7 41) [] = (mkCo OK (Some 41), [cobj 5 7 41]) /\
  exC (CtInc 7) [cobj 5 7 511] = (mkCo OK (Some 512), [cobj 5 7 512]) /\
  exC (CtInc 7) [cobj 5 7 MAX32] = (mkCo OK (Some MAX32), [cobj 5 7 MAX32]) /\
  exC (CtRead 7) [cobj 5 7 258] = (mkCo OK (Some 258), [cobj 5 7 258]) /\
  exC (CtRead 8) [cobj 5 7 258] = (mkCo NOTFOUND None, [cobj 5 7 258]) /\
  exC (CtReset 7) [cobj 5 7 258] = (mkCo OK (Some 0), [cobj 5 7 0]) /\
  exC (CtDestroy 7) [cobj 6 7 1; cobj 5 7 2] = (mkCo OK None, [cobj 6 7 1]).
Proof. vm_compute. repeat split. Qed.
Example C90_example_meets : store_ok [cobj 6 7 1; cobj 5 7 511] /\ cargs (CtInc 7) /\ cenv_ok fine /\
  counts fine (CtInc 7) (value true [cobj 6 7 1; cobj 5 7 511] 5 7) = (OK, Some 512, Some 512).
Proof. split; [repeat constructor; vm_compute; auto|]. split; [vm_compute; auto|]. split; [|reflexivity]. unfold cenv_ok, i32. cbn. lia. Qed.

(** Id 0 is refused, an unsent call does nothing; the caller gets no value.  The
    reset call is the exception: it sets the caller's variable to 0 first. *)
Theorem C90_refused : forall sb cb client c e L s, about c = 0 ->
  ccall_do sb cb client c e L s = (mkCo BADARGS (match c with CtReset _ => Some 0 | _ => None end), s).
Proof. intros. rewrite refused by auto. destruct c; reflexivity. Qed.
Print Assumptions C90_refused.
Theorem C90_unsent : forall sb cb client c e L s, cargs c -> about c <> 0 -> k_send L <> OK ->
  ccall_do sb cb client c e L s = (mkCo (k_send L) (match c with CtReset _ => Some 0 | _ => None end), s).
Proof. intros. rewrite unsent by auto. destruct c; reflexivity. Qed.
Print Assumptions C90_unsent.
(** No reply: the caller is told so and gets no value; the counter has moved. *)
Theorem C90_unheard : forall sb cb client c e L s rc v' told,
  store_ok s -> cargs c -> cenv_ok e -> about c <> 0 -> k_send L = OK -> k_recv L <> OK ->
  counts e c (value sb s client (about c)) = (rc, v', told) ->
  exists s', ccall_do sb cb client c e L s = (mkCo (k_recv L) (match c with CtReset _ => Some 0 | _ => None end), s') /\
    value sb s' client (about c) = v' /\ store_ok s' /\ (rc <> OK -> s' = s) /\
    forall k, k <> counter_id client (about c) -> sp_find s' k = sp_find s k.
Proof.
  intros sb cb client c e L s rc v' told HS CA CE NZ KS KR CN.
  destruct (done sb cb client c e L s rc v' told HS CA CE NZ KS CN) as (s' & DO & R). exists s'. split; [|exact R].
  rewrite DO. apply Z.eqb_neq in KR. rewrite KR. destruct c; reflexivity.
Qed.
Print Assumptions C90_unheard.
Example C90_unheard_example : ccall_do true false 5 (CtInc 7) fine lost [cobj 5 7 41] = (mkCo (-5) None, [cobj 5 7 42]).
Proof. vm_compute. reflexivity. Qed.

(** A reset that fails still says 0: the caller's variable holds 0 while the
    counter, which a read shows, holds 41. *)
Theorem C90_reset_refuted : exists e s,
  store_ok s /\ cenv_ok e /\ ccall_do true false 5 (CtReset 7) e good s = (mkCo (ce_nvm e) (Some 0), s) /\ ce_nvm e <> OK /\
  exC (CtRead 7) s = (mkCo OK (Some 41), s).
Proof.
  exists (mkCenv 0 NOSPACE), [cobj 5 7 41]. split; [repeat constructor; vm_compute; auto|]. split; [split; vm_compute; split; congruence|].
  split; [vm_compute; reflexivity|]. split; [discriminate|]. vm_compute. reflexivity.
Qed.
Print Assumptions C90_reset_refuted.

(** ** Histories: any number of clients of any byte order, calls that fail, get
    lost or go unanswered, in any order with NVM calls.  As long as nobody sets
    the counter up again or destroys it and no NVM call stores under its id, the
    values handed out by increments are all different and rise until the counter
    is full, none is above the counter, and the counter has moved by one for
    each increment carried out - at least those answered with success, at most
    those sent. *)
Theorem C90_history : forall DL build sb sid client id xs s v0,
  (4 <= DL)%nat -> store_ok s -> Forall (cev_ok sid) xs -> Forall (only_counts sb (counter_id client id)) xs ->
  value sb s client id = Some v0 ->
  exists ts s' n vN, history DL build sb sid (counter_id client id) xs s = (ts, s') /\ store_ok s' /\
    value sb s' client id = Some vN /\ vN = N.min MAX32 (v0 + N.of_nat n) /\
    (length ts <= n <= sent_incs (counter_id client id) xs)%nat /\ rising v0 ts /\ Forall (fun t => t <= vN) ts.
Proof.
  intros DL build sb sid client id xs s v0 HD HS O1 O2 V. pose proof (history_counts DL build sb sid HD (counter_id client id) xs s v0 HS O1 O2 V) as H.
  destruct (history DL build sb sid (counter_id client id) xs s) as [ts s']. destruct H as (S' & n & vN & R). exists ts, s', n, vN. split; [reflexivity|]. split; [exact S'|]. exact R.
Qed.
Print Assumptions C90_history.
(** Rising values below the maximum never repeat. *)
Theorem C90_fresh : forall v ts, rising v ts -> NoDup (filter (fun t => t <? MAX32) ts) /\ Forall (fun t => v <= t) ts.
Proof.
  intros v ts R. induction R as [v|v t ts H R [ND FA]]; [split; constructor|]. split.
  - cbn [filter]. destruct (N.ltb_spec t MAX32) as [LT|]; [|exact ND]. constructor; [|exact ND]. intros I. apply filter_In in I. destruct I as [I _].
    inversion R as [|? t2 ts2 H2 R2]; subst; [destruct I|].
    assert (B : Forall (fun x => t < x) (t2 :: ts2)).
    { clear I ND FA. revert H2. clear H R. revert t LT. induction R2 as [u|u a l HA R2 IH]; intros t LT H2; constructor; try lia; [constructor|].
      assert (Q : a < MAX32 \/ a = MAX32 \/ MAX32 < a) by lia. apply IH; [exact LT|lia]. }
    rewrite Forall_forall in B. specialize (B _ I). lia.
  - constructor; [lia|]. eapply Forall_impl; [|exact FA]. cbn. intros. lia.
Qed.
Print Assumptions C90_fresh.
Definition exX : list cev :=
  [EvC false 5 (CtInc 7) fine good; EvC true 5 (CtInc 7) fine lost; EvC true 6 (CtReset 7) fine good; EvC false 5 (CtInc 7) (mkCenv 0 NOSPACE) good;
   EvN (mkEv false 4 (NDestroy [3]) (mkEnv 0 0 0 0 [400; 3; 800; 7]) good []); EvC false 5 (CtInc 7) fine (mkNl (-9) 0 []); EvC true 5 (CtInc 7) fine good].
Example C90_history_example :
  history 64 true true 9 (counter_id 5 7) exX [cobj 5 7 41] = ([42; 44], [cobj 5 7 44; cobj 6 7 0]) \/
  history 64 true true 9 (counter_id 5 7) exX [cobj 5 7 41] = ([42; 44], [cobj 6 7 0; cobj 5 7 44]).
Proof. vm_compute. auto. Qed.
Example C90_history_meets : Forall (cev_ok 9) exX /\ Forall (only_counts true (counter_id 5 7)) exX /\ sent_incs (counter_id 5 7) exX = 4%nat.
Proof.
  split; [|split; [|vm_compute; reflexivity]].
  - assert (C : forall cb client c e L, cargs c -> cenv_ok e -> cev_ok 9 (EvC cb client c e L)) by (intros; split; assumption).
    assert (F : cenv_ok fine) by (unfold cenv_ok, i32; cbn; lia). assert (B : cenv_ok (mkCenv 0 NOSPACE)) by (split; vm_compute; split; congruence).
    unfold exX. repeat (apply Forall_cons; [try (apply C; [vm_compute; auto|assumption])|]); [|constructor].
    cbn [cev_ok]. split; [|split; [|exact I]]; [constructor; [reflexivity|constructor]|].
    unfold env_ok, i32. cbn [v_env e_lock e_nvm e_dma1 e_dma2 e_avail]. do 4 (split; [lia|]). exists 400, 3, 800, 7. repeat split.
  - unfold exX. repeat (apply Forall_cons; [cbn [only_counts about]; first [exact I | vm_compute; discriminate | idtac]|]); [|constructor].
    cbn [names v_call]. intros [H|[]]. vm_compute in H. discriminate H.
Qed.

(** Without that condition it fails: an NVM add by another client under the
    counter's object id is accepted and sets the counter back. *)
Theorem C90_nvm_rollback_refuted : exists v s s1,
  store_ok s /\ value true s 5 7 = Some 41 /\ v_id v <> 5 /\
  call 64 true true 9 (v_big v) (v_id v) (v_call v) (v_env v) (v_link v) (v_mem v) s = (Answered OK [] [], [], s1) /\
  fst (exC (CtRead 7) s1) = mkCo OK (Some 2).
Proof.
  exists (mkEv false 6 (NAdd (counter_id 5 7) 0 0 [0; 0; 0; 2] []) (mkEnv 0 0 0 0 []) good []), [cobj 5 7 41], [cobj 5 7 2].
  split; [repeat constructor; vm_compute; auto|]. split; [reflexivity|]. split; [discriminate|]. split; vm_compute; reflexivity.
Qed.
Print Assumptions C90_nvm_rollback_refuted.

(** Counters of different clients and different ids are apart as long as client
    ids are below 16 and counter ids below 256; the call takes 16-bit ids, and
    those above share the counters below. *)
Theorem C90_apart : forall c1 c2 i1 i2, c1 < 16 -> c2 < 16 -> i1 < 256 -> i2 < 256 ->
  counter_id c1 i1 = counter_id c2 i2 -> c1 = c2 /\ i1 = i2.
Proof.
  intros c1 c2 i1 i2 A B C D E. unfold counter_id in E. rewrite !mk_arith in E. rewrite !N.mod_small with (b := 16) in E by (assumption || reflexivity).
  rewrite !N.mod_small in E by assumption. lia.
Qed.
Print Assumptions C90_apart.
Theorem C90_alias_refuted : exists s', exC (CtInc 263) [cobj 5 7 41] = (mkCo OK (Some 42), s') /\ fst (exC (CtRead 7) s') = mkCo OK (Some 42).
Proof. exists [cobj 5 7 42]. split; vm_compute; reflexivity. Qed.
Print Assumptions C90_alias_refuted.
