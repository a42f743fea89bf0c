(** Properties C43, C58, C59: certificate verification, its cache, and what the
    certificate requests can do to NVM objects.

    [cert_run evs s] (CertModel.v) serves the history [evs] of requests, each with
    its environment and the number of the server context it arrives at, and
    returns the responses and the final state: the NVM objects [cs_nv], the
    verify caches [cs_vc] and the log [cs_log] of what happened, newest first.
    [cache_of global c] is the cache context [c] uses. *)
From Verif Require Import Base NvmSpec Flags Store NvmReqModel NvmReqProof.
From Verif Require Import CertModel CertSpec CertProof CertAnchor CertMore.

Section Wolf.
Variable max_roots : nat.
Variable World : Type.
Variable vrfy load : World -> list bytes -> bytes -> Z.
Variable parse : bytes -> Z * bool.
Variable der : bytes -> Z + (nat * nat).
Variable digest : bytes -> bytes.
Variable global : bool.
Variable max_cert max_resp max_read : nat.
Variable st : bool.
Notation cert_handle := (cert_handle max_roots World vrfy load parse der digest global max_cert max_resp max_read st).
Notation cert_run := (cert_run max_roots World vrfy load parse der digest global max_cert max_resp max_read st).
Notation ev := (cenv World * nat * creq)%type.

(** ** C43 *)
(** A cache answers for a certificate only if one with the same digest was
    verified by wolfSSL before, with roots that are all among the current ones,
    and no AddTrusted or EraseTrusted through this cache changed one of them
    since.  Chains in client memory must not change while they are read, and the
    cache lock must work when a root is changed. *)
Theorem C43_hit_partial : forall evs s rs s',
  (forall j, no_slots (cs_vc s j)) -> cs_log s = [] ->
  steady_run World evs -> evict_works World evs ->
  cert_run evs s = (rs, s') ->
  forall newer k c ids older, cs_log s' = newer ++ LHit k c ids :: older ->
  exists between c0 ids0 before, older = between ++ LVer k c0 ids0 :: before /\
    digest c0 = digest c /\ incl ids0 ids /\ no_change false k ids0 between.
Proof.
  intros evs s rs s' NS L0 ST EV H newer k c ids older E.
  assert (I : Inv digest false s') by (eapply run_keeps; eauto; [discriminate|apply inv_fresh; auto]).
  eapply (proj1 I). exact E.
Qed.

(** If no other thread clears the cache in the middle of a verification, it was
    not emptied since, either. *)
Theorem C43_hit_after_clear_partial : forall evs s rs s',
  (forall j, no_slots (cs_vc s j)) -> cs_log s = [] ->
  steady_run World evs -> evict_works World evs -> quiet World global evs ->
  cert_run evs s = (rs, s') ->
  forall newer k c ids older, cs_log s' = newer ++ LHit k c ids :: older ->
  exists between c0 ids0 before, older = between ++ LVer k c0 ids0 :: before /\
    digest c0 = digest c /\ incl ids0 ids /\ no_change true k ids0 between.
Proof.
  intros evs s rs s' NS L0 ST EV QU H newer k c ids older E.
  assert (I : Inv digest true s') by (eapply run_keeps; eauto; apply inv_fresh; auto).
  eapply (proj1 I). exact E.
Qed.

(** A chain is accepted only if each of its certificates is anchored in the
    certificates now stored under the ids of the request.  Here the digest has no
    collisions, and once a verification through the cache has named a root, it is
    changed only by certificate requests through the same cache.  [P] holds of
    the worlds in which the history was served. *)
Theorem C43_accept_partial : forall (P : World -> Prop) evs s rs s' e c dma mem ids leaf b s2,
  wolf_codes World vrfy der load -> (forall x y, digest x = digest y -> x = y) ->
  no_slots (cs_vc s (cache_of global c)) ->
  steady_run World evs -> steady (CVerify dma mem ids leaf) ->
  (forall x, In x evs -> forall i, P (ce_world World (fst (fst x)) i)) -> (forall i, P (ce_world World e i)) ->
  undisturbed World global (cache_of global c) [] evs ->
  cert_run evs s = (rs, s') ->
  cert_handle e c (CVerify dma mem ids leaf) s' = (OK, b, s2) ->
  exists cs, cs <> [] /\ splits der (mem 0 0) cs /\
    Forall (anchored World vrfy parse P (roots_now (cs_nv s') ids)) cs.
Proof.
  intros P evs s rs s' e c dma mem ids leaf b s2 WC INJ NS ST ST2 PW PE U H HV.
  eapply (run_anchored max_roots World vrfy load parse der digest global max_cert max_resp max_read st P WC INJ evs s (cache_of global c) [] rs s'); eauto.
  apply all_none, NS.
Qed.

(** ** C58 *)
(** Whatever the cache holds, a chain that verifies without the cache verifies
    with it. *)
Theorem C58_refuses_nothing : forall e c dma mem ids leaf s s0 b s1,
  wolf_codes World vrfy der load -> (forall i, ce_hash World e i = OK) -> cs_nv s0 = cs_nv s ->
  cert_handle (no_cache World e) c (CVerify dma mem ids leaf) s0 = (OK, b, s1) ->
  exists s2, cert_handle e c (CVerify dma mem ids leaf) s = (OK, b, s2).
Proof. exact (cache_refuses_nothing max_roots World vrfy load parse der digest global max_cert max_resp max_read st). Qed.

(** A disabled cache changes no answer. *)
Theorem C58_disabled : forall e c dma mem ids leaf s,
  (global = true -> forall i p, ce_mid World e i p = []) ->
  vc_on (cs_vc s (cache_of global c)) = false ->
  fst (fst (cert_handle e c (CVerify dma mem ids leaf) s)) =
  fst (fst (cert_handle (no_cache World e) c (CVerify dma mem ids leaf) s)).
Proof. exact (cache_off max_roots World vrfy load parse der digest global max_cert max_resp max_read st). Qed.

(** ** C59 *)
Theorem C59_trusted : forall evs s rs s' id,
  Forall (fun x : ev => client_request (snd x)) evs -> cert_run evs s = (rs, s') ->
  forall m d, has (m_flags m) F_TRUSTED = true ->
  (sp_find (cs_nv s') id = Some (m, d) <-> sp_find (cs_nv s) id = Some (m, d)).
Proof. exact (cert_trusted max_roots World vrfy load parse der digest global max_cert max_resp max_read st). Qed.

Theorem C59_read : forall e c q s id cap rc b s',
  q = CRead id \/ q = CReadDma id cap -> cert_handle e c q s = (rc, b, s') -> b <> [] ->
  exists m d, sp_find (cs_nv s) id = Some (m, d) /\ has (m_flags m) F_NONEXPORTABLE = false /\
    has (m_flags m) F_TRUSTED = false /\ rc = OK /\ b = firstn (N.to_nat (m_len m)) d.
Proof. exact (cert_read_exportable max_roots World vrfy load parse der digest global max_cert max_resp max_read st). Qed.

(** Erase requests, of certificates or objects, do not remove a non-destroyable
    object; it stays as long as no add names its id. *)
Theorem C59_nondestroyable_partial : forall evs s rs s' id m d,
  Forall (fun x : ev => client_request (snd x) /\ ~ adds (snd x) id) evs ->
  sp_find (cs_nv s) id = Some (m, d) -> has (m_flags m) F_NONDESTROYABLE = true ->
  cert_run evs s = (rs, s') -> sp_find (cs_nv s') id = Some (m, d).
Proof. exact (cert_nondestroyable max_roots World vrfy load parse der digest global max_cert max_resp max_read st). Qed.

(** A non-modifiable object stays as it is as long as no EraseTrusted names it. *)
Theorem C59_nonmodifiable_partial : forall evs s rs s' id m d,
  Forall (fun x : ev => client_request (snd x) /\ snd x <> CErase id) evs ->
  sp_find (cs_nv s) id = Some (m, d) -> has (m_flags m) F_NONMODIFIABLE = true ->
  cert_run evs s = (rs, s') -> sp_find (cs_nv s') id = Some (m, d).
Proof. exact (cert_nonmodifiable max_roots World vrfy load parse der digest global max_cert max_resp max_read st). Qed.
End Wolf.
Print Assumptions C43_hit_partial.
Print Assumptions C43_hit_after_clear_partial.
Print Assumptions C43_accept_partial.
Print Assumptions C58_refuses_nothing.
Print Assumptions C58_disabled.
Print Assumptions C59_trusted.
Print Assumptions C59_read.
Print Assumptions C59_nondestroyable_partial.
Print Assumptions C59_nonmodifiable_partial.

Module CertExamples.
(** A toy wolfSSL: a certificate has four bytes, name, issuer, CA flag, anything;
    it verifies if a certificate named as its issuer is in the manager and the
    two names have the same parity. *)
Definition name (c : bytes) : N := nth 0 c 0%N.
Definition issuer (c : bytes) : N := nth 1 c 0%N.
Definition vrfy (w : unit) (T : list bytes) (c : bytes) : Z :=
  if existsb (fun t => N.eqb (name t) (issuer c) && N.eqb (name t mod 2) (name c mod 2)) T then SUCCESS else (-188)%Z.
Definition load (w : unit) (T : list bytes) (c : bytes) : Z := SUCCESS.
Definition parse (c : bytes) : Z * bool := (0%Z, N.eqb (nth 2 c 0%N) 1).
Definition der (b : bytes) : Z + (nat * nat) := if length b <? 4 then inl (-140)%Z else inr (0, 2).
Definition digest (b : bytes) : bytes := b.

Lemma codes : wolf_codes unit vrfy der load /\ (forall x y, digest x = digest y -> x = y).
Proof.
  split; [split|auto].
  - intros w T c. unfold vrfy, load, SUCCESS. split; [destruct (existsb _ _)|]; discriminate.
  - intros b rc. unfold der. destruct (length b <? 4); [|discriminate]. intros E. injection E as <-. reflexivity.
Qed.

(** Certificates anchored in even roots have even names. *)
Lemma even_only P R : (forall t, In t R -> (name t mod 2 = 0)%N) ->
  forall c, anchored unit vrfy parse P R c -> (name c mod 2 = 0)%N.
Proof.
  intros HR. fix IH 2. intros c [w T c' Pw HT V]. unfold vrfy in V.
  destruct (existsb _ T) eqn:E; [|discriminate]. apply existsb_exists in E as (t & It & E).
  apply andb_prop in E as [_ E]. apply N.eqb_eq in E. rewrite <- E.
  destruct (HT t It) as [X|[X _]]; [apply HR, X|apply IH, X].
Qed.

Definition e0 : cenv unit := mkCenv unit OK OK OK OK true (fun _ => tt) (fun _ => OK) (fun _ => OK) (fun _ => OK)
  (fun _ => OK) (fun _ => OK) (fun _ _ => []).
Definition ne : nvm_env := mkEnv OK OK OK OK [].
Definition handle := cert_handle 8 unit vrfy load parse der digest.
Definition run (g : bool) := cert_run 8 unit vrfy load parse der digest g 100 100 100 true.
Definition vc0 : vcache := mkVc (repeat None 4) 0 true.
Definition lb : bytes := repeat 0%N 24.
Definition s0 : csys := mkCs [] (fun _ => vc0) [].
Definition chain (cs : list bytes) : view := fun _ _ => concat cs.

(** Roots R1 (odd) and R2 (even); A issued by R1, B by A, leaf L by B; X is
    issued by nobody. *)
Definition R1 : bytes := [1; 1; 1; 0]%N.
Definition R2 : bytes := [2; 2; 1; 0]%N.
Definition A : bytes := [11; 1; 1; 0]%N.
Definition B : bytes := [13; 11; 1; 0]%N.
Definition L : bytes := [15; 13; 0; 0]%N.
Definition X : bytes := [20; 99; 1; 0]%N.
Definition Y : bytes := [22; 20; 0; 0]%N.
Definition add (id : N) (c : bytes) : creq := CAdd false id 0 0 lb c.
Definition ver (cs : list bytes) (ids : list N) : creq := CVerify false (chain cs) ids false.

(** A history with two contexts: hits, a replaced root, an erased root, clear. *)
Definition h1 : list (cenv unit * nat * creq) :=
  [(e0, 1, add 7 R1); (e0, 1, add 8 R2); (e0, 1, ver [A; B; L] [7; 8]%N); (e0, 1, ver [A; L] [7]%N);
   (e0, 1, ver [A; B; L] [7]%N); (e0, 1, ver [B; L] [9; 8; 7]%N); (e0, 1, add 8 R1); (e0, 1, ver [A] [7; 7]%N);
   (e0, 1, add 7 R2); (e0, 1, ver [A; B; L] [7]%N); (e0, 1, CNvm ne (QAdd (mkMeta 3 0 0 1 lb) [5]%N));
   (e0, 1, CErase 8); (e0, 1, ver [L] [8]%N); (e0, 1, CClear)].
Example ex_C43_hit : (forall j, no_slots (cs_vc s0 j)) /\ cs_log s0 = [] /\
  steady_run unit h1 /\ evict_works unit h1 /\ quiet unit false h1 /\ undisturbed unit false 1 [] h1 /\
  map fst (fst (run false h1 s0)) =
    [OK; OK; OK; CERT_VERIFY; OK; OK; OK; OK; OK; CERT_VERIFY; OK; OK; NOTFOUND; OK] /\
  cs_log (snd (run false h1 s0)) =
    [LFlush 1; LRoot 1 8; LRoot 1 7; LHit 1 A [7]; LRoot 1 8; LVer 1 L [8; 7]; LHit 1 B [8; 7];
     LVer 1 L [7]; LVer 1 B [7]; LHit 1 A [7]; LVer 1 A [7]; LVer 1 L [7; 8]; LVer 1 B [7; 8]; LVer 1 A [7; 8]; LRoot 1 8; LRoot 1 7]%N.
Proof.
  split; [intros j; repeat constructor|]. split; [reflexivity|]. split; [repeat constructor|].
  split; [repeat constructor; intros; reflexivity|]. split; [repeat constructor; intros; reflexivity|].
  split; [|vm_compute; split; reflexivity].
  vm_compute. repeat match goal with |- _ /\ _ => split end; try exact I; intros id H J;
    try (destruct J; fail); try (split; reflexivity); subst id;
    repeat (destruct H as [H|H]; [discriminate H|]); destruct H.
Qed.

(** The hypotheses of C43_accept_partial on this history up to the sixth
    request. *)
Example ex_C43_accept : no_slots (cs_vc s0 (cache_of false 1)) /\
  fst (fst (handle false 100 100 100 true e0 1 (ver [B; L] [9; 8; 7]%N) (snd (run false (firstn 5 h1) s0)))) = OK.
Proof. split; [repeat constructor|vm_compute; reflexivity]. Qed.

(** ** Refutations *)
(** A client NVM request replaces the root: the cache still answers. *)
Definition h2 : list (cenv unit * nat * creq) :=
  [(e0, 1, add 7 R1); (e0, 1, ver [A] [7]%N); (e0, 1, CNvm ne (QAdd (mkMeta 7 0 0 4 lb) R2))].
Theorem C43_raw_nvm_refuted : exists s',
  run false h2 s0 = ([(OK, []); (OK, []); (OK, [])], s') /\ steady_run unit h2 /\ evict_works unit h2 /\ quiet unit false h2 /\
  roots_now (cs_nv s') [7]%N = [R2] /\
  fst (fst (handle false 100 100 100 true e0 1 (ver [A] [7]%N) s')) = OK /\
  ~ anchored unit vrfy parse (fun _ => True) [R2] A.
Proof.
  exists (snd (run false h2 s0)). split; [reflexivity|].
  split; [repeat constructor|]. split; [repeat constructor; intros; reflexivity|]. split; [repeat constructor; intros; reflexivity|].
  split; [vm_compute; reflexivity|]. split; [vm_compute; reflexivity|].
  intros H. apply even_only in H; [vm_compute in H; discriminate|]. intros t [<-|[]]. reflexivity.
Qed.

(** Without the global cache, a client of another server context replaces the
    root through the certificate interface: this context's cache still answers. *)
Definition h3 : list (cenv unit * nat * creq) := [(e0, 1, add 7 R1); (e0, 1, ver [A] [7]%N); (e0, 2, add 7 R2)].
Theorem C43_two_contexts_refuted : exists s',
  run false h3 s0 = ([(OK, []); (OK, []); (OK, [])], s') /\ steady_run unit h3 /\ evict_works unit h3 /\
  roots_now (cs_nv s') [7]%N = [R2] /\
  fst (fst (handle false 100 100 100 true e0 1 (ver [A] [7]%N) s')) = OK /\
  fst (fst (handle false 100 100 100 true e0 2 (ver [A] [7]%N) s')) = CERT_VERIFY /\
  ~ anchored unit vrfy parse (fun _ => True) [R2] A.
Proof.
  exists (snd (run false h3 s0)). split; [reflexivity|].
  split; [repeat constructor|]. split; [repeat constructor; intros; reflexivity|].
  split; [vm_compute; reflexivity|]. split; [vm_compute; reflexivity|]. split; [vm_compute; reflexivity|].
  intros H. apply even_only in H; [vm_compute in H; discriminate|]. intros t [<-|[]]. reflexivity.
Qed.

(** A client changes the chain in its memory between hashing and verification:
    the global cache then vouches to every client for a CA nobody signed. *)
Definition race : view := fun i p => if p =? 1 then X else A.
Definition h4 : list (cenv unit * nat * creq) := [(e0, 1, add 7 R1); (e0, 1, CVerify true race [7]%N false)].
Theorem C43_dma_double_fetch_refuted : exists s',
  run true h4 s0 = ([(OK, []); (OK, [])], s') /\ evict_works unit h4 /\
  undisturbed unit true 0 [] h4 /\
  fst (fst (handle true 100 100 100 true (no_cache unit e0) 2 (ver [X; Y] [7]%N) s')) = CERT_VERIFY /\
  fst (fst (handle true 100 100 100 true e0 2 (ver [X; Y] [7]%N) s')) = OK.
Proof.
  exists (snd (run true h4 s0)). split; [reflexivity|].
  split; [repeat constructor; intros; reflexivity|]. split; [|vm_compute; split; reflexivity].
  vm_compute. repeat match goal with |- _ /\ _ => split end; try exact I; intros id [].
Qed.

(** The root is replaced but the cache lock fails: the request reports the error,
    the entry stays. *)
Definition e1 : cenv unit := mkCenv unit OK OK OK LOCKED true (fun _ => tt) (fun _ => OK) (fun _ => OK) (fun _ => OK)
  (fun _ => OK) (fun _ => OK) (fun _ _ => []).
Definition h5 : list (cenv unit * nat * creq) := [(e0, 1, add 7 R1); (e0, 1, ver [A] [7]%N); (e1, 1, add 7 R2)].
Theorem C43_evict_lock_refuted : exists s',
  run true h5 s0 = ([(OK, []); (OK, []); (LOCKED, [])], s') /\ roots_now (cs_nv s') [7]%N = [R2] /\
  fst (fst (handle true 100 100 100 true e0 1 (ver [A] [7]%N) s')) = OK.
Proof. exists (snd (run true h5 s0)). vm_compute. repeat split; reflexivity. Qed.

(** Another thread clears the global cache between the verification of a
    certificate and the insertion: the entry outlives the clear. *)
Definition e2 : cenv unit := mkCenv unit OK OK OK OK true (fun _ => tt) (fun _ => OK) (fun _ => OK) (fun _ => OK)
  (fun _ => OK) (fun _ => OK) (fun _ p => if p =? 2 then [TClear] else []).
Definition h6 : list (cenv unit * nat * creq) := [(e0, 1, add 7 R1); (e2, 1, ver [A] [7]%N); (e0, 1, ver [A] [7]%N)].
Theorem C43_clear_race_refuted : exists s',
  run true h6 s0 = ([(OK, []); (OK, []); (OK, [])], s') /\ steady_run unit h6 /\ evict_works unit h6 /\
  cs_log s' = [LHit 0 A [7]; LFlush 0; LVer 0 A [7]; LRoot 0 7]%N.
Proof.
  exists (snd (run true h6 s0)). split; [reflexivity|]. split; [repeat constructor|].
  split; [repeat constructor; intros; reflexivity|]. vm_compute. reflexivity.
Qed.

(** C58 is one-sided: with the cache an intermediate is accepted without its
    issuer. *)
Definition h7 : list (cenv unit * nat * creq) := [(e0, 1, add 7 R1); (e0, 1, ver [A; B] [7]%N)].
Theorem C58_same_answers_refuted : exists s',
  run false h7 s0 = ([(OK, []); (OK, [])], s') /\
  fst (fst (handle false 100 100 100 true (no_cache unit e0) 1 (ver [B; L] [7]%N) s')) = CERT_VERIFY /\
  fst (fst (handle false 100 100 100 true e0 1 (ver [B; L] [7]%N) s')) = OK.
Proof. exists (snd (run false h7 s0)). vm_compute. repeat split; reflexivity. Qed.

Example ex_C58 : exists s1,
  handle false 100 100 100 true (no_cache unit e0) 1 (ver [A; B; L] [7]%N) (snd (run false (firstn 1 h7) s0)) = (OK, [], s1) /\
  cs_nv (snd (run false (firstn 1 h7) s0)) = cs_nv (snd (run false h7 s0)) /\
  vc_on (cs_vc (snd (run false [(e0, 1, CEnable false)] s0)) 1) = false.
Proof. eexists. split; [reflexivity|]. vm_compute. split; reflexivity. Qed.

(** If wolfSSL reported a failure with the code 0 (its WOLFSSL_FAILURE), the chain
    would be accepted: the code relies on [wolf_codes]. *)
Theorem C43_zero_code_accepts :
  fst (fst (cert_handle 8 unit (fun _ _ _ => 0%Z) load parse der digest false 100 100 100 true e0 1 (ver [X] [7]%N)
    (snd (run false [(e0, 1, add 7 R1)] s0)))) = OK.
Proof. vm_compute. reflexivity. Qed.

(** C59: a session that tries everything on protected objects. *)
Definition pobj (id fl : N) (c : bytes) : meta * bytes := (mkMeta id 0 fl 4 lb, c).
Definition ps : csys := mkCs [pobj 1 F_NONMODIFIABLE A; pobj 2 F_NONEXPORTABLE A; pobj 3 F_TRUSTED A; pobj 4 F_NONDESTROYABLE A; pobj 5 0 A]
  (fun _ => vc0) [].
Definition h8 : list (cenv unit * nat * creq) :=
  map (fun q => (e0, 1, q))
    [add 1 B; CRead 1; CRead 2; CReadDma 2 50; add 3 B; CErase 3; CRead 3; CErase 4; CRead 5; CErase 5; CErase 6;
     CAdd false 6 0 F_TRUSTED lb B; CNvm ne (QMeta 6)]%N.
Example ex_C59 : Forall (fun x : cenv unit * nat * creq => client_request (snd x)) h8 /\
  Forall (fun x : cenv unit * nat * creq => client_request (snd x) /\ ~ adds (snd x) 4) h8 /\
  Forall (fun x : cenv unit * nat * creq => client_request (snd x) /\ snd x <> CErase 1) h8 /\
  map fst (fst (run false h8 ps)) =
    [ACCESS; OK; ACCESS; ACCESS; ACCESS; ACCESS; ACCESS; ACCESS; OK; OK; OK; OK; OK] /\
  cs_nv (snd (run false h8 ps)) =
    [pobj 1 F_NONMODIFIABLE A; pobj 2 F_NONEXPORTABLE A; pobj 3 F_TRUSTED A; pobj 4 F_NONDESTROYABLE A; pobj 6 0 B].
Proof.
  unfold h8. cbn [map]. split; [repeat constructor|].
  split; [repeat constructor; cbn [snd adds add]; try discriminate; intros []|].
  split; [repeat constructor; discriminate|]. vm_compute. split; reflexivity.
Qed.

(** EraseTrusted removes a non-modifiable object, key or certificate, and the
    next add replaces it. *)
Theorem C59_erase_nonmodifiable_refuted :
  run false [(e0, 1, CErase 1); (e0, 1, add 1 B)] ps =
    ([(OK, []); (OK, [])], snd (run false [(e0, 1, CErase 1); (e0, 1, add 1 B)] ps)) /\
  sp_find (cs_nv ps) 1 = Some (pobj 1 F_NONMODIFIABLE A) /\
  sp_find (cs_nv (snd (run false [(e0, 1, CErase 1); (e0, 1, add 1 B)] ps))) 1 = Some (pobj 1 0 B).
Proof. vm_compute. repeat split; reflexivity. Qed.

(** Overwriting clears the non-destroyable flag, then the erase succeeds. *)
Theorem C59_overwrite_then_erase_refuted :
  map fst (fst (run false [(e0, 1, add 4 B); (e0, 1, CErase 4)] ps)) = [OK; OK] /\
  sp_find (cs_nv (snd (run false [(e0, 1, add 4 B); (e0, 1, CErase 4)] ps))) 4 = None.
Proof. vm_compute. repeat split; reflexivity. Qed.

(** A certificate of 65537 bytes is cut to its first byte and reported stored:
    the length is reduced modulo 65536. *)
Theorem C59_add_truncates : forall c r acc fl label s m d id,
  (N.of_nat (length c) = 65537)%N -> cert_add r id acc fl label c s = (OK, d) -> sp_find d id = Some m ->
  snd m = firstn 1 c.
Proof.
  intros c r acc fl label s m d id LC H F. unfold cert_add in H.
  destruct (length c =? 0); [discriminate|]. cbv zeta in H. unfold add_checked in H. cbn [m_id] in H.
  destruct (fatal (check_policy NvAdd s id)) eqn:FT.
  { unfold fatal in FT. injection H as H _. rewrite H in FT. discriminate. }
  apply nv_add_find with (id := id) in H. rewrite F in H. change (is_ok OK) with true in H. cbn [andb m_id with_flags] in H.
  rewrite N.eqb_refl in H. injection H as ->. cbn [snd]. unfold nvm_size. rewrite LC. reflexivity.
Qed.
End CertExamples.
Print Assumptions CertExamples.C43_raw_nvm_refuted.
Print Assumptions CertExamples.C43_two_contexts_refuted.
Print Assumptions CertExamples.C43_dma_double_fetch_refuted.
Print Assumptions CertExamples.C43_evict_lock_refuted.
Print Assumptions CertExamples.C43_clear_race_refuted.
Print Assumptions CertExamples.C58_same_answers_refuted.
Print Assumptions CertExamples.C59_erase_nonmodifiable_refuted.
Print Assumptions CertExamples.C59_overwrite_then_erase_refuted.
