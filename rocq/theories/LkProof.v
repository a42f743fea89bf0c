(** * Proofs about the lock discipline, request by request *)

From Coq Require Import List ZArith Lia Bool.
From Verif Require Import Base LkModel LkSpec.
Import ListNotations.
Local Open Scope Z_scope.

Section Disc.
(** [u]: accesses must be guarded; [w]: the verify cache's lock is taken only
    inside the NVM lock. *)
Variables u w : bool.

Fixpoint ok (n v : bool) (c : nat) (p : prog)
    (Q : bool -> bool -> nat -> Z -> Prop) : Prop :=
  match p with
  | Ret r => Q n v c r
  | Acq Nvm k =>
      n = false /\ v = false /\
      (forall r, r <> 0 -> ok n v c (k r) Q) /\
      match c with O => False | S c' => ok true v c' (k 0) Q end
  | Acq Vc k =>
      v = false /\ (w = true -> n = true) /\
      (forall r, r <> 0 -> ok n v c (k r) Q) /\ ok n true c (k 0) Q
  | Rel Nvm k => n = true /\ v = false /\ ok false v c k Q
  | Rel Vc k => v = true /\ ok n false c k Q
  | Use a _ k =>
      (u = true -> match guard a with Nvm => n | Vc => v end = true) /\
      forall r, ok n v c (k r) Q
  | Env k => forall r, ok n v c (k r) Q
  end.

Lemma ok_mono : forall p n v c (Q R : bool -> bool -> nat -> Z -> Prop),
  ok n v c p Q -> (forall n v c r, Q n v c r -> R n v c r) -> ok n v c p R.
Proof.
  induction p as [r|l k IH|l k IH|a g k IH|k IH]; intros n v c Q R H HQ; cbn [ok] in *.
  - auto.
  - destruct l.
    + destruct H as (A & B & C & D). repeat split; auto.
      * intros; eapply IH; eauto.
      * destruct c; auto. eapply IH; eauto.
    + destruct H as (A & B & C & D). repeat split; auto.
      * intros; eapply IH; eauto.
      * eapply IH; eauto.
  - destruct l.
    + destruct H as (A & B & C). repeat split; auto. eapply IH; eauto.
    + destruct H as (A & B). split; auto. eapply IH; eauto.
  - destruct H as (A & B). split; auto. intros; eapply IH; eauto.
  - intros; eapply IH; eauto.
Qed.

Lemma ok_bind : forall p n v c f Q,
  ok n v c p (fun n v c r => ok n v c (f r) Q) -> ok n v c (bind p f) Q.
Proof.
  induction p as [r|l k IH|l k IH|a g k IH|k IH]; intros n v c f Q H; cbn [ok bind] in *.
  - auto.
  - destruct l.
    + destruct H as (A & B & C & D). repeat split; auto.
      destruct c; auto.
    + destruct H as (A & B & C & D). repeat split; auto.
  - destruct l.
    + destruct H as (A & B & C). repeat split; auto.
    + destruct H as (A & B). split; auto.
  - destruct H as (A & B). split; auto.
  - intros; auto.
Qed.

(** A fragment that takes no lock section and leaves the locks as they were. *)
Definition keeps (p : prog) : Prop :=
  forall n c, (u = true \/ w = true -> n = true) ->
  ok n false c p (fun n' v c' _ => n' = n /\ v = false /\ c' = c).

Lemma keeps_bind : forall p f, keeps p -> (forall r, keeps (f r)) -> keeps (bind p f).
Proof.
  intros p f Hp Hf n c Hn. apply ok_bind. eapply ok_mono; [apply Hp; auto|].
  cbn beta. intros n' v c' r (-> & -> & ->). apply Hf; auto.
Qed.
Lemma keeps_ret : forall r, keeps (Ret r).
Proof. intros r n c Hn; cbn [ok]; auto. Qed.
Lemma keeps_env : forall k, (forall r, keeps (k r)) -> keeps (Env k).
Proof. intros k H n c Hn; cbn [ok]; intros; apply H; auto. Qed.
Lemma keeps_check : forall k, keeps k -> keeps (check k).
Proof.
  intros k H; apply keeps_env; intros r; destruct (r <? 0); auto using keeps_ret.
Qed.
Lemma keeps_maybe : forall k, keeps k -> keeps (maybe k).
Proof.
  intros k H; apply keeps_env; intros r; destruct (r <? 0); auto using keeps_ret.
Qed.
Lemma keeps_use : forall a x, guard a = Nvm -> keeps (use a x).
Proof.
  intros a x G n c Hn; cbn [ok use]. rewrite G. split; auto.
Qed.
Lemma keeps_if : forall (b : bool) p q, keeps p -> keeps q -> keeps (if b then p else q).
Proof. intros [] p q; auto. Qed.

Ltac kp :=
  repeat match goal with
    | |- forall _, _ => intro
    | |- keeps (bind _ _) => apply keeps_bind
    | |- keeps (Ret _) => apply keeps_ret
    | |- keeps (check _) => apply keeps_check
    | |- keeps (maybe _) => apply keeps_maybe
    | |- keeps (use _ _) => apply keeps_use; reflexivity
    | |- keeps (if _ then _ else _) => apply keeps_if
    | |- keeps (Env _) => apply keeps_env
    | |- keeps _ => solve [auto with lkdb nocore]
    end.

Lemma k_nvm_policy : forall id, keeps (nvm_policy id).
Proof. intros; unfold nvm_policy; kp. Qed.
Lemma k_nvm_add_reclaim : forall id, keeps (nvm_add_reclaim id).
Proof. intros; unfold nvm_add_reclaim; kp. Qed.
Hint Resolve k_nvm_policy k_nvm_add_reclaim : lkdb.
Lemma k_nvm_add_checked : forall id, keeps (nvm_add_checked id).
Proof. intros; unfold nvm_add_checked; kp. Qed.
Lemma k_nvm_read_checked : forall id, keeps (nvm_read_checked id).
Proof. intros; unfold nvm_read_checked; kp. Qed.
Lemma k_nvm_del_policies : forall ids k, keeps k -> keeps (nvm_del_policies ids k).
Proof. induction ids; intros k H; cbn [nvm_del_policies]; auto. kp. Qed.
Lemma k_nvm_del_checked : forall ids, keeps (nvm_del_checked ids).
Proof. intros; apply k_nvm_del_policies; kp. Qed.
Lemma k_find : forall id, keeps (find id).
Proof. intros; unfold find; kp. Qed.
Hint Resolve k_nvm_add_checked k_nvm_read_checked k_nvm_del_checked k_find : lkdb.
Lemma k_evict : forall id, keeps (evict id).
Proof. intros; unfold evict; kp. Qed.
Lemma k_mark : forall id, keeps (mark id).
Proof. intros; unfold mark; kp. Qed.
Lemma k_policy : forall id, keeps (policy id).
Proof. intros; unfold policy; kp. Qed.
Hint Resolve k_evict k_mark k_policy : lkdb.
Lemma k_get_slot : forall id, keeps (get_slot id).
Proof. intros; unfold get_slot; kp. Qed.
Hint Resolve k_get_slot : lkdb.
Lemma k_get_slot_checked : forall id, keeps (get_slot_checked id).
Proof. intros; unfold get_slot_checked; kp. Qed.
Hint Resolve k_get_slot_checked : lkdb.
Lemma k_unique_id : forall n id, keeps (unique_id n id).
Proof. induction n; intros; cbn [unique_id]; kp. Qed.
Hint Resolve k_unique_id : lkdb.
Lemma k_pick_id : forall id, keeps (pick_id id).
Proof. intros; unfold pick_id; kp. Qed.
Lemma k_cache_with : forall slot id, (forall i, keeps (slot i)) -> keeps (cache_with slot id).
Proof. intros; unfold cache_with; kp. Qed.
Hint Resolve k_pick_id : lkdb.
Lemma k_cache_key : forall id, keeps (cache_key id).
Proof. intros; apply k_cache_with; auto with lkdb. Qed.
Lemma k_cache_key_checked : forall id, keeps (cache_key_checked id).
Proof. intros; apply k_cache_with; auto with lkdb. Qed.
Hint Resolve k_cache_key k_cache_key_checked : lkdb.
Lemma k_cache_random : forall id, keeps (cache_random id).
Proof. intros; unfold cache_random; kp. Qed.
Lemma k_cache_dma : forall id, keeps (cache_dma id).
Proof. intros; unfold cache_dma; kp. Qed.
Lemma k_freshen : forall id, keeps (freshen id).
Proof. intros; unfold freshen; kp. Qed.
Lemma k_read_key : forall id, keeps (read_key id).
Proof. intros; unfold read_key; kp. Qed.
Hint Resolve k_cache_random k_cache_dma k_freshen k_read_key : lkdb.
Lemma k_read_key_checked : forall id, keeps (read_key_checked id).
Proof. intros; unfold read_key_checked; kp. Qed.
Lemma k_evict_checked : forall id, keeps (evict_checked id).
Proof. intros; unfold evict_checked; kp. Qed.
Lemma k_commit : forall id, keeps (commit id).
Proof. intros; unfold commit; kp. Qed.
Hint Resolve k_read_key_checked k_evict_checked k_commit : lkdb.
Lemma k_commit_checked : forall id, keeps (commit_checked id).
Proof. intros; unfold commit_checked; kp. Qed.
Lemma k_erase_checked : forall id, keeps (erase_checked id).
Proof. intros; unfold erase_checked; kp. Qed.
Lemma k_revoke : forall id, keeps (revoke id).
Proof. intros; unfold revoke; kp. Qed.
Lemma k_resolve_kek : forall id, keeps (resolve_kek id).
Proof. intros; unfold resolve_kek; kp. Qed.
Lemma k_export_dma : forall id, keeps (export_dma id).
Proof. intros; unfold export_dma; kp. Qed.
Lemma k_export : forall id, keeps (export id).
Proof. intros; unfold export; kp. Qed.
Lemma k_import : forall id, keeps (import id).
Proof. intros; unfold import; kp. Qed.
Lemma k_nvm_read : forall id, keeps (nvm_read id).
Proof. intros; unfold nvm_read; kp. Qed.
Hint Resolve k_commit_checked k_erase_checked k_revoke k_resolve_kek k_export_dma
  k_export k_import k_nvm_read : lkdb.
Lemma k_vcache : forall g a x, guard a = Vc -> keeps (vcache g a x).
Proof.
  intros g a x G n c Hn; unfold vcache; destruct g; cbn [ok].
  - split; [reflexivity|]. split; [intros W; apply Hn; auto|]. split.
    + intros r Hr. apply Z.eqb_neq in Hr. rewrite Hr. cbn [ok]; auto.
    + cbn [Z.eqb ok]. rewrite G. split; auto.
  - intros; cbn [ok]; auto.
Qed.
Hint Extern 1 (keeps (vcache _ _ _)) => (apply k_vcache; reflexivity) : lkdb.
Lemma k_cert_read : forall id, keeps (cert_read id).
Proof. intros; unfold cert_read; kp. Qed.
Lemma k_cert_add : forall g id, keeps (cert_add g id).
Proof. intros; unfold cert_add; kp. Qed.
Lemma k_cert_erase : forall g id, keeps (cert_erase g id).
Proof. intros; unfold cert_erase; kp. Qed.
Lemma k_leaf_key : forall id, keeps (leaf_key id).
Proof. intros; unfold leaf_key; kp. Qed.
Hint Resolve k_cert_read k_cert_add k_cert_erase k_leaf_key : lkdb.
Lemma k_chain : forall g n id, keeps (chain g n id).
Proof. induction n; intros; cbn [chain]; kp. Qed.
Lemma k_roots : forall ids k, keeps k -> keeps (roots ids k).
Proof. induction ids; intros k H; cbn [roots]; auto. kp. Qed.
Hint Resolve k_chain : lkdb.
Lemma k_cert_verify : forall g ids leaf, keeps (cert_verify g ids leaf).
Proof. intros; unfold cert_verify; kp. apply k_roots; kp. Qed.
Lemma k_cert_acert : forall id, keeps (cert_acert id).
Proof. intros; unfold cert_acert; kp. Qed.
Hint Resolve k_cert_verify k_cert_acert : lkdb.
Lemma k_she_key : forall id, keeps (she_key id).
Proof. intros; unfold she_key; kp. Qed.
Lemma k_she_load : forall a id, keeps (she_load a id).
Proof. intros; unfold she_load; kp. Qed.
Lemma k_she_plain : forall id, keeps (she_plain id).
Proof. intros; unfold she_plain; kp. Qed.
Lemma k_she_export : forall a b, keeps (she_export a b).
Proof. intros; unfold she_export; kp. Qed.
Lemma k_she_initrnd : forall a b, keeps (she_initrnd a b).
Proof. intros; unfold she_initrnd; kp. Qed.
Lemma k_she_extend : forall a, keeps (she_extend a).
Proof. intros; unfold she_extend; kp. Qed.
Hint Resolve k_she_key k_she_load k_she_plain k_she_export k_she_initrnd k_she_extend : lkdb.

Lemma k_img_verify : forall g a b c d, keeps (img_verify g a b c d).
Proof. intros; unfold img_verify; kp. Qed.

(** A fragment run without locks that takes the NVM lock at most [m] times. *)
Definition takes (m : nat) (p : prog) : Prop :=
  forall c, (m <= c)%nat ->
  ok false false c p (fun n v c' _ => n = false /\ v = false /\ (c <= c' + m)%nat).

Lemma takes_ret : forall r, takes 0 (Ret r).
Proof. intros r c Hc; cbn [ok]; repeat split; lia. Qed.
Lemma takes_env : forall m k, (forall r, takes m (k r)) -> takes m (Env k).
Proof. intros m k H c Hc; cbn [ok]; intros; apply H; auto. Qed.
Lemma takes_more : forall m m' p, takes m p -> (m <= m')%nat -> takes m' p.
Proof.
  intros m m' p H Hm c Hc. eapply ok_mono; [apply H; lia|].
  cbn beta. intros n v c' r (A & B & C); repeat split; auto; lia.
Qed.
Lemma takes_bind : forall m1 m2 p f, takes m1 p -> (forall r, takes m2 (f r)) ->
  takes (m1 + m2) (bind p f).
Proof.
  intros m1 m2 p f Hp Hf c Hc. apply ok_bind. eapply ok_mono; [apply Hp; lia|].
  cbn beta. intros n v c' r (-> & -> & D). eapply ok_mono; [apply Hf; lia|].
  cbn beta. intros n v c2 r2 (A & B & C); repeat split; auto; lia.
Qed.
Lemma takes_check : forall m k, takes m k -> takes m (check k).
Proof.
  intros m k H; apply takes_env; intros r; destruct (r <? 0); auto.
  eapply takes_more; [apply takes_ret|lia].
Qed.
Lemma takes_maybe : forall m k, takes m k -> takes m (maybe k).
Proof.
  intros m k H; apply takes_env; intros r; destruct (r <? 0); auto.
  eapply takes_more; [apply takes_ret|lia].
Qed.
Lemma takes_if : forall m (b : bool) p q, takes m p -> takes m q -> takes m (if b then p else q).
Proof. intros m [] p q; auto. Qed.
Lemma takes_locked : forall p, keeps p -> takes 1 (locked p).
Proof.
  intros p H c Hc. unfold locked. destruct c as [|c]; [lia|]. cbn [ok].
  split; [reflexivity|]. split; [reflexivity|]. split.
  - intros r Hr. apply Z.eqb_neq in Hr. rewrite Hr. cbn [ok]. repeat split; lia.
  - cbn [Z.eqb]. apply ok_bind. eapply ok_mono; [apply H; auto|].
    cbn beta. intros n v c' r (-> & -> & ->). cbn [ok]. repeat split; lia.
Qed.

(** In a build whose shared accesses need no guard ([u = w = false]) a fragment
    without locks may also run outside. *)
Lemma takes_keeps : forall p, u = false -> w = false -> keeps p -> takes 0 p.
Proof.
  intros p Hu Hw H c Hc. eapply ok_mono; [apply H|].
  - intros [X|X]; congruence.
  - cbn beta. intros n v c' r (A & B & ->); repeat split; auto; lia.
Qed.

Ltac lkd := apply takes_locked; kp.

Lemma t_read_enforce : forall id, takes 1 (read_enforce id).
Proof. intros; unfold read_enforce; apply takes_check; lkd. Qed.
Lemma t_evict_locked : forall id, takes 1 (evict_locked id).
Proof. intros; unfold evict_locked; lkd. Qed.
Lemma t_export_enforce : forall id, takes 1 (export_enforce id).
Proof. intros; unfold export_enforce; lkd. Qed.
Lemma t_store : forall id, takes 1 (store id).
Proof. intros; unfold store; lkd. Qed.

Lemma t_auth_persist : forall id, takes 1 (auth_persist id).
Proof. intros; unfold auth_persist; lkd. Qed.
Lemma t_auth_load : forall id, takes 1 (auth_load id).
Proof. intros; unfold auth_load; lkd. Qed.
Lemma t_auth_destroy : forall id, takes 1 (auth_destroy id).
Proof. intros; unfold auth_destroy; lkd. Qed.

Lemma handler_takes : forall g q,
  (unlocked_req q = true -> u = false /\ w = false) ->
  (cache_only g q = true -> w = false) ->
  takes (visits q) (handler g q).
Proof.
  intros g q HU HC.
  assert (R : forall m (f : Z -> prog), (forall r, f r = Ret r) -> takes m (Env f)).
  { intros m f E. apply takes_env; intros r; rewrite E.
    eapply takes_more; [apply takes_ret|lia]. }
  destruct q; cbn [handler visits];
    try (apply R; reflexivity);
    try solve [unfold h_nvm_list, h_nvm_avail, h_nvm_meta, h_nvm_add, h_nvm_destroy, h_nvm_read,
           h_nvm_add_dma, h_nvm_read_dma, h_ctr_init, h_ctr_incr, h_ctr_read, h_ctr_destroy,
           h_cert_add, h_cert_erase, h_cert_read, h_cert_verify, h_cert_acert,
           h_key_cache, h_key_random, h_key_cache_dma, h_key_export_dma, h_key_export_pub,
           h_key_evict, h_key_export, h_key_commit, h_key_erase, h_key_revoke, h_key_wrap,
           h_key_wrap_export, h_key_unwrap_export, h_key_unwrap_cache, h_data_wrap,
           h_data_unwrap, h_sts_keygen, h_sts_sign, h_sts_left;
         try apply takes_check; apply takes_locked; kp].
  - (* CertCacheClear *)
    unfold h_cert_cache. destruct g; [|lkd].
    intros c Hc. cbn [vcache ok]. split; [reflexivity|].
    split; [rewrite HC by reflexivity; discriminate|]. split.
    + intros r Hr. apply Z.eqb_neq in Hr. rewrite Hr. cbn [ok]. repeat split; lia.
    + cbn [Z.eqb ok guard]. split; auto. intros; repeat split; lia.
  - (* CertCacheEnable *)
    unfold h_cert_cache. destruct g; [|lkd].
    intros c Hc. cbn [vcache ok]. split; [reflexivity|].
    split; [rewrite HC by reflexivity; discriminate|]. split.
    + intros r Hr. apply Z.eqb_neq in Hr. rewrite Hr. cbn [ok]. repeat split; lia.
    + cbn [Z.eqb ok guard]. split; auto. intros; repeat split; lia.
  - (* KeyGen *) unfold h_keygen. apply takes_check, takes_maybe, t_store.
  - (* KeyGenDma *)
    unfold h_keygen_dma. apply takes_check, takes_maybe.
    apply (takes_bind 1 1); [apply t_store|]. intros r. apply takes_if.
    { eapply takes_more; [apply takes_ret|lia]. }
    apply takes_env; intros e. apply takes_if.
    + apply (takes_bind 1 0); [apply t_evict_locked|intros; apply takes_ret].
    + eapply takes_more; [apply takes_ret|lia].
  - (* UseKey *)
    unfold h_use. apply takes_check.
    apply (takes_bind 1 1); [apply takes_maybe, t_export_enforce|]. intros r.
    apply (takes_bind 1 0); [apply takes_maybe, t_evict_locked|intros; apply takes_ret].
  - (* Rsa *)
    unfold h_rsa. apply takes_check.
    apply (takes_bind 2 1).
    + apply takes_maybe. apply (takes_bind 1 1); [apply t_export_enforce|]. intros r.
      apply takes_if; [apply takes_maybe, t_export_enforce|].
      eapply takes_more; [apply takes_ret|lia].
    + intros r. apply (takes_bind 1 0); [apply takes_maybe, t_evict_locked|intros; apply takes_ret].
  - (* Ecdh *)
    unfold h_ecdh. apply takes_check.
    apply (takes_bind 3 2).
    + apply takes_check. apply (takes_bind 1 2); [apply t_export_enforce|]. intros r.
      apply takes_if; [eapply takes_more; [apply takes_ret|lia]|].
      apply (takes_bind 1 1); [apply t_export_enforce|]. intros r2.
      apply takes_if; [eapply takes_more; [apply takes_ret|lia]|].
      apply takes_check, takes_maybe, t_store.
    + intros r. apply (takes_bind 1 1); [apply takes_maybe, t_evict_locked|]. intros e.
      apply (takes_bind 1 0); [apply takes_maybe, t_evict_locked|intros; apply takes_ret].
  - (* EccMakePub *)
    destruct (HU eq_refl) as [Hu Hw]. apply takes_keeps; auto. unfold h_ecc_makepub; kp.
  - (* EccCheckPub *)
    destruct (HU eq_refl) as [Hu Hw]. apply takes_keeps; auto. unfold h_ecc_check; kp.
  - (* AesOp *)
    unfold h_aes. apply takes_check.
    apply (takes_bind 1 0); [apply takes_maybe, t_read_enforce|]. intros r.
    apply takes_if; [apply takes_ret|apply R; reflexivity].
  - (* CmacOp *)
    unfold h_cmac. apply takes_check.
    apply (takes_bind 2 0).
    + apply takes_maybe. apply (takes_bind 1 1); [apply t_read_enforce|]. intros r.
      apply takes_if; [apply t_read_enforce|].
      eapply takes_more; [apply takes_ret|lia].
    + intros r. apply takes_if; [apply takes_ret|apply R; reflexivity].
  - (* Hkdf *)
    unfold h_hkdf. apply takes_check.
    apply (takes_bind 1 1); [apply takes_maybe, t_read_enforce|]. intros r.
    apply takes_if; [eapply takes_more; [apply takes_ret|lia]|].
    apply takes_check, takes_maybe, t_store.
  - (* CmacKdf *)
    unfold h_cmackdf. apply takes_check.
    apply (takes_bind 1 2); [apply takes_maybe, t_read_enforce|]. intros r.
    apply takes_if; [eapply takes_more; [apply takes_ret|lia]|].
    apply (takes_bind 1 1); [apply takes_maybe, t_read_enforce|]. intros r2.
    apply takes_if; [eapply takes_more; [apply takes_ret|lia]|].
    apply takes_check, takes_maybe, t_store.
  - (* StsVerify *)
    unfold h_sts_verify. apply takes_check.
    apply (takes_bind 1 1); [apply takes_maybe; lkd|]. intros r.
    apply (takes_bind 1 0); [apply takes_maybe, t_evict_locked|intros; apply takes_ret].
  - (* AuthLogin *)
    unfold h_auth_login. apply takes_check.
    apply (takes_bind 1 0); [apply takes_maybe, t_auth_load|]. intros r. apply R; reflexivity.
  - (* AuthAdd *)
    unfold h_auth_add. apply takes_check.
    apply (takes_bind 1 2); [apply takes_maybe, t_auth_persist|]. intros r.
    apply takes_if; [eapply takes_more; [apply takes_ret|lia]|].
    apply (takes_bind 1 1); [apply t_auth_persist|]. intros r2.
    apply takes_if; [|eapply takes_more; [apply takes_ret|lia]].
    apply (takes_bind 1 0); [apply takes_maybe, t_auth_destroy|intros; apply takes_ret].
  - (* AuthDelete *)
    unfold h_auth_delete. apply takes_check.
    apply (takes_bind 1 2); [apply t_auth_persist|]. intros r.
    apply takes_if; [eapply takes_more; [apply takes_ret|lia]|]. apply takes_maybe.
    apply (takes_bind 1 1); [apply t_auth_destroy|]. intros d.
    apply takes_if; [|eapply takes_more; [apply takes_ret|lia]].
    apply (takes_bind 1 0); [apply t_auth_persist|intros; apply takes_ret].
  - (* AuthCred *)
    unfold h_auth_cred. apply takes_check.
    apply (takes_bind 1 1); [apply takes_maybe, t_auth_load|]. intros r.
    apply takes_if; [eapply takes_more; [apply takes_ret|lia]|].
    apply takes_check, takes_env. intros v. apply takes_if.
    + apply takes_maybe, t_auth_destroy.
    + apply t_auth_persist.
Qed.

End Disc.
